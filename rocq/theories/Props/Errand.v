(** A program that says and hears by a plan, and the server of the examples: C88. *)
From Coq Require Import NArith ZArith String Bool List Lia.
From Coq.Strings Require Import Byte.
From Verif.Model Require Import Base Io Header Mask Dataframe Utf8 Text Headers
  Message Receiver Codec Framed Connect Examples ChatClient Talk Narrow Errand.
From Verif.Spec Require Import RfcFrame FrameSpec Schedule Unicode Drive Session Connection Polled Fields Echo Chat Talking AsyncChat Errands.
From Verif.Proofs Require Import ExTac.
From Verif.Proofs Require ThmErrand.
Import ListNotations.
Local Open Scope string_scope.
Local Open Scope list_scope.
Local Open Scope nat_scope.

(** ** The theorems *)

(** [C88] Whatever the plan, the room of the network, its delays and the scheduling: what the
    program has received is always an initial part of the greeting and the answers to what it has
    sent, each message once and in order; the network never holds more than its room, and the server
    does not panic. *)
Theorem errand_sound : forall cap plan w1 w2 acts, never_fails w1 -> never_fails w2 ->
  Forall (sendable 104857600) (said_in plan) -> close_is_last (said_in plan) ->
  let t := errand_run cap acts (errand_new plan w1 w2) in
  (exists said, said ++ said_in (e_todo t) = said_in plan /\ prefix (e_heard t) (whole_talk said)) /\
  (List.length (e_up t) <= cap)%nat /\ (List.length (e_down t) <= cap)%nat /\
  (e_srv t = Greeting \/ e_srv t = Serving \/ e_srv t = Served Returned).
Proof. exact ThmErrand.errand_sound_proof. Qed.
Print Assumptions errand_sound.

(** The program sends "hi" and a Ping, receiving in between; the network holds five bytes either
    way. *)
Definition errand_turns : list eact :=
  [ETurn (mk_key x01 x02 x03 x04); ESend 3; ERead 2; EServe (mk_key x00 x00 x00 x00); ETake 3; EPush 4].
Definition errand_says : list owned := [OText (str "hi"); OPing (str "x")].
Example errand_sound_ex :
  let t := errand_run 5 (concat (repeat errand_turns 16)) (errand_new (by_turns errand_says) (mk_w [] []) (mk_w [] [])) in
  e_heard t = [OText (str "Hello"); OText (str "hi")] /\ said_in (e_todo t) = [OClose None].
Proof. vm_compute. split; reflexivity. Qed.

(** [C88] A program that came to its end has received just what its plan says: as many messages as
    it asked for, of the greeting and the answers to all it sent. *)
Theorem errand_complete : forall cap plan w1 w2 acts, never_fails w1 -> never_fails w2 ->
  Forall (sendable 104857600) (said_in plan) -> close_is_last (said_in plan) ->
  let t := errand_run cap acts (errand_new plan w1 w2) in
  errand_done t ->
  e_heard t = firstn (heard_in plan) (whole_talk (said_in plan)) /\ (heard_in plan <= List.length (whole_talk (said_in plan)))%nat.
Proof. exact ThmErrand.errand_complete_proof. Qed.
Print Assumptions errand_complete.

Example errand_complete_ex :
  let t := errand_run 5 (concat (repeat errand_turns 30)) (errand_new (by_turns errand_says) (mk_w [] []) (mk_w [] [])) in
  errand_done t /\ e_heard t = [OText (str "Hello"); OText (str "hi"); OPong (str "x"); OClose None].
Proof. vm_compute. repeat split; reflexivity. Qed.

(** [C88] An [unwrap] fails only when the program asks for more after the server's Close: it has
    received the whole conversation, and the thread of the server has returned. *)
Theorem errand_fails_late : forall cap plan w1 w2 acts, never_fails w1 -> never_fails w2 ->
  Forall (sendable 104857600) (said_in plan) -> close_is_last (said_in plan) ->
  let t := errand_run cap acts (errand_new plan w1 w2) in
  e_failed t = true ->
  e_heard t = whole_talk (said_in plan) /\ e_srv t = Served Returned /\ (List.length (whole_talk (said_in plan)) < heard_in plan)%nat.
Proof. exact ThmErrand.errand_fails_late_proof. Qed.
Print Assumptions errand_fails_late.

Example errand_fails_late_ex :
  let t := errand_run 7 (concat (repeat errand_turns 30)) (errand_new [Say (OClose None); Hear; Hear; Hear] (mk_w [] []) (mk_w [] [])) in
  e_failed t = true /\ e_heard t = [OText (str "Hello"); OClose None].
Proof. vm_compute. split; reflexivity. Qed.

(** [C88] A program that follows a good plan (see Spec/Errands.v: it sends a message only if what it
    is owed, or all it has sent, has room in the network) and asks for no more than it is owed comes
    to its end without failing, however it is scheduled, once everyone has had enough turns. *)
Theorem errand_live : forall cap plan w1 w2 rounds, never_fails w1 -> never_fails w2 ->
  Forall (sendable 104857600) (said_in plan) -> (1 <= cap)%nat -> good_plan cap [] [OText (ascii "Hello")] plan ->
  (heard_in plan <= List.length (whole_talk (said_in plan)))%nat ->
  Forall errand_round rounds -> (toil plan + 63 <= List.length rounds)%nat ->
  errand_done (errand_run cap (concat rounds) (errand_new plan w1 w2)).
Proof. exact ThmErrand.errand_live_proof. Qed.
Print Assumptions errand_live.

(** Two messages may be sent ahead here, but not three. *)
Example errand_live_ex : errand_round errand_turns /\
  good_plan 12 [] [OText (ascii "Hello")] [Say (OText (str "a")); Hear; Say (OText (str "b")); Say (OText (str "c")); Hear; Hear; Hear].
Proof.
  split; [unfold errand_round, errand_turns; repeat split; eexists; repeat ((left; reflexivity) || right)|].
  apply plan_say; [left; apply PeanoNat.Nat.leb_le; vm_compute; reflexivity|intros []|]. apply plan_hear.
  apply plan_say; [left; apply PeanoNat.Nat.leb_le; vm_compute; reflexivity|intros []|].
  apply plan_say; [left; apply PeanoNat.Nat.leb_le; vm_compute; reflexivity|intros []|].
  apply plan_hear. apply plan_hear. apply plan_hear. apply plan_done.
Qed.

(** [C88] If such a plan asks for more than it is owed (it may when it has sent a Close), the program
    does not hang: it fails, having received everything. *)
Theorem errand_overrun : forall cap plan w1 w2 rounds, never_fails w1 -> never_fails w2 ->
  Forall (sendable 104857600) (said_in plan) -> (1 <= cap)%nat -> good_plan cap [] [OText (ascii "Hello")] plan ->
  (List.length (whole_talk (said_in plan)) < heard_in plan)%nat ->
  Forall errand_round rounds -> (toil plan + 63 <= List.length rounds)%nat ->
  let t := errand_run cap (concat rounds) (errand_new plan w1 w2) in
  e_failed t = true /\ e_heard t = whole_talk (said_in plan).
Proof. exact ThmErrand.errand_overrun_proof. Qed.
Print Assumptions errand_overrun.

Example errand_overrun_ex : good_plan 9 [] [OText (ascii "Hello")] [Hear; Say (OClose None); Hear; Hear; Hear] /\
  (List.length (whole_talk [OClose None]) < 4)%nat /\
  let t := errand_run 9 (concat (repeat errand_turns 30)) (errand_new [Hear; Say (OClose None); Hear; Hear; Hear] (mk_w [] []) (mk_w [] [])) in
  e_failed t = true /\ e_todo t = [Hear] /\ e_heard t = [OText (str "Hello"); OClose None].
Proof.
  split; [|split; [apply PeanoNat.Nat.ltb_lt; vm_compute; reflexivity|vm_compute; repeat split; reflexivity]].
  apply plan_hear. apply plan_say; [left; apply PeanoNat.Nat.leb_le; vm_compute; reflexivity|reflexivity|].
  apply plan_hear. apply plan_over; [exact I|reflexivity].
Qed.

(** [C88] Sending and receiving by turns, a Close last, always works, whatever the messages and
    however little the network holds: the program ends with all the answers. *)
Theorem errand_by_turns : forall cap ms w1 w2 rounds, never_fails w1 -> never_fails w2 ->
  Forall (sendable 104857600) ms -> Forall (fun m => ~ closing m) ms -> (1 <= cap)%nat ->
  Forall errand_round rounds -> (toil (by_turns ms) + 63 <= List.length rounds)%nat ->
  let t := errand_run cap (concat rounds) (errand_new (by_turns ms) w1 w2) in
  errand_done t /\ e_heard t = OText (ascii "Hello") :: flat_map answer ms ++ [OClose None].
Proof. exact ThmErrand.errand_by_turns_proof. Qed.
Print Assumptions errand_by_turns.

Example errand_by_turns_ex :
  let t := errand_run 1 (concat (repeat errand_turns 777)) (errand_new (by_turns errand_says) (mk_w [] []) (mk_w [] [])) in
  errand_done t /\ e_heard t = OText (ascii "Hello") :: flat_map answer errand_says ++ [OClose None].
Proof.
  apply errand_by_turns.
  - constructor.
  - constructor.
  - repeat constructor; try (apply ExTac.good_text; reflexivity); vm_compute; discriminate.
  - repeat constructor; intros [].
  - constructor.
  - apply Forall_forall. intros r HR. apply repeat_spec in HR. subst r. unfold errand_round, errand_turns. repeat split; eexists; repeat ((left; reflexivity) || right).
  - apply PeanoNat.Nat.leb_le. vm_compute. reflexivity.
Qed.

(** [C88] Sending everything first and receiving only then works if the network has room for all the
    answers, or for all that is sent. *)
Theorem errand_at_once : forall cap ms w1 w2 rounds, never_fails w1 -> never_fails w2 ->
  Forall (sendable 104857600) ms -> Forall (fun m => ~ closing m) ms -> (1 <= cap)%nat ->
  (down_bytes (OText (ascii "Hello") :: flat_map answer ms) <= cap \/ up_bytes (ms ++ [OClose None]) <= cap)%nat ->
  Forall errand_round rounds -> (toil (at_once ms) + 63 <= List.length rounds)%nat ->
  let t := errand_run cap (concat rounds) (errand_new (at_once ms) w1 w2) in
  errand_done t /\ e_heard t = OText (ascii "Hello") :: flat_map answer ms ++ [OClose None].
Proof. exact ThmErrand.errand_at_once_proof. Qed.
Print Assumptions errand_at_once.

Example errand_at_once_ex : (down_bytes (OText (ascii "Hello") :: flat_map answer errand_says) = 14)%nat /\
  let t := errand_run 14 (concat (repeat errand_turns 777)) (errand_new (at_once errand_says) (mk_w [] []) (mk_w [] [])) in
  errand_done t /\ e_heard t = OText (ascii "Hello") :: flat_map answer errand_says ++ [OClose None].
Proof.
  split; [vm_compute; reflexivity|]. apply errand_at_once.
  - constructor.
  - constructor.
  - repeat constructor; try (apply ExTac.good_text; reflexivity); vm_compute; discriminate.
  - repeat constructor; intros [].
  - repeat constructor.
  - left. apply PeanoNat.Nat.leb_le. vm_compute. reflexivity.
  - apply Forall_forall. intros r HR. apply repeat_spec in HR. subst r. unfold errand_round, errand_turns. repeat split; eexists; repeat ((left; reflexivity) || right).
  - apply PeanoNat.Nat.leb_le. vm_compute. reflexivity.
Qed.

(** [C88] Without that condition it may not: the program does not read while it is in a write, nor
    does the server, and from then on nothing moves, whoever gets a turn.  The messages are harmless
    ones: sent by turns they would all have been answered. *)
Theorem errand_at_once_refuted : exists cap ms w1 w2 acts, never_fails w1 /\ never_fails w2 /\
  Forall (sendable 104857600) ms /\ Forall (fun m => ~ closing m) ms /\ (1 <= cap)%nat /\
  forall more, let t := errand_run cap (acts ++ more) (errand_new (at_once ms) w1 w2) in
    ~ errand_done t /\ t = errand_run cap acts (errand_new (at_once ms) w1 w2).
Proof. exact ThmErrand.errand_at_once_refuted_proof. Qed.
Print Assumptions errand_at_once_refuted.

(** [C88] A plan that asks for more than the answers to what it sends never comes to its end. *)
Theorem errand_too_much : forall cap plan w1 w2 acts, never_fails w1 -> never_fails w2 ->
  Forall (sendable 104857600) (said_in plan) -> close_is_last (said_in plan) ->
  (List.length (whole_talk (said_in plan)) < heard_in plan)%nat ->
  ~ errand_done (errand_run cap acts (errand_new plan w1 w2)).
Proof. exact ThmErrand.errand_too_much_proof. Qed.
Print Assumptions errand_too_much.

(** It waits for a second message, where only the greeting is owed. *)
Example errand_too_much_ex : (List.length (whole_talk (said_in [Hear; Hear])) < heard_in [Hear; Hear])%nat /\
  let t := errand_run 5 (concat (repeat errand_turns 30)) (errand_new [Hear; Hear] (mk_w [] []) (mk_w [] [])) in
  e_todo t = [Hear] /\ e_failed t = false /\ e_heard t = [OText (str "Hello")].
Proof. split; [apply PeanoNat.Nat.ltb_lt; vm_compute; reflexivity|]. vm_compute. repeat split; reflexivity. Qed.
