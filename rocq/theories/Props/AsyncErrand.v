(** A program that says and hears by a plan, and the server of examples/async-server.rs: C92. *)
From Coq Require Import NArith ZArith String Bool List Lia.
From Coq.Strings Require Import Byte.
From Verif.Model Require Import Base Io Header Mask Dataframe Utf8 Text Base64 WsKey Headers
  Handshake Message Receiver Codec Framed Http Connect Examples AsyncExamples ChatClient Talk Narrow Suite AsyncChat AsyncTalk Mixture Errand AsyncErrand.
From Verif.Spec Require Import RfcFrame FrameSpec Schedule Unicode Drive Session Connection Polled Fields Upgrade Builder HttpHead Wire Endpoint Echo Polls Chat Talking Suite AsyncChat AsyncTalking Mixing Errands AsyncErrands.
From Verif.Spec Require Import Errands AsyncErrands.
From Verif.Proofs Require Import ExTac.
From Verif.Proofs Require ThmAsyncErrand.
Import ListNotations.
Local Open Scope string_scope.
Local Open Scope list_scope.
Local Open Scope nat_scope.

(** ** The theorems *)

(** [C92] A blocking client used the plain way with the server of examples/async-server.rs.  Whatever
    the plan, the room of the network, its delays and the scheduling: what the program has received is
    always an initial part of the greeting and the answers to what it has sent, each message once and
    in order; the network never holds more than its room, and the server's task does not fail.  (The
    program sends no Pongs: this server does not answer those.) *)
Theorem plain_sound : forall cap plan w b acts, never_fails w ->
  Forall (sendable 104857600) (said_in plan) -> close_is_last (said_in plan) -> Forall (fun m => is_pong m = false) (said_in plan) ->
  let t := aerrand_run cap acts (aerrand_new plan w b) in
  (exists said, said ++ said_in (y_todo t) = said_in plan /\ prefix (y_heard t) (whole_atalk said)) /\
  (List.length (y_up t) + List.length (aev_bytes (et_in (y_task t))) <= cap)%nat /\ (List.length (y_down t) <= cap)%nat /\
  (forall r, y_at t = AServed r -> r = TReady).
Proof. exact ThmAsyncErrand.plain_sound_proof. Qed.
Print Assumptions plain_sound.

(** The program sends "hi" and a Ping, receiving in between; the network holds five bytes either
    way. *)
Definition plain_turns : list yact :=
  [YTurn (mk_key x01 x02 x03 x04); YSend 3; YRead 2; YArrive 3; YPoll (mk_key x00 x00 x00 x00) 0].
Definition plain_says : list owned := [OText (str "hi"); OPing (str "x")].
Example plain_sound_ex :
  let t := aerrand_run 5 (concat (repeat plain_turns 16)) (aerrand_new (by_turns plain_says) (mk_w [] []) 0) in
  y_heard t = [OText (str "Hello World!"); OText (str "hi")] /\ said_in (y_todo t) = [OClose None].
Proof. vm_compute. split; reflexivity. Qed.

(** [C92] A program that came to its end has received just what its plan says: as many messages as
    it asked for, of the greeting and the answers to all it sent. *)
Theorem plain_complete : forall cap plan w b acts, never_fails w ->
  Forall (sendable 104857600) (said_in plan) -> close_is_last (said_in plan) -> Forall (fun m => is_pong m = false) (said_in plan) ->
  let t := aerrand_run cap acts (aerrand_new plan w b) in
  aerrand_done t ->
  y_heard t = firstn (heard_in plan) (whole_atalk (said_in plan)) /\ (heard_in plan <= List.length (whole_atalk (said_in plan)))%nat.
Proof. exact ThmAsyncErrand.plain_complete_proof. Qed.
Print Assumptions plain_complete.

Example plain_complete_ex :
  let t := aerrand_run 5 (concat (repeat plain_turns 30)) (aerrand_new (by_turns plain_says) (mk_w [] []) 0) in
  aerrand_done t /\ y_heard t = [OText (str "Hello World!"); OText (str "hi"); OPong (str "x"); OClose None].
Proof. vm_compute. repeat split; reflexivity. Qed.

(** [C92] An [unwrap] fails only when the program asks for more after the server's Close: it has
    received the whole conversation, and the server's task is over. *)
Theorem plain_fails_late : forall cap plan w b acts, never_fails w ->
  Forall (sendable 104857600) (said_in plan) -> close_is_last (said_in plan) -> Forall (fun m => is_pong m = false) (said_in plan) ->
  let t := aerrand_run cap acts (aerrand_new plan w b) in
  y_failed t = true ->
  y_heard t = whole_atalk (said_in plan) /\ y_at t = AServed TReady /\ (List.length (whole_atalk (said_in plan)) < heard_in plan)%nat.
Proof. exact ThmAsyncErrand.plain_fails_late_proof. Qed.
Print Assumptions plain_fails_late.

Example plain_fails_late_ex :
  let t := aerrand_run 7 (concat (repeat plain_turns 30)) (aerrand_new [Say (OClose None); Hear; Hear; Hear] (mk_w [] []) 0) in
  y_failed t = true /\ y_heard t = [OText (str "Hello World!"); OClose None].
Proof. vm_compute. split; reflexivity. Qed.

(** [C92] A program that follows a fair plan (see Spec/AsyncErrands.v: it sends a message only if there
    is room in the network for what it is owed, of which the server keeps 8192 bytes itself, or for all
    it has sent) and asks for no more than it is owed comes to its end without failing, however it is
    scheduled, once everyone has had enough turns. *)
Theorem plain_live : forall cap plan w b rounds, never_fails w ->
  Forall (sendable 104857600) (said_in plan) -> Forall (fun m => is_pong m = false) (said_in plan) ->
  (1 <= cap)%nat -> fair_plan cap [] [OText (ascii "Hello World!")] plan ->
  (heard_in plan <= List.length (whole_atalk (said_in plan)))%nat ->
  Forall aerrand_round rounds -> (toil plan + 96 <= List.length rounds)%nat ->
  aerrand_done (aerrand_run cap (concat rounds) (aerrand_new plan w b)).
Proof. exact ThmAsyncErrand.plain_live_proof. Qed.
Print Assumptions plain_live.

(** Three messages of 1000 bytes may be sent ahead although the network holds 20: with
    examples/server.rs this plan is not good (see [plain_roomier_ex]). *)
Definition plain_thousand : owned := OBinary (repeat x61 (N.to_nat 1000)).
Example plain_live_ex : aerrand_round plain_turns /\
  fair_plan 20 [] [OText (ascii "Hello World!")] [Say plain_thousand; Say plain_thousand; Say plain_thousand; Hear; Hear].
Proof.
  split; [unfold aerrand_round, plain_turns; repeat split; repeat eexists; repeat ((left; reflexivity) || right)|].
  apply fair_say; [right; left; split; apply PeanoNat.Nat.leb_le; vm_compute; reflexivity|intros []|].
  apply fair_say; [right; left; split; apply PeanoNat.Nat.leb_le; vm_compute; reflexivity|intros []|].
  apply fair_say; [right; left; split; apply PeanoNat.Nat.leb_le; vm_compute; reflexivity|intros []|].
  apply fair_hear. apply fair_hear. apply fair_done.
Qed.

(** [C92] If such a plan asks for more than it is owed (it may when it has sent a Close), the program
    does not hang: it fails, having received everything. *)
Theorem plain_overrun : forall cap plan w b rounds, never_fails w ->
  Forall (sendable 104857600) (said_in plan) -> Forall (fun m => is_pong m = false) (said_in plan) ->
  (1 <= cap)%nat -> fair_plan cap [] [OText (ascii "Hello World!")] plan ->
  (List.length (whole_atalk (said_in plan)) < heard_in plan)%nat ->
  Forall aerrand_round rounds -> (toil plan + 96 <= List.length rounds)%nat ->
  let t := aerrand_run cap (concat rounds) (aerrand_new plan w b) in
  y_failed t = true /\ y_heard t = whole_atalk (said_in plan).
Proof. exact ThmAsyncErrand.plain_overrun_proof. Qed.
Print Assumptions plain_overrun.

Example plain_overrun_ex : fair_plan 9 [] [OText (ascii "Hello World!")] [Hear; Say (OClose None); Hear; Hear; Hear] /\
  (List.length (whole_atalk [OClose None]) < 4)%nat /\
  let t := aerrand_run 9 (concat (repeat plain_turns 30)) (aerrand_new [Hear; Say (OClose None); Hear; Hear; Hear] (mk_w [] []) 0) in
  y_failed t = true /\ y_todo t = [Hear] /\ y_heard t = [OText (str "Hello World!"); OClose None].
Proof.
  split; [|split; [apply PeanoNat.Nat.ltb_lt; vm_compute; reflexivity|vm_compute; repeat split; reflexivity]].
  apply fair_hear. apply fair_say; [left; apply PeanoNat.Nat.leb_le; vm_compute; reflexivity|reflexivity|].
  apply fair_hear. apply fair_over; [exact I|reflexivity].
Qed.

(** [C92] Sending and receiving by turns, a Close last, always works, whatever the messages and
    however little the network holds: the program ends with all the answers. *)
Theorem plain_by_turns : forall cap ms w b rounds, never_fails w ->
  Forall (sendable 104857600) ms -> Forall (fun m => ~ closing m) ms -> Forall (fun m => is_pong m = false) ms -> (1 <= cap)%nat ->
  Forall aerrand_round rounds -> (toil (by_turns ms) + 96 <= List.length rounds)%nat ->
  let t := aerrand_run cap (concat rounds) (aerrand_new (by_turns ms) w b) in
  aerrand_done t /\ y_heard t = OText (ascii "Hello World!") :: flat_map answer ms ++ [OClose None].
Proof. exact ThmAsyncErrand.plain_by_turns_proof. Qed.
Print Assumptions plain_by_turns.

Example plain_by_turns_ex :
  let t := aerrand_run 1 (concat (repeat plain_turns 777)) (aerrand_new (by_turns plain_says) (mk_w [] []) 0) in
  aerrand_done t /\ y_heard t = OText (ascii "Hello World!") :: flat_map answer plain_says ++ [OClose None].
Proof.
  apply plain_by_turns.
  - constructor.
  - repeat constructor; try (apply ExTac.good_text; reflexivity); vm_compute; discriminate.
  - repeat constructor; intros [].
  - repeat constructor.
  - constructor.
  - apply Forall_forall. intros r HR. apply repeat_spec in HR. subst r. unfold aerrand_round, plain_turns. repeat split; repeat eexists; repeat ((left; reflexivity) || right).
  - apply PeanoNat.Nat.leb_le. vm_compute. reflexivity.
Qed.

(** [C92] Sending everything first and receiving only then works if there is room for all the answers,
    or for all that is sent; of the answers the server keeps 8192 bytes, if only its greeting fits into
    the network. *)
Theorem plain_at_once : forall cap ms w b rounds, never_fails w ->
  Forall (sendable 104857600) ms -> Forall (fun m => ~ closing m) ms -> Forall (fun m => is_pong m = false) ms -> (1 <= cap)%nat ->
  (down_bytes (OText (ascii "Hello World!") :: flat_map answer ms) <= cap \/
   14 <= cap /\ down_bytes (OText (ascii "Hello World!") :: flat_map answer ms) <= cap + N.to_nat 8192 \/
   up_bytes (ms ++ [OClose None]) <= cap)%nat ->
  Forall aerrand_round rounds -> (toil (at_once ms) + 96 <= List.length rounds)%nat ->
  let t := aerrand_run cap (concat rounds) (aerrand_new (at_once ms) w b) in
  aerrand_done t /\ y_heard t = OText (ascii "Hello World!") :: flat_map answer ms ++ [OClose None].
Proof. exact ThmAsyncErrand.plain_at_once_proof. Qed.
Print Assumptions plain_at_once.

Definition plain_ten : list owned := repeat (OText (str "hello")) 10.
Example plain_at_once_ex :
  let t := aerrand_run 14 (concat (repeat plain_turns 2600)) (aerrand_new (at_once plain_ten) (mk_w [] []) 0) in
  aerrand_done t /\ y_heard t = OText (ascii "Hello World!") :: flat_map answer plain_ten ++ [OClose None].
Proof.
  apply plain_at_once.
  - constructor.
  - repeat constructor; try (apply ExTac.good_text; reflexivity); vm_compute; discriminate.
  - repeat constructor; intros [].
  - repeat constructor.
  - repeat constructor.
  - right. left. split; apply PeanoNat.Nat.leb_le; vm_compute; reflexivity.
  - apply Forall_forall. intros r HR. apply repeat_spec in HR. subst r. unfold aerrand_round, plain_turns. repeat split; repeat eexists; repeat ((left; reflexivity) || right).
  - apply PeanoNat.Nat.leb_le. vm_compute. reflexivity.
Qed.
(** With examples/server.rs and the same network these ten are too many: the program and the server
    wait for each other (see C88). *)
Example plain_roomier_ex :
  ThmErrand.e_frozen 14 (errand_run 14 (concat (repeat [ETurn (mk_key x00 x00 x00 x00); ESend 14; EServe (mk_key x00 x00 x00 x00); ETake 14; EPush 14] 20))
    (errand_new (at_once plain_ten) (mk_w [] []) (mk_w [] []))) = true.
Proof. vm_compute. reflexivity. Qed.

(** [C92] Without that condition it may not: the program does not read while it is in a write, the
    server does not read while its buffer is full, and from then on nothing moves, whoever gets a turn. *)
Theorem plain_at_once_refuted : exists cap ms w b acts, never_fails w /\
  Forall (sendable 104857600) ms /\ Forall (fun m => ~ closing m) ms /\ Forall (fun m => is_pong m = false) ms /\ (14 <= cap)%nat /\
  forall more, let t := aerrand_run cap (acts ++ more) (aerrand_new (at_once ms) w b) in
    ~ aerrand_done t /\ t = aerrand_run cap acts (aerrand_new (at_once ms) w b).
Proof. exact ThmAsyncErrand.plain_at_once_refuted_proof. Qed.
Print Assumptions plain_at_once_refuted.

(** [C92] Nor may the greeting be too much for the network: then a single message may be enough. *)
Theorem plain_greeting_refuted : exists cap m w b acts, never_fails w /\
  sendable 104857600 m /\ ~ closing m /\ is_pong m = false /\ (1 <= cap)%nat /\
  (down_bytes (OText (ascii "Hello World!") :: answer m) <= cap + N.to_nat 8192)%nat /\
  forall more, ~ aerrand_done (aerrand_run cap (acts ++ more) (aerrand_new (at_once [m]) w b)).
Proof. exact ThmAsyncErrand.plain_greeting_refuted_proof. Qed.
Print Assumptions plain_greeting_refuted.

(** [C92] A plan that asks for more than the answers to what it sends never comes to its end. *)
Theorem plain_too_much : forall cap plan w b acts, never_fails w ->
  Forall (sendable 104857600) (said_in plan) -> close_is_last (said_in plan) -> Forall (fun m => is_pong m = false) (said_in plan) ->
  (List.length (whole_atalk (said_in plan)) < heard_in plan)%nat ->
  ~ aerrand_done (aerrand_run cap acts (aerrand_new plan w b)).
Proof. exact ThmAsyncErrand.plain_too_much_proof. Qed.
Print Assumptions plain_too_much.

(** It waits for a second message, where only the greeting is owed. *)
Example plain_too_much_ex : (List.length (whole_atalk (said_in [Hear; Hear])) < heard_in [Hear; Hear])%nat /\
  let t := aerrand_run 5 (concat (repeat plain_turns 30)) (aerrand_new [Hear; Hear] (mk_w [] []) 0) in
  y_todo t = [Hear] /\ y_failed t = false /\ y_heard t = [OText (str "Hello World!")].
Proof. split; [apply PeanoNat.Nat.ltb_lt; vm_compute; reflexivity|]. vm_compute. repeat split; reflexivity. Qed.
