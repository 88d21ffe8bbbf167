(** Two programs that say and hear by their plans: C94. *)
From Coq Require Import NArith ZArith String Bool List Lia.
From Coq.Strings Require Import Byte.
From Verif.Model Require Import Base Io Header Mask Dataframe Utf8 Text Headers
  Message Receiver Codec Framed Connect Examples ChatClient Talk Narrow Errand Dialogue.
From Verif.Spec Require Import RfcFrame FrameSpec Schedule Unicode Drive Session Connection Polled Fields Echo Chat Talking AsyncChat Errands Dialogues.
From Verif.Proofs Require Import ExTac.
From Verif.Proofs Require ThmDialogue.
Import ListNotations.
Local Open Scope string_scope.
Local Open Scope list_scope.
Local Open Scope nat_scope.

(** ** The theorems *)

(** [C94] Two programs that use the library the plain way, each by a plan of its own; whatever the
    plans, the room of the network, its delays and the scheduling: no [unwrap] fails; what a program
    has received is an initial part of what the other has begun to send, each message once and in
    order; and the network never holds more than its room. *)
Theorem dialogue_sound : forall cap p1 p2 w1 w2 acts, never_fails w1 -> never_fails w2 ->
  Forall (sendable 104857600) (said_in p1) -> Forall (sendable 104857600) (said_in p2) ->
  let t := dialogue_run cap acts (dialogue_new p1 p2 w1 w2) in
  p_failed (d_client t) = false /\ p_failed (d_server t) = false /\
  (exists said, said ++ said_in (p_todo (d_client t)) = said_in p1 /\ prefix (p_heard (d_server t)) said) /\
  (exists said, said ++ said_in (p_todo (d_server t)) = said_in p2 /\ prefix (p_heard (d_client t)) said) /\
  (List.length (d_up t) <= cap)%nat /\ (List.length (d_down t) <= cap)%nat.
Proof. exact ThmDialogue.dialogue_sound_proof. Qed.
Print Assumptions dialogue_sound.

(** The client asks twice and hears twice, the server waits for both questions; the network holds
    five bytes either way. *)
Definition dialogue_turns : list dact :=
  [DTurn true (mk_key x01 x02 x03 x04); DSend true 3; DRead true 2; DTurn false (mk_key x00 x00 x00 x00); DSend false 4; DRead false 3].
Definition dialogue_asks : list deed := [Say (OText (str "one")); Say (OText (str "two")); Hear; Hear].
Definition dialogue_tells : list deed := [Hear; Hear; Say (OText (str "1")); Say (OBinary (str "2"))].
Example dialogue_sound_ex :
  let t := dialogue_run 5 (concat (repeat dialogue_turns 11)) (dialogue_new dialogue_asks dialogue_tells (mk_w [] []) (mk_w [] [])) in
  p_heard (d_server t) = [OText (str "one"); OText (str "two")] /\ p_heard (d_client t) = [OText (str "1")] /\ p_todo (d_client t) = [Hear].
Proof. vm_compute. repeat split; reflexivity. Qed.

(** [C94] A program that came to its end has received just what its plan says: as many messages as
    it asked for, the first ones of the other's plan. *)
Theorem dialogue_complete : forall cap p1 p2 w1 w2 acts, never_fails w1 -> never_fails w2 ->
  Forall (sendable 104857600) (said_in p1) -> Forall (sendable 104857600) (said_in p2) ->
  let t := dialogue_run cap acts (dialogue_new p1 p2 w1 w2) in
  (p_todo (d_client t) = [] -> p_heard (d_client t) = firstn (heard_in p1) (said_in p2) /\ (heard_in p1 <= List.length (said_in p2))%nat) /\
  (p_todo (d_server t) = [] -> p_heard (d_server t) = firstn (heard_in p2) (said_in p1) /\ (heard_in p2 <= List.length (said_in p1))%nat).
Proof. exact ThmDialogue.dialogue_complete_proof. Qed.
Print Assumptions dialogue_complete.

Example dialogue_complete_ex :
  let t := dialogue_run 5 (concat (repeat dialogue_turns 12)) (dialogue_new dialogue_asks dialogue_tells (mk_w [] []) (mk_w [] [])) in
  dialogue_done t /\ p_heard (d_client t) = [OText (str "1"); OBinary (str "2")].
Proof. vm_compute. repeat split; reflexivity. Qed.

(** [C94] If the plans fit together (see Spec/Dialogues.v: there is one order of the deeds in which
    everything that is said has room, or is waited for), both programs come to their ends, however
    they are scheduled and however the network cuts what it carries, once everyone has had enough
    turns. *)
Theorem dialogue_live : forall cap p1 p2 w1 w2 rounds, never_fails w1 -> never_fails w2 ->
  Forall (sendable 104857600) (said_in p1) -> Forall (sendable 104857600) (said_in p2) -> (1 <= cap)%nat ->
  meets up_bytes down_bytes cap [] [] p1 p2 ->
  Forall dialogue_round rounds -> (toil p1 + toil p2 < List.length rounds)%nat ->
  dialogue_done (dialogue_run cap (concat rounds) (dialogue_new p1 p2 w1 w2)).
Proof. exact ThmDialogue.dialogue_live_proof. Qed.
Print Assumptions dialogue_live.

(** The second question is too much for the network, the first is not. *)
Example dialogue_live_ex : dialogue_round dialogue_turns /\ meets up_bytes down_bytes 9 [] [] dialogue_asks dialogue_tells /\ (9 < up_bytes [OText (str "one"); OText (str "two")])%nat.
Proof.
  split; [unfold dialogue_round, dialogue_turns; repeat split; eexists; repeat ((left; reflexivity) || right)|]. split; [|apply PeanoNat.Nat.ltb_lt; vm_compute; reflexivity].
  apply meets_say1; [apply PeanoNat.Nat.leb_le; vm_compute; reflexivity|]. apply (meets_hear2 _ _ _ []). apply meets_pass1. apply meets_pass2. apply meets_pass2. apply meets_done.
Qed.

(** [C94] Talking in turn always works: whatever the script, however long its lines and however
    little the network holds, both programs end, with all the lines of the other. *)
Theorem dialogue_in_turn : forall cap script w1 w2 rounds, never_fails w1 -> never_fails w2 ->
  Forall (sendable 104857600) (map snd script) -> (1 <= cap)%nat ->
  Forall dialogue_round rounds -> (toil (part_of true script) + toil (part_of false script) < List.length rounds)%nat ->
  let t := dialogue_run cap (concat rounds) (dialogue_new (part_of true script) (part_of false script) w1 w2) in
  dialogue_done t /\ p_heard (d_client t) = lines_of false script /\ p_heard (d_server t) = lines_of true script.
Proof. exact ThmDialogue.dialogue_in_turn_proof. Qed.
Print Assumptions dialogue_in_turn.

Definition dialogue_script : list (bool * owned) :=
  [(true, OText (str "who's there?")); (false, OText (str "it is I")); (false, OPing (str "x")); (true, OPong (str "x")); (true, OClose None); (false, OClose None)].
Example dialogue_in_turn_ex :
  let t := dialogue_run 1 (concat (repeat dialogue_turns 1200)) (dialogue_new (part_of true dialogue_script) (part_of false dialogue_script) (mk_w [] []) (mk_w [] [])) in
  dialogue_done t /\ p_heard (d_client t) = [OText (str "it is I"); OPing (str "x"); OClose None] /\ p_heard (d_server t) = [OText (str "who's there?"); OPong (str "x"); OClose None].
Proof.
  apply (dialogue_in_turn 1 dialogue_script).
  - constructor.
  - constructor.
  - repeat constructor; try (apply ExTac.good_text; reflexivity); vm_compute; discriminate.
  - constructor.
  - apply Forall_forall. intros r HR. apply repeat_spec in HR. subst r. unfold dialogue_round, dialogue_turns. repeat split; eexists; repeat ((left; reflexivity) || right).
  - apply PeanoNat.Nat.ltb_lt. vm_compute. reflexivity.
Qed.

(** [C94] Two programs that both send everything first and receive only then: they come to their ends
    if what either of them sends has room in the network. *)
Theorem dialogue_crossing : forall cap ms1 ms2 w1 w2 rounds, never_fails w1 -> never_fails w2 ->
  Forall (sendable 104857600) ms1 -> Forall (sendable 104857600) ms2 -> (1 <= cap)%nat ->
  (up_bytes ms1 <= cap \/ down_bytes ms2 <= cap)%nat ->
  let p1 := map Say ms1 ++ repeat Hear (List.length ms2) in
  let p2 := map Say ms2 ++ repeat Hear (List.length ms1) in
  Forall dialogue_round rounds -> (toil p1 + toil p2 < List.length rounds)%nat ->
  let t := dialogue_run cap (concat rounds) (dialogue_new p1 p2 w1 w2) in
  dialogue_done t /\ p_heard (d_client t) = ms2 /\ p_heard (d_server t) = ms1.
Proof. exact ThmDialogue.dialogue_crossing_proof. Qed.
Print Assumptions dialogue_crossing.

(** The network has room for what the server sends only. *)
Example dialogue_crossing_ex : let ms1 := [OText (str "hello"); OText (str "world")] in let ms2 := [OText (str "hi")] in
  (4 < up_bytes ms1)%nat /\ (down_bytes ms2 = 4)%nat /\
  let t := dialogue_run 4 (concat (repeat dialogue_turns 30)) (dialogue_new (map Say ms1 ++ [Hear]) (map Say ms2 ++ [Hear; Hear]) (mk_w [] []) (mk_w [] [])) in
  dialogue_done t /\ p_heard (d_client t) = ms2 /\ p_heard (d_server t) = ms1.
Proof. cbv zeta. split; [apply PeanoNat.Nat.ltb_lt; vm_compute; reflexivity|]. vm_compute. repeat split; reflexivity. Qed.

(** [C94] And only then: if both begin by sending more than the network has room for, whatever they
    would do after it, they hang for good under every schedule; neither receives anything. *)
Theorem dialogue_hangs : forall cap ms1 ms2 q1 q2 w1 w2 acts, never_fails w1 -> never_fails w2 ->
  let p1 := map Say ms1 ++ q1 in let p2 := map Say ms2 ++ q2 in
  Forall (sendable 104857600) (said_in p1) -> Forall (sendable 104857600) (said_in p2) ->
  (cap < up_bytes ms1)%nat -> (cap < down_bytes ms2)%nat ->
  let t := dialogue_run cap acts (dialogue_new p1 p2 w1 w2) in
  ~ party_done (d_client t) /\ ~ party_done (d_server t) /\ p_heard (d_client t) = [] /\ p_heard (d_server t) = [].
Proof. exact ThmDialogue.dialogue_hangs_proof. Qed.
Print Assumptions dialogue_hangs.

(** With five bytes of room, two messages of four letters are enough to hang. *)
Example dialogue_hangs_ex : (5 < up_bytes [OText (str "ping")])%nat /\ (5 < down_bytes [OText (str "pong")])%nat /\
  let t := dialogue_run 5 (concat (repeat dialogue_turns 300)) (dialogue_new [Say (OText (str "ping")); Hear] [Say (OText (str "pong")); Hear] (mk_w [] []) (mk_w [] [])) in
  p_todo (d_client t) = [Hear] /\ p_todo (d_server t) = [Hear] /\ List.length (d_up t) = 5%nat /\ p_heard (d_client t) = [].
Proof. split; [apply PeanoNat.Nat.ltb_lt; vm_compute; reflexivity|]. split; [apply PeanoNat.Nat.ltb_lt; vm_compute; reflexivity|]. vm_compute. repeat split; reflexivity. Qed.
