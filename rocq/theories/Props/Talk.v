(** The chat client and the server of the examples, talking to each other: C73. *)
From Coq Require Import NArith ZArith String Bool List Lia.
From Coq.Strings Require Import Byte.
From Verif.Model Require Import Base Io Header Mask Dataframe Utf8 Text Headers
  Message Receiver Codec Connect Examples ChatClient Talk.
From Verif.Spec Require Import RfcFrame FrameSpec Schedule Unicode Drive Session Connection Polled Echo Chat Talking.
From Verif.Proofs Require Import ExTac.
From Verif.Proofs Require ThmTalk.
Import ListNotations.
Local Open Scope string_scope.
Local Open Scope list_scope.
Local Open Scope N_scope.

(** [C73] The turns of the server in this model are those of the loop of Model/Examples.v. *)
Theorem loop_is_turns : forall n k r w, server_loop (S n) k r w =
  match server_turn Serving k r w with
  | (Served e, _, w') => (e, w')
  | (_, r', w') => server_loop n k r' w'
  end.
Proof. exact ThmTalk.loop_is_turns_proof. Qed.
Print Assumptions loop_is_turns.

(** One turn: a masked text "a" is read and sent back. *)
Example loop_is_turns_ex :
  let r := mk_reader (receiver_new true) [] [RData x81 [x81; x00; x00; x00; x00; x61]] in
  exists r', server_turn Serving (mk_key x00 x00 x00 x00) r (mk_writer (mk_sender false) (mk_w [] []))
    = (Serving, r', mk_writer (mk_sender false) (mk_w [x81; x01; x61] [])).
Proof. eexists. reflexivity. Qed.

(** ** The time left *)

(** [C73] Whatever the order in which the threads, the server and the network take their turns:
    the client never gets an error, what it has heard so far is the beginning of the
    conversation the user's lines call for, it hears a close message only if the user typed
    "/close", and the server does not panic. *)
Theorem talk_sound : forall lines w1 w2 acts, never_fails w1 -> never_fails w2 ->
  Forall (fun t => well_formed (octets t) /\ size t <= 104857600) lines ->
  let t := talk_run acts (talk_new lines w1 w2) in
  exists us ms rest, types lines us /\ t_heard t = map Ok ms /\ ms ++ rest = conversation us /\
    (Exists closing ms -> In (OClose None) us) /\ (forall e, t_srv t = Served e -> e = Returned).
Proof. exact ThmTalk.talk_sound_proof. Qed.
Print Assumptions talk_sound.

(** The user types a word, "/ping" and "/close"; the network delivers three bytes at a time one
    way and two the other. *)
Definition talk_round : list act :=
  let k := mk_key x01 x02 x03 x04 in [Client Main; Up 3; Server k; Client (SendLoop (k, k)); Down 2; Client ReceiveLoop].
Definition talk_lines : list bytes := [str "hi"; str "/ping"; str "/close"].
Definition talk_start : talk := talk_new talk_lines (mk_w [] []) (mk_w [] []).
Example talk_sound_ex :
  t_heard (talk_run (concat (repeat talk_round 8)) talk_start) = [Ok (OText (str "Hello")); Ok (OText (str "hi"))] /\
  t_srv (talk_run (concat (repeat talk_round 10)) talk_start) = Served Returned.
Proof. split; reflexivity. Qed.

(** [C73] When nothing can happen any more, the conversation is complete: the user has seen the
    greeting, an echo of every line typed before "/close" and the answer to every "/ping", in
    order, and the server's close message; the server has returned, and all threads of the
    client are over. *)
Theorem talk_complete : forall lines us w1 w2 acts, never_fails w1 -> never_fails w2 ->
  Forall (fun t => well_formed (octets t) /\ size t <= 104857600) lines -> talks lines us ->
  let t := talk_run acts (talk_new lines w1 w2) in
  at_rest t ->
  t_heard t = map Ok (conversation us) /\ t_srv t = Served Returned /\ all_over (t_chat t).
Proof. exact ThmTalk.talk_complete_proof. Qed.
Print Assumptions talk_complete.

Example talk_complete_ex :
  talks talk_lines [OText (str "hi"); OPing (str "PING")] /\
  at_rest (talk_run (concat (repeat talk_round 40)) talk_start) /\
  t_heard (talk_run (concat (repeat talk_round 40)) talk_start)
  = [Ok (OText (str "Hello")); Ok (OText (str "hi")); Ok (OPong (str "PING")); Ok (OClose None)].
Proof.
  split; [|split; [|vm_compute; reflexivity]].
  - apply (talks_line (str "hi")); [discriminate|]. apply (talks_line (str "/ping")); [discriminate|]. constructor.
  - set (t := talk_run _ _). vm_compute in t. intros [[|ks|]|k|[|n]|[|n]]; reflexivity.
Qed.

(** [C73] It does come to an end: if the user types "/close" some time, no more than so many
    things can happen, in whatever order. *)
Theorem talk_ends : forall lines w1 w2 acts, never_fails w1 -> never_fails w2 ->
  Forall (fun t => well_formed (octets t) /\ size t <= 104857600) lines -> In (str "/close") lines ->
  (happened acts (talk_new lines w1 w2) <= 5 * letters lines + 74 * length lines + 109)%nat.
Proof. exact ThmTalk.talk_ends_proof. Qed.
Print Assumptions talk_ends.

Example talk_ends_ex : happened (concat (repeat talk_round 40)) talk_start = 37%nat.
Proof. vm_compute. reflexivity. Qed.

(** [C73] And it does get there: if everyone gets a turn again and again - in whatever order, with
    whatever pieces the network delivers - the conversation is complete after that many rounds. *)
Theorem talk_live : forall lines us w1 w2 rounds, never_fails w1 -> never_fails w2 ->
  Forall (fun t => well_formed (octets t) /\ size t <= 104857600) lines -> talks lines us ->
  Forall fair_round rounds -> (5 * letters lines + 74 * length lines + 109 <= length rounds)%nat ->
  let t := talk_run (concat rounds) (talk_new lines w1 w2) in
  at_rest t /\ t_heard t = map Ok (conversation us) /\ t_srv t = Served Returned /\ all_over (t_chat t).
Proof. exact ThmTalk.talk_live_proof. Qed.
Print Assumptions talk_live.

Example talk_live_ex : fair_round talk_round /\
  (5 * letters talk_lines + 74 * List.length talk_lines + 109 <= List.length (repeat talk_round 400))%nat /\
  at_rest (talk_run (concat (repeat talk_round 400)) talk_start).
Proof.
  assert (fair_round talk_round) as HF.
  { unfold fair_round, talk_round. repeat split; try (eexists; repeat ((left; reflexivity) || right)); repeat ((left; reflexivity) || right). }
  assert (5 * letters talk_lines + 74 * List.length talk_lines + 109 <= List.length (repeat talk_round 400))%nat as HN
    by (apply PeanoNat.Nat.leb_le; reflexivity).
  split; [exact HF|]. split; [exact HN|].
  apply (talk_live talk_lines [OText (str "hi"); OPing (str "PING")]); try exact HN; try (constructor; fail).
  - unfold talk_lines. repeat (constructor; [split; [apply ExTac.good_text; reflexivity|vm_compute; discriminate]|]). constructor.
  - apply (talks_line (str "hi")); [discriminate|]. apply (talks_line (str "/ping")); [discriminate|]. constructor.
  - apply Forall_forall. intros r HR. apply repeat_spec in HR. subst r. exact HF.
Qed.
