(** The chat client and the server of the examples over a narrow network: C84. *)
From Coq Require Import NArith ZArith String Bool List Lia.
From Coq.Strings Require Import Byte.
From Verif.Model Require Import Base Io Header Mask Dataframe Utf8 Text Headers
  Message Receiver Codec Connect Examples ChatClient Talk Narrow.
From Verif.Spec Require Import RfcFrame FrameSpec Schedule Unicode Drive Session Connection Polled Echo Chat Talking Narrowing.
From Verif.Proofs Require Import ExTac.
From Verif.Proofs Require ThmNarrow.
Import ListNotations.
Local Open Scope string_scope.
Local Open Scope list_scope.
Local Open Scope N_scope.

(** ** The wide conversation behind a narrow one *)

(** [C84] Whatever the order in which the threads, the server and a network with room for [cap]
    bytes each way take their turns: the client never gets an error, what it has heard so far is
    the beginning of the conversation the user's lines call for, it hears a close message only if the
    user typed "/close", and the server does not panic. *)
Theorem narrow_sound : forall lines w1 w2 cap acts, never_fails w1 -> never_fails w2 ->
  Forall (fun t => well_formed (octets t) /\ size t <= 104857600) lines ->
  let t := n_talk (narrow_run cap acts (narrow_new lines w1 w2)) in
  exists us ms rest, types lines us /\ t_heard t = map Ok ms /\ ms ++ rest = conversation us /\
    (Exists closing ms -> In (OClose None) us) /\ (forall e, t_srv t = Served e -> e = Returned).
Proof. exact ThmNarrow.narrow_sound_proof. Qed.
Print Assumptions narrow_sound.

(** The user types a word, "/ping" and "/close"; the network holds a single byte.  After two rounds
    client and server are both in the middle of a write. *)
Definition narrow_turns : list nact :=
  let k := mk_key x01 x02 x03 x04 in
  [NClient Main; NClient (SendLoop (k, k)); PushUp 3; NServer k; PushDown 2; NUp 2; NDown 1; NClient ReceiveLoop].
Definition narrow_lines : list bytes := [str "hi"; str "/ping"; str "/close"].
Definition narrow_start : narrow := narrow_new narrow_lines (mk_w [] []) (mk_w [] []).
Example narrow_sound_ex :
  (exists a w b x v y, n_cl (narrow_run 1 (concat (repeat narrow_turns 2)) narrow_start) = Some (a, w, b :: x) /\
     n_sv (narrow_run 1 (concat (repeat narrow_turns 2)) narrow_start) = Some (Serving, v, y) /\ List.length y = 5%nat) /\
  t_heard (n_talk (narrow_run 1 (concat (repeat narrow_turns 20)) narrow_start)) = [Ok (OText (str "Hello")); Ok (OText (str "hi"))].
Proof.
  split; [|vm_compute; reflexivity]. do 6 eexists.
  split; [vm_compute; reflexivity|]. split; [vm_compute; reflexivity|]. vm_compute; reflexivity.
Qed.

(** [C84] The network never holds more. *)
Theorem narrow_room : forall lines w1 w2 cap acts,
  let t := n_talk (narrow_run cap acts (narrow_new lines w1 w2)) in
  (length (t_up t) <= cap)%nat /\ (length (t_down t) <= cap)%nat.
Proof. exact ThmNarrow.narrow_room_proof. Qed.
Print Assumptions narrow_room.

Example narrow_room_ex :
  t_up (n_talk (narrow_run 3 [NClient Main; NClient (SendLoop (mk_key x01 x02 x03 x04, mk_key x01 x02 x03 x04));
    NClient (SendLoop (mk_key x01 x02 x03 x04, mk_key x01 x02 x03 x04)); PushUp 2; PushUp 2; PushUp 2]
    (narrow_new [str "hi"] (mk_w [] []) (mk_w [] [])))) = [x81; x82; x01].
Proof. vm_compute. reflexivity. Qed.

(** ** Nobody gets stuck *)

(** [C84] If the network holds one byte at least, nobody gets stuck: when nothing can happen any
    more the conversation is complete, the server has returned, and all threads of the client are
    over. *)
Theorem narrow_complete : forall lines us w1 w2 cap acts, never_fails w1 -> never_fails w2 ->
  Forall (fun t => well_formed (octets t) /\ size t <= 104857600) lines -> talks lines us -> (0 < cap)%nat ->
  let b := narrow_run cap acts (narrow_new lines w1 w2) in
  narrow_rest cap b ->
  t_heard (n_talk b) = map Ok (conversation us) /\ t_srv (n_talk b) = Served Returned /\ all_over (t_chat (n_talk b)).
Proof. exact ThmNarrow.narrow_complete_proof. Qed.
Print Assumptions narrow_complete.

(** With room for one byte; and with room for none, everyone is stuck before the first word. *)
Example narrow_complete_ex :
  talks narrow_lines [OText (str "hi"); OPing (str "PING")] /\
  (let b := narrow_run 1 (concat (repeat narrow_turns 50)) narrow_start in
   narrow_rest 1 b /\
   t_heard (n_talk b) = [Ok (OText (str "Hello")); Ok (OText (str "hi")); Ok (OPong (str "PING")); Ok (OClose None)]) /\
  (let b := narrow_run 0 (concat (repeat narrow_turns 50)) narrow_start in narrow_rest 0 b /\ t_heard (n_talk b) = []).
Proof.
  split; [|split].
  - apply (talks_line (str "hi")); [discriminate|]. apply (talks_line (str "/ping")); [discriminate|]. constructor.
  - set (b := narrow_run _ _ _). vm_compute in b. split; [|reflexivity].
    intros [[|ks|]|k|[|n]|[|n]|[|n]|[|n]]; reflexivity.
  - set (b := narrow_run _ _ _). vm_compute in b. split; [|reflexivity].
    intros [[|ks|]|k|[|n]|[|n]|[|n]|[|n]]; reflexivity.
Qed.

(** [C84] It does come to an end: if the user types "/close" some time, no more than so many things
    can happen, in whatever order and however the bytes are cut. *)
Theorem narrow_ends : forall lines w1 w2 cap acts, never_fails w1 -> never_fails w2 ->
  Forall (fun t => well_formed (octets t) /\ size t <= 104857600) lines -> In (str "/close") lines ->
  (narrow_happened cap acts (narrow_new lines w1 w2) <= 8 * letters lines + 116 * length lines + 166)%nat.
Proof. exact ThmNarrow.narrow_ends_proof. Qed.
Print Assumptions narrow_ends.

Example narrow_ends_ex : narrow_happened 1 (concat (repeat narrow_turns 60)) narrow_start = 105%nat.
Proof. vm_compute. reflexivity. Qed.

(** [C84] And it does get there: if everyone gets a turn again and again, the conversation is
    complete after that many rounds, however little the network holds. *)
Theorem narrow_live : forall lines us w1 w2 cap rounds, never_fails w1 -> never_fails w2 ->
  Forall (fun t => well_formed (octets t) /\ size t <= 104857600) lines -> talks lines us -> (0 < cap)%nat ->
  Forall narrow_round rounds -> (8 * letters lines + 116 * length lines + 166 <= length rounds)%nat ->
  let b := narrow_run cap (concat rounds) (narrow_new lines w1 w2) in
  narrow_rest cap b /\ t_heard (n_talk b) = map Ok (conversation us) /\ t_srv (n_talk b) = Served Returned /\ all_over (t_chat (n_talk b)).
Proof. exact ThmNarrow.narrow_live_proof. Qed.
Print Assumptions narrow_live.

Example narrow_live_ex : narrow_round narrow_turns /\
  (8 * letters narrow_lines + 116 * List.length narrow_lines + 166 <= List.length (repeat narrow_turns 700))%nat /\
  narrow_rest 1 (narrow_run 1 (concat (repeat narrow_turns 700)) narrow_start).
Proof.
  assert (narrow_round narrow_turns) as HF.
  { unfold narrow_round, narrow_turns. repeat split; try (eexists; repeat ((left; reflexivity) || right)); repeat ((left; reflexivity) || right). }
  assert (8 * letters narrow_lines + 116 * List.length narrow_lines + 166 <= List.length (repeat narrow_turns 700))%nat as HN
    by (apply PeanoNat.Nat.leb_le; reflexivity).
  split; [exact HF|]. split; [exact HN|].
  apply (narrow_live narrow_lines [OText (str "hi"); OPing (str "PING")]); try exact HN; try (constructor; fail).
  - unfold narrow_lines. repeat (constructor; [split; [apply ExTac.good_text; reflexivity|vm_compute; discriminate]|]). constructor.
  - apply (talks_line (str "hi")); [discriminate|]. apply (talks_line (str "/ping")); [discriminate|]. constructor.
  - apply Forall_forall. intros r HR. apply repeat_spec in HR. subst r. exact HF.
Qed.
