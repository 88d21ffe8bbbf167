(** The chat client of examples/client.rs with the server of examples/async-server.rs: C86. *)
From Coq Require Import NArith ZArith String Bool List Lia.
From Coq.Strings Require Import Byte.
From Verif.Model Require Import Base Io Header Mask Dataframe Utf8 Text Base64 WsKey Headers
  Handshake Message Receiver Codec Framed Http Connect Examples AsyncExamples ChatClient Talk Narrow Suite AsyncChat AsyncTalk Mixture.
From Verif.Spec Require Import RfcFrame FrameSpec Schedule Unicode Drive Session Connection Polled Fields Upgrade Builder HttpHead Wire Endpoint Echo Polls Chat Talking Suite AsyncChat AsyncTalking Mixing.
From Verif.Proofs Require Import ExTac.
From Verif.Proofs Require ThmMixture.
Import ListNotations.
Local Open Scope string_scope.
Local Open Scope list_scope.
Local Open Scope N_scope.

(** ** What follows *)

(** [C86] The chat client of examples/client.rs with the server of examples/async-server.rs, with
    room for [cap] bytes each way and whatever the order in which everyone gets a turn: the client
    never gets an error, what it has heard so far is the beginning of the conversation the user's
    lines call for, it hears a close message only if the user typed "/close", and the server's
    task fails in no way. *)
Theorem across_sound : forall lines w b cap acts, never_fails w ->
  Forall (fun t => well_formed (octets t) /\ size t <= 104857600) lines ->
  let m := mixed_run cap acts (mixed_new lines w b) in
  exists us ms rest, types lines us /\ x_heard m = map Ok ms /\ ms ++ rest = xconversation us /\
    (Exists closing ms -> In (OClose None) us) /\ (forall e, x_at m = AServed e -> e = TReady).
Proof. exact ThmMixture.across_sound_proof. Qed.
Print Assumptions across_sound.

(** The user types a word, "/ping" and "/close"; the network holds a single byte. *)
Definition across_turns : list xact :=
  let k := mk_key x01 x02 x03 x04 in
  [XClient Main; XClient (SendLoop (k, k)); XPush 3; XArrive 2; XPoll k 0; XTake 2; XClient ReceiveLoop].
Definition across_lines : list bytes := [str "hi"; str "/ping"; str "/close"].
Definition across_start : mixed := mixed_new across_lines (mk_w [] []) 0.
Example across_sound_ex :
  (exists a w y z, x_write (mixed_run 1 (concat (repeat across_turns 4)) across_start) = Some (a, w, y :: z)) /\
  x_heard (mixed_run 1 (concat (repeat across_turns 25)) across_start) = [Ok (OText (str "Hello World!")); Ok (OText (str "hi"))].
Proof. split; [do 4 eexists; vm_compute; reflexivity|vm_compute; reflexivity]. Qed.

(** [C86] When the receive loop of the client is over, everything has been said: the client has
    heard the whole conversation, the send loop is over too, and so is the server's task. *)
Theorem across_ends : forall lines us w b cap acts, never_fails w ->
  Forall (fun t => well_formed (octets t) /\ size t <= 104857600) lines -> talks lines us ->
  let m := mixed_run cap acts (mixed_new lines w b) in
  ch_recv (x_chat m) = ReceiveOver \/ ch_main (x_chat m) = Exited ->
  x_heard m = map Ok (xconversation us) /\ ch_send (x_chat m) = SendOver /\ x_write m = None /\ x_at m = AServed TReady.
Proof. exact ThmMixture.across_ends_proof. Qed.
Print Assumptions across_ends.

Example across_ends_ex :
  talks across_lines [OText (str "hi"); OPing (str "PING")] /\
  (let m := mixed_run 1 (concat (repeat across_turns 50)) across_start in
   ch_main (x_chat m) = Exited /\
   x_heard m = [Ok (OText (str "Hello World!")); Ok (OText (str "hi")); Ok (OPong (str "PING")); Ok (OClose None)]).
Proof.
  split; [|vm_compute; split; reflexivity].
  apply (talks_line (str "hi")); [discriminate|]. apply (talks_line (str "/ping")); [discriminate|]. constructor.
Qed.

(** [C86] The network never holds more than its room. *)
Theorem across_room : forall lines w b cap acts, never_fails w ->
  Forall (fun t => well_formed (octets t) /\ size t <= 104857600) lines ->
  let m := mixed_run cap acts (mixed_new lines w b) in
  (List.length (x_up m) + List.length (aev_bytes (et_in (x_task m))) <= cap)%nat /\ (List.length (x_down m) <= cap)%nat.
Proof. exact ThmMixture.across_room_proof. Qed.
Print Assumptions across_room.

Example across_room_ex :
  let m := mixed_run 3 (concat (repeat [XClient Main; XClient (SendLoop (mk_key x01 x02 x03 x04, mk_key x01 x02 x03 x04)); XPush 2; XArrive 1; XPoll (mk_key x01 x02 x03 x04) 0] 2)) across_start in
  (List.length (x_up m) + List.length (aev_bytes (et_in (x_task m))) = 2)%nat /\ (List.length (x_down m) = 3)%nat.
Proof. vm_compute. split; reflexivity. Qed.

(** [C86] And it does get there, however little the network holds, as the client reads while it
    writes: if the user types "/close" some time and everyone gets a turn again and again, the
    conversation is complete after that many rounds and both sides are over.  (With
    examples/async-client.rs in its place it may get stuck: C80.) *)
Theorem across_live : forall lines us w b cap rounds, never_fails w ->
  Forall (fun t => well_formed (octets t) /\ size t <= 104857600) lines -> talks lines us -> (0 < cap)%nat ->
  Forall mixed_round rounds -> (11 * letters lines + 158 * List.length lines + 101 <= List.length rounds)%nat ->
  let m := mixed_run cap (concat rounds) (mixed_new lines w b) in
  all_over (x_chat m) /\ x_heard m = map Ok (xconversation us) /\ x_at m = AServed TReady.
Proof. exact ThmMixture.across_live_proof. Qed.
Print Assumptions across_live.

Example across_live_ex : mixed_round across_turns /\
  (11 * letters across_lines + 158 * List.length across_lines + 101 <= List.length (repeat across_turns 800))%nat /\
  all_over (x_chat (mixed_run 1 (concat (repeat across_turns 800)) across_start)).
Proof.
  assert (mixed_round across_turns) as HF.
  { unfold mixed_round, across_turns. repeat split; try (do 2 eexists; repeat ((left; reflexivity) || right)); try (eexists; repeat ((left; reflexivity) || right)); repeat ((left; reflexivity) || right). }
  assert (11 * letters across_lines + 158 * List.length across_lines + 101 <= List.length (repeat across_turns 800))%nat as HN
    by (apply PeanoNat.Nat.leb_le; vm_compute; reflexivity).
  split; [exact HF|]. split; [exact HN|].
  apply (across_live across_lines [OText (str "hi"); OPing (str "PING")]); try exact HN; try (constructor; fail).
  - unfold across_lines. repeat (constructor; [split; [apply ExTac.good_text; reflexivity|vm_compute; discriminate]|]). constructor.
  - apply (talks_line (str "hi")); [discriminate|]. apply (talks_line (str "/ping")); [discriminate|]. constructor.
  - apply Forall_forall. intros r HR. apply repeat_spec in HR. subst r. exact HF.
Qed.
