(** A conversation of the asynchronous example client with the blocking example server: C87. *)
From Coq Require Import NArith ZArith String Bool List Lia.
From Coq.Strings Require Import Byte.
From Verif.Model Require Import Base Io Header Mask Dataframe Utf8 Text Base64 WsKey Headers
  Handshake Message Receiver Codec Framed Http Connect Examples AsyncExamples Suite ChatClient Talk Narrow AsyncChat AsyncTalk Crossed.
From Verif.Spec Require Import RfcFrame FrameSpec Schedule Unicode Drive Session Connection Polled Fields Upgrade Builder HttpHead Wire Endpoint Echo Polls Chat Talking Suite AsyncChat AsyncTalking Crossing.
From Verif.Proofs Require Import ExTac.
From Verif.Proofs Require ThmCrossed.
Import ListNotations.
Local Open Scope string_scope.
Local Open Scope list_scope.
Local Open Scope N_scope.

(** ** A conversation that is stuck *)

(** [C87] Whatever the network's room and delays and however the client's task and the server's
    thread are scheduled: what the user of async-client has been shown by server.rs is always an
    initial part of the conversation: the greeting, an echo of every line typed before "/close" and
    the answer to every "/ping", in order, and last the server's Close.  The client does not fail
    and the server does not panic. *)
Theorem crossed_sound : forall cap lines us closed ks b w acts, never_fails w -> Forall sayable lines -> before_close lines us closed ->
  let t := crossed_run cap acts (crossed_new lines ks b w) in
  prefix (at_shown (y_client t)) (yconversation us closed) /\
  (y_cend t = None \/ y_cend t = Some TReady) /\
  (y_srv t = Greeting \/ y_srv t = Serving \/ y_srv t = Served Returned).
Proof. exact ThmCrossed.crossed_sound_proof. Qed.
Print Assumptions crossed_sound.

(** The user says "hi", "/ping" and "/close"; the network holds five bytes either way. *)
Definition crossed_turns : list yact := [YType; YPoll 0; YTake 3; YServe (mk_key x00 x00 x00 x00); YPush 4; YArrive 2].
Definition crossed_lines : list bytes := [str "hi"; str "/ping"; str "/close"].
Definition crossed_start : crossed := crossed_new crossed_lines (fun _ => mk_key x01 x02 x03 x04) 0 (mk_w [] []).
Example crossed_sound_ex :
  before_close crossed_lines [OText (str "hi"); OPing (str "PING")] true /\
  at_shown (y_client (crossed_run 5 (concat (repeat crossed_turns 9)) crossed_start)) = [OText (str "Hello"); OText (str "hi")].
Proof.
  split; [|vm_compute; reflexivity].
  apply (before_line (str "hi")); [discriminate|]. apply (before_line (str "/ping")); [discriminate|]. constructor.
Qed.

(** [C87] When the client ends, the user has been shown the whole conversation, the server's thread
    has returned, and nothing is left under way. *)
Theorem crossed_ends : forall cap lines us closed ks b w acts, never_fails w -> Forall sayable lines -> before_close lines us closed ->
  let t := crossed_run cap acts (crossed_new lines ks b w) in
  y_cend t <> None ->
  y_cend t = Some TReady /\ closed = true /\ at_shown (y_client t) = yconversation us true /\ y_srv t = Served Returned /\
  y_write t = None /\ y_up t = [] /\ y_down t = [].
Proof. exact ThmCrossed.crossed_ends_proof. Qed.
Print Assumptions crossed_ends.

Example crossed_ends_ex :
  let t := crossed_run 5 (concat (repeat crossed_turns 24)) crossed_start in
  y_cend t = Some TReady /\
  at_shown (y_client t) = [OText (str "Hello"); OText (str "hi"); OPong (str "PING"); OClose None].
Proof. vm_compute. split; reflexivity. Qed.

(** [C87] The network never holds more than its room. *)
Theorem crossed_bounded : forall cap lines ks b w acts, never_fails w -> Forall sayable lines ->
  let t := crossed_run cap acts (crossed_new lines ks b w) in
  (List.length (y_up t) <= cap)%nat /\
  (List.length (y_down t) + List.length (aev_bytes (at_in (y_client t))) <= cap)%nat.
Proof. exact ThmCrossed.crossed_bounded_proof. Qed.
Print Assumptions crossed_bounded.

Example crossed_bounded_ex :
  let t := crossed_run 5 [YType; YPoll 0; YServe (mk_key x00 x00 x00 x00); YPush 9; YArrive 2] crossed_start in
  List.length (y_up t) = 5%nat /\
  (List.length (y_down t) + List.length (aev_bytes (at_in (y_client t))) = 5)%nat.
Proof. vm_compute. split; reflexivity. Qed.

(** [C87] If what the user will say does not fill the network and the client's buffer, and "/close"
    is among it, the conversation comes to its end, however it is scheduled, once everyone has had
    enough turns. *)
Theorem crossed_live : forall cap lines ks b w rounds, never_fails w -> Forall sayable lines -> In (ascii "/close") lines ->
  (1 <= cap)%nat -> wont_fill cap lines -> Forall crossed_round rounds ->
  (11 * letters lines + 157 * List.length lines + 100 <= List.length rounds)%nat ->
  y_cend (crossed_run cap (concat rounds) (crossed_new lines ks b w)) = Some TReady.
Proof. exact ThmCrossed.crossed_live_proof. Qed.
Print Assumptions crossed_live.

Example crossed_live_ex : crossed_round crossed_turns /\ wont_fill 5 crossed_lines /\
  y_cend (crossed_run 5 (concat (repeat crossed_turns 800)) crossed_start) = Some TReady.
Proof.
  assert (crossed_round crossed_turns) as HF.
  { unfold crossed_round, crossed_turns. repeat split; try (eexists; repeat ((left; reflexivity) || right)); repeat ((left; reflexivity) || right). }
  assert (wont_fill 5 crossed_lines) as HW by (vm_compute; reflexivity).
  split; [exact HF|]. split; [exact HW|].
  apply crossed_live; [| | | |exact HW| |].
  - constructor.
  - repeat (constructor; [split; [apply ExTac.good_text; reflexivity|vm_compute; discriminate]|]). constructor.
  - right. right. left. reflexivity.
  - repeat constructor.
  - apply Forall_forall. intros r HR. apply repeat_spec in HR. subst r. exact HF.
  - apply PeanoNat.Nat.leb_le. vm_compute. reflexivity.
Qed.

(** [C87] Without that condition it may not: the client reads nothing while it cannot write, the
    server reads nothing while it is in a write, and from then on nothing moves, whoever gets a
    turn. *)
Theorem crossed_live_refuted : exists cap lines ks b w acts, never_fails w /\ Forall sayable lines /\ In (ascii "/close") lines /\ (1 <= cap)%nat /\
  forall more, let t := crossed_run cap (acts ++ more) (crossed_new lines ks b w) in
    y_cend t = None /\ t = crossed_run cap acts (crossed_new lines ks b w).
Proof. exact ThmCrossed.crossed_live_refuted_proof. Qed.
Print Assumptions crossed_live_refuted.
