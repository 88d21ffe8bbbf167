(** A conversation of the asynchronous example client with the asynchronous example server: C80. *)
From Coq Require Import NArith ZArith String Bool List Lia.
From Coq.Strings Require Import Byte.
From Verif.Model Require Import Base Io Header Mask Dataframe Utf8 Text Base64 WsKey Headers
  Handshake Message Receiver Codec Framed Http Connect Examples AsyncExamples Suite AsyncChat AsyncTalk.
From Verif.Spec Require Import RfcFrame FrameSpec Schedule Unicode Drive Session Connection Polled Fields Upgrade Builder HttpHead Wire Endpoint Echo Polls Chat Talking Suite AsyncChat AsyncTalking.
From Verif.Proofs Require Import ExTac.
From Verif.Proofs Require ThmAsyncTalk.
Import ListNotations.
Local Open Scope string_scope.
Local Open Scope list_scope.
Local Open Scope N_scope.

(** ** A conversation that is stuck *)

(** [C80] Whatever the network's room and delays and however the two tasks are scheduled: what the
    user of async-client has been shown is always an initial part of the conversation: the
    greeting, an echo of every line typed before "/close" and the answer to every "/ping", in
    order, and last the server's Close.  Neither task fails. *)
Theorem async_talk_sound : forall cap lines us closed ks b1 b2 acts, Forall sayable lines -> before_close lines us closed ->
  let t := atalk_run cap acts (atalk_new lines ks b1 b2) in
  prefix (at_shown (tk_client t)) (aconversation us closed) /\
  (tk_cend t = None \/ tk_cend t = Some TReady) /\
  (tk_at t = AGreeting \/ tk_at t = AServing \/ tk_at t = AServed TReady).
Proof. exact ThmAsyncTalk.async_talk_sound_proof. Qed.
Print Assumptions async_talk_sound.

(** The user says "hi", "/ping" and "/close"; the network holds five bytes either way. *)
Definition atalk_round : list aact := [AType; APollClient 0; AUp 3; APollServer (mk_key x00 x00 x00 x00) 0; ADown 2].
Definition atalk_lines : list bytes := [str "hi"; str "/ping"; str "/close"].
Definition atalk_start : atalk := atalk_new atalk_lines (fun _ => mk_key x01 x02 x03 x04) 0 0.
Example async_talk_sound_ex :
  before_close atalk_lines [OText (str "hi"); OPing (str "PING")] true /\
  at_shown (tk_client (atalk_run 5 (concat (repeat atalk_round 12)) atalk_start)) = [OText (str "Hello World!"); OText (str "hi")].
Proof.
  split; [|vm_compute; reflexivity].
  apply (before_line (str "hi")); [discriminate|]. apply (before_line (str "/ping")); [discriminate|]. constructor.
Qed.

(** [C80] When the client ends, the user has been shown the whole conversation, the server's task
    has ended too, and nothing is left under way or unread. *)
Theorem async_talk_ends : forall cap lines us closed ks b1 b2 acts, Forall sayable lines -> before_close lines us closed ->
  let t := atalk_run cap acts (atalk_new lines ks b1 b2) in
  tk_cend t <> None ->
  tk_cend t = Some TReady /\ closed = true /\ at_shown (tk_client t) = aconversation us true /\ tk_at t = AServed TReady /\
  tk_up t = [] /\ tk_down t = [] /\ et_in (tk_task t) = [].
Proof. exact ThmAsyncTalk.async_talk_ends_proof. Qed.
Print Assumptions async_talk_ends.

Example async_talk_ends_ex :
  let t := atalk_run 5 (concat (repeat atalk_round 24)) atalk_start in
  tk_cend t = Some TReady /\
  at_shown (tk_client t) = [OText (str "Hello World!"); OText (str "hi"); OPong (str "PING"); OClose None].
Proof. vm_compute. split; reflexivity. Qed.

(** [C80] The network never holds more than its room. *)
Theorem async_talk_bounded : forall cap lines ks b1 b2 acts, Forall sayable lines ->
  let t := atalk_run cap acts (atalk_new lines ks b1 b2) in
  (List.length (tk_up t) + List.length (aev_bytes (et_in (tk_task t))) <= cap)%nat /\
  (List.length (tk_down t) + List.length (aev_bytes (at_in (tk_client t))) <= cap)%nat.
Proof. exact ThmAsyncTalk.async_talk_bounded_proof. Qed.
Print Assumptions async_talk_bounded.

Example async_talk_bounded_ex :
  let t := atalk_run 5 [AType; APollClient 0; AUp 3; APollServer (mk_key x00 x00 x00 x00) 0; ADown 2] atalk_start in
  (List.length (tk_up t) + List.length (aev_bytes (et_in (tk_task t))) = 5)%nat /\
  (List.length (tk_down t) + List.length (aev_bytes (at_in (tk_client t))) = 5)%nat.
Proof. vm_compute. split; reflexivity. Qed.

(** [C80] If what the user will say does not fill the network and the client's buffer, and "/close"
    is among it, the conversation comes to its end, however it is scheduled, once everyone has had
    enough turns. *)
Theorem async_talk_live : forall cap lines ks b1 b2 rounds, Forall sayable lines -> In (ascii "/close") lines ->
  (1 <= cap)%nat -> wont_fill cap lines -> Forall all_act rounds ->
  (11 * letters lines + 157 * List.length lines + 99 <= List.length rounds)%nat ->
  tk_cend (atalk_run cap (concat rounds) (atalk_new lines ks b1 b2)) = Some TReady.
Proof. exact ThmAsyncTalk.async_talk_live_proof. Qed.
Print Assumptions async_talk_live.

Example async_talk_live_ex : all_act atalk_round /\ wont_fill 5 atalk_lines /\
  tk_cend (atalk_run 5 (concat (repeat atalk_round 800)) atalk_start) = Some TReady.
Proof.
  assert (all_act atalk_round) as HF.
  { unfold all_act, atalk_round. repeat split; try (do 2 eexists; repeat ((left; reflexivity) || right)); try (eexists; repeat ((left; reflexivity) || right)); repeat ((left; reflexivity) || right). }
  assert (wont_fill 5 atalk_lines) as HW by (vm_compute; reflexivity).
  split; [exact HF|]. split; [exact HW|].
  apply async_talk_live; [| | |exact HW| |].
  - repeat (constructor; [split; [apply ExTac.good_text; reflexivity|vm_compute; discriminate]|]). constructor.
  - right. right. left. reflexivity.
  - repeat constructor.
  - apply Forall_forall. intros r HR. apply repeat_spec in HR. subst r. exact HF.
  - apply PeanoNat.Nat.leb_le. vm_compute. reflexivity.
Qed.

(** [C80] Without that condition it may not: both sides wait for the other to read, and from then on
    nothing moves, whoever gets a turn: a client that says more than the network and its buffer
    hold reads nothing while it cannot write, and the server neither. *)
Theorem async_talk_live_refuted : exists cap lines ks b1 b2 acts, Forall sayable lines /\ In (ascii "/close") lines /\ (1 <= cap)%nat /\
  forall more, let t := atalk_run cap (acts ++ more) (atalk_new lines ks b1 b2) in
    tk_cend t = None /\ t = atalk_run cap acts (atalk_new lines ks b1 b2).
Proof. exact ThmAsyncTalk.async_talk_live_refuted_proof. Qed.
Print Assumptions async_talk_live_refuted.

(** The lines are sent before anything is read: 8192 bytes and more wait in the client, as many in the server. *)
Example async_talk_live_refuted_ex : ~ wont_fill (N.to_nat 1000) [repeat x61 (N.to_nat 9600); str "/close"].
Proof. vm_compute. discriminate. Qed.
