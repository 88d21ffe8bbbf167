(** An asynchronous connection waits only for its transport: C68. *)
From Coq Require Import NArith ZArith String Bool List Lia.
From Coq.Strings Require Import Byte.
From Verif.Model Require Import Base Io Header Mask Dataframe Utf8 Text Base64 WsKey Headers
  Handshake Message Receiver Codec Framed Http Connect.
From Verif.Spec Require Import RfcFrame FrameSpec Schedule Unicode Drive Session Fields HttpHead Connection Polled Polls.
From Verif.Proofs Require Import ExTac.
From Verif.Proofs Require ThmWake.
Import ListNotations.
Local Open Scope string_scope.
Local Open Scope list_scope.
Local Open Scope N_scope.

(** ** Reading *)

(** [C68] Whatever the codec - frames, messages, HTTP requests and responses: a poll of the
    stream that is not ready has read all the transport had and was told, last, to wait.  So
    the task that polls is woken when there is more. *)
Theorem stream_waits : forall St Item
  (decode : St -> bytes -> result (option Item) ws_error * St * bytes) s f f' s',
  framed_poll decode s f = (PNotReady, f', s') -> read_waits s s'.
Proof. exact ThmWake.stream_waits_proof. Qed.
Print Assumptions stream_waits.

Example stream_waits_ex :
  framed_poll mc_decode [AData x01 []; ANotReady; AData x61 []]
    (framed_new (msg_codec_with_limits CtxClient 100 100) [x81])
  = (PNotReady, mk_framed (msg_codec_with_limits CtxClient 100 100) [x81; x01] false false, [AData x61 []]).
Proof. vm_compute. reflexivity. Qed.

(** [C68] And while it waits it sits on nothing it could have given out: in what it has read
    and kept there is no whole message.  (If the stream ended here, no message would come.) *)
Theorem nothing_held_messages : forall c buf s s1 f1 s2 f2,
  polled mc_decode s (framed_new c buf) s1 f1 ->
  framed_poll mc_decode s1 f1 = (PNotReady, f2, s2) ->
  fst (run_messages (fr_st f2) (fr_buf f2) []) = [].
Proof. exact ThmWake.nothing_held_messages_proof. Qed.
Print Assumptions nothing_held_messages.

(** A ping comes out at the second poll; the third waits, having kept the beginning of a text. *)
Example nothing_held_ex :
  let c := msg_codec_with_limits CtxClient 100 100 in
  let s := [ANotReady; AData x89 [x00; x81; x02; x61]; ANotReady; AData x62 []] in
  exists s1 f1 f2, polled mc_decode s (framed_new c []) s1 f1 /\
    framed_poll mc_decode s1 f1 = (PNotReady, f2, [AData x62 []]) /\ fr_buf f2 = [x81; x02; x61].
Proof.
  cbv zeta. eexists _, _, _. split.
  - eapply polled_wait; [vm_compute; reflexivity|]. eapply polled_item; [vm_compute; reflexivity|]. apply polled_not.
  - split; vm_compute; reflexivity.
Qed.

(** [C68] Likewise for a stream of frames. *)
Theorem nothing_held_frames : forall c buf s s1 f1 s2 f2,
  polled df_decoder s (framed_new c buf) s1 f1 ->
  framed_poll df_decoder s1 f1 = (PNotReady, f2, s2) ->
  fst (run_frames (fr_st f2) (fr_buf f2) []) = [].
Proof. exact ThmWake.nothing_held_frames_proof. Qed.
Print Assumptions nothing_held_frames.

Example nothing_held_frames_ex :
  let c := mk_dfc false 100 in
  let s := [AData x01 [x01; x61; x80]; ANotReady; AData x00 []] in
  exists s1 f1 f2, polled df_decoder s (framed_new c []) s1 f1 /\
    framed_poll df_decoder s1 f1 = (PNotReady, f2, [AData x00 []]) /\ fr_buf f2 = [x80].
Proof.
  cbv zeta. eexists _, _, _. split.
  - eapply polled_item; [vm_compute; reflexivity|]. apply polled_not.
  - split; vm_compute; reflexivity.
Qed.

(** [C68] Refuted of the handshake: two empty lines before a request (a client may send them,
    RFC 7230 3.5 asks servers to skip at least one; the blocking server skips them) and the
    asynchronous server waits with the whole request in its buffer.  It answers when the
    client sends something more, which a client that waits for the answer does not. *)
Theorem nothing_held_handshake_refuted : exists request f u,
  framed_poll (http_decode (try_request httparse_lib)) [AData CR ([LF; CR; LF] ++ request); ANotReady] (framed_new tt [])
    = (PNotReady, f, []) /\ fr_buf f = request /\
  async_into_ws httparse_lib (apush_back request []) (mk_fw (mk_bm [] 0) [] [] []) = Ok u /\
  exists u', into_ws httparse_lib (push_back ([CR; LF; CR; LF] ++ request) []) (mk_w [] []) = Ok u' /\
    up_request u' = au_request u.
Proof. exact ThmWake.nothing_held_handshake_refuted_proof. Qed.
Print Assumptions nothing_held_handshake_refuted.

(** ** Writing *)

(** [C68] A flush that is not ready was told to wait: by the transport's write, or, everything
    being written, by its flush. *)
Theorem flush_waits : forall w w', poll_complete w = (SNotReady, w') ->
  write_waits (fw_ws w) (fw_ws w') \/
  (bm_data (fw_buf w') = [] /\ fw_out w' = fw_out w ++ bm_data (fw_buf w) /\ fw_fs w = AfNotReady :: fw_fs w').
Proof. exact ThmWake.flush_waits_proof. Qed.
Print Assumptions flush_waits.

Example flush_waits_ex :
  poll_complete (mk_fw (mk_bm [x61; x62] 8) [] [AwAccept 0; AwNotReady; AwZero] [AfNotReady])
  = (SNotReady, mk_fw (mk_bm [x62] 7) [x61] [AwZero] [AfNotReady]) /\
  poll_complete (mk_fw (mk_bm [x61] 8) [] [] [AfNotReady]) = (SNotReady, mk_fw (mk_bm [] 7) [x61] [] []).
Proof. split; reflexivity. Qed.

(** [C68] A sink that does not take a frame was told to wait, in the same call, by the
    transport's write. *)
Theorem sink_waits : forall is_server d k extra w w',
  start_send is_server d k extra w = (SNotReady, w') ->
  write_waits (fw_ws w) (fw_ws w') /\ fw_out w' ++ bm_data (fw_buf w') = fw_out w ++ bm_data (fw_buf w).
Proof. exact ThmWake.sink_waits_proof. Qed.
Print Assumptions sink_waits.

Example sink_waits_ex :
  start_send true (owned_ops (OPing [])) (mk_key x00 x00 x00 x00) 0 (mk_fw (mk_bm (repeat x61 (N.to_nat 8192)) 8192) [] [AwNotReady] [])
  = (SNotReady, mk_fw (mk_bm (repeat x61 (N.to_nat 8192)) 8192) [] [] []).
Proof. vm_compute. reflexivity. Qed.
