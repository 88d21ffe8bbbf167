(** What is left of a connection after something went wrong: sending again after a failed send,
    and the stream behind a rejected request: C55, C56. *)
From Coq Require Import NArith ZArith String Bool List Lia.
From Coq.Strings Require Import Byte.
From Verif.Model Require Import Base Io Header Mask Dataframe Utf8 Text Base64 WsKey Headers
  Handshake Message Receiver Codec Framed Http Connect.
From Verif.Spec Require Import RfcFrame FrameSpec Fields Upgrade Builder HttpHead Connection.
From Verif.Proofs Require Import ExTac.
From Verif.Proofs Require ThmFaults.
Import ListNotations.
Local Open Scope string_scope.
Local Open Scope list_scope.
Local Open Scope N_scope.

(** ** Sending again *)

(** [C55] Sending again after a failed send: the wire then has a part of the frame, a proper
    one, and after it the whole frame; and this is that frame once (under any masking key)
    exactly if the first attempt had put nothing on the wire. *)
Theorem send_again : forall (s : sender) (d : dataframe_ops) (k1 k2 : mkey) w w1 e w2,
  honest d ->
  let frame (k : mkey) := rfc_of (df_is_last d) (df_reserved d) (df_opcode d) (concat (df_writes d))
                            (if s_mask s then Some k else None) in
  rfc_sendable (frame k1) -> rfc_sendable (frame k2) ->
  send_frame s d k1 w = (Err e, w1) -> send_frame s d k2 w1 = (Ok tt, w2) ->
  exists part n,
    w_out w1 = w_out w ++ part /\ octets part = firstn n (rfc_encode (frame k1)) /\
    octets part <> rfc_encode (frame k1) /\
    octets (w_out w2) = octets (w_out w) ++ octets part ++ rfc_encode (frame k2) /\
    ((exists k, octets (w_out w2) = octets (w_out w) ++ rfc_encode (frame k)) <-> w_out w1 = w_out w).
Proof. exact ThmFaults.send_again_proof. Qed.
Print Assumptions send_again.

(** One octet on the wire before the error; then the second attempt. *)
Example send_again_ex :
  let d := owned_ops (OBinary [x61]) in
  let k := mk_key x00 x00 x00 x00 in
  let w1 := mk_w [x82] [WAccept 0] in
  honest d /\
  send_frame (mk_sender false) d k (mk_w [] [WAccept 0; WErr WouldBlock; WAccept 0]) = (Err (IoError WouldBlock), w1) /\
  send_frame (mk_sender false) d k w1 = (Ok tt, mk_w [x82; x82; x01; x61] []).
Proof. split; [split; reflexivity|]. split; vm_compute; reflexivity. Qed.

(** [C55] Refuted therefore that a send can be tried again after [WouldBlock]: the second
    attempt reports success, and the peer receives another message, without an error. *)
Theorem send_again_refuted : exists m k w w1 w2 got,
  send_message (mk_sender false) m k w = (Err (IoError WouldBlock), w1) /\
  send_message (mk_sender false) m k w1 = (Ok tt, w2) /\
  fst (fst (recv_message (receiver_new false) (push_back (w_out w2) []))) = Ok got /\ got <> m.
Proof. exact ThmFaults.send_again_refuted_proof. Qed.
Print Assumptions send_again_refuted.

(** ** After a rejection *)

(** [C56] The asynchronous [reject] hands back everything the client sent after its request:
    whatever protocol goes on with the stream it returns reads exactly what comes after the
    head. *)
Theorem async_reject_keeps : forall X m t v fs head s s' w, sound_lib X ->
  request_head X m t v fs head -> (length fs <= 100)%nat -> target_accepted X t ->
  ends_first head -> aflows s head s' ->
  Forall (fun x => fst x) (request_conditions (method_named m) v fs) ->
  exists u, async_into_ws X s w = Ok u /\
    forall custom extra f s1 w1, async_reject custom extra u = Ok (f, s1, w1) ->
    forall codec n,
      poll_n mc_decode n (ac_in (update_framed_codec f s1 w1 codec)) (ac_read (update_framed_codec f s1 w1 codec))
      = poll_n mc_decode n s' (framed_new codec []).
Proof. exact ThmFaults.async_reject_keeps_proof. Qed.
Print Assumptions async_reject_keeps.

Example async_reject_keeps_ex :
  let head := str "GET / HTTP/1.1" ++ crlf ++ str "Upgrade: websocket" ++ crlf ++ str "Connection: upgrade" ++ crlf ++
    str "Sec-WebSocket-Key: dGhlIHNhbXBsZSBub25jZQ==" ++ crlf ++ crlf in
  exists u f w1, async_into_ws httparse_lib (apush_back (head ++ str "NEXT") []) (mk_fw (mk_bm [] 0) [] [] []) = Ok u /\
    async_reject None 0 u = Ok (f, [], w1) /\ fr_buf f = str "NEXT".
Proof.
  do 3 eexists. split; [vm_compute; reflexivity|]. split; [vm_compute; reflexivity|]. vm_compute. reflexivity.
Qed.

(** [C56] The blocking [reject] hands back the bare stream: what the client had sent after its
    request, up to what is in [up_buffer], is gone, and the rest is there. *)
Theorem reject_returns : forall X s w u custom s1 w1, sound_lib X ->
  into_ws X s w = Ok u -> reject custom u = Ok (s1, w1) ->
  exists head m t v fs buffered,
    request_head X m t v fs head /\ up_buffer u = Some buffered /\
    first_come (head ++ buffered) (spread s1) s.
Proof. exact ThmFaults.reject_returns_proof. Qed.
Print Assumptions reject_returns.

(** The client sent "NEXT" in the same packet as its request, and "MORE" in another: the first is
    gone with the buffer. *)
Example reject_returns_ex :
  let head := str "GET / HTTP/1.1" ++ crlf ++ str "Upgrade: websocket" ++ crlf ++ str "Connection: upgrade" ++ crlf ++
    str "Sec-WebSocket-Key: dGhlIHNhbXBsZSBub25jZQ==" ++ crlf ++ crlf in
  exists u w1, into_ws httparse_lib (push_back (head ++ str "NEXT") (push_back (str "MORE") [])) (mk_w [] []) = Ok u /\
    up_buffer u = Some (str "NEXT") /\ reject None u = Ok (push_back (str "MORE") [], w1).
Proof.
  do 2 eexists. split; [vm_compute; reflexivity|]. split; vm_compute; reflexivity.
Qed.

(** [C56] Refuted therefore that the rejected stream goes on where the request ends. *)
Theorem reject_keeps_refuted : exists head next u s1 w1,
  ends_first head /\ next <> [] /\
  into_ws httparse_lib (push_back (head ++ next) []) (mk_w [] []) = Ok u /\
  reject None u = Ok (s1, w1) /\ spread s1 = [].
Proof. exact ThmFaults.reject_keeps_refuted_proof. Qed.
Print Assumptions reject_keeps_refuted.
