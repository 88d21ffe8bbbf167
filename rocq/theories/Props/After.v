(** What a connection does after its stream has ended and after a Close, and what the
    predicates of a message say: C59, C60, C64. *)
From Coq Require Import NArith ZArith String Bool List Lia.
From Coq.Strings Require Import Byte.
From Verif.Model Require Import Base Io Header Mask Dataframe Utf8 Text Base64 WsKey Headers
  Handshake Message Receiver Codec Framed Http Connect.
From Verif.Spec Require Import RfcFrame FrameSpec Schedule Unicode Drive Session Connection Polled.
From Verif.Proofs Require Import ExTac.
From Verif.Proofs Require ThmAfter.
Import ListNotations.
Local Open Scope string_scope.
Local Open Scope list_scope.
Local Open Scope N_scope.

(** ** After the end *)

(** [C59] Once the stream of a blocking receiver is at its end, every further message asked
    for is reported as [NoDataAvailable], without end; the receiver does not change (an
    unfinished message stays unfinished). *)
Theorem nothing_more_blocking : forall n r s, carries s [] ->
  exists s', recv_n n r s = (repeat (Err NoDataAvailable) n, r, s') /\ carries s' [].
Proof. exact ThmAfter.nothing_more_blocking_proof. Qed.
Print Assumptions nothing_more_blocking.

Example nothing_more_blocking_ex :
  carries [RIntr; RIntr] [] /\
  fst (fst (recv_n 4 (receiver_with_limits false 100 1000) [RData x01 [x01; x61; x89; x00]; RIntr; RIntr]))
  = [Ok (OPing []); Err NoDataAvailable; Err NoDataAvailable; Err NoDataAvailable].
Proof. split; [repeat constructor|reflexivity]. Qed.

(** [C59] So an iteration over the messages of a connection sees all that was sent and then
    errors for ever. *)
Theorem iterator_never_ends : forall masked max_df max_msg fs ms ws s n,
  delivers [] fs ms [] ->
  under (capped max_msg) [] fs -> fits (capped max_df) fs ->
  on_wire masked fs ws -> carries s ws ->
  let r := receiver_with_limits masked max_df max_msg in
  exists s', recv_n (length ms + n) r s = (map Ok ms ++ repeat (Err NoDataAvailable) n, r, s').
Proof. exact ThmAfter.iterator_never_ends_proof. Qed.
Print Assumptions iterator_never_ends.

Example iterator_never_ends_ex :
  delivers [] [whole_frame (OPing [])] [OPing []] [] /\
  fst (fst (recv_n (1 + 2) (receiver_with_limits true 100 1000)
    [RData x89 [x80]; RData x01 [x02; x03; x04]]))
  = [Ok (OPing []); Err NoDataAvailable; Err NoDataAvailable].
Proof. split; [apply del_control; [exact I|exact I|constructor]|reflexivity]. Qed.

(** [C59] An asynchronous connection that has ended stays ended however often it is polled. *)
Theorem end_stays : forall s f f' s', framed_poll mc_decode s f = (PEnd, f', s') ->
  forall n s2, poll_n mc_decode n s2 f' = repeat PEnd n.
Proof. exact ThmAfter.end_stays_proof. Qed.
Print Assumptions end_stays.

Example end_stays_ex :
  poll_n mc_decode 4 [AData x89 [x00]; ANotReady] (framed_new (msg_codec_with_limits CtxClient 100 1000) [])
  = [PItem (OPing []); PNotReady; PEnd; PEnd].
Proof. reflexivity. Qed.

(** [C59] One whose stream ended inside a frame delivers the messages before it, and then
    reports the same error at every poll. *)
Theorem broken_off_stays : forall ctx max_df max_msg fs ms p ws f key w1 w2 s,
  delivers [] fs ms p ->
  under (capped max_msg) [] fs -> fits (capped max_df) fs ->
  on_wire (receives_masked ctx) fs ws ->
  rfc_legal (rfc_of_frame f key) -> size (f_data f) <= capped max_df ->
  octets (w1 ++ w2) = rfc_encode (rfc_of_frame f key) -> w1 <> [] -> w2 <> [] ->
  acarries s (ws ++ w1) ->
  exists l, items l = ms /\ going l /\
    forall n, poll_n mc_decode (length l + n) s
                (framed_new (msg_codec_with_limits ctx max_df max_msg) [])
              = l ++ repeat (PErr (IoError (OtherKind 0))) n.
Proof. exact ThmAfter.broken_off_stays_proof. Qed.
Print Assumptions broken_off_stays.

Example broken_off_stays_ex :
  poll_n mc_decode 4 [AData x89 [x00; x81]; ANotReady; AData x02 [x61]]
    (framed_new (msg_codec_with_limits CtxClient 100 1000) [])
  = [PItem (OPing []); PNotReady; PErr (IoError (OtherKind 0)); PErr (IoError (OtherKind 0))].
Proof. reflexivity. Qed.

(** [C59] One whose stream ended between frames delivers its messages, and then is at its end
    at every poll. *)
Theorem ended_stays : forall ctx max_df max_msg fs ms p ws s,
  delivers [] fs ms p ->
  under (capped max_msg) [] fs -> fits (capped max_df) fs ->
  on_wire (receives_masked ctx) fs ws -> acarries s ws ->
  exists l, items l = ms /\ going l /\
    forall n, poll_n mc_decode (length l + n) s
                (framed_new (msg_codec_with_limits ctx max_df max_msg) [])
              = l ++ repeat PEnd n.
Proof. exact ThmAfter.ended_stays_proof. Qed.
Print Assumptions ended_stays.

Example ended_stays_ex :
  poll_n mc_decode 5 [AData x89 [x00; x82]; ANotReady; AData x01 [x61]]
    (framed_new (msg_codec_with_limits CtxClient 100 1000) [])
  = [PItem (OPing []); PNotReady; PItem (OBinary [x61]); PEnd; PEnd].
Proof. reflexivity. Qed.

(** ** After a Close *)

(** [C60] Receiving writes nothing, whatever arrives: no Ping is answered by the library, no
    Close either. *)
Theorem receiving_writes_nothing : forall us c l c',
  Forall (fun u => receives u = true) us -> client_run us c = (l, c') -> c_out c' = c_out c.
Proof. exact ThmAfter.receiving_writes_nothing_proof. Qed.
Print Assumptions receiving_writes_nothing.

Example receiving_writes_nothing_ex :
  let c := mk_client [] (mk_sender true) (receiver_with_limits false 100 1000) [x89]
             [RData x00 [x88; x00]] (mk_w [] []) in
  let '(l, c') := client_run [RecvMessage; RecvMessage; RecvMessage] c in
  l = [Message (Ok (OPing [])); Message (Ok (OClose None)); Message (Err NoDataAvailable)] /\
  w_out (c_out c') = [].
Proof. vm_compute. split; reflexivity. Qed.

(** [C60] RFC 6455, 5.5.1 (nothing is sent, and nothing has to be read, after a Close) is
    left to the application: every message after a Close is written ... *)
Theorem sends_after_close : forall s (pre post : list (owned * mkey)) c k script,
  Forall (fun p => sendable (2 ^ 32) (fst p)) (pre ++ (OClose c, k) :: post) ->
  let l := map (fun p => (owned_ops (fst p), snd p)) (pre ++ (OClose c, k) :: post) in
  let '(rs, w) := send_all s l (mk_w [] script) in
  Forall (fun r => r = Ok tt) rs ->
  octets (w_out w)
  = concat (map (fun p => rfc_encode (rfc_of_frame (whole_frame (fst p))
                                        (if s_mask s then Some (snd p) else None)))
              (pre ++ (OClose c, k) :: post)).
Proof. exact ThmAfter.sends_after_close_proof. Qed.
Print Assumptions sends_after_close.

Example sends_after_close_ex :
  let k := mk_key x00 x00 x00 x00 in
  sendable (2 ^ 32) (OClose None) /\
  send_all (mk_sender false) [(owned_ops (OClose None), k); (owned_ops (OText (str "a")), k)] (mk_w [] [])
  = ([Ok tt; Ok tt], mk_w [x88; x00; x81; x01; x61] []).
Proof. cbv zeta. split; [facts|reflexivity]. Qed.

(** [C60] ... and every message that arrives after a Close is delivered. *)
Theorem receives_after_close : forall masked max_df max_msg pre c post ws s,
  Forall (sendable (capped max_df)) (pre ++ OClose c :: post) ->
  on_wire masked (map whole_frame (pre ++ OClose c :: post)) ws -> carries s ws ->
  let r := receiver_with_limits masked max_df max_msg in
  exists s', recv_n (length pre + 1 + length post) r s
             = (map Ok pre ++ [Ok (OClose c)] ++ map Ok post, r, s').
Proof. exact ThmAfter.receives_after_close_proof. Qed.
Print Assumptions receives_after_close.

Example receives_after_close_ex :
  Forall (sendable (capped 100)) ([] ++ OClose None :: [OText (str "a")]) /\
  on_wire false (map whole_frame ([] ++ OClose None :: [OText (str "a")])) [x88; x00; x81; x01; x61] /\
  fst (fst (recv_n 2 (receiver_with_limits false 100 1000) [RData x88 [x00; x81; x01; x61]]))
  = [Ok (OClose None); Ok (OText (str "a"))].
Proof.
  split; [facts|]. split; [|reflexivity].
  apply (wire_cons _ _ None [x88; x00] _ [x81; x01; x61]); [reflexivity|reflexivity|].
  apply (wire_cons _ _ None [x81; x01; x61] _ []); [reflexivity|reflexivity|constructor].
Qed.

(** [C60] So the library does not keep RFC 6455, 5.5.1 by itself: a connection on which a Close
    was sent and one was received still sends and delivers data. *)
Theorem nothing_after_close_refuted : exists c k l c',
  client_run [SendMessage (OClose None) k; RecvMessage; SendMessage (OText (str "a")) k; RecvMessage] c
  = (l, c') /\
  l = [Sent (Ok tt); Message (Ok (OClose None)); Sent (Ok tt); Message (Ok (OText (str "b")))] /\
  w_out (c_out c) = [] /\ w_out (c_out c') <> [x88; x80; x00; x00; x00; x00].
Proof. exact ThmAfter.nothing_after_close_refuted_proof. Qed.
Print Assumptions nothing_after_close_refuted.

(** ** Kinds of messages *)

(** [C64] What the predicates of a message say is what the first octet it is sent with says
    (RFC 6455, 5.2: the opcode; 5.5: control frames have its highest bit set). *)
Theorem kinds : forall (s : sender) (m : owned) k w w', typed m ->
  send_message s m k w = (Ok tt, w') ->
  exists b rest, w_out w' = w_out w ++ b :: rest /\
    let op := Byte.to_N b mod 16 in
    (is_control m = true <-> 8 <= op) /\ (is_data m = true <-> op < 8) /\
    (is_close m = true <-> op = 8) /\ (is_ping m = true <-> op = 9) /\ (is_pong m = true <-> op = 10).
Proof. exact ThmAfter.kinds_proof. Qed.
Print Assumptions kinds.

(** A server sends a Pong: the first octet ends in 10. *)
Example kinds_ex :
  typed (OPong (str "a")) /\
  send_message (mk_sender false) (OPong (str "a")) (mk_key x00 x00 x00 x00) (mk_w [x01] [])
  = (Ok tt, mk_w ([x01] ++ x8a :: [x01; x61]) []) /\
  Byte.to_N x8a mod 16 = 10 /\ is_control (OPong (str "a")) = true /\ is_pong (OPong (str "a")) = true /\
  is_ping (OPong (str "a")) = false /\ is_close (OPong (str "a")) = false /\ is_data (OPong (str "a")) = false.
Proof. repeat split. Qed.
