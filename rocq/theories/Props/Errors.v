(** What the error [NoDataAvailable] means: C65. *)
From Coq Require Import NArith ZArith String Bool List Lia.
From Coq.Strings Require Import Byte.
From Verif.Model Require Import Base Io Header Mask Dataframe Utf8 Text Base64 WsKey Headers
  Handshake Message Receiver Codec Framed Http Connect.
From Verif.Spec Require Import RfcFrame FrameSpec Schedule Unicode Drive Session Connection Polled.
From Verif.Proofs Require Import ExTac.
From Verif.Proofs Require ThmErrors.
Import ListNotations.
Local Open Scope string_scope.
Local Open Scope list_scope.
Local Open Scope N_scope.

(** ** Asynchronous *)

(** [C65] Blocking: the error [NoDataAvailable] means that the stream has ended, or that the
    frame just consumed was a Close frame whose payload is a single byte. *)
Theorem no_data_blocking : forall masked max_df max_msg s l n xs r' s',
  carries s l ->
  recv_n n (receiver_with_limits masked max_df max_msg) s = (xs ++ [Err NoDataAvailable], r', s') ->
  exists l', carries s' l' /\
    (l' = [] \/
     exists before w a key, l = before ++ w ++ l' /\
       octets w = rfc_encode (rfc_of_frame (mk_df true no_rsv Close [a]) key)).
Proof. exact ThmErrors.no_data_blocking_proof. Qed.
Print Assumptions no_data_blocking.

Example no_data_blocking_ex :
  recv_n 2 (receiver_with_limits false 100 100) [RData x81 [x01; x61]] =
    ([Ok (OText [x61]); Err NoDataAvailable], receiver_with_limits false 100 100, []).
Proof. vm_compute. reflexivity. Qed.

(** [C65] Asynchronous: the codec asks for more bytes instead of failing when a frame is not
    complete, so here the error always means the latter. *)
Theorem no_data_async : forall ctx max_df max_msg src n xs c' rest,
  decode_n mc_decode n (msg_codec_with_limits ctx max_df max_msg) src =
    (xs ++ [Err NoDataAvailable], c', rest) ->
  exists before w a key, src = before ++ w ++ rest /\
    octets w = rfc_encode (rfc_of_frame (mk_df true no_rsv Close [a]) key).
Proof. exact ThmErrors.no_data_async_proof. Qed.
Print Assumptions no_data_async.

Example no_data_async_ex :
  decode_n mc_decode 2 (msg_codec_with_limits CtxClient 100 100)
    [x81; x01; x61; x88; x01; x41; x81] =
    ([Ok (Some (OText [x61])); Err NoDataAvailable], msg_codec_with_limits CtxClient 100 100, [x81]).
Proof. vm_compute. reflexivity. Qed.

(** [C65] So it does not mean that the stream has ended: after a Close frame with a payload of
    one byte, which RFC 6455 (5.5.1) does not allow and which should be reported as a protocol
    error, both sides report [NoDataAvailable] with messages still to come, which the next calls
    return. *)
Theorem no_data_is_the_end_refuted :
  exists l,
    (forall s, carries s l -> exists s', carries s' [] /\
      recv_n 2 (receiver_new false) s =
        ([Err NoDataAvailable; Ok (OText [x61])], receiver_new false, s')) /\
    decode_n mc_decode 2 (msg_codec_new CtxClient) l =
      ([Err NoDataAvailable; Ok (Some (OText [x61]))], msg_codec_new CtxClient, []).
Proof. exact ThmErrors.no_data_is_the_end_refuted_proof. Qed.
Print Assumptions no_data_is_the_end_refuted.
