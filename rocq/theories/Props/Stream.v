(** Streams of frames: C08, C10-C14. *)
From Coq Require Import NArith ZArith String Bool List Lia.
From Coq.Strings Require Import Byte.
From Verif.Model Require Import Base Io Header Mask Dataframe Utf8 Message Receiver Codec Framed.
From Verif.Spec Require Import RfcFrame FrameSpec Schedule Drive.
From Verif.Proofs Require Import ExTac.
From Verif.Proofs Require ThmStream.
Import ListNotations.
Local Open Scope string_scope.
Local Open Scope list_scope.
Local Open Scope N_scope.

(** ** Writers *)

(** [C08] Whatever the transport does, one send emits a prefix of that frame's RFC
    encoding; it reports Ok exactly when all of it was emitted; it never panics. *)
Theorem send_prefix : forall (s : sender) (d : dataframe_ops) (k : mkey) (w : wstream),
  honest d ->
  let key := if s_mask s then Some k else None in
  let frame := rfc_of (df_is_last d) (df_reserved d) (df_opcode d) (concat (df_writes d)) key in
  rfc_sendable frame ->
  exists n, let '(r, w') := send_frame s d k w in
    (exists emitted, w_out w' = w_out w ++ emitted /\ octets emitted = firstn n (rfc_encode frame)
       /\ (r = Ok tt <-> octets emitted = rfc_encode frame)) /\
    (r = Ok tt \/ exists e, r = Err e).
Proof. exact ThmStream.send_prefix_proof. Qed.
Print Assumptions send_prefix.

(** The transport takes three bytes and breaks. *)
Example send_prefix_ex :
  let d := owned_ops (OText (str "hello")) in
  honest d /\ rfc_sendable (rfc_of true no_rsv 1 (str "hello") None) /\
  send_frame (mk_sender false) d (mk_key x00 x00 x00 x00) (mk_w [] [WIntr; WAccept 2; WErr ConnectionReset])
  = (Err (IoError ConnectionReset), mk_w [x81; x05; x68] []).
Proof. cbv zeta. split; [split; reflexivity|]. split; [facts|reflexivity]. Qed.

(** [C08] Sends that all reported Ok put the frames on the wire completely and in call
    order, whatever the transport did in between. *)
Theorem sends_in_order : forall (s : sender) (l : list (dataframe_ops * mkey)) (w : wstream),
  Forall (fun p => honest (fst p)) l ->
  let frame (p : dataframe_ops * mkey) :=
    rfc_of (df_is_last (fst p)) (df_reserved (fst p)) (df_opcode (fst p))
           (concat (df_writes (fst p))) (if s_mask s then Some (snd p) else None) in
  Forall (fun p => N.of_nat (length (concat (df_writes (fst p)))) < 2 ^ 64) l ->
  let '(rs, w') := send_all s l w in
  Forall (fun r => r = Ok tt) rs ->
  octets (w_out w') = octets (w_out w) ++ concat (map (fun p => rfc_encode (frame p)) l).
Proof. exact ThmStream.sends_in_order_proof. Qed.
Print Assumptions sends_in_order.

(** Three sends over a transport that takes one byte, is interrupted, takes three, ... *)
Example sends_in_order_ex :
  let l := [(owned_ops (OText (str "hi")), mk_key x01 x02 x03 x04);
            (df_ops (mk_df false no_rsv Binary (repeat x00 130)), mk_key x05 x06 x07 x08);
            (owned_ops (OClose None), mk_key x09 x0a x0b x0c)] in
  let '(rs, w') := send_all (mk_sender true) l (mk_w [] [WAccept 0; WIntr; WAccept 2; WIntr; WAccept 1]) in
  rs = [Ok tt; Ok tt; Ok tt] /\ length (w_out w') = (8 + (2 + 2 + 4 + 130) + 6)%nat.
Proof. vm_compute. auto. Qed.

(** ** Reading *)

(** [C10] Receiving frames never panics and always returns, for every limit, every
    transport behaviour and every byte received. *)
Theorem recv_frame_no_panic : forall masked max_df max_msg s,
  let '(r, _) := recv_dataframe (receiver_with_limits masked max_df max_msg) s in
  (exists f, r = Ok f) \/ (exists e, r = Err e).
Proof. exact ThmStream.recv_frame_no_panic_proof. Qed.
Print Assumptions recv_frame_no_panic.

(** The largest length the wire can announce, with the largest limit. *)
Example recv_frame_no_panic_ex :
  fst (recv_dataframe (receiver_with_limits false (2 ^ 64 - 1) (2 ^ 64 - 1))
         [RData x82 [x7f; xff; xff; xff; xff; xff; xff; xff; xff]]) = Err (IoError InvalidData).
Proof. reflexivity. Qed.

(** [C10] Nor does the async frame decoder. *)
Theorem decode_no_panic : forall is_server max src,
  let '(r, _) := df_decode (mk_dfc is_server max) src in
  (exists f, r = Ok f) \/ (exists e, r = Err e).
Proof. exact ThmStream.decode_no_panic_proof. Qed.
Print Assumptions decode_no_panic.

Example decode_no_panic_ex :
  df_decode (df_codec_with_limits CtxClient (2 ^ 64 - 1)) [x82; x7f; xff; xff; xff; xff; xff; xff; xff; xff]
  = (Err (ProtocolError "Exceeded maximum incoming DataFrame size"),
     [x82; x7f; xff; xff; xff; xff; xff; xff; xff; xff]).
Proof. reflexivity. Qed.

(** [C10] The unlimited reader does panic: ten bytes from the peer are enough. *)
Theorem unlimited_read_panic_refuted : exists s,
  fst (read_dataframe false s) = Panic /\ length (s : script) = 1%nat.
Proof. exact ThmStream.unlimited_read_panic_refuted_proof. Qed.
Print Assumptions unlimited_read_panic_refuted.

(** [C11] Blocking: a frame is refused for its size exactly when its header announces more
    than the configured limit (capped at [u32::MAX]); no payload byte was then consumed. *)
Theorem frame_limit_blocking : forall masked max_df max_msg s l,
  carries s l ->
  let r := receiver_with_limits masked max_df max_msg in
  (fst (recv_dataframe r s) = Err (IoError InvalidData) <->
   exists n rest, announces l n rest /\ N.min max_df 4294967295 < n) /\
  (forall n rest, announces l n rest -> N.min max_df 4294967295 < n ->
     carries (snd (recv_dataframe r s)) rest).
Proof. exact ThmStream.frame_limit_blocking_proof. Qed.
Print Assumptions frame_limit_blocking.

(** [C11] Async: likewise, as soon as the header is in the buffer, which is left as it is. *)
Theorem frame_limit_async : forall ctx max_df src,
  let c := df_codec_with_limits ctx max_df in
  let e := ProtocolError "Exceeded maximum incoming DataFrame size" in
  (fst (df_decode c src) = Err e <->
   exists n rest, announces src n rest /\ N.min max_df 4294967295 < n) /\
  (fst (df_decode c src) = Err e -> snd (df_decode c src) = src).
Proof. exact ThmStream.frame_limit_async_proof. Qed.
Print Assumptions frame_limit_async.

(** 200 bytes announced, limit 100; the header alone is enough. *)
Example frame_limit_ex : announces [x82; x7e; x00; xc8; x01; x02] 200 [x01; x02].
Proof.
  exists true, no_rsv, 2, None, [x82; x7e; x00; xc8]. vm_compute. intuition discriminate.
Qed.

(** [C12] On every proper prefix of a legal frame's encoding the blocking reader says
    NoDataAvailable and the async decoder asks for more without touching the buffer,
    in either role. *)
Theorem truncated_frame : forall (f : dataframe) (key : option mkey) (p q : bytes),
  rfc_legal (rfc_of_frame f key) ->
  octets (p ++ q) = rfc_encode (rfc_of_frame f key) -> q <> [] ->
  (forall s limit masked, carries s p -> N.of_nat (length (f_data f)) <= limit ->
     limit <= isize_max ->
     fst (read_dataframe_with_limit masked limit s) = Err NoDataAvailable) /\
  (forall max is_server, N.of_nat (length (f_data f)) <= max ->
     df_decode (mk_dfc is_server max) p = (Ok None, p)).
Proof. exact ThmStream.truncated_frame_proof. Qed.
Print Assumptions truncated_frame.

Example truncated_frame_ex :
  let f := mk_df true no_rsv Text (str "hello") in
  rfc_legal (rfc_of_frame f None) /\
  octets ([x81; x05; x68] ++ str "ello") = rfc_encode (rfc_of_frame f None).
Proof. vm_compute. intuition congruence. Qed.

(** [C13] Feeding a byte stream in any chunks, decoding after each, gives the same frames,
    the same error and the same leftover as feeding it at once. *)
Theorem frame_chunking : forall (c : df_codec) (src : bytes) (chunks : list bytes),
  decode_chunks df_decoder c src chunks = decode_buffer df_decoder c (src ++ concat chunks).
Proof. exact ThmStream.frame_chunking_proof. Qed.
Print Assumptions frame_chunking.

(** [C13] The same for the [Framed] stream over any transport schedule: frames delivered
    and how the stream ends depend on the bytes only. *)
Theorem framed_frames_chunking : forall (c : df_codec) buf s1 s2 l,
  acarries s1 l -> acarries s2 l -> run_frames c buf s1 = run_frames c buf s2.
Proof. exact ThmStream.framed_frames_chunking_proof. Qed.
Print Assumptions framed_frames_chunking.

Example frame_chunking_ex :
  decode_chunks df_decoder (mk_dfc false 100) [x81] [[x02; x68]; []; [x69; x82; x01]; [x00; x89]]
  = ([mk_df true no_rsv Text (str "hi"); mk_df true no_rsv Binary [x00]], None,
     mk_dfc false 100, [x89]).
Proof. reflexivity. Qed.

(** [C14] Each decoded frame is taken off the front of the buffer, at least two bytes;
    nothing is taken when more bytes are needed; so at most half as many frames as bytes
    come out of a buffer, and draining it needs no more calls than that plus one. *)
Theorem decode_progress : forall (c : df_codec) (src : bytes),
  match df_decode c src with
  | (Ok (Some f), rest) =>
      exists wire key, src = wire ++ rest /\ octets wire = rfc_encode (rfc_of_frame f key)
                       /\ (2 <= length wire)%nat
  | (Ok None, rest) => rest = src
  | _ => True
  end.
Proof. exact ThmStream.decode_progress_proof. Qed.
Print Assumptions decode_progress.

Example decode_progress_ex :
  df_decode (mk_dfc true 100) [x89; x80; x01; x02; x03; x04; x81; x80]
  = (Ok (Some (mk_df true no_rsv Ping [])), [x81; x80]) /\
  df_decode (mk_dfc true 100) [x81; x80] = (Ok None, [x81; x80]).
Proof. split; reflexivity. Qed.

(** [C14] *)
Theorem decode_terminates : forall (c : df_codec) (src : bytes) (n : nat),
  (length src / 2 < n)%nat ->
  decode_until df_decoder n c src = decode_buffer df_decoder c src /\
  (2 * length (fst (fst (fst (decode_buffer df_decoder c src)))) <= length src)%nat.
Proof. exact ThmStream.decode_terminates_proof. Qed.
Print Assumptions decode_terminates.

(** As many frames as half the bytes. *)
Example decode_terminates_ex :
  decode_until df_decoder 4 (mk_dfc false 100) [x81; x00; x82; x00; x89; x00; x88]
  = ([mk_df true no_rsv Text []; mk_df true no_rsv Binary []; mk_df true no_rsv Ping []], None,
     mk_dfc false 100, [x88]).
Proof. reflexivity. Qed.
