(** Frames: C01-C08, C10-C12, C14. *)
From Coq Require Import NArith ZArith String Bool List Lia.
From Coq.Strings Require Import Byte.
From Verif.Model Require Import Base Io Header Mask Dataframe Utf8 Message Receiver Codec Framed.
From Verif.Spec Require Import RfcFrame FrameSpec Schedule.
From Verif.Proofs Require Import ExTac.
From Verif.Proofs Require ThmFrames.
Import ListNotations.
Local Open Scope string_scope.
Local Open Scope list_scope.
Local Open Scope N_scope.

(** [C01] Every frame that is legal on the wire, written with any key, is read back
    unchanged by every reader in the matching role, and the bytes after it are left:
    [read_dataframe_with_limit] and [read_dataframe] for every way the reads are cut
    and interrupted, [DataFrameCodec::decode] for every buffer. *)
Theorem frame_round_trip : forall (f : dataframe) (key : option mkey),
  rfc_legal (rfc_of_frame f key) ->
  exists wire,
    (forall out, write_to (df_ops f) key (mk_w out []) = (Ok tt, mk_w (out ++ wire) [])) /\
    let masked := match key with Some _ => true | None => false end in
    (forall rest s limit, carries s (wire ++ rest) ->
       llen (f_data f) <= limit -> limit <= isize_max ->
       exists s', read_dataframe_with_limit masked limit s = (Ok f, s') /\ carries s' rest) /\
    (forall rest s, carries s (wire ++ rest) -> llen (f_data f) <= isize_max ->
       exists s', read_dataframe masked s = (Ok f, s') /\ carries s' rest) /\
    (forall rest max, llen (f_data f) <= max ->
       df_decode (mk_dfc masked max) (wire ++ rest) = (Ok (Some f), rest)).
Proof. exact ThmFrames.frame_round_trip_proof. Qed.
Print Assumptions frame_round_trip.

(** A masked, non-final text frame with RSV1 set and a 300-byte payload. *)
Example frame_round_trip_ex :
  rfc_legal (rfc_of_frame (mk_df false (true, false, false) Text (repeat x61 300))
                          (Some (mk_key x01 x02 x03 x04))).
Proof. vm_compute. intuition congruence. Qed.

(** [C02] What is handed to the transport is the RFC 6455 layout, for any user frame
    type that is honest about its size, any key and whatever was written before. *)
Theorem emitted_layout : forall (d : dataframe_ops) (key : option mkey) (out : bytes),
  honest d ->
  rfc_sendable (rfc_of (df_is_last d) (df_reserved d) (df_opcode d) (concat (df_writes d)) key) ->
  exists wire, write_to d key (mk_w out []) = (Ok tt, mk_w (out ++ wire) []) /\
    octets wire
    = rfc_encode (rfc_of (df_is_last d) (df_reserved d) (df_opcode d) (concat (df_writes d)) key).
Proof. exact ThmFrames.emitted_layout_proof. Qed.
Print Assumptions emitted_layout.

(** A frame type of the user's own, written in two pieces, with RSV2 and a reserved opcode. *)
Example emitted_layout_ex :
  let d := mk_ops false 3 (false, true, false) 3 [str "a"; str "bc"] None (str "abc") in
  honest d /\ rfc_sendable (rfc_of false (false, true, false) 3 (str "abc") None) /\
  write_to d None (mk_w [x00] []) = (Ok tt, mk_w [x00; x23; x03; x61; x62; x63] []).
Proof. cbv zeta. split; [split; reflexivity|]. split; [facts|reflexivity]. Qed.

(** [C02] In particular every message: opcode by its kind, FIN set, no reserved bit,
    the payload its bytes (for a close: the code in network order, then the reason). *)
Theorem emitted_message_layout : forall (m : owned) (key : option mkey) (out : bytes),
  let payload := match m with
                 | OText d | OBinary d | OPing d | OPong d => octets d
                 | OClose (Some c) => network_order 2 (c_status c) ++ octets (c_reason c)
                 | OClose None => []
                 end in
  let op := match m with
            | OText _ => 1 | OBinary _ => 2 | OClose _ => 8 | OPing _ => 9 | OPong _ => 10 end in
  N.of_nat (length payload) < 2 ^ 64 ->
  (8 <= op -> N.of_nat (length payload) <= 125) ->
  exists wire, write_to (owned_ops m) key (mk_w out []) = (Ok tt, mk_w (out ++ wire) []) /\
    octets wire = rfc_encode {| rf_fin := true; rf_rsv1 := false; rf_rsv2 := false;
                                rf_rsv3 := false; rf_opcode := op; rf_key := octet_key key;
                                rf_payload := payload |}.
Proof. exact ThmFrames.emitted_message_layout_proof. Qed.
Print Assumptions emitted_message_layout.

Example emitted_message_layout_ex :
  exists wire,
    write_to (owned_ops (OClose (Some (mk_close 1000 (str "bye"))))) None (mk_w [] [])
      = (Ok tt, mk_w wire [])
    /\ octets wire = [136; 5; 3; 232; 98; 121; 101].
Proof. eexists. split; reflexivity. Qed.

(** [C03] Blocking reader, every transport behaviour (errors and end of file anywhere):
    if a frame is returned, the bytes consumed are exactly the RFC encoding of that
    frame, legal, in the expected masking mode and within the limit. *)
Theorem reader_sound : forall masked limit s l f s',
  limit <= isize_max -> contains s l ->
  read_dataframe_with_limit masked limit s = (Ok f, s') ->
  exists key rest, contains s' rest /\
    octets l = rfc_encode (rfc_of_frame f key) ++ octets rest /\
    rfc_legal (rfc_of_frame f key) /\
    masked = match key with Some _ => true | None => false end /\
    N.of_nat (length (f_data f)) <= limit.
Proof. exact ThmFrames.reader_sound_proof. Qed.
Print Assumptions reader_sound.

(** An interrupted read inside the frame, a failing one behind it. *)
Example reader_sound_ex :
  let s := [RData x81 [x01]; RIntr; RData x61 [x88]; RErr WouldBlock; RData x00 []] in
  contains s [x81; x01; x61; x88; x00] /\
  read_dataframe_with_limit false 100 s
  = (Ok (mk_df true no_rsv Text [x61]), [RData x88 []; RErr WouldBlock; RData x00 []]).
Proof.
  cbv zeta. split; [|reflexivity]. apply (contains_data x81 [x01] _ [x61; x88; x00]). apply contains_intr.
  apply (contains_data x61 [x88] _ [x00]). apply contains_err. apply (contains_data x00 [] _ []). constructor.
Qed.

(** [C03] The same without limit. *)
Theorem reader_sound_unlimited : forall masked s l f s',
  contains s l -> read_dataframe masked s = (Ok f, s') ->
  exists key rest, contains s' rest /\
    octets l = rfc_encode (rfc_of_frame f key) ++ octets rest /\
    rfc_legal (rfc_of_frame f key) /\
    masked = match key with Some _ => true | None => false end.
Proof. exact ThmFrames.reader_sound_unlimited_proof. Qed.
Print Assumptions reader_sound_unlimited.

Example reader_sound_unlimited_ex :
  let s := [RData x89 [x82; x01; x02]; RData x03 [x04; x60; x60; xff]] in
  contains s [x89; x82; x01; x02; x03; x04; x60; x60; xff] /\
  read_dataframe true s = (Ok (mk_df true no_rsv Ping (str "ab")), [RData xff []]).
Proof.
  cbv zeta. split; [|reflexivity].
  apply (contains_data x89 [x82; x01; x02] _ [x03; x04; x60; x60; xff]).
  apply (contains_data x03 [x04; x60; x60; xff] _ []). constructor.
Qed.

(** [C03] The async codec. *)
Theorem decoder_sound : forall is_server max src f rest,
  df_decode (mk_dfc is_server max) src = (Ok (Some f), rest) ->
  exists key,
    octets src = rfc_encode (rfc_of_frame f key) ++ octets rest /\
    rfc_legal (rfc_of_frame f key) /\
    is_server = match key with Some _ => true | None => false end /\
    N.of_nat (length (f_data f)) <= max.
Proof. exact ThmFrames.decoder_sound_proof. Qed.
Print Assumptions decoder_sound.

(** A masked ping followed by garbage is such a buffer. *)
Example decoder_sound_ex :
  df_decode (mk_dfc true 100) [x89; x82; x01; x02; x03; x04; x60; x60; xff; xff]
  = (Ok (Some (mk_df true no_rsv Ping (str "ab"))), [xff; xff]).
Proof. reflexivity. Qed.

(** [C04] *)
Theorem mask_involution : forall (k : mkey) (d : bytes),
  length (mask_data k d) = length d /\
  mask_data k (mask_data k d) = d /\
  forall i, (i < length d)%nat ->
    Byte.to_N (nth i (mask_data k d) x00)
    = N.lxor (Byte.to_N (nth i d x00))
             (Byte.to_N (nth (Nat.modulo i 4) [k0 k; k1 k; k2 k; k3 k] x00)).
Proof. exact ThmFrames.mask_involution_proof. Qed.
Print Assumptions mask_involution.

Example mask_involution_ex :
  mask_data (mk_key x01 x02 x04 x08) (str "hello") = [x69; x67; x68; x64; x6e].
Proof. reflexivity. Qed.

(** [C05] A payload written through [Masker] in any pieces, onto an endpoint that takes
    every byte, arrives as [mask_data] of the whole. *)
Theorem masker_streaming : forall (k : mkey) (pieces : list bytes) (out : bytes),
  exists m', masker_write_list (masker_new k (mk_w out [])) pieces = (Ok tt, m') /\
    w_out (m_end m') = out ++ mask_data k (concat pieces).
Proof. exact ThmFrames.masker_streaming_proof. Qed.
Print Assumptions masker_streaming.

Example masker_streaming_ex :
  exists m', masker_write_list (masker_new (mk_key x01 x02 x04 x08) (mk_w [] []))
               [str "h"; str "el"; str "lo"] = (Ok tt, m')
             /\ w_out (m_end m') = [x69; x67; x68; x64; x6e].
Proof. eexists; split; reflexivity. Qed.

(** [C05] Refuted for an endpoint that takes a write only in part: the position has
    already moved past the untaken bytes, so the retry masks them with the wrong key
    bytes.  (Reports success all the same.) *)
Theorem masker_short_write_refuted : exists (k : mkey) (d : bytes) (w : wstream) m',
  masker_write_list (masker_new k w) [d] = (Ok tt, m') /\
  w_out (m_end m') <> w_out w ++ mask_data k d.
Proof. exact ThmFrames.masker_short_write_refuted_proof. Qed.
Print Assumptions masker_short_write_refuted.

(** [C06] The predicted size is the number of bytes written. *)
Theorem predicted_size : forall (d : dataframe_ops) (key : option mkey) out out',
  honest d -> write_to d key (mk_w out []) = (Ok tt, mk_w out' []) ->
  N.of_nat (length out')
  = N.of_nat (length out)
    + frame_size d (match key with Some _ => true | None => false end).
Proof. exact ThmFrames.predicted_size_proof. Qed.
Print Assumptions predicted_size.

(** [C06] Frames and messages of the library are honest. *)
Theorem library_frames_honest :
  (forall f, honest (df_ops f)) /\ (forall m, honest (msg_ops m)) /\ (forall m, honest (owned_ops m)).
Proof. exact ThmFrames.library_frames_honest_proof. Qed.
Print Assumptions library_frames_honest.

Example predicted_size_ex :
  exists out, write_to (owned_ops (OBinary (repeat x00 200))) (Some (mk_key x01 x02 x03 x04)) (mk_w [] [])
              = (Ok tt, mk_w out [])
              /\ N.of_nat (length out) = 208
              /\ owned_size (OBinary (repeat x00 200)) true = 208.
Proof.
  exists (w_out (snd (write_to (owned_ops (OBinary (repeat x00 200)))
                     (Some (mk_key x01 x02 x03 x04)) (mk_w [] [])))).
  vm_compute. repeat split.
Qed.

(** [C07] A frame is refused iff its opcode exceeds 0xF or it is a control frame of 126
    bytes or more; a refused send leaves transport (bytes and behaviour) untouched and
    appends nothing to the codec's buffer; any other send never fails for that reason. *)
Theorem send_refused_iff : forall (d : dataframe_ops) (key : option mkey) (w : wstream),
  df_write_err d = None ->
  (15 < df_opcode d \/ (8 <= df_opcode d /\ 126 <= df_size d) <->
   exists m, write_to d key w = (Err (DataFrameError m), w)) /\
  (forall m w', write_to d key w = (Err (DataFrameError m), w') -> w' = w) /\
  (~ (15 < df_opcode d \/ (8 <= df_opcode d /\ 126 <= df_size d)) ->
   write_to d key (mk_w (w_out w) []) = (Ok tt, snd (write_to d key (mk_w (w_out w) [])))).
Proof. exact ThmFrames.send_refused_iff_proof. Qed.
Print Assumptions send_refused_iff.

(** [C07] The same for the async encoders. *)
Theorem encode_refused : forall is_server d k extra dst,
  df_write_err d = None ->
  (15 < df_opcode d \/ (8 <= df_opcode d /\ 126 <= df_size d)) ->
  exists m, fst (codec_encode is_server d k extra dst) = Err (DataFrameError m) /\
    bm_data (snd (codec_encode is_server d k extra dst)) = bm_data dst.
Proof. exact ThmFrames.encode_refused_proof. Qed.
Print Assumptions encode_refused.

Example send_refused_ex :
  write_to (owned_ops (OPing (repeat x00 126))) None (mk_w [x01] [WZero])
  = (Err (DataFrameError "Control frame length too long"), mk_w [x01] [WZero]).
Proof. reflexivity. Qed.

(** [C07] Which of the two it was is told, by blocking and async senders alike; of a frame with
    both faults the opcode is named. *)
Theorem refusal_named : forall (d : dataframe_ops) (key : option mkey) (w : wstream) is_server k extra dst,
  (15 < df_opcode d ->
   write_to d key w = (Err (DataFrameError "Invalid data frame opcode"), w) /\
   fst (codec_encode is_server d k extra dst) = Err (DataFrameError "Invalid data frame opcode")) /\
  (8 <= df_opcode d <= 15 -> 126 <= df_size d ->
   write_to d key w = (Err (DataFrameError "Control frame length too long"), w) /\
   fst (codec_encode is_server d k extra dst) = Err (DataFrameError "Control frame length too long")).
Proof. exact ThmFrames.refusal_named_proof. Qed.
Print Assumptions refusal_named.

Example refusal_named_ex :
  let d := mk_ops true 16 no_rsv 200 [repeat x00 200] None (repeat x00 200) in
  write_to d None (mk_w [] []) = (Err (DataFrameError "Invalid data frame opcode"), mk_w [] []).
Proof. reflexivity. Qed.
