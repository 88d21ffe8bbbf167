(** Frames: C01-C08, C10-C12, C14. *)
From Coq Require Import NArith ZArith String Bool List Lia.
From Coq Require Import ZifyBool ZifyNat ZifyN.
From Coq.Strings Require Import Byte.
From Verif.Model Require Import Base Io Header Mask Dataframe Utf8 Message Receiver Codec Framed.
From Verif.Spec Require Import RfcFrame FrameSpec Schedule.
From Verif.Proofs Require Import BaseFacts MaskFacts HeaderFacts FrameFacts CodecFacts ScriptFacts.
Import ListNotations.
Local Open Scope string_scope.
Local Open Scope list_scope.
Local Open Scope N_scope.

Lemma legal_frame_ok : forall f key, rfc_legal (rfc_of_frame f key) -> frame_ok f.
Proof.
  intros [fin [[r1 r2] r3] op d] key [[H1 [H2 H3]] H4].
  unfold rfc_of_frame, rfc_of, frame_ok, octets, llen in *. cbn [f_finished f_reserved f_opcode f_data rf_opcode rf_payload rf_fin] in *.
  rewrite map_length in *.
  replace (rfc_opcode op) with (op_u8 op) in * by (destruct op; reflexivity).
  split; [exact H2|]. intros H. split; auto.
Qed.
Lemma frame_ok_legal : forall f key, frame_ok f -> rfc_legal (rfc_of_frame f key).
Proof.
  intros [fin [[r1 r2] r3] op d] key [H1 H2].
  unfold rfc_legal, rfc_sendable, rfc_of_frame, rfc_of, octets, llen in *.
  cbn [f_finished f_reserved f_opcode f_data rf_opcode rf_payload rf_fin] in *.
  rewrite map_length in *.
  replace (rfc_opcode op) with (op_u8 op) in * by (destruct op; reflexivity).
  pose proof (op_u8_lt op). repeat split; auto; intros; apply H2; assumption.
Qed.
Lemma octets_eq_enc : forall f key wire,
  octets wire = rfc_encode (rfc_of_frame f key) -> wire = enc f key.
Proof.
  intros f key wire H. rewrite <- enc_rfc, octets_b2n in H. apply map_b2n_inj. exact H.
Qed.

Lemma write_to_good : forall d key out data, frame_bytes d key = Ok data ->
  write_to d key (mk_w out []) = (Ok tt, mk_w (out ++ data) []).
Proof.
  intros d key out data H. unfold write_to. rewrite H. unfold write_all. cbn [w_script w_out].
  destruct data as [|b data]; cbn [write_all_go io_to_ws]; [rewrite app_nil_r|]; reflexivity.
Qed.

(** [C01] Every frame that is legal on the wire, written with any key, is read back
    unchanged by every reader in the matching role, and the bytes after it are left:
    [read_dataframe_with_limit] and [read_dataframe] for every way the reads are cut
    and interrupted, [DataFrameCodec::decode] for every buffer. *)
Lemma frame_round_trip_proof : forall (f : dataframe) (key : option mkey),
  rfc_legal (rfc_of_frame f key) ->
  exists wire,
    (forall out, write_to (df_ops f) key (mk_w out []) = (Ok tt, mk_w (out ++ wire) [])) /\
    let masked := match key with Some _ => true | None => false end in
    (forall rest s limit, carries s (wire ++ rest) ->
       llen (f_data f) <= limit -> limit <= isize_max ->
       exists s', read_dataframe_with_limit masked limit s = (Ok f, s') /\ carries s' rest) /\
    (forall rest s, carries s (wire ++ rest) -> llen (f_data f) <= isize_max ->
       exists s', read_dataframe masked s = (Ok f, s') /\ carries s' rest) /\
    (forall rest max, llen (f_data f) <= max ->
       df_decode (mk_dfc masked max) (wire ++ rest) = (Ok (Some f), rest)).
Proof.
  intros f key HL. apply legal_frame_ok in HL as HF. exists (enc f key). split; [|split; [|split]].
  - intros out. apply write_to_good. apply frame_bytes_enc. apply frame_ok_sendable, HF.
  - intros rest s limit Hs Hd Hl. apply carries_iff in Hs as [Hc Hfl].
    pose proof (read_with_limit_script (is_some key) limit s Hc Hl) as [E1 E2].
    rewrite Hfl, parse_enc in E1, E2 by auto. cbn [fst snd] in *.
    exists (snd (read_dataframe_with_limit (is_some key) limit s)).
    split; [|apply carries_iff; exact E2].
    destruct (read_dataframe_with_limit (is_some key) limit s) eqn:E.
    cbn [fst snd] in *. subst. exact E.
  - intros rest s Hs Hd. apply carries_iff in Hs as [Hc Hfl].
    pose proof (read_with_limit_script (is_some key) isize_max s Hc ltac:(lia)) as [E1 E2].
    rewrite Hfl, parse_enc in E1, E2 by auto. cbn [fst snd] in *.
    exists (snd (read_dataframe_with_limit (is_some key) isize_max s)).
    split; [|apply carries_iff; exact E2].
    destruct (read_dataframe_with_limit (is_some key) isize_max s) as [r s'] eqn:E.
    cbn [fst snd] in *. subst r. clear E2.
    unfold read_dataframe, read_dataframe_with_limit in *.
    change (match key with Some _ => true | None => false end) with (is_some key).
    destruct (read_header rd_exact s) as [[h|e| |] s1]; cbn [sbind] in *; try discriminate.
    destruct (isize_max <? h_len h); [discriminate|exact E].
  - intros rest max Hm. apply df_decode_enc; auto.
Qed.

(*EX (** A masked, non-final text frame with RSV1 set and a 300-byte payload. *)
Example frame_round_trip_ex :
  rfc_legal (rfc_of_frame (mk_df false (true, false, false) Text (repeat x61 300))
                          (Some (mk_key x01 x02 x03 x04))).
Proof. vm_compute. intuition congruence. Qed. EX*)

(** [C02] What is handed to the transport is the RFC 6455 layout, for any user frame
    type that is honest about its size, any key and whatever was written before. *)
Lemma emitted_layout_proof : forall (d : dataframe_ops) (key : option mkey) (out : bytes),
  honest d ->
  rfc_sendable (rfc_of (df_is_last d) (df_reserved d) (df_opcode d) (concat (df_writes d)) key) ->
  exists wire, write_to d key (mk_w out []) = (Ok tt, mk_w (out ++ wire) []) /\
    octets wire
    = rfc_encode (rfc_of (df_is_last d) (df_reserved d) (df_opcode d) (concat (df_writes d)) key).
Proof.
  intros d key out [Hs He] HS.
  assert (ops_sendable d) as HO.
  { destruct (df_reserved d) as [[r1 r2] r3]. destruct HS as (H1 & H2 & H3).
    cbn [rfc_of rf_opcode rf_payload] in *. unfold octets in *. rewrite map_length in *.
    split; [exact H1|]. rewrite Hs. exact H3. }
  exists (header_bytes (ops_header d key) ++ mask_opt key (concat (df_writes d))). split.
  - apply write_to_good. apply frame_bytes_ok; auto.
  - rewrite octets_b2n. apply frame_bytes_rfc_gen; [exact (proj1 HO)|exact Hs].
Qed.

(*EX
(** A frame type of the user's own, written in two pieces, with RSV2 and a reserved opcode. *)
Example emitted_layout_ex :
  let d := mk_ops false 3 (false, true, false) 3 [str "a"; str "bc"] None (str "abc") in
  honest d /\ rfc_sendable (rfc_of false (false, true, false) 3 (str "abc") None) /\
  write_to d None (mk_w [x00] []) = (Ok tt, mk_w [x00; x23; x03; x61; x62; x63] []).
Proof. cbv zeta. split; [split; reflexivity|]. split; [facts|reflexivity]. Qed.
EX*)


(** [C02] In particular every message: opcode by its kind, FIN set, no reserved bit,
    the payload its bytes (for a close: the code in network order, then the reason). *)
Lemma emitted_message_layout_proof : forall (m : owned) (key : option mkey) (out : bytes),
  let payload := match m with
                 | OText d | OBinary d | OPing d | OPong d => octets d
                 | OClose (Some c) => network_order 2 (c_status c) ++ octets (c_reason c)
                 | OClose None => []
                 end in
  let op := match m with
            | OText _ => 1 | OBinary _ => 2 | OClose _ => 8 | OPing _ => 9 | OPong _ => 10 end in
  N.of_nat (length payload) < 2 ^ 64 ->
  (8 <= op -> N.of_nat (length payload) <= 125) ->
  exists wire, write_to (owned_ops m) key (mk_w out []) = (Ok tt, mk_w (out ++ wire) []) /\
    octets wire = rfc_encode {| rf_fin := true; rf_rsv1 := false; rf_rsv2 := false;
                                rf_rsv3 := false; rf_opcode := op; rf_key := octet_key key;
                                rf_payload := payload |}.
Proof.
  intros m key out payload op H1 H2.
  assert (octets (concat (df_writes (owned_ops m))) = payload) as HP.
  { subst payload. unfold octets. destruct m as [d|d|[c|]|d|d]; cbn [owned_ops df_writes concat];
      rewrite ?app_nil_r; auto. rewrite map_app. f_equal. apply network_order_be16. }
  assert (df_opcode (owned_ops m) = op) as HOP by (subst op; destruct m; reflexivity).
  destruct (emitted_layout_proof (owned_ops m) key out) as (wire & W1 & W2).
  - split; [|destruct m; reflexivity].
    destruct m as [d|d|[c|]|d|d]; cbn [owned_ops df_writes concat df_size]; rewrite ?app_nil_r;
      try reflexivity. rewrite app_length, length_be16. unfold llen. lia.
  - unfold rfc_sendable, rfc_of. replace (df_reserved (owned_ops m)) with no_rsv by reflexivity.
    cbn [no_rsv rf_opcode rf_payload]. rewrite HP, HOP.
    split; [|split; assumption]. subst op. destruct m; lia.
  - exists wire. split; [exact W1|]. rewrite W2. unfold rfc_of.
    replace (df_reserved (owned_ops m)) with no_rsv by reflexivity.
    replace (df_is_last (owned_ops m)) with true by reflexivity.
    cbn [no_rsv]. rewrite HP, HOP. reflexivity.
Qed.

(*EX Example emitted_message_layout_ex :
  exists wire,
    write_to (owned_ops (OClose (Some (mk_close 1000 (str "bye"))))) None (mk_w [] [])
      = (Ok tt, mk_w wire [])
    /\ octets wire = [136; 5; 3; 232; 98; 121; 101].
Proof. eexists. split; reflexivity. Qed. EX*)

(** [C03] Blocking reader, every transport behaviour (errors and end of file anywhere):
    if a frame is returned, the bytes consumed are exactly the RFC encoding of that
    frame, legal, in the expected masking mode and within the limit. *)
Lemma reader_sound_proof : forall masked limit s l f s',
  limit <= isize_max -> contains s l ->
  read_dataframe_with_limit masked limit s = (Ok f, s') ->
  exists key rest, contains s' rest /\
    octets l = rfc_encode (rfc_of_frame f key) ++ octets rest /\
    rfc_legal (rfc_of_frame f key) /\
    masked = match key with Some _ => true | None => false end /\
    N.of_nat (length (f_data f)) <= limit.
Proof.
  intros masked limit s l f s' Hl Hs H. pose proof (read_limit_any masked limit s Hl) as HA.
  rewrite H in HA. destruct HA as (key & A & B & C & D). apply contains_iff in Hs. subst l.
  exists key, (flat s'). split; [apply contains_iff; reflexivity|]. split; [|split; [|split]].
  - rewrite A. unfold octets. rewrite map_app. f_equal. apply enc_rfc.
  - apply frame_ok_legal, C.
  - symmetry. exact B.
  - exact D.
Qed.

(*EX
(** An interrupted read inside the frame, a failing one behind it. *)
Example reader_sound_ex :
  let s := [RData x81 [x01]; RIntr; RData x61 [x88]; RErr WouldBlock; RData x00 []] in
  contains s [x81; x01; x61; x88; x00] /\
  read_dataframe_with_limit false 100 s
  = (Ok (mk_df true no_rsv Text [x61]), [RData x88 []; RErr WouldBlock; RData x00 []]).
Proof.
  cbv zeta. split; [|reflexivity]. apply (contains_data x81 [x01] _ [x61; x88; x00]). apply contains_intr.
  apply (contains_data x61 [x88] _ [x00]). apply contains_err. apply (contains_data x00 [] _ []). constructor.
Qed.
EX*)

(** [C03] The same without limit. *)
Lemma reader_sound_unlimited_proof : forall masked s l f s',
  contains s l -> read_dataframe masked s = (Ok f, s') ->
  exists key rest, contains s' rest /\
    octets l = rfc_encode (rfc_of_frame f key) ++ octets rest /\
    rfc_legal (rfc_of_frame f key) /\
    masked = match key with Some _ => true | None => false end.
Proof.
  intros masked s l f s' Hs H. pose proof (read_unlimited_any masked s f s' H) as HA.
  destruct HA as (key & A & B & C & D). apply contains_iff in Hs. subst l.
  exists key, (flat s'). split; [apply contains_iff; reflexivity|]. split; [|split].
  - rewrite A. unfold octets. rewrite map_app. f_equal. apply enc_rfc.
  - apply frame_ok_legal, C.
  - symmetry. exact B.
Qed.

(*EX
Example reader_sound_unlimited_ex :
  let s := [RData x89 [x82; x01; x02]; RData x03 [x04; x60; x60; xff]] in
  contains s [x89; x82; x01; x02; x03; x04; x60; x60; xff] /\
  read_dataframe true s = (Ok (mk_df true no_rsv Ping (str "ab")), [RData xff []]).
Proof.
  cbv zeta. split; [|reflexivity].
  apply (contains_data x89 [x82; x01; x02] _ [x03; x04; x60; x60; xff]).
  apply (contains_data x03 [x04; x60; x60; xff] _ []). constructor.
Qed.
EX*)

(** [C03] The async codec. *)
Lemma decoder_sound_proof : forall is_server max src f rest,
  df_decode (mk_dfc is_server max) src = (Ok (Some f), rest) ->
  exists key,
    octets src = rfc_encode (rfc_of_frame f key) ++ octets rest /\
    rfc_legal (rfc_of_frame f key) /\
    is_server = match key with Some _ => true | None => false end /\
    N.of_nat (length (f_data f)) <= max.
Proof.
  intros is_server max src f rest H. apply df_decode_some in H as (key & A & B & C & D).
  exists key. cbn [dc_is_server dc_max] in *. split; [|split; [|split]].
  - rewrite B. unfold octets. rewrite map_app. f_equal. apply enc_rfc.
  - apply frame_ok_legal, C.
  - symmetry. exact A.
  - exact D.
Qed.
(*EX (** A masked ping followed by garbage is such a buffer. *)
Example decoder_sound_ex :
  df_decode (mk_dfc true 100) [x89; x82; x01; x02; x03; x04; x60; x60; xff; xff]
  = (Ok (Some (mk_df true no_rsv Ping (str "ab"))), [xff; xff]).
Proof. reflexivity. Qed. EX*)

(** [C04] *)
Lemma mask_involution_proof : forall (k : mkey) (d : bytes),
  length (mask_data k d) = length d /\
  mask_data k (mask_data k d) = d /\
  forall i, (i < length d)%nat ->
    Byte.to_N (nth i (mask_data k d) x00)
    = N.lxor (Byte.to_N (nth i d x00))
             (Byte.to_N (nth (Nat.modulo i 4) [k0 k; k1 k; k2 k; k3 k] x00)).
Proof.
  intros k d. split; [apply length_mask_data|]. split; [apply mask_data_invol|].
  intros i Hi. apply (nth_mask_data k d i Hi).
Qed.
(*EX Example mask_involution_ex :
  mask_data (mk_key x01 x02 x04 x08) (str "hello") = [x69; x67; x68; x64; x6e].
Proof. reflexivity. Qed. EX*)

(** [C05] A payload written through [Masker] in any pieces, onto an endpoint that takes
    every byte, arrives as [mask_data] of the whole. *)
Lemma masker_streaming_proof : forall (k : mkey) (pieces : list bytes) (out : bytes),
  exists m', masker_write_list (masker_new k (mk_w out [])) pieces = (Ok tt, m') /\
    w_out (m_end m') = out ++ mask_data k (concat pieces).
Proof.
  intros k pieces out. unfold masker_new. rewrite masker_write_list_vec.
  eexists. split; [reflexivity|]. cbn [m_end w_out]. rewrite masker_buf_mask. reflexivity.
Qed.
(*EX Example masker_streaming_ex :
  exists m', masker_write_list (masker_new (mk_key x01 x02 x04 x08) (mk_w [] []))
               [str "h"; str "el"; str "lo"] = (Ok tt, m')
             /\ w_out (m_end m') = [x69; x67; x68; x64; x6e].
Proof. eexists; split; reflexivity. Qed. EX*)

(** [C05] Refuted for an endpoint that takes a write only in part: the position has
    already moved past the untaken bytes, so the retry masks them with the wrong key
    bytes.  (Reports success all the same.) *)
Lemma masker_short_write_refuted_proof : exists (k : mkey) (d : bytes) (w : wstream) m',
  masker_write_list (masker_new k w) [d] = (Ok tt, m') /\
  w_out (m_end m') <> w_out w ++ mask_data k d.
Proof.
  exists (mk_key x01 x02 x03 x04), [x00; x00; x00], (mk_w [] [WAccept 0]).
  eexists. split; [vm_compute; reflexivity|]. vm_compute. discriminate.
Qed.

(** [C06] The predicted size is the number of bytes written. *)
Lemma predicted_size_proof : forall (d : dataframe_ops) (key : option mkey) out out',
  honest d -> write_to d key (mk_w out []) = (Ok tt, mk_w out' []) ->
  N.of_nat (length out')
  = N.of_nat (length out)
    + frame_size d (match key with Some _ => true | None => false end).
Proof.
  intros d key out out' [Hs He] H.
  destruct (ops_sendable_dec d) as [HO|HO].
  - rewrite (write_to_good _ _ _ _ (frame_bytes_ok d key HO He)) in H.
    assert (out' = out ++ (header_bytes (ops_header d key) ++ mask_opt key (concat (df_writes d))))
      as -> by congruence. clear H.
    rewrite app_length, Nat2N.inj_add. f_equal.
    rewrite app_length. unfold frame_size, header_bytes, ext_len, ops_header.
    cbn [h_len h_mask]. rewrite !app_length. cbn [length].
    assert (length (mask_opt key (concat (df_writes d))) = length (concat (df_writes d))) as HM
      by (destruct key; cbn [mask_opt]; [apply length_mask_data|reflexivity]).
    rewrite HM. rewrite Hs.
    destruct (N.leb_spec (N.of_nat (length (concat (df_writes d)))) 125),
      (N.leb_spec (N.of_nat (length (concat (df_writes d)))) 65535),
      (N.leb_spec 126 (N.of_nat (length (concat (df_writes d))))),
      (N.ltb_spec 65535 (N.of_nat (length (concat (df_writes d)))));
      cbn [andb]; try lia; destruct key; cbn [length key_bytes be16 be64]; lia.
  - destruct (frame_bytes_refused d key HO) as [m Hm]. unfold write_to in H. rewrite Hm in H.
    discriminate.
Qed.
(** [C06] Frames and messages of the library are honest. *)
Lemma library_frames_honest_proof :
  (forall f, honest (df_ops f)) /\ (forall m, honest (msg_ops m)) /\ (forall m, honest (owned_ops m)).
Proof.
  split; [|split].
  - intros f. split; [|reflexivity]. cbn [df_ops df_size df_writes concat].
    rewrite app_nil_r. reflexivity.
  - intros [t st p]. split; [|reflexivity]. cbn [msg_ops df_size df_writes m_status m_payload].
    destruct st; cbn [concat]; rewrite ?app_nil_r; [rewrite app_length, length_be16|];
      unfold llen; lia.
  - intros m. split; [|destruct m; reflexivity].
    destruct m as [d|d|[c|]|d|d]; cbn [owned_ops df_size df_writes concat]; rewrite ?app_nil_r;
      try reflexivity. rewrite app_length, length_be16. unfold llen. lia.
Qed.
(*EX Example predicted_size_ex :
  exists out, write_to (owned_ops (OBinary (repeat x00 200))) (Some (mk_key x01 x02 x03 x04)) (mk_w [] [])
              = (Ok tt, mk_w out [])
              /\ N.of_nat (length out) = 208
              /\ owned_size (OBinary (repeat x00 200)) true = 208.
Proof.
  exists (w_out (snd (write_to (owned_ops (OBinary (repeat x00 200)))
                     (Some (mk_key x01 x02 x03 x04)) (mk_w [] [])))).
  vm_compute. repeat split.
Qed. EX*)

(** What the library is willing to send: opcode a nibble, control payload at most 125. *)
(** [C07] A frame is refused iff its opcode exceeds 0xF or it is a control frame of 126
    bytes or more; a refused send leaves transport (bytes and behaviour) untouched and
    appends nothing to the codec's buffer; any other send never fails for that reason. *)
Lemma send_refused_iff_proof : forall (d : dataframe_ops) (key : option mkey) (w : wstream),
  df_write_err d = None ->
  (15 < df_opcode d \/ (8 <= df_opcode d /\ 126 <= df_size d) <->
   exists m, write_to d key w = (Err (DataFrameError m), w)) /\
  (forall m w', write_to d key w = (Err (DataFrameError m), w') -> w' = w) /\
  (~ (15 < df_opcode d \/ (8 <= df_opcode d /\ 126 <= df_size d)) ->
   write_to d key (mk_w (w_out w) []) = (Ok tt, snd (write_to d key (mk_w (w_out w) [])))).
Proof.
  intros d key w He.
  assert (forall m w', write_to d key w = (Err (DataFrameError m), w') ->
            ~ ops_sendable d /\ w' = w) as HB.
  { intros m w' H. destruct (ops_sendable_dec d) as [HO|HO].
    - exfalso. unfold write_to in H. rewrite (frame_bytes_ok d key HO He) in H.
      destruct (write_all _ w) as [[u|k| |] w1]; cbn [io_to_ws] in H; try discriminate.
      destruct k; discriminate.
    - split; [exact HO|]. destruct (frame_bytes_refused d key HO) as [m' Hm].
      unfold write_to in H. rewrite Hm in H. injection H as _ <-. reflexivity. }
  split; [|split].
  - split.
    + intros H. assert (~ ops_sendable d) as HO by (unfold ops_sendable; lia).
      destruct (frame_bytes_refused d key HO) as [m Hm]. exists m. unfold write_to.
      rewrite Hm. reflexivity.
    + intros [m H]. apply HB in H as [H _]. unfold ops_sendable in H. lia.
  - intros m w' H. apply HB in H as [_ H]. exact H.
  - intros H. assert (ops_sendable d) as HO by (unfold ops_sendable; lia).
    rewrite (write_to_good _ _ _ _ (frame_bytes_ok d key HO He)). reflexivity.
Qed.
(** [C07] The same for the async encoders. *)
Lemma encode_refused_proof : forall is_server d k extra dst,
  df_write_err d = None ->
  (15 < df_opcode d \/ (8 <= df_opcode d /\ 126 <= df_size d)) ->
  exists m, fst (codec_encode is_server d k extra dst) = Err (DataFrameError m) /\
    bm_data (snd (codec_encode is_server d k extra dst)) = bm_data dst.
Proof.
  intros is_server d k extra dst He H.
  assert (~ ops_sendable d) as HO by (unfold ops_sendable; lia).
  destruct (frame_bytes_refused d (if negb is_server then Some k else None) HO) as [m Hm].
  exists m. unfold codec_encode. rewrite Hm. cbn [fst snd]. split; [reflexivity|].
  destruct (_ <? _); [|reflexivity]. unfold bm_reserve. destruct (_ <=? _); reflexivity.
Qed.
(*EX Example send_refused_ex :
  write_to (owned_ops (OPing (repeat x00 126))) None (mk_w [x01] [WZero])
  = (Err (DataFrameError "Control frame length too long"), mk_w [x01] [WZero]).
Proof. reflexivity. Qed. EX*)
(** [C07] Which of the two it was is told, by blocking and async senders alike; of a frame with
    both faults the opcode is named. *)
Lemma refusal_named_proof : forall (d : dataframe_ops) (key : option mkey) (w : wstream) is_server k extra dst,
  (15 < df_opcode d ->
   write_to d key w = (Err (DataFrameError "Invalid data frame opcode"), w) /\
   fst (codec_encode is_server d k extra dst) = Err (DataFrameError "Invalid data frame opcode")) /\
  (8 <= df_opcode d <= 15 -> 126 <= df_size d ->
   write_to d key w = (Err (DataFrameError "Control frame length too long"), w) /\
   fst (codec_encode is_server d k extra dst) = Err (DataFrameError "Control frame length too long")).
Proof.
  intros d key w is_server k extra dst.
  assert (forall key, 15 < df_opcode d -> frame_bytes d key = Err (DataFrameError "Invalid data frame opcode")) as A.
  { intros key0 H. unfold frame_bytes, write_header. cbn [h_opcode]. rewrite (proj2 (N.ltb_lt _ _) H). reflexivity. }
  assert (forall key, 8 <= df_opcode d <= 15 -> 126 <= df_size d -> frame_bytes d key = Err (DataFrameError "Control frame length too long")) as B.
  { intros key0 H H'. unfold frame_bytes, write_header. cbn [h_opcode h_len].
    rewrite (proj2 (N.ltb_ge _ _) (proj2 H)), (proj2 (N.leb_le _ _) (proj1 H)), (proj2 (N.leb_le _ _) H'). reflexivity. }
  unfold write_to, codec_encode. split.
  - intros H. rewrite !A by exact H. split; reflexivity.
  - intros H H'. rewrite !B by assumption. split; reflexivity.
Qed.
(*EX Example refusal_named_ex :
  let d := mk_ops true 16 no_rsv 200 [repeat x00 200] None (repeat x00 200) in
  write_to d None (mk_w [] []) = (Err (DataFrameError "Invalid data frame opcode"), mk_w [] []).
Proof. reflexivity. Qed. EX*)
