(** Frames: writing and parsing. *)
From Coq Require Import NArith ZArith String Bool List Lia.
From Coq Require Import ZifyBool ZifyNat ZifyN.
From Coq.Strings Require Import Byte.
From Verif.Model Require Import Base Io Header Mask Dataframe.
From Verif.Spec Require Import RfcFrame FrameSpec.
From Verif.Proofs Require Import BaseFacts MaskFacts HeaderFacts.
Import ListNotations.
Local Open Scope N_scope.

Lemma octets_b2n : forall l, octets l = map b2n l.
Proof. reflexivity. Qed.

(** ** Flags *)
Lemma df_flags_trunc : forall d, fl_truncate (df_flags d) = df_flags d.
Proof.
  intros d. unfold df_flags. destruct (df_reserved d) as [[r1 r2] r3].
  destruct (df_is_last d), r1, r2, r3; reflexivity.
Qed.
Lemma df_flags_fin : forall d, fl_contains (df_flags d) FIN = df_is_last d.
Proof.
  intros d. unfold df_flags. destruct (df_reserved d) as [[r1 r2] r3].
  destruct (df_is_last d), r1, r2, r3; reflexivity.
Qed.
Lemma df_flags_rsv : forall d,
  (fl_contains (df_flags d) RSV1, fl_contains (df_flags d) RSV2,
   fl_contains (df_flags d) RSV3) = df_reserved d.
Proof.
  intros d. unfold df_flags. destruct (df_reserved d) as [[r1 r2] r3].
  destruct (df_is_last d), r1, r2, r3; reflexivity.
Qed.
Lemma df_flags_sum : forall d, df_flags d =
  let '(r1, r2, r3) := df_reserved d in
  bit (df_is_last d) 128 + bit r1 64 + bit r2 32 + bit r3 16.
Proof.
  intros d. unfold df_flags. destruct (df_reserved d) as [[r1 r2] r3].
  destruct (df_is_last d), r1, r2, r3; reflexivity.
Qed.

Lemma lor_add : forall a b, N.land a b = 0 -> N.lor a b = a + b.
Proof.
  intros a b H. rewrite N.add_nocarry_lxor by exact H. symmetry. apply N.lxor_lor. exact H.
Qed.
Lemma lor_flags_op : forall f op, fl_truncate f = f -> op < 16 -> N.lor f op = f + op.
Proof.
  intros f op Hf Hop. apply lor_add. rewrite <- Hf, <- (land_15_small op Hop).
  unfold fl_truncate. rewrite <- N.land_assoc, (N.land_assoc 240), (N.land_comm 240 op).
  rewrite <- (N.land_assoc op 240 15). change (N.land 240 15) with 0.
  rewrite !N.land_0_r. reflexivity.
Qed.
Lemma lor_mask_len : forall (m : bool) l7, l7 < 128 ->
  N.lor (if m then 0x80 else 0) l7 = bit m 128 + l7.
Proof.
  intros m l7 H. unfold bit. apply lor_add. destruct m; [|apply N.land_0_l].
  assert (E : N.land l7 127 = l7).
  { change 127 with (N.ones 7). rewrite N.land_ones. apply N.mod_small. exact H. }
  rewrite <- E, (N.land_comm l7), N.land_assoc. reflexivity.
Qed.

(** ** The bytes of a frame *)
Definition mask_opt (key : option mkey) (d : bytes) : bytes :=
  match key with Some k => mask_data k d | None => d end.
Definition ops_header (d : dataframe_ops) (key : option mkey) : dfheader :=
  mk_header (df_flags d) (df_opcode d) key (df_size d).

Lemma payload_into_eq : forall d key data,
  payload_into d key data =
  match df_write_err d with
  | None => Ok (data ++ mask_opt key (concat (df_writes d)))
  | Some e => Err e
  end.
Proof.
  intros d key data. unfold payload_into, mask_opt. destruct key as [k|].
  - unfold masker_new. rewrite masker_write_list_vec. cbn [m_end w_out].
    rewrite masker_buf_mask. destruct (df_write_err d); reflexivity.
  - destruct (df_write_err d); reflexivity.
Qed.

Definition ops_sendable (d : dataframe_ops) : Prop :=
  df_opcode d < 16 /\ (8 <= df_opcode d -> df_size d <= 125).

Lemma ops_sendable_dec : forall d, {ops_sendable d} + {~ ops_sendable d}.
Proof.
  intros d. unfold ops_sendable.
  destruct ((df_opcode d <? 16) && ((df_opcode d <? 8) || (df_size d <=? 125))) eqn:E;
    [left|right]; lia.
Qed.

Lemma frame_bytes_ok : forall d key, ops_sendable d -> df_write_err d = None ->
  frame_bytes d key = Ok (header_bytes (ops_header d key)
                          ++ mask_opt key (concat (df_writes d))).
Proof.
  intros d key [H1 H2] He. unfold frame_bytes.
  fold (ops_header d key). rewrite write_header_ok by assumption. cbn [rbind].
  rewrite payload_into_eq, He. reflexivity.
Qed.

Lemma frame_bytes_refused : forall d key, ~ ops_sendable d ->
  exists m, frame_bytes d key = Err (DataFrameError m).
Proof.
  intros d key H. unfold frame_bytes.
  destruct (write_header_err (mk_header (df_flags d) (df_opcode d) key (df_size d))) as [m E].
  - exact H.
  - exists m. rewrite E. reflexivity.
Qed.

Lemma frame_bytes_total : forall d key,
  (exists data, frame_bytes d key = Ok data) \/ (exists e, frame_bytes d key = Err e).
Proof.
  intros d key. unfold frame_bytes.
  destruct (ops_sendable_dec d) as [H|H].
  - fold (ops_header d key). rewrite write_header_ok by apply H. cbn [rbind].
    rewrite payload_into_eq. destruct (df_write_err d); eauto.
  - right. destruct (frame_bytes_refused d key H) as [m E]. unfold frame_bytes in E. eauto.
Qed.

(** ** The RFC encoding *)
Lemma network_order_be16 : forall n, map b2n (be16 n) = network_order 2 n.
Proof.
  intros n. cbn -[N.div N.modulo N.pow b2n n2b]. rewrite !b2n_n2b.
  change (256 ^ 1) with 256. change (256 ^ 0) with 1. rewrite N.div_1_r. reflexivity.
Qed.
Lemma network_order_be64 : forall n, map b2n (be64 n) = network_order 8 n.
Proof.
  intros n. cbn -[N.div N.modulo N.pow b2n n2b]. rewrite !b2n_n2b.
  change (256 ^ 0) with 1. rewrite N.div_1_r. reflexivity.
Qed.
Lemma len7_rfc : forall len, len7 len = rfc_len7 len.
Proof.
  intros len. unfold len7, rfc_len7. change (2 ^ 16) with 65536.
  destruct (N.leb_spec len 125), (N.ltb_spec len 126); try lia.
  destruct (N.leb_spec len 65535), (N.ltb_spec len 65536); try lia.
Qed.
Lemma ext_len_rfc : forall len, map b2n (ext_len len) = rfc_len_ext len.
Proof.
  intros len. unfold ext_len, rfc_len_ext. change (2 ^ 16) with 65536.
  destruct (N.ltb_spec len 126).
  - destruct (N.leb_spec 126 len); [lia|]. destruct (N.ltb_spec 65535 len); [lia|]. reflexivity.
  - destruct (N.leb_spec 126 len); [|lia].
    destruct (N.leb_spec len 65535), (N.ltb_spec len 65536); try lia; cbn [andb].
    + rewrite N.mod_small by lia. apply network_order_be16.
    + destruct (N.ltb_spec 65535 len); [|lia]. apply network_order_be64.
Qed.

Lemma header_bytes_rfc : forall h fin r1 r2 r3 payload,
  h_opcode h < 16 -> h_flags h = bit fin 128 + bit r1 64 + bit r2 32 + bit r3 16 ->
  fl_truncate (h_flags h) = h_flags h ->
  map b2n (header_bytes h)
  = rfc_header (rfc_of fin (r1, r2, r3) (h_opcode h) payload (h_mask h)) (h_len h).
Proof.
  intros [fl op key len] fin r1 r2 r3 payload Hop Hfl Ht.
  cbn [h_flags h_opcode h_mask h_len] in *.
  unfold header_bytes, rfc_header, rfc_of.
  cbn [h_flags h_opcode h_mask h_len rf_fin rf_rsv1 rf_rsv2 rf_rsv3 rf_opcode rf_key rf_payload].
  pose proof (trunc_lt _ Ht) as Hlt. pose proof (len7_lt len) as H7.
  rewrite !map_app. cbn [map app].
  rewrite (b2n_n2b_small (N.lor fl _)) by (apply lor_lt_256; lia).
  rewrite (b2n_n2b_small (N.lor _ (len7 _))) by (apply lor_lt_256; destruct key; lia).
  rewrite (lor_flags_op _ _ Ht Hop), Hfl.
  rewrite <- len7_rfc, <- ext_len_rfc.
  f_equal. f_equal.
  - pose proof (lor_mask_len (match key with Some _ => true | None => false end) _ H7) as E.
    destruct key as [[a b c e]|]; cbn [octet_key] in *; exact E.
  - f_equal. destruct key as [[a b c e]|]; reflexivity.
Qed.
Lemma frame_bytes_rfc_gen : forall d key payload,
  df_opcode d < 16 -> df_size d = N.of_nat (length payload) ->
  map b2n (header_bytes (ops_header d key) ++ mask_opt key payload)
  = rfc_encode (rfc_of (df_is_last d) (df_reserved d) (df_opcode d) payload key).
Proof.
  intros d key payload Hop Hsz. unfold rfc_encode. rewrite map_app.
  pose proof (df_flags_trunc d) as Ht. pose proof (df_flags_sum d) as Hs.
  destruct (df_reserved d) as [[r1 r2] r3]. f_equal.
  - rewrite (header_bytes_rfc _ (df_is_last d) r1 r2 r3 payload) by assumption.
    unfold rfc_of. cbn [rf_payload ops_header h_len h_opcode h_mask]. unfold octets.
    rewrite map_length, Hsz. reflexivity.
  - unfold rfc_of. cbn [rf_key rf_payload].
    destruct key as [[a b c e]|]; cbn [octet_key mask_opt]; [|reflexivity].
    rewrite mask_data_rfc. reflexivity.
Qed.

(** ** Parsing one frame from a byte list *)
Definition parse_frame (masked : bool) (limit : N) (l : bytes)
  : result dataframe ws_error * bytes :=
  sbind (read_header lst_exact l) (fun h r =>
    if limit <? h_len h then (Err (of_io InvalidData), r)
    else if llen r <? h_len h then (Err NoDataAvailable, [])
    else (read_dataframe_body h (take (h_len h) r) masked, drop (h_len h) r)).

Lemma read_with_limit_script : forall masked limit s, clean s -> limit <= isize_max ->
  sim scr_rel (read_dataframe_with_limit masked limit s)
      (parse_frame masked limit (flat s)).
Proof.
  intros masked limit s Hc Hl. unfold read_dataframe_with_limit, parse_frame.
  apply sim_bind; [apply read_header_script; exact Hc|].
  intros h s1 l1 [Hc1 Hf1].
  destruct (N.ltb_spec limit (h_len h)) as [H|H]; [apply sim_ret; split; auto|].
  unfold read_payload. destruct (N.ltb_spec isize_max (h_len h)) as [H2|H2]; [lia|].
  destruct (rd_take_to_end_clean s1 (h_len h) Hc1) as (s2 & E & Hc2 & Hf2).
  rewrite E, Hf1, llen_take. rewrite Hf1 in Hf2.
  destruct (N.ltb_spec (N.min (h_len h) (llen l1)) (h_len h)),
    (N.ltb_spec (llen l1) (h_len h)); try lia.
  - apply sim_ret. split; auto. rewrite Hf2. apply drop_all. lia.
  - apply sim_ret. split; auto.
Qed.

Lemma opcode_new_u8 : forall o, opcode_new (op_u8 o) = Some o.
Proof. destruct o; reflexivity. Qed.
Lemma op_u8_lt : forall o, op_u8 o < 16.
Proof. destruct o; reflexivity. Qed.
Lemma opcode_new_some : forall n, n < 16 -> exists o, opcode_new n = Some o /\ op_u8 o = n.
Proof.
  intros n H.
  assert (E : n = 0 \/ n = 1 \/ n = 2 \/ n = 3 \/ n = 4 \/ n = 5 \/ n = 6 \/ n = 7 \/
    n = 8 \/ n = 9 \/ n = 10 \/ n = 11 \/ n = 12 \/ n = 13 \/ n = 14 \/ n = 15) by lia.
  repeat (destruct E as [->|E]; [eexists; split; reflexivity|]).
  subst; eexists; split; reflexivity.
Qed.

Definition is_some {A : Type} (o : option A) : bool := match o with Some _ => true | None => false end.

Lemma mask_opt_invol : forall key d, mask_opt key (mask_opt key d) = d.
Proof. intros [k|] d; cbn [mask_opt]; auto using mask_data_invol. Qed.
Lemma llen_mask_opt : forall key d, llen (mask_opt key d) = llen d.
Proof.
  intros [k|] d; cbn [mask_opt]; auto. unfold llen. rewrite length_mask_data. reflexivity.
Qed.

(** Frames the reader can accept. *)
Definition frame_ok (f : dataframe) : Prop :=
  llen (f_data f) < 2 ^ 64 /\
  (8 <= op_u8 (f_opcode f) -> llen (f_data f) <= 125 /\ f_finished f = true).

Definition enc (f : dataframe) (key : option mkey) : bytes :=
  header_bytes (ops_header (df_ops f) key) ++ mask_opt key (f_data f).

Lemma frame_ok_sendable : forall f, frame_ok f -> ops_sendable (df_ops f).
Proof.
  intros f [H1 H2]. split; cbn; [apply op_u8_lt|]. intros H. apply H2. exact H.
Qed.
Lemma frame_bytes_enc : forall f key, ops_sendable (df_ops f) ->
  frame_bytes (df_ops f) key = Ok (enc f key).
Proof.
  intros f key H. rewrite frame_bytes_ok by auto. unfold enc. cbn [df_ops df_writes concat].
  rewrite app_nil_r. reflexivity.
Qed.
Lemma enc_rfc : forall f key, map b2n (enc f key) = rfc_encode (rfc_of_frame f key).
Proof.
  intros f key. unfold enc. rewrite frame_bytes_rfc_gen.
  - unfold rfc_of_frame. cbn. destruct (f_opcode f); reflexivity.
  - apply op_u8_lt.
  - reflexivity.
Qed.

Lemma header_ok_ops : forall f key, frame_ok f -> header_ok (ops_header (df_ops f) key).
Proof.
  intros f key [H1 H2]. unfold header_ok, ops_header. cbn [h_flags h_opcode h_len].
  split; [apply df_flags_trunc|]. split; [apply op_u8_lt|]. split; [exact H1|].
  intros H. apply H2. exact H.
Qed.
Lemma header_fin_ok_ops : forall f key, frame_ok f -> header_fin_ok (ops_header (df_ops f) key).
Proof.
  intros f key [H1 H2] H. unfold ops_header in *. cbn [h_flags h_opcode] in *.
  rewrite df_flags_fin. apply H2. exact H.
Qed.

Lemma read_body_enc : forall f key,
  read_dataframe_body (ops_header (df_ops f) key) (mask_opt key (f_data f)) (is_some key) = Ok f.
Proof.
  intros f key. unfold read_dataframe_body, ops_header. cbn [h_flags h_opcode h_mask].
  rewrite df_flags_fin. cbn [df_opcode df_ops]. rewrite opcode_new_u8.
  pose proof (df_flags_rsv (df_ops f)) as E. rewrite E. cbn [df_is_last df_reserved df_ops].
  destruct key as [k|]; cbn [is_some negb mask_opt].
  - rewrite mask_data_invol. destruct f; reflexivity.
  - destruct f; reflexivity.
Qed.

Lemma parse_enc : forall f key limit rest,
  frame_ok f -> llen (f_data f) <= limit ->
  parse_frame (is_some key) limit (enc f key ++ rest) = (Ok f, rest).
Proof.
  intros f key limit rest Hf Hl. unfold parse_frame, enc. rewrite <- app_assoc.
  rewrite read_header_bytes by auto using header_ok_ops, header_fin_ok_ops. cbn [sbind].
  cbn [ops_header h_len df_ops df_size].
  destruct (N.ltb_spec limit (llen (f_data f))); [lia|].
  rewrite llen_app, llen_mask_opt.
  destruct (N.ltb_spec (llen (f_data f) + llen rest) (llen (f_data f))); [lia|].
  rewrite take_app_exact, drop_app_exact by (rewrite llen_mask_opt; reflexivity).
  fold (df_ops f). change (mk_header _ _ _ _) with (ops_header (df_ops f) key).
  rewrite read_body_enc. reflexivity.
Qed.

Lemma flags_eq : forall f a b c d,
  fl_truncate f = f ->
  fl_contains f FIN = a -> fl_contains f RSV1 = b -> fl_contains f RSV2 = c ->
  fl_contains f RSV3 = d ->
  f = bit a 128 + bit b 64 + bit c 32 + bit d 16.
Proof.
  intros f a b c d Ht <- <- <- <-. pose proof (trunc_lt _ Ht) as H.
  rewrite <- (b2n_n2b_small f H) in *. destruct (n2b f); try reflexivity;
  vm_compute in Ht; discriminate.
Qed.

Lemma parse_inv : forall masked limit l f r,
  parse_frame masked limit l = (Ok f, r) ->
  exists key, is_some key = masked /\ l = enc f key ++ r /\ frame_ok f
              /\ llen (f_data f) <= limit.
Proof.
  intros masked limit l f r H. unfold parse_frame in H.
  apply sbind_ok_inv in H. destruct H as (h & r1 & Hh & H).
  apply read_header_inv in Hh. destruct Hh as (-> & (Hf & Hop & Hl64 & Hctl) & Hfin).
  destruct (N.ltb_spec limit (h_len h)) as [|Hlim]; [discriminate|].
  destruct (N.ltb_spec (llen r1) (h_len h)) as [|Hlen]; [discriminate|].
  injection H as Hb Hr.
  exists (h_mask h).
  unfold read_dataframe_body in Hb.
  destruct (opcode_new_some _ Hop) as (o & Eo & Eu). rewrite Eo in Hb.
  assert (Hf' : is_some (h_mask h) = masked /\
     f = mk_df (fl_contains (h_flags h) FIN)
        (fl_contains (h_flags h) RSV1, fl_contains (h_flags h) RSV2, fl_contains (h_flags h) RSV3)
        o (mask_opt (h_mask h) (take (h_len h) r1))).
  { destruct (h_mask h) as [k|]; cbn [is_some mask_opt]; destruct masked; cbn [negb] in Hb;
      try discriminate; injection Hb as <-; auto. }
  clear Hb. destruct Hf' as [-> Ef].
  assert (Elen : llen (f_data f) = h_len h).
  { subst f. cbn [f_data]. rewrite llen_mask_opt, llen_take. lia. }
  assert (Eh : ops_header (df_ops f) (h_mask h) = h).
  { unfold ops_header. cbn [df_ops df_opcode df_size]. rewrite Elen.
    rewrite df_flags_sum. subst f. cbn [df_reserved df_is_last f_opcode df_ops f_reserved f_finished].
    rewrite Eu, <- (flags_eq (h_flags h)); auto. destruct h; reflexivity. }
  split; [reflexivity|]. split; [|split].
  - unfold enc. rewrite Eh, <- app_assoc. f_equal.
    assert (E2 : mask_opt (h_mask h) (f_data f) = take (h_len h) r1).
    { subst f. cbn [f_data]. apply mask_opt_invol. }
    rewrite E2, <- Hr. symmetry. apply take_drop.
  - split; [lia|]. subst f. cbn [f_opcode f_finished f_data] in *. rewrite Eu.
    intros H8. split; [lia|]. apply Hfin. exact H8.
  - lia.
Qed.

(** Parsing is total. *)
Lemma read_body_total : forall h body m, h_opcode h < 16 ->
  (exists f, read_dataframe_body h body m = Ok f) \/
  (exists s, read_dataframe_body h body m = Err (DataFrameError s)).
Proof.
  intros h body m H. unfold read_dataframe_body.
  destruct (opcode_new_some _ H) as (o & -> & _).
  destruct (h_mask h), m; cbn; eauto.
Qed.

Lemma parse_total : forall masked limit l,
  match fst (parse_frame masked limit l) with
  | Ok _ => True
  | Err (DataFrameError _) => True
  | Err (ProtocolError _) => True
  | Err NoDataAvailable => True
  | Err (IoError InvalidData) => True
  | _ => False
  end.
Proof.
  intros masked limit l. unfold parse_frame. pose proof (read_header_total l) as H.
  destruct (read_header lst_exact l) as [[h|e| |] r] eqn:E; cbn [sbind fst] in *.
  - apply read_header_inv in E. destruct E as (_ & (_ & Hop & _) & _).
    destruct (limit <? h_len h); [exact I|].
    destruct (llen r <? h_len h); [exact I|]. cbn [fst].
    destruct (read_body_total h (take (h_len h) r) masked Hop) as [[f ->]|[s ->]]; exact I.
  - destruct e; try exact I; contradiction.
  - exact H.
  - exact H.
Qed.

Lemma stable_parse : forall masked limit, stable (parse_frame masked limit).
Proof.
  intros masked limit. unfold parse_frame. apply stable_bind; [apply stable_header|].
  intros h l x. destruct (limit <? h_len h); [reflexivity|].
  destruct (N.ltb_spec (llen l) (h_len h)) as [H|H]; [exact I|].
  assert (E : llen (l ++ x) <? h_len h = false) by (rewrite llen_app; lia).
  rewrite E. rewrite take_app_le, drop_app_le by exact H.
  destruct (read_dataframe_body h (take (h_len h) l) masked) as [f|e| |]; auto.
  destruct e; auto.
Qed.

Lemma enc_len_pos : forall f key, 2 <= llen (enc f key).
Proof.
  intros f key. unfold enc, header_bytes. rewrite !llen_app.
  change (llen [_; _]) with 2. lia.
Qed.

(** A proper prefix of a frame is not enough. *)
Lemma parse_prefix : forall f key limit l x, frame_ok f -> llen (f_data f) <= limit ->
  enc f key = l ++ x -> x <> [] ->
  exists r, parse_frame (is_some key) limit l = (Err NoDataAvailable, r).
Proof.
  intros f key limit l x Hf Hl E Hx.
  pose proof (parse_enc f key limit [] Hf Hl) as HP. rewrite app_nil_r, E in HP.
  pose proof (stable_parse (is_some key) limit l x) as HS.
  destruct (parse_frame (is_some key) limit l) as [[g|e| |] r].
  - rewrite HP in HS. injection HS as _ HS. symmetry in HS. apply app_eq_nil in HS.
    destruct HS. contradiction.
  - destruct e; eauto; rewrite HP in HS; discriminate.
  - rewrite HP in HS; discriminate.
  - rewrite HP in HS; discriminate.
Qed.
