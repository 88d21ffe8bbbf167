(** Streams of frames: C08, C10-C14. *)
From Coq Require Import NArith ZArith String Bool List Lia.
From Coq Require Import ZifyBool ZifyNat ZifyN.
From Coq.Strings Require Import Byte.
From Verif.Model Require Import Base Io Header Mask Dataframe Utf8 Message Receiver Codec Framed.
From Verif.Spec Require Import RfcFrame FrameSpec Schedule Drive.
From Verif.Proofs Require Import BaseFacts MaskFacts HeaderFacts FrameFacts CodecFacts ScriptFacts FramedFacts ThmFrames.
Import ListNotations.
Local Open Scope string_scope.
Local Open Scope list_scope.
Local Open Scope N_scope.

(** ** Writers *)
Lemma write_all_go_spec : forall t out buf,
  exists n, let '(r, w) := write_all_go t out buf in
    w_out w = out ++ firstn n buf /\
    (r = Ok tt <-> w_out w = out ++ buf) /\
    (r = Ok tt \/ exists k, r = Err k).
Proof.
  induction t as [|ev t IH]; intros out buf.
  - exists (length buf). destruct buf as [|b buf]; cbn [write_all_go w_out].
    + rewrite app_nil_r. cbn. rewrite ?app_nil_r. intuition.
    + rewrite firstn_all. intuition.
  - destruct buf as [|b buf].
    + exists 0%nat. cbn [write_all_go w_out firstn]. rewrite app_nil_r. intuition.
    + assert (forall r, exists n, out = out ++ firstn n (b :: buf) /\
        (Err r = @Ok unit io_kind tt <-> out = out ++ b :: buf) /\
        (Err r = @Ok unit io_kind tt \/ exists k, @Err unit io_kind r = Err k)) as HE.
      { intros r. exists 0%nat. cbn [firstn]. rewrite app_nil_r. split; [reflexivity|].
        split; [|right; eauto]. split; [discriminate|]. intros H. exfalso.
        apply (f_equal (@length byte)) in H. rewrite app_length in H. cbn in H. lia. }
      cbn [write_all_go]. destruct ev as [n| | |k]; cbn [w_out].
      * specialize (IH (out ++ take (n + 1) (b :: buf)) (drop (n + 1) (b :: buf))).
        destruct IH as [i IH].
        destruct (write_all_go t _ _) as [r w]. destruct IH as (I1 & I2 & I3).
        exists (N.to_nat (n + 1) + i)%nat. rewrite <- app_assoc in I1, I2.
        rewrite take_drop in I2. rewrite take_firstn, drop_skipn in I1. split; [|split; assumption].
        rewrite I1. f_equal.
        rewrite <- (firstn_skipn (N.to_nat (n + 1)) (b :: buf)) at 3.
        rewrite firstn_app, firstn_firstn.
        replace (Nat.min (N.to_nat (n + 1) + i) (N.to_nat (n + 1))) with (N.to_nat (n + 1)) by lia.
        f_equal. rewrite firstn_length.
        destruct (Nat.le_gt_cases (N.to_nat (n + 1)) (length (b :: buf))) as [HL|HL].
        -- f_equal. lia.
        -- rewrite skipn_all2 by lia. rewrite !firstn_nil. reflexivity.
      * apply IH.
      * apply HE.
      * apply HE.
Qed.

(** [C08] Whatever the transport does, one send emits a prefix of that frame's RFC
    encoding; it reports Ok exactly when all of it was emitted; it never panics. *)
Lemma send_prefix_proof : forall (s : sender) (d : dataframe_ops) (k : mkey) (w : wstream),
  honest d ->
  let key := if s_mask s then Some k else None in
  let frame := rfc_of (df_is_last d) (df_reserved d) (df_opcode d) (concat (df_writes d)) key in
  rfc_sendable frame ->
  exists n, let '(r, w') := send_frame s d k w in
    (exists emitted, w_out w' = w_out w ++ emitted /\ octets emitted = firstn n (rfc_encode frame)
       /\ (r = Ok tt <-> octets emitted = rfc_encode frame)) /\
    (r = Ok tt \/ exists e, r = Err e).
Proof.
  intros s d k w Hh key frame HS.
  destruct (emitted_layout_proof d key [] Hh HS) as (wire & W1 & W2).
  assert (frame_bytes d key = Ok wire) as HF.
  { unfold write_to in W1. destruct (frame_bytes d key) as [data|e| |]; try discriminate.
    unfold write_all in W1. cbn [w_script w_out] in W1.
    destruct data; cbn [write_all_go app] in W1; injection W1 as ->; reflexivity. }
  unfold send_frame. fold key. unfold write_to. rewrite HF. unfold write_all.
  destruct (write_all_go_spec (w_script w) (w_out w) wire) as [n Hn]. exists n.
  destruct (write_all_go (w_script w) (w_out w) wire) as [r w']. destruct Hn as (N1 & N2 & N3).
  split.
  - exists (firstn n wire). split; [exact N1|]. unfold frame. rewrite <- W2. split.
    + symmetry. apply firstn_map.
    + assert (io_to_ws r = Ok tt <-> r = Ok tt) as HR.
      { destruct r as [[]|e| |]; cbn [io_to_ws]; split; congruence. }
      rewrite HR, N2, N1. split.
      * intros H. apply app_inv_head in H. rewrite H. reflexivity.
      * intros H. f_equal. apply map_b2n_inj. exact H.
  - destruct N3 as [->|[e ->]]; cbn [io_to_ws]; eauto.
Qed.

(*EX
(** The transport takes three bytes and breaks. *)
Example send_prefix_ex :
  let d := owned_ops (OText (str "hello")) in
  honest d /\ rfc_sendable (rfc_of true no_rsv 1 (str "hello") None) /\
  send_frame (mk_sender false) d (mk_key x00 x00 x00 x00) (mk_w [] [WIntr; WAccept 2; WErr ConnectionReset])
  = (Err (IoError ConnectionReset), mk_w [x81; x05; x68] []).
Proof. cbv zeta. split; [split; reflexivity|]. split; [facts|reflexivity]. Qed.
EX*)


(** [C08] Sends that all reported Ok put the frames on the wire completely and in call
    order, whatever the transport did in between. *)
Lemma sends_in_order_proof : forall (s : sender) (l : list (dataframe_ops * mkey)) (w : wstream),
  Forall (fun p => honest (fst p)) l ->
  let frame (p : dataframe_ops * mkey) :=
    rfc_of (df_is_last (fst p)) (df_reserved (fst p)) (df_opcode (fst p))
           (concat (df_writes (fst p))) (if s_mask s then Some (snd p) else None) in
  Forall (fun p => N.of_nat (length (concat (df_writes (fst p)))) < 2 ^ 64) l ->
  let '(rs, w') := send_all s l w in
  Forall (fun r => r = Ok tt) rs ->
  octets (w_out w') = octets (w_out w) ++ concat (map (fun p => rfc_encode (frame p)) l).
Proof.
  intros s l. induction l as [|[d k] l IH]; intros w Hh frame Hlen.
  - cbn [send_all]. intros _. cbn [map concat]. rewrite app_nil_r. reflexivity.
  - inversion Hh as [|? ? H1 H2]; subst. inversion Hlen as [|? ? L1 L2]; subst.
    cbn [fst] in *. cbn [send_all].
    destruct (send_frame s d k w) as [r w1] eqn:E1.
    specialize (IH w1 H2 L2). destruct (send_all s l w1) as [rs w2]. intros Hall.
    inversion Hall as [|? ? R1 R2]; subst. specialize (IH R2). rewrite IH.
    cbn [map concat]. rewrite app_assoc. f_equal.
    assert (rfc_sendable (frame (d, k))) as HS.
    { unfold frame, rfc_sendable, rfc_of. cbn [fst snd].
      destruct (df_reserved d) as [[r1 r2] r3]. cbn [rf_opcode rf_payload].
      unfold octets. rewrite map_length.
      destruct (ops_sendable_dec d) as [HO|HO].
      - destruct HO as [O1 O2]. rewrite (proj1 H1) in O2. auto.
      - exfalso. unfold send_frame, write_to in E1.
        destruct (frame_bytes_refused d (if s_mask s then Some k else None) HO) as [m Hm].
        rewrite Hm in E1. discriminate. }
    destruct (send_prefix_proof s d k w H1 HS) as [n Hn]. rewrite E1 in Hn.
    destruct Hn as [(em & A & B & C) _]. rewrite A. unfold octets at 1. rewrite map_app.
    f_equal. apply C. reflexivity.
Qed.
(*EX (** Three sends over a transport that takes one byte, is interrupted, takes three, ... *)
Example sends_in_order_ex :
  let l := [(owned_ops (OText (str "hi")), mk_key x01 x02 x03 x04);
            (df_ops (mk_df false no_rsv Binary (repeat x00 130)), mk_key x05 x06 x07 x08);
            (owned_ops (OClose None), mk_key x09 x0a x0b x0c)] in
  let '(rs, w') := send_all (mk_sender true) l (mk_w [] [WAccept 0; WIntr; WAccept 2; WIntr; WAccept 1]) in
  rs = [Ok tt; Ok tt; Ok tt] /\ length (w_out w') = (8 + (2 + 2 + 4 + 130) + 6)%nat.
Proof. vm_compute. auto. Qed. EX*)

(** ** Reading *)

(** [C10] Receiving frames never panics and always returns, for every limit, every
    transport behaviour and every byte received. *)
Lemma recv_frame_no_panic_proof : forall masked max_df max_msg s,
  let '(r, _) := recv_dataframe (receiver_with_limits masked max_df max_msg) s in
  (exists f, r = Ok f) \/ (exists e, r = Err e).
Proof.
  intros masked max_df max_msg s. unfold recv_dataframe, receiver_with_limits.
  cbn [r_mask r_max_df].
  pose proof (read_limit_any masked (N.min max_df u32_max) s) as H.
  unfold u32_max, isize_max in *.
  specialize (H ltac:(lia)).
  destruct (read_dataframe_with_limit masked (N.min max_df 4294967295) s) as [[f|e| |] s'];
    try contradiction; eauto.
Qed.

(*EX
(** The largest length the wire can announce, with the largest limit. *)
Example recv_frame_no_panic_ex :
  fst (recv_dataframe (receiver_with_limits false (2 ^ 64 - 1) (2 ^ 64 - 1))
         [RData x82 [x7f; xff; xff; xff; xff; xff; xff; xff; xff]]) = Err (IoError InvalidData).
Proof. reflexivity. Qed.
EX*)

(** [C10] Nor does the async frame decoder. *)
Lemma decode_no_panic_proof : forall is_server max src,
  let '(r, _) := df_decode (mk_dfc is_server max) src in
  (exists f, r = Ok f) \/ (exists e, r = Err e).
Proof.
  intros is_server max src. pose proof (df_decode_total (mk_dfc is_server max) src) as H.
  destruct (df_decode (mk_dfc is_server max) src) as [[f|e| |] s']; try contradiction; eauto.
Qed.

(*EX
Example decode_no_panic_ex :
  df_decode (df_codec_with_limits CtxClient (2 ^ 64 - 1)) [x82; x7f; xff; xff; xff; xff; xff; xff; xff; xff]
  = (Err (ProtocolError "Exceeded maximum incoming DataFrame size"),
     [x82; x7f; xff; xff; xff; xff; xff; xff; xff; xff]).
Proof. reflexivity. Qed.
EX*)

(** [C10] The unlimited reader does panic: ten bytes from the peer are enough. *)
Lemma unlimited_read_panic_refuted_proof : exists s,
  fst (read_dataframe false s) = Panic /\ length (s : script) = 1%nat.
Proof.
  exists [RData x82 [x7f; xff; xff; xff; xff; xff; xff; xff; xff]].
  split; vm_compute; reflexivity.
Qed.

Lemma announces_header : forall l n rest, announces l n rest ->
  exists h, h_len h = n /\ read_header lst_exact l = (Ok h, rest).
Proof.
  intros l n rest (fin & [[r1 r2] r3] & op & key & hdr & -> & H & Hop & Hn & Hc).
  set (d := mk_ops fin op (r1, r2, r3) n [] None []).
  exists (ops_header d key). split; [reflexivity|].
  assert (hdr = header_bytes (ops_header d key)) as ->.
  { apply map_b2n_inj.
    rewrite (header_bytes_rfc (ops_header d key) fin r1 r2 r3 []).
    - exact H.
    - exact Hop.
    - apply (df_flags_sum d).
    - apply (df_flags_trunc d). }
  apply read_header_bytes.
  - split; [apply (df_flags_trunc d)|]. cbn [ops_header h_opcode h_len d df_opcode df_size].
    repeat split; auto. intros H8. apply Hc, H8.
  - intros H8. cbn [ops_header h_flags]. rewrite df_flags_fin. apply Hc, H8.
Qed.
Lemma header_announces : forall l h rest, read_header lst_exact l = (Ok h, rest) ->
  announces l (h_len h) rest.
Proof.
  intros l h rest H. pose proof (read_header_inv _ _ _ H) as (HB & (H1 & H2 & H3 & H4) & HF).
  exists (fl_contains (h_flags h) FIN),
    (fl_contains (h_flags h) RSV1, fl_contains (h_flags h) RSV2, fl_contains (h_flags h) RSV3),
    (h_opcode h), (h_mask h), (header_bytes h).
  split; [exact HB|]. split; [|split; [exact H2|split; [exact H3|]]].
  - apply (header_bytes_rfc h _ _ _ _ []); auto. apply flags_eq; auto.
  - intros H8. split; [apply H4, H8|apply HF, H8].
Qed.
Lemma announces_fun : forall l n rest n' rest',
  announces l n rest -> announces l n' rest' -> n = n' /\ rest = rest'.
Proof.
  intros l n rest n' rest' H H'. apply announces_header in H as (h & <- & E).
  apply announces_header in H' as (h' & <- & E'). rewrite E in E'. injection E' as -> ->. auto.
Qed.

Lemma parse_err_inv : forall m limit l e r, parse_frame m limit l = (Err e, r) ->
  e = IoError InvalidData -> exists h, read_header lst_exact l = (Ok h, r) /\ limit < h_len h.
Proof.
  intros m limit l e r H He. unfold parse_frame in H.
  pose proof (read_header_total l) as HT.
  destruct (read_header lst_exact l) as [[h|e'| |] r1] eqn:E; cbn [sbind fst] in *; try discriminate.
  - destruct (N.ltb_spec limit (h_len h)); [injection H as _ <-; eauto|].
    destruct (_ <? _); [injection H as <- _; discriminate|].
    pose proof (read_header_inv _ _ _ E) as (_ & (_ & Ho & _) & _).
    destruct (read_body_total h (take (h_len h) r1) m Ho) as [[f Hf]|[x Hf]]; rewrite Hf in H;
      [discriminate|]. injection H as <- _. discriminate.
  - injection H as <- _. subst e'. contradiction.
Qed.

(** [C11] Blocking: a frame is refused for its size exactly when its header announces more
    than the configured limit (capped at [u32::MAX]); no payload byte was then consumed. *)
Lemma frame_limit_blocking_proof : forall masked max_df max_msg s l,
  carries s l ->
  let r := receiver_with_limits masked max_df max_msg in
  (fst (recv_dataframe r s) = Err (IoError InvalidData) <->
   exists n rest, announces l n rest /\ N.min max_df 4294967295 < n) /\
  (forall n rest, announces l n rest -> N.min max_df 4294967295 < n ->
     carries (snd (recv_dataframe r s)) rest).
Proof.
  intros masked max_df max_msg s l Hs r. apply carries_iff in Hs as [Hc Hf].
  unfold recv_dataframe. subst r. unfold receiver_with_limits. cbn [r_mask r_max_df].
  change u32_max with 4294967295. set (lim := N.min max_df 4294967295).
  assert (lim <= isize_max) as HL by (unfold isize_max; lia).
  pose proof (read_with_limit_script masked lim s Hc HL) as [E1 E2]. rewrite Hf in E1, E2.
  split; [split|].
  - rewrite E1. intros H. destruct (parse_frame masked lim l) as [x y] eqn:EP. cbn [fst] in H.
    subst x. apply parse_err_inv in EP as (h & A & B); [|reflexivity].
    exists (h_len h), y. split; [apply header_announces; exact A|exact B].
  - intros (n & rest & A & B). rewrite E1. apply announces_header in A as (h & <- & A).
    unfold parse_frame. rewrite A. cbn [sbind]. destruct (N.ltb_spec lim (h_len h)); [|lia].
    reflexivity.
  - intros n rest A B. apply carries_iff. apply announces_header in A as (h & <- & A).
    unfold parse_frame in E2. rewrite A in E2. cbn [sbind] in E2.
    destruct (N.ltb_spec lim (h_len h)); [|lia]. exact E2.
Qed.
(** [C11] Async: likewise, as soon as the header is in the buffer, which is left as it is. *)
Lemma frame_limit_async_proof : forall ctx max_df src,
  let c := df_codec_with_limits ctx max_df in
  let e := ProtocolError "Exceeded maximum incoming DataFrame size" in
  (fst (df_decode c src) = Err e <->
   exists n rest, announces src n rest /\ N.min max_df 4294967295 < n) /\
  (fst (df_decode c src) = Err e -> snd (df_decode c src) = src).
Proof.
  intros ctx max_df src c e. unfold c, df_codec_with_limits. change u32_max with 4294967295.
  set (lim := N.min max_df 4294967295). set (cc := mk_dfc _ lim).
  assert (forall r, df_decode cc src = (Err e, r) ->
    r = src /\ exists n rest, announces src n rest /\ lim < n) as HB.
  { intros r H. apply decode_err_inv in H. remember e as e0 eqn:He. destruct H.
    - exfalso. clear -H0 He. subst e0. pose proof (read_header_errs src) as HM.
      rewrite H0 in HM. cbn in HM. unfold e in HM. intuition discriminate.
    - split; [reflexivity|]. exists (h_len h), r. split; [apply header_announces; assumption|].
      exact H0.
    - discriminate. }
  split; [split|].
  - intros H. destruct (df_decode cc src) as [x y] eqn:E. cbn [fst] in H. subst x.
    apply (HB y eq_refl).
  - intros (n & rest & A & B). apply announces_header in A as (h & <- & A).
    rewrite df_decode_eq, A. cbn [dc_max cc]. destruct (N.ltb_spec lim (h_len h)); [|lia].
    reflexivity.
  - intros H. destruct (df_decode cc src) as [x y] eqn:E. cbn [fst snd] in *. subst x.
    destruct (HB y eq_refl) as [-> _]. reflexivity.
Qed.

(*EX (** 200 bytes announced, limit 100; the header alone is enough. *)
Example frame_limit_ex : announces [x82; x7e; x00; xc8; x01; x02] 200 [x01; x02].
Proof.
  exists true, no_rsv, 2, None, [x82; x7e; x00; xc8]. vm_compute. intuition discriminate.
Qed. EX*)

(** [C12] On every proper prefix of a legal frame's encoding the blocking reader says
    NoDataAvailable and the async decoder asks for more without touching the buffer,
    in either role. *)
Lemma truncated_frame_proof : forall (f : dataframe) (key : option mkey) (p q : bytes),
  rfc_legal (rfc_of_frame f key) ->
  octets (p ++ q) = rfc_encode (rfc_of_frame f key) -> q <> [] ->
  (forall s limit masked, carries s p -> N.of_nat (length (f_data f)) <= limit ->
     limit <= isize_max ->
     fst (read_dataframe_with_limit masked limit s) = Err NoDataAvailable) /\
  (forall max is_server, N.of_nat (length (f_data f)) <= max ->
     df_decode (mk_dfc is_server max) p = (Ok None, p)).
Proof.
  intros f key p q HL Ho Hq. apply legal_frame_ok in HL. apply octets_eq_enc in Ho.
  assert (forall m limit, llen (f_data f) <= limit ->
    exists r, parse_frame m limit p = (Err NoDataAvailable, r)) as HP.
  { intros m limit Hl.
    destruct (parse_prefix f key limit p q HL Hl (eq_sym Ho) Hq) as [r Hr].
    unfold parse_frame in *.
    destruct (read_header lst_exact p) as [[h|e| |] r1] eqn:E; cbn [sbind] in *; eauto.
    destruct (limit <? h_len h); [discriminate|].
    destruct (llen r1 <? h_len h); [eauto|].
    pose proof (read_header_inv _ _ _ E) as (_ & (_ & Hop & _) & _).
    destruct (read_body_total h (take (h_len h) r1) (is_some key) Hop) as [[g Hg]|[x Hg]];
      rewrite Hg in Hr; discriminate. }
  split.
  - intros s limit masked Hs Hl Hi. apply carries_iff in Hs as [Hc Hf].
    pose proof (read_with_limit_script masked limit s Hc Hi) as [E1 _]. rewrite E1, Hf.
    destruct (HP masked limit Hl) as [r ->]. reflexivity.
  - intros max is_server Hm. destruct (HP is_server max Hm) as [r Hr].
    apply (decode_of_parse_nodata (mk_dfc is_server max) p r Hr).
Qed.
(*EX Example truncated_frame_ex :
  let f := mk_df true no_rsv Text (str "hello") in
  rfc_legal (rfc_of_frame f None) /\
  octets ([x81; x05; x68] ++ str "ello") = rfc_encode (rfc_of_frame f None).
Proof. vm_compute. intuition congruence. Qed. EX*)

(** [C13] Feeding a byte stream in any chunks, decoding after each, gives the same frames,
    the same error and the same leftover as feeding it at once. *)
Lemma frame_chunking_proof : forall (c : df_codec) (src : bytes) (chunks : list bytes),
  decode_chunks df_decoder c src chunks = decode_buffer df_decoder c (src ++ concat chunks).
Proof. intros c src chunks. apply decode_chunks_df. Qed.
(** [C13] The same for the [Framed] stream over any transport schedule: frames delivered
    and how the stream ends depend on the bytes only. *)
Lemma framed_frames_chunking_proof : forall (c : df_codec) buf s1 s2 l,
  acarries s1 l -> acarries s2 l -> run_frames c buf s1 = run_frames c buf s2.
Proof.
  intros c buf s1 s2 l H1 H2.
  rewrite (run_frames_chunks c buf s1 l H1), (run_frames_chunks c buf s2 l H2). reflexivity.
Qed.
(*EX Example frame_chunking_ex :
  decode_chunks df_decoder (mk_dfc false 100) [x81] [[x02; x68]; []; [x69; x82; x01]; [x00; x89]]
  = ([mk_df true no_rsv Text (str "hi"); mk_df true no_rsv Binary [x00]], None,
     mk_dfc false 100, [x89]).
Proof. reflexivity. Qed. EX*)

(** [C14] Each decoded frame is taken off the front of the buffer, at least two bytes;
    nothing is taken when more bytes are needed; so at most half as many frames as bytes
    come out of a buffer, and draining it needs no more calls than that plus one. *)
Lemma decode_progress_proof : forall (c : df_codec) (src : bytes),
  match df_decode c src with
  | (Ok (Some f), rest) =>
      exists wire key, src = wire ++ rest /\ octets wire = rfc_encode (rfc_of_frame f key)
                       /\ (2 <= length wire)%nat
  | (Ok None, rest) => rest = src
  | _ => True
  end.
Proof.
  intros c src. destruct (df_decode c src) as [[[f|]|e| |] rest] eqn:E; auto.
  - apply df_decode_some in E as (key & A & B & C & D). exists (enc f key), key.
    split; [exact B|]. split; [apply enc_rfc|]. pose proof (enc_len_pos f key).
    unfold llen in *. lia.
  - apply decode_none_parse in E as [-> _]. reflexivity.
Qed.

(*EX
Example decode_progress_ex :
  df_decode (mk_dfc true 100) [x89; x80; x01; x02; x03; x04; x81; x80]
  = (Ok (Some (mk_df true no_rsv Ping [])), [x81; x80]) /\
  df_decode (mk_dfc true 100) [x81; x80] = (Ok None, [x81; x80]).
Proof. split; reflexivity. Qed.
EX*)

(** [C14] *)
Lemma decode_terminates_proof : forall (c : df_codec) (src : bytes) (n : nat),
  (length src / 2 < n)%nat ->
  decode_until df_decoder n c src = decode_buffer df_decoder c src /\
  (2 * length (fst (fst (fst (decode_buffer df_decoder c src)))) <= length src)%nat.
Proof.
  intros c src n. unfold decode_buffer.
  assert (forall k src n, (length src < 2 * n)%nat -> (length src < k)%nat ->
    decode_until df_decoder n c src = decode_until df_decoder k c src /\
    (2 * length (fst (fst (fst (decode_until df_decoder k c src)))) <= length src)%nat) as HG.
  { induction k as [|k IH]; intros src0 n0 Hn Hk; [lia|].
    destruct n0 as [|n0]; [lia|]. cbn [decode_until].
    unfold df_decoder at 1 3 5. destruct (df_decode c src0) as [[[f|]|e| |] rest] eqn:E;
      try (split; [reflexivity|cbn; lia]).
    pose proof (df_decode_length _ _ _ _ E) as HL.
    destruct (IH rest n0) as [I1 I2]; [lia|lia|]. rewrite I1.
    destruct (decode_until df_decoder k c rest) as [[[l e] st2] s2]. cbn [fst] in *.
    split; [reflexivity|]. cbn [length]. lia. }
  intros Hn. destruct (HG (S (length src)) src n) as [A B]; [|lia|auto].
  pose proof (Nat.div_mod (length src) 2 ltac:(lia)).
  pose proof (Nat.mod_upper_bound (length src) 2 ltac:(lia)). lia.
Qed.

(*EX
(** As many frames as half the bytes. *)
Example decode_terminates_ex :
  decode_until df_decoder 4 (mk_dfc false 100) [x81; x00; x82; x00; x89; x00; x88]
  = ([mk_df true no_rsv Text []; mk_df true no_rsv Binary []; mk_df true no_rsv Ping []], None,
     mk_dfc false 100, [x88]).
Proof. reflexivity. Qed.
EX*)

