(** The async message codec. *)
From Coq Require Import NArith ZArith String Bool List Lia.
From Coq Require Import ZifyBool ZifyNat ZifyN.
From Coq.Strings Require Import Byte.
From Verif.Model Require Import Base Io Header Mask Dataframe Utf8 Message Receiver Codec Framed.
From Verif.Spec Require Import Schedule Drive.
From Verif.Proofs Require Import BaseFacts MaskFacts HeaderFacts FrameFacts CodecFacts Machine FramedFacts.
Import ListNotations.
Local Open Scope string_scope.
Local Open Scope list_scope.
Local Open Scope N_scope.

Lemma mc_with_buffer_same : forall c, mc_with_buffer c (mc_buffer c) = c.
Proof. intros []; reflexivity. Qed.
Lemma mc_with_buffer_twice : forall c b b',
  mc_with_buffer (mc_with_buffer c b) b' = mc_with_buffer c b'.
Proof. reflexivity. Qed.

(** ** The loop as the reassembly machine with limits *)
Definition over (n : N) : bool := MAX_DATAFRAMES_IN_ONE_MESSAGE <=? n.
Lemma mc_loop_step : forall fuel c cur src,
  mc_loop (S fuel) c cur src =
  match df_decode (mc_df c) src with
  | (Ok None, src') => (Ok None, c, src')
  | (Ok (Some f), src') =>
      match step (mc_buffer c) f with
      | (Some o, b) => (some_owned o, mc_with_buffer c b, src')
      | (None, b) =>
          if over (llen b) then (Err e_count, mc_with_buffer c b, src')
          else if mc_max_msg c <? cur + (llen (f_data f) + PER_DATAFRAME_OVERHEAD)
          then (Err e_size, mc_with_buffer c b, src')
          else mc_loop fuel (mc_with_buffer c b)
                 (cur + (llen (f_data f) + PER_DATAFRAME_OVERHEAD)) src'
      end
  | (Err e, src') => (Err e, c, src')
  | (Panic, src') => (Panic, c, src')
  | (OutOfFuel, src') => (OutOfFuel, c, src')
  end.
Proof.
  intros fuel c cur src. cbn [mc_loop].
  destruct (df_decode (mc_df c) src) as [[[f|]|e| |] src']; try reflexivity.
  unfold step, is_nil. pose proof (op_u8_lt (f_opcode f)) as Hop.
  destruct ((op_u8 (f_opcode f) =? 0) && match mc_buffer c with [] => true | _ => false end) eqn:E1.
  - rewrite mc_with_buffer_same. reflexivity.
  - destruct (N.leb_spec 8 (op_u8 (f_opcode f))).
    + destruct (N.leb_spec (op_u8 (f_opcode f)) 15); [|lia]. cbn [andb].
      rewrite mc_with_buffer_same. reflexivity.
    + cbn [andb]. destruct (N.leb_spec (op_u8 (f_opcode f)) 7); [|lia].
      rewrite andb_true_r.
      destruct ((1 <=? op_u8 (f_opcode f)) && negb match mc_buffer c with [] => true | _ => false end).
      * rewrite mc_with_buffer_same. reflexivity.
      * cbn [mc_buffer mc_with_buffer mc_max_msg]. destruct (f_finished f); reflexivity.
Qed.

Lemma mc_loop_fuel : forall f1 f2 c cur src, (length src < f1)%nat -> (length src < f2)%nat ->
  mc_loop f1 c cur src = mc_loop f2 c cur src.
Proof.
  induction f1 as [|f1 IH]; intros f2 c cur src H1 H2; [lia|].
  destruct f2 as [|f2]; [lia|]. rewrite !mc_loop_step.
  destruct (df_decode (mc_df c) src) as [[[f|]|e| |] src'] eqn:E; auto.
  apply df_decode_length in E. destruct (step (mc_buffer c) f) as [[o|] b]; auto.
  destruct (over _); auto. destruct (_ <? _); auto. apply IH; lia.
Qed.
Definition mcl (c : msg_codec) (cur : N) (src : bytes) := mc_loop (S (length src)) c cur src.
Lemma mcl_eq : forall c cur src,
  mcl c cur src =
  match df_decode (mc_df c) src with
  | (Ok None, src') => (Ok None, c, src')
  | (Ok (Some f), src') =>
      match step (mc_buffer c) f with
      | (Some o, b) => (some_owned o, mc_with_buffer c b, src')
      | (None, b) =>
          if over (llen b) then (Err e_count, mc_with_buffer c b, src')
          else if mc_max_msg c <? cur + (llen (f_data f) + PER_DATAFRAME_OVERHEAD)
          then (Err e_size, mc_with_buffer c b, src')
          else mcl (mc_with_buffer c b)
                 (cur + (llen (f_data f) + PER_DATAFRAME_OVERHEAD)) src'
      end
  | (Err e, src') => (Err e, c, src')
  | (Panic, src') => (Panic, c, src')
  | (OutOfFuel, src') => (OutOfFuel, c, src')
  end.
Proof.
  intros c cur src. unfold mcl at 1. rewrite mc_loop_step.
  destruct (df_decode (mc_df c) src) as [[[f|]|e| |] src'] eqn:E; auto.
  apply df_decode_length in E. destruct (step (mc_buffer c) f) as [[o|] b]; auto.
  destruct (over _); auto. destruct (_ <? _); auto. unfold mcl. apply mc_loop_fuel; lia.
Qed.

(** Message construction never panics. *)
Lemma gather_total : forall fs i d, match gather i d fs with Ok _ => True | Err _ => True | _ => False end.
Proof.
  induction fs as [|f fs IH]; intros i d; cbn [gather]; [exact I|].
  destruct (_ && _); [exact I|]. destruct (df_reserved f) as [[[|] [|]] [|]]; try exact I. apply IH.
Qed.
Lemma owned_from_total : forall fs, (exists m, owned_from_dataframes fs = Ok m) \/
  (exists e, owned_from_dataframes fs = Err e).
Proof.
  intros fs. unfold owned_from_dataframes, from_dataframes. destruct fs as [|f fs]; [cbn; eauto|].
  pose proof (gather_total (f :: fs) 0 []) as HG. destruct (gather 0 [] (f :: fs)) as [d|e| |];
    try contradiction; cbn [rbind]; eauto.
  destruct (opcode_new (df_opcode f)) as [[]|]; cbn [rbind]; eauto.
  - destruct (utf8_valid d); cbn [rbind]; eauto.
  - destruct d as [|a [|b r]]; cbn [rbind]; eauto. destruct (utf8_valid r); cbn [rbind]; eauto.
Qed.
Lemma step_total : forall b f o b', step b f = (Some o, b') ->
  (exists m, o = Ok m) \/ (exists e, o = Err e).
Proof.
  intros b f o b' H. unfold step in H.
  destruct (_ && _); [injection H as <- _; eauto|].
  destruct (_ <=? _); [injection H as <- _; apply owned_from_total|].
  destruct (_ && _); [injection H as <- _; eauto|].
  destruct (f_finished f); [injection H as <- _; apply owned_from_total|discriminate].
Qed.

(** One call of the loop, from any point. *)
Lemma mcl_cases : forall n src c cur, (length src < n)%nat ->
  match mcl c cur src with
  | (Ok (Some _), _, src') => (length src' < length src)%nat
  | (Ok None, c', src') => (length src' <= length src)%nat /\ df_decode (mc_df c') src' = (Ok None, src')
  | (Err _, _, src') => (length src' <= length src)%nat
  | _ => False
  end.
Proof.
  induction n as [|n IH]; intros src c cur Hn; [lia|]. rewrite mcl_eq.
  pose proof (df_decode_total (mc_df c) src) as HT.
  destruct (df_decode (mc_df c) src) as [[[f|]|e| |] src'] eqn:E; cbn [fst] in HT; try contradiction.
  - pose proof (df_decode_length _ _ _ _ E) as HL.
    destruct (step (mc_buffer c) f) as [[o|] b] eqn:ES.
    + destruct (step_total _ _ _ _ ES) as [[m ->]|[e ->]]; cbn [some_owned rbind]; lia.
    + destruct (over _); [lia|]. destruct (_ <? _); [lia|].
      specialize (IH src' (mc_with_buffer c b)
        (cur + (llen (f_data f) + PER_DATAFRAME_OVERHEAD)) ltac:(lia)).
      destruct (mcl _ _ src') as [[[[m|]|e| |] c'] src2]; try contradiction; try lia.
      destruct IH. split; [lia|assumption].
  - pose proof (decode_none_parse _ _ _ E) as [-> _]. split; [lia|exact E].
  - apply decode_err_inv in E. destruct E; try lia.
    pose proof (read_header_inv _ _ _ H) as (HB & _ & _).
    rewrite HB, app_length, drop_skipn, skipn_length. lia.
Qed.

Lemma mc_decode_mcl : forall c src, mc_decode c src = mcl c (data_total (mc_buffer c)) src.
Proof. reflexivity. Qed.

Lemma mc_some : forall c src i c' src',
  mc_decode c src = (Ok (Some i), c', src') -> (length src' < length src)%nat.
Proof.
  intros c src i c' src' H. rewrite mc_decode_mcl in H.
  pose proof (mcl_cases (S (length src)) src c (data_total (mc_buffer c)) ltac:(lia)) as HC.
  rewrite H in HC. exact HC.
Qed.
Lemma mcl_quiet : forall c cur src, df_decode (mc_df c) src = (Ok None, src) ->
  mcl c cur src = (Ok None, c, src).
Proof. intros c cur src H. rewrite mcl_eq, H. reflexivity. Qed.
Lemma mc_none : forall c src c' src',
  mc_decode c src = (Ok None, c', src') ->
  (length src' <= length src)%nat /\ mc_decode c' src' = (Ok None, c', src').
Proof.
  intros c src c' src' H. rewrite mc_decode_mcl in H.
  pose proof (mcl_cases (S (length src)) src c (data_total (mc_buffer c)) ltac:(lia)) as HC.
  rewrite H in HC. destruct HC as [H1 H2]. split; [exact H1|].
  rewrite mc_decode_mcl. apply mcl_quiet. exact H2.
Qed.
Lemma mc_total : forall c src c' src',
  mc_decode c src <> (Panic, c', src') /\ mc_decode c src <> (OutOfFuel, c', src').
Proof.
  intros c src c' src'. rewrite mc_decode_mcl.
  pose proof (mcl_cases (S (length src)) src c (data_total (mc_buffer c)) ltac:(lia)) as HC.
  split; intros H; rewrite H in HC; contradiction.
Qed.

Lemma fr_inv_new_mc : forall c buf, fr_inv mc_decode (framed_new c buf).
Proof.
  intros c buf. split; [reflexivity|]. cbn [framed_new fr_readable fr_st fr_buf].
  destruct buf; [|discriminate]. intros _. rewrite mc_decode_mcl. apply mcl_quiet. reflexivity.
Qed.
Lemma run_messages_cdrain : forall c buf s,
  run_messages c buf s = cdrain mc_decode s c buf.
Proof.
  intros c buf s. unfold run_messages.
  rewrite (framed_run_cdrain _ _ _ mc_some mc_none mc_total);
    [reflexivity | apply fr_inv_new_mc | cbn [framed_new fr_buf]; lia].
Qed.

(** ** More bytes *)
Lemma mcl_stable : forall n src c cur x, (length src < n)%nat ->
  match mcl c cur src with
  | (Ok None, c', src') =>
      exists cur', mcl c cur (src ++ x) = mcl c' cur' (src' ++ x) /\
        (data_total (mc_buffer c) <= cur -> data_total (mc_buffer c') <= cur')
        /\ mc_df c' = mc_df c /\ mc_max_msg c' = mc_max_msg c
  | (r, c', src') => mcl c cur (src ++ x) = (r, c', src' ++ x)
  end.
Proof.
  induction n as [|n IH]; intros src c cur x Hn; [lia|].
  rewrite (mcl_eq c cur src). pose proof (df_decode_stable (mc_df c) src x) as HS.
  destruct (df_decode (mc_df c) src) as [[[f|]|e| |] src'] eqn:E.
  - pose proof (df_decode_length _ _ _ _ E) as HL. rewrite (mcl_eq c cur (src ++ x)), HS.
    destruct (step (mc_buffer c) f) as [[o|] b] eqn:ES.
    + destruct (step_total _ _ _ _ ES) as [[m ->]|[e ->]]; reflexivity.
    + destruct (over _); [reflexivity|]. destruct (_ <? _); [reflexivity|].
      specialize (IH src' (mc_with_buffer c b)
        (cur + (llen (f_data f) + PER_DATAFRAME_OVERHEAD)) x ltac:(lia)).
      destruct (mcl _ _ src') as [[[[m|]|e| |] c'] src2]; auto.
      destruct IH as (cur' & I1 & I2 & I3 & I4). exists cur'. split; [exact I1|].
      split; [|split; assumption].
      intros Hc. apply I2. cbn [mc_with_buffer mc_buffer].
      unfold step in ES. destruct (_ && _); [discriminate|]. destruct (_ <=? _); [discriminate|].
      destruct (_ && _); [discriminate|]. destruct (f_finished f); [discriminate|].
      injection ES as <-. rewrite data_total_app, data_total_1. lia.
  - pose proof (decode_none_parse _ _ _ E) as [-> _]. exists cur. auto.
  - rewrite (mcl_eq c cur (src ++ x)), HS. reflexivity.
  - rewrite (mcl_eq c cur (src ++ x)), HS. reflexivity.
  - rewrite (mcl_eq c cur (src ++ x)), HS. reflexivity.
Qed.

(** A smaller running length gives the same result unless the size limit stopped it. *)
Lemma mcl_mono : forall n src c cur1 cur2, (length src < n)%nat -> cur2 <= cur1 ->
  fst (fst (mcl c cur1 src)) <> Err e_size -> mcl c cur2 src = mcl c cur1 src.
Proof.
  induction n as [|n IH]; intros src c cur1 cur2 Hn Hle H; [lia|].
  rewrite (mcl_eq c cur1 src) in *. rewrite (mcl_eq c cur2 src).
  destruct (df_decode (mc_df c) src) as [[[f|]|e| |] src'] eqn:E; auto.
  pose proof (df_decode_length _ _ _ _ E) as HL.
  destruct (step (mc_buffer c) f) as [[o|] b]; auto.
  destruct (over _); auto.
  destruct (N.ltb_spec (mc_max_msg c) (cur1 + (llen (f_data f) + PER_DATAFRAME_OVERHEAD)));
    [cbn [fst] in H; congruence|].
  destruct (N.ltb_spec (mc_max_msg c) (cur2 + (llen (f_data f) + PER_DATAFRAME_OVERHEAD)));
    [lia|].
  apply IH; [lia|lia|exact H].
Qed.

(** What a consumer gets from a single buffer, the first call starting at [cur]. *)
Definition big_run (c : msg_codec) (cur : N) (l : bytes) : list owned * poll owned :=
  match mcl c cur l with
  | (Ok (Some i), c', l') => let '(r, e) := cdrain mc_decode [] c' l' in (i :: r, e)
  | (Ok None, _, l') => ([], match l' with [] => PEnd | _ => PErr remaining end)
  | (Err e, _, _) => ([], PErr e)
  | (Panic, _, _) => ([], PPanic)
  | (OutOfFuel, _, _) => ([], POutOfFuel)
  end.
Lemma cdrain_big_run : forall c l,
  cdrain mc_decode [] c l = big_run c (data_total (mc_buffer c)) l.
Proof.
  intros c l. unfold big_run. pose proof (mc_total c l) as HT. rewrite mc_decode_mcl in HT.
  destruct (mcl c (data_total (mc_buffer c)) l) as [[[[i|]|e| |] c'] l'] eqn:E;
    rewrite <- mc_decode_mcl in E.
  - apply (cdrain_item _ _ _ mc_some _ _ _ _ _ _ E).
  - rewrite (cdrain_none _ _ _ mc_some mc_none _ _ _ _ _ E).
    apply (cdrain_quiet _ _ _ mc_some). apply (mc_none _ _ _ _ E).
  - apply (cdrain_err _ _ _ mc_some _ _ _ _ _ _ E).
  - exfalso. exact (proj1 (HT c' l') eq_refl).
  - exfalso. exact (proj2 (HT c' l') eq_refl).
Qed.

Lemma chunks_big_run : forall n s c src cur,
  (length src + length (aev_bytes s) + length s < n)%nat ->
  a_clean s -> data_total (mc_buffer c) <= cur ->
  snd (big_run c cur (src ++ aev_bytes s)) <> PErr e_size ->
  cdrain mc_decode s c src = big_run c cur (src ++ aev_bytes s).
Proof.
  induction n as [|n IH]; intros s c src cur Hn Hs Hcur Hend; [lia|].
  pose proof (mcl_stable (S (length src)) src c cur (aev_bytes s) ltac:(lia)) as HS.
  pose proof (mcl_mono (S (length src)) src c cur (data_total (mc_buffer c)) ltac:(lia) Hcur) as HM.
  pose proof (mcl_cases (S (length src)) src c cur ltac:(lia)) as HC.
  destruct (mcl c cur src) as [[[[i|]|e| |] c1] s1] eqn:E; try contradiction.
  - specialize (HM ltac:(discriminate)). rewrite <- mc_decode_mcl in HM.
    rewrite (cdrain_item _ _ _ mc_some _ _ _ _ _ _ HM).
    assert (big_run c cur (src ++ aev_bytes s) =
      let '(r, e) := big_run c1 (data_total (mc_buffer c1)) (s1 ++ aev_bytes s) in (i :: r, e)) as HB.
    { rewrite <- cdrain_big_run. unfold big_run at 1. rewrite HS. reflexivity. }
    rewrite HB in *. clear HB.
    rewrite (IH s c1 s1 (data_total (mc_buffer c1))); [reflexivity|lia|exact Hs|lia|].
    destruct (big_run c1 (data_total (mc_buffer c1)) (s1 ++ aev_bytes s)) as [r p].
    cbn [snd] in *. exact Hend.
  - specialize (HM ltac:(discriminate)). rewrite <- mc_decode_mcl in HM.
    rewrite (cdrain_none _ _ _ mc_some mc_none _ _ _ _ _ HM).
    pose proof (mc_none _ _ _ _ HM) as [HL HQ].
    rewrite (cdrain_quiet _ _ _ mc_some _ _ _ HQ).
    destruct HS as (cur' & S1 & S2 & S3 & S4).
    assert (big_run c cur (src ++ aev_bytes s) = big_run c1 cur' (s1 ++ aev_bytes s)) as HB
      by (unfold big_run; rewrite S1; reflexivity).
    rewrite HB in *. destruct s as [|[b bs| |k] s].
    + cbn [aev_bytes] in *. rewrite app_nil_r. unfold big_run.
      destruct HC as [_ HC]. rewrite mcl_quiet by exact HC. reflexivity.
    + inversion Hs; subst. cbn [aev_bytes length] in *.
      change (b :: bs ++ aev_bytes s) with ((b :: bs) ++ aev_bytes s) in *.
      rewrite app_assoc in *. apply IH; auto.
      rewrite !app_length in *. cbn [app length] in *. rewrite ?app_length in *. lia.
    + inversion Hs; subst. cbn [aev_bytes length] in *. apply IH; auto. lia.
    + inversion Hs; subst. contradiction.
  - assert (e <> e_size) as He.
    { intros ->. apply Hend. unfold big_run. rewrite HS. reflexivity. }
    specialize (HM ltac:(cbn; congruence)). rewrite <- mc_decode_mcl in HM.
    rewrite (cdrain_err _ _ _ mc_some _ _ _ _ _ _ HM). unfold big_run. rewrite HS. reflexivity.
Qed.

Lemma run_messages_chunks : forall c buf s l, acarries s l ->
  snd (run_messages c (buf ++ l) []) <> PErr e_size ->
  run_messages c buf s = run_messages c (buf ++ l) [].
Proof.
  intros c buf s l Hs H. apply acarries_iff in Hs as [H1 H2]. subst l.
  rewrite !run_messages_cdrain in *. rewrite cdrain_big_run in *.
  apply (chunks_big_run (S (length buf + length (aev_bytes s) + length s))); auto; lia.
Qed.

(** ** The machine without limits *)
Lemma mcl_advance : forall l c cur rest o buf' fs',
  wire_ok (dc_is_server (mc_df c)) (dc_max (mc_df c)) l ->
  cur <= weight (mc_buffer c) ->
  within (mc_max_msg c) (mc_buffer c) (map fst l) ->
  advance (mc_buffer c) (map fst l) = Some (o, buf', fs') ->
  exists l', mcl c cur (encs l ++ rest) = (some_owned o, mc_with_buffer c buf', encs l' ++ rest)
    /\ fs' = map fst l' /\ (exists pre, l = pre ++ l').
Proof.
  induction l as [|[f key] l IH]; intros c cur rest o buf' fs' Hw Hcur Hwi Ha; [discriminate|].
  inversion Hw as [|x xs (W1 & W2 & W3) Hw']; subst x xs. cbn [fst snd map] in *.
  rewrite encs_cons, <- app_assoc. cbn [fst snd]. rewrite mcl_eq.
  rewrite (df_decode_enc (mc_df c) f key (encs l ++ rest) W1 W2 W3).
  cbn [advance within] in *.
  destruct (step (mc_buffer c) f) as [[o1|] b] eqn:ES.
  - injection Ha as <- <- <-. exists l. repeat split. exists [(f, key)]. reflexivity.
  - destruct Hwi as (L1 & L2 & L3).
    assert (weight b = weight (mc_buffer c) + (llen (f_data f) + PER_DATAFRAME_OVERHEAD)) as HWt.
    { unfold step in ES. destruct (_ && _); [discriminate|]. destruct (_ <=? _); [discriminate|].
      destruct (_ && _); [discriminate|]. destruct (f_finished f); [discriminate|].
      injection ES as <-. rewrite weight_app. cbn [weight fold_right]. lia. }
    unfold over. destruct (N.leb_spec MAX_DATAFRAMES_IN_ONE_MESSAGE (llen b)); [lia|].
    destruct (N.ltb_spec (mc_max_msg c) (cur + (llen (f_data f) + PER_DATAFRAME_OVERHEAD))); [lia|].
    destruct (IH (mc_with_buffer c b) (cur + (llen (f_data f) + PER_DATAFRAME_OVERHEAD)) rest o buf' fs')
      as (l' & I1 & I2 & pre & I3); auto.
    { cbn [mc_with_buffer mc_buffer]. lia. }
    exists l'. rewrite I1. repeat split; auto. exists ((f, key) :: pre). rewrite I3. reflexivity.
Qed.
Lemma mc_decode_advance : forall l c rest o buf' fs',
  wire_ok (dc_is_server (mc_df c)) (dc_max (mc_df c)) l ->
  within (mc_max_msg c) (mc_buffer c) (map fst l) ->
  advance (mc_buffer c) (map fst l) = Some (o, buf', fs') ->
  exists l', mc_decode c (encs l ++ rest) = (some_owned o, mc_with_buffer c buf', encs l' ++ rest)
    /\ fs' = map fst l' /\ (exists pre, l = pre ++ l').
Proof.
  intros. rewrite mc_decode_mcl. apply mcl_advance; auto. apply data_total_weight.
Qed.
Lemma mcl_exhaust : forall l c cur rest,
  wire_ok (dc_is_server (mc_df c)) (dc_max (mc_df c)) l ->
  cur <= weight (mc_buffer c) ->
  within (mc_max_msg c) (mc_buffer c) (map fst l) ->
  advance (mc_buffer c) (map fst l) = None ->
  df_decode (mc_df c) rest = (Ok None, rest) ->
  mcl c cur (encs l ++ rest)
  = (Ok None, mc_with_buffer c (snd (results (mc_buffer c) (map fst l))), rest).
Proof.
  induction l as [|[f key] l IH]; intros c cur rest Hw Hcur Hwi Ha Hr.
  - cbn [encs map concat app results snd]. rewrite mc_with_buffer_same. apply mcl_quiet, Hr.
  - inversion Hw as [|x xs (W1 & W2 & W3) Hw']; subst x xs. cbn [fst snd map] in *.
    rewrite encs_cons, <- app_assoc. cbn [fst snd]. rewrite mcl_eq.
    rewrite (df_decode_enc (mc_df c) f key (encs l ++ rest) W1 W2 W3).
    cbn [advance within results] in *.
    destruct (step (mc_buffer c) f) as [[o1|] b] eqn:ES; [discriminate|].
    destruct Hwi as (L1 & L2 & L3).
    assert (weight b = weight (mc_buffer c) + (llen (f_data f) + PER_DATAFRAME_OVERHEAD)) as HWt.
    { unfold step in ES. destruct (_ && _); [discriminate|]. destruct (_ <=? _); [discriminate|].
      destruct (_ && _); [discriminate|]. destruct (f_finished f); [discriminate|].
      injection ES as <-. rewrite weight_app. cbn [weight fold_right]. lia. }
    unfold over. destruct (N.leb_spec MAX_DATAFRAMES_IN_ONE_MESSAGE (llen b)); [lia|].
    destruct (N.ltb_spec (mc_max_msg c) (cur + (llen (f_data f) + PER_DATAFRAME_OVERHEAD))); [lia|].
    rewrite IH; auto. cbn [mc_with_buffer mc_buffer]. lia.
Qed.

(** All results of a stream of frames, call by call. *)
Lemma mc_n_runs : forall buf fs os buf2 fs2,
  runs buf fs os buf2 fs2 ->
  forall l c rest, map fst l = fs -> mc_buffer c = buf ->
  wire_ok (dc_is_server (mc_df c)) (dc_max (mc_df c)) l ->
  within (mc_max_msg c) buf fs ->
  exists l2, decode_n mc_decode (length os) c (encs l ++ rest)
             = (map some_owned os, mc_with_buffer c buf2, encs l2 ++ rest)
    /\ fs2 = map fst l2 /\ (exists pre, l = pre ++ l2).
Proof.
  induction 1 as [buf fs|buf fs o buf1 fs1 os buf2 fs2 Ha Hr IH]; intros l c rest Hl Hb Hw Hwi.
  - exists l. cbn [length decode_n map]. subst buf. rewrite mc_with_buffer_same.
    repeat split; auto. exists []; reflexivity.
  - subst fs buf. destruct (mc_decode_advance l c rest o buf1 fs1 Hw Hwi Ha) as (l1 & D1 & D2 & pre & D3).
    cbn [length decode_n map]. rewrite D1.
    destruct (IH l1 (mc_with_buffer c buf1) rest) as (l2 & I1 & I2 & pre2 & I3); auto.
    { subst l. apply wire_ok_app_r in Hw. exact Hw. }
    { apply (within_advance _ _ _ _ _ _ Hwi Ha). }
    rewrite I1. exists l2. repeat split; auto.
    exists (pre ++ pre2). rewrite D3, I3. apply app_assoc.
Qed.

(** A whole stream of successful messages through [Framed]. *)
Lemma cdrain_runs_ok : forall buf fs os buf2 fs2,
  runs buf fs os buf2 fs2 ->
  forall ms l c, os = map Ok ms -> map fst l = fs -> mc_buffer c = buf ->
  wire_ok (dc_is_server (mc_df c)) (dc_max (mc_df c)) l ->
  within (mc_max_msg c) buf fs -> advance buf2 fs2 = None ->
  cdrain mc_decode [] c (encs l) = (ms, PEnd).
Proof.
  induction 1 as [buf fs|buf fs o buf1 fs1 os buf2 fs2 Ha Hr IH];
    intros ms l c Hos Hl Hb Hw Hwi Hend.
  - destruct ms; [|discriminate]. subst fs buf. rewrite cdrain_big_run. unfold big_run.
    rewrite <- (app_nil_r (encs l)). rewrite mcl_exhaust; auto using data_total_weight.
  - destruct ms as [|m ms]; [discriminate|]. injection Hos as -> Hos. subst fs buf.
    destruct (mc_decode_advance l c [] (Ok m) buf1 fs1 Hw Hwi Ha) as (l1 & D1 & D2 & pre & D3).
    rewrite !app_nil_r in D1. cbn [some_owned rbind] in D1.
    rewrite (cdrain_item _ _ _ mc_some _ _ _ _ _ _ D1).
    rewrite (IH ms l1 (mc_with_buffer c buf1)); auto.
    + subst l. apply wire_ok_app_r in Hw. exact Hw.
    + apply (within_advance _ _ _ _ _ _ Hwi Ha).
Qed.
