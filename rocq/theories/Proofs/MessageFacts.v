(** One frame at a time, and the end of a stream. *)
From Coq Require Import NArith ZArith String Bool List Lia.
From Coq Require Import ZifyBool ZifyNat ZifyN.
From Coq.Strings Require Import Byte.
From Verif.Model Require Import Base Io Header Mask Dataframe Utf8 Message Receiver Codec Framed.
From Verif.Spec Require Import RfcFrame FrameSpec Unicode Session Schedule Drive.
From Verif.Proofs Require Import BaseFacts MaskFacts HeaderFacts FrameFacts CodecFacts ScriptFacts
  Machine FramedFacts AsyncFacts Utf8Facts ThmFrames SessionFacts RecvFacts.
Import ListNotations.
Local Open Scope string_scope.
Local Open Scope list_scope.
Local Open Scope N_scope.

Lemma acontains_iff : forall s l, acontains s l <-> aev_bytes s = l.
Proof.
  intros s l. split.
  - induction 1; cbn [aev_bytes app]; subst; reflexivity.
  - intros <-. induction s as [|[b bs| |k] s IH]; cbn [aev_bytes]; constructor; auto.
Qed.
Lemma acarries_contains : forall s l, acarries s l -> acontains s l.
Proof. intros s l H. apply acontains_iff. apply acarries_iff in H as [_ H]. exact H. Qed.

(** ** One frame *)
Lemma recv_message_one : forall r s l f key ws rest o b,
  carries s l -> l = ws ++ rest -> octets ws = rfc_encode (rfc_of_frame f key) ->
  rfc_legal (rfc_of_frame f key) -> is_some key = r_mask r -> size (f_data f) <= r_max_df r ->
  r_max_df r <= u32_max -> step (r_buffer r) f = (Some o, b) ->
  exists s', recv_message r s = (o, with_buffer r b, s') /\ carries s' rest.
Proof.
  intros r s l f key ws rest o b Hs -> Hw Hl Hk Hd Hu HS. apply carries_iff in Hs as [Hc Hf].
  apply octets_eq_enc in Hw. subst ws.
  assert (advance (r_buffer r) (map fst [(f, key)]) = Some (o, b, [])) as HA
    by (cbn [map fst advance]; rewrite HS; reflexivity).
  assert (within (r_max_msg r) (r_buffer r) (map fst [(f, key)])) as HW
    by (cbn [map fst within]; rewrite HS; exact I).
  destruct (recv_message_advance [(f, key)] r s rest o b []) as (l' & s' & E & E1 & _ & E2 & E3); auto.
  - cbn [encs map concat fst snd]. rewrite app_nil_r. exact Hf.
  - apply wire_ok_1; auto. eapply legal_frame_ok, Hl.
  - exists s'. split; [exact E|]. apply carries_iff. split; [exact E2|].
    symmetry in E1. apply map_eq_nil in E1. subst l'. exact E3.
Qed.
Lemma mc_decode_one : forall c f key ws rest o b,
  octets ws = rfc_encode (rfc_of_frame f key) ->
  rfc_legal (rfc_of_frame f key) -> is_some key = dc_is_server (mc_df c) ->
  size (f_data f) <= dc_max (mc_df c) -> step (mc_buffer c) f = (Some o, b) ->
  mc_decode c (ws ++ rest) = (some_owned o, mc_with_buffer c b, rest).
Proof.
  intros c f key ws rest o b Hw Hl Hk Hd HS. apply octets_eq_enc in Hw. subst ws.
  assert (advance (mc_buffer c) (map fst [(f, key)]) = Some (o, b, [])) as HA
    by (cbn [map fst advance]; rewrite HS; reflexivity).
  assert (within (mc_max_msg c) (mc_buffer c) (map fst [(f, key)])) as HW
    by (cbn [map fst within]; rewrite HS; exact I).
  destruct (mc_decode_advance [(f, key)] c rest o b []) as (l' & E & E1 & _); auto.
  - apply wire_ok_1; auto. eapply legal_frame_ok, Hl.
  - symmetry in E1. apply map_eq_nil in E1. subst l'.
    cbn [encs map concat fst snd app] in E. rewrite app_nil_r in E. exact E.
Qed.

(** ** Frames that are refused *)
Lemma gather_not_ok : forall fs, (forall d, gather 0 [] fs <> Ok d) ->
  exists s, gather 0 [] fs = Err (ProtocolError s).
Proof.
  intros fs H. pose proof (gather_total fs 0 []) as HT.
  destruct (gather 0 [] fs) as [d|e| |] eqn:E; try contradiction.
  - exfalso. eapply H. reflexivity.
  - apply gather_err in E as [s ->]. eauto.
Qed.
Lemma from_refused : forall f fs, (forall d, gather 0 [] (map df_ops (f :: fs)) <> Ok d) ->
  exists s, owned_from_dataframes (map df_ops (f :: fs)) = Err (ProtocolError s).
Proof.
  intros f fs H. apply gather_not_ok in H as [s H]. exists s.
  unfold owned_from_dataframes, from_dataframes.
  change (map df_ops (f :: fs)) with (df_ops f :: map df_ops fs). cbv beta iota.
  change (df_ops f :: map df_ops fs) with (map df_ops (f :: fs)). rewrite H. reflexivity.
Qed.
Lemma from_bad_opcode : forall f fs,
  match f_opcode f with Text | Binary | Close | Ping | Pong => False | _ => True end ->
  exists s, owned_from_dataframes (map df_ops (f :: fs)) = Err (ProtocolError s).
Proof.
  intros f fs H. unfold owned_from_dataframes, from_dataframes.
  change (map df_ops (f :: fs)) with (df_ops f :: map df_ops fs). cbv beta iota.
  change (df_ops f :: map df_ops fs) with (map df_ops (f :: fs)).
  pose proof (gather_total (map df_ops (f :: fs)) 0 []) as HT.
  destruct (gather 0 [] (map df_ops (f :: fs))) as [d|e| |] eqn:E; try contradiction.
  - cbn [rbind df_ops df_opcode]. rewrite opcode_new_u8.
    destruct (f_opcode f); try contradiction; cbn [rbind]; eauto.
  - apply gather_err in E as [s ->]. cbn [rbind]. eauto.
Qed.
Lemma illegal_step : forall p f, illegal_next p f ->
  exists s b, step p f = (Some (Err (ProtocolError s)), b) /\ (b = p \/ b = []).
Proof.
  intros p f H.
  assert (forall fs, Exists uses_rsv fs -> exists s,
    owned_from_dataframes (map df_ops fs) = Err (ProtocolError s)) as HR.
  { intros fs HE. destruct fs as [|g gs]; [inversion HE|]. apply from_refused.
    intros d Hd. apply gather_first in Hd as (_ & H1 & H2).
    inversion HE as [? ? H3|? ? H3]; subst; [contradiction|].
    apply Exists_exists in H3 as (x & X1 & X2). rewrite Forall_forall in H2.
    apply H2 in X1 as [_ X1]. contradiction. }
  assert (forall s0 b0, (b0 = p \/ b0 = []) ->
    exists s b, (Some (@Err owned ws_error (ProtocolError s0)), b0)
                = (Some (Err (ProtocolError s)), b) /\ (b = p \/ b = [])) as HX by eauto.
  assert (step p f = (Some (Err e_cont), p) \/ step p f = (Some (Err e_data), p) \/
    (8 <= op_u8 (f_opcode f) /\ step p f = (Some (owned_from_dataframes (map df_ops [f])), p)) \/
    (op_u8 (f_opcode f) < 8 /\ (p = [] -> f_opcode f <> Continuation) /\
     (p <> [] -> f_opcode f = Continuation) /\
     step p f = if f_finished f then (Some (owned_from_dataframes (map df_ops (p ++ [f]))), [])
                else (None, p ++ [f]))) as HC.
  { unfold step.
    destruct ((op_u8 (f_opcode f) =? 0) && is_nil p) eqn:E1; [auto|].
    destruct (N.leb_spec 8 (op_u8 (f_opcode f))) as [E2|E2]; [auto|].
    destruct ((1 <=? op_u8 (f_opcode f)) && negb (is_nil p)) eqn:E3; [auto|].
    right. right. right. split; [exact E2|]. split; [|split; [|reflexivity]].
    - intros -> HE. rewrite HE in E1. discriminate.
    - intros Hp. destruct p; [contradiction|]. cbn [is_nil negb] in E3.
      destruct (f_opcode f); try discriminate; reflexivity. }
  destruct HC as [->|[->|[[H8 ->]|(H8 & Hp1 & Hp2 & HS)]]]; [apply HX; auto|apply HX; auto| |].
  - assert (control_opcode (f_opcode f) = true) as HC by (rewrite control_opcode_u8; lia).
    assert (exists s, owned_from_dataframes (map df_ops [f]) = Err (ProtocolError s)) as [s ->];
      [|apply HX; auto].
    destruct H as [f H|p f Hp H H1|p f H H1|p f H H1 H2 H3|p f H H1 H2|p f g gs H H1 H2 H3 H4 H5];
      try congruence.
    + rewrite H in HC. discriminate.
    + apply HR. constructor. exact H1.
    + apply from_bad_opcode. destruct (f_opcode f); try discriminate; try congruence; exact I.
  - assert (control_opcode (f_opcode f) = false) as HC by (rewrite control_opcode_u8; lia).
    destruct H as [f H|p f Hp H H1|p f H H1|p f H H1 H2 H3|p f H H1 H2|p f g gs H H1 H2 H3 H4 H5];
      try congruence.
    + exfalso. apply Hp1; auto.
    + exfalso. apply H1. auto.
    + rewrite HS, H1. destruct (HR _ H2) as [s ->]. apply HX; auto.
    + rewrite HS, H1, H2.
      destruct (from_bad_opcode g gs) as [s ->]; [|apply HX; auto].
      destruct (f_opcode g); try congruence; auto; discriminate.
Qed.

(** ** The end of the stream *)
Lemma rmsg_exhaust : forall l fuel r cur s rest tl, clean s -> flat s = encs l ++ rest ->
  (length (flat s) < fuel)%nat -> wire_ok (r_mask r) (r_max_df r) l -> r_max_df r <= u32_max ->
  r_buffer r <> [] -> cur <= weight (r_buffer r) ->
  within (r_max_msg r) (r_buffer r) (map fst l) ->
  advance (r_buffer r) (map fst l) = None ->
  parse_frame (r_mask r) (r_max_df r) rest = (Err NoDataAvailable, tl) ->
  exists s', rmsg fuel r cur s
    = (Err NoDataAvailable, with_buffer r (snd (results (r_buffer r) (map fst l))), s')
    /\ clean s' /\ flat s' = tl.
Proof.
  induction l as [|[f key] l IH]; intros fuel r cur s rest tl Hc Hf Hlen HW Hu Hn Hcur Hwi Ha Hp;
    (destruct fuel as [|fuel]; [lia|]); rewrite rmsg_step by exact Hn.
  - cbn [encs map concat app] in Hf. unfold recv_dataframe.
    assert (r_max_df r <= isize_max) as Hi by (unfold u32_max, isize_max in *; lia).
    pose proof (read_with_limit_script (r_mask r) (r_max_df r) s Hc Hi) as [E1 [E2 E3]].
    rewrite Hf, Hp in E1, E3.
    destruct (read_dataframe_with_limit (r_mask r) (r_max_df r) s) as [x s'].
    cbn [fst snd] in *. subst x. exists s'. cbn [map results snd]. rewrite with_buffer_same. auto.
  - inversion HW as [|? ? [W1 [W2 W3]] W4]; subst. cbn [fst snd] in *.
    rewrite encs_cons, <- app_assoc in Hf. cbn [fst snd] in Hf.
    destruct (recv_dataframe_enc r s f key (encs l ++ rest)) as (s1 & E & C1 & F1); auto.
    rewrite E. cbn [map fst advance within results] in *.
    destruct (step (r_buffer r) f) as [[o|] b] eqn:ES; [discriminate|].
    pose proof (step_none _ _ _ ES) as (-> & _ & _). destruct Hwi as (B1 & B2 & B3).
    unfold over. destruct (N.leb_spec MAX_DATAFRAMES_IN_ONE_MESSAGE (llen (r_buffer r ++ [f]))); [lia|].
    rewrite weight_app in B2. cbn [weight fold_right] in B2.
    destruct (N.leb_spec (r_max_msg r) (cur + (llen (f_data f) + PER_DATAFRAME_OVERHEAD))); [lia|].
    destruct (IH fuel (with_buffer r (r_buffer r ++ [f]))
      (cur + (llen (f_data f) + PER_DATAFRAME_OVERHEAD)) s1 rest tl) as (s' & I1 & I2 & I3);
      cbn [with_buffer r_buffer r_mask r_max_df r_max_msg]; auto.
    + rewrite F1. rewrite Hf, app_length in Hlen. pose proof (enc_len_pos f key). unfold llen in *. lia.
    + destruct (r_buffer r); discriminate.
    + rewrite weight_app. cbn [weight fold_right]. lia.
    + exists s'. rewrite I1. auto.
Qed.
Lemma recv_message_exhaust : forall l r s rest tl, clean s -> flat s = encs l ++ rest ->
  wire_ok (r_mask r) (r_max_df r) l -> r_max_df r <= u32_max ->
  within (r_max_msg r) (r_buffer r) (map fst l) ->
  advance (r_buffer r) (map fst l) = None ->
  parse_frame (r_mask r) (r_max_df r) rest = (Err NoDataAvailable, tl) ->
  exists s', recv_message r s
    = (Err NoDataAvailable, with_buffer r (snd (results (r_buffer r) (map fst l))), s')
    /\ clean s' /\ flat s' = tl.
Proof.
  intros l r s rest tl Hc Hf HW Hu Hwi Ha Hp.
  assert (r_max_df r <= isize_max) as Hi by (unfold u32_max, isize_max in *; lia).
  rewrite recv_message_eq by exact Hi. destruct (r_buffer r) as [|b0 bt] eqn:EB.
  - destruct l as [|[f key] l].
    + cbn [encs map concat app] in Hf. unfold recv_dataframe.
      pose proof (read_with_limit_script (r_mask r) (r_max_df r) s Hc Hi) as [E1 [E2 E3]].
      rewrite Hf, Hp in E1, E3.
      destruct (read_dataframe_with_limit (r_mask r) (r_max_df r) s) as [x s'].
      cbn [fst snd] in *. subst x. exists s'. cbn [map results snd]. rewrite <- EB, with_buffer_same. auto.
    + inversion HW as [|? ? [W1 [W2 W3]] W4]; subst. cbn [fst snd] in *.
      rewrite encs_cons, <- app_assoc in Hf. cbn [fst snd] in Hf.
      destruct (recv_dataframe_enc r s f key (encs l ++ rest)) as (s1 & E & C1 & F1); auto.
      rewrite E. cbn [map fst advance within results] in *.
      destruct (step [] f) as [[o|] b] eqn:ES; [discriminate|].
      pose proof (step_none _ _ _ ES) as (-> & _ & _). destruct Hwi as (B1 & B2 & B3).
      cbn [app] in *.
      destruct (rmsg_exhaust l (S (script_bytes s1)) (with_buffer r [f])
        (llen (f_data f) + PER_DATAFRAME_OVERHEAD) s1 rest tl) as (s' & I1 & I2 & I3);
        cbn [with_buffer r_buffer r_mask r_max_df r_max_msg]; auto.
      * rewrite script_bytes_flat. lia.
      * discriminate.
      * cbn [weight fold_right]. lia.
      * exists s'. rewrite I1. auto.
  - rewrite <- EB in *. apply rmsg_exhaust with (rest := rest); auto.
    + rewrite script_bytes_flat. lia.
    + rewrite EB. discriminate.
    + apply data_total_weight.
Qed.
Lemma parse_nil : forall m d, parse_frame m d [] = (Err NoDataAvailable, []).
Proof. reflexivity. Qed.

Lemma results_snd : forall n fs p os b, (length fs < n)%nat -> results p fs = (os, b) ->
  exists buf2 fs2 pre, runs p fs os buf2 fs2 /\ advance buf2 fs2 = None /\ fs = pre ++ fs2
    /\ snd (results buf2 fs2) = b.
Proof.
  induction n as [|n IH]; intros fs p os b Hn H; [lia|].
  rewrite results_advance in H. destruct (advance p fs) as [[[o b1] fs1]|] eqn:EA.
  - pose proof (advance_suffix _ _ _ _ _ EA) as (pre & -> & Hpre).
    destruct (results b1 fs1) as [l b2] eqn:ER. injection H as <- <-.
    apply IH in ER as (buf2 & fs2 & pre2 & R1 & R2 & -> & R3); [|rewrite app_length in Hn; lia].
    exists buf2, fs2, (pre ++ pre2). rewrite app_assoc in *. split; [|auto].
    econstructor; [exact EA|]. rewrite <- ?app_assoc in *. exact R1.
  - injection H as <- <-. exists p, fs, []. repeat split; auto. constructor.
Qed.
Lemma within_runs : forall lim p fs os p2 fs2, runs p fs os p2 fs2 -> within lim p fs -> within lim p2 fs2.
Proof.
  induction 1 as [|p fs o p1 fs1 os p2 fs2 HA HR IH]; intros HW; auto.
  apply IH. eapply within_advance; eauto.
Qed.
(** All the results of a frame sequence, and then the end of the stream. *)
Lemma recv_n_exhaust : forall fs l r s rest tl os b,
  clean s -> flat s = encs l ++ rest -> map fst l = fs ->
  wire_ok (r_mask r) (r_max_df r) l -> r_max_df r <= u32_max ->
  within (r_max_msg r) (r_buffer r) fs -> results (r_buffer r) fs = (os, b) ->
  parse_frame (r_mask r) (r_max_df r) rest = (Err NoDataAvailable, tl) ->
  exists s1 b1 s2, recv_n (length os) r s = (os, with_buffer r b1, s1) /\
    recv_message (with_buffer r b1) s1 = (Err NoDataAvailable, with_buffer r b, s2) /\
    clean s2 /\ flat s2 = tl.
Proof.
  intros fs l r s rest tl os b Hc Hf Hl HW Hu Hwi HR Hp.
  destruct (results_snd (S (length fs)) fs _ _ _ ltac:(lia) HR) as (b1 & fs2 & pre & R1 & R2 & R3 & R4).
  destruct (recv_n_runs _ _ _ _ _ R1 l r s rest) as (s1 & l2 & E1 & E2 & (pre2 & E3) & E4 & E5); auto.
  exists s1, b1.
  destruct (recv_message_exhaust l2 (with_buffer r b1) s1 rest tl) as (s2 & F1 & F2 & F3);
    cbn [with_buffer r_buffer r_mask r_max_df r_max_msg]; auto.
  - rewrite E3 in HW. apply wire_ok_app_r in HW. exact HW.
  - rewrite <- E2. eapply within_runs; eauto.
  - rewrite <- E2. exact R2.
  - exists s2. cbn [with_buffer r_buffer] in F1. rewrite <- E2, R4 in F1. auto.
Qed.
Lemma decode_n_exhaust : forall fs l c rest os b,
  map fst l = fs -> wire_ok (dc_is_server (mc_df c)) (dc_max (mc_df c)) l ->
  within (mc_max_msg c) (mc_buffer c) fs -> results (mc_buffer c) fs = (os, b) ->
  df_decode (mc_df c) rest = (Ok None, rest) ->
  exists b1 l2, decode_n mc_decode (length os) c (encs l ++ rest)
      = (map some_owned os, mc_with_buffer c b1, encs l2 ++ rest) /\
    mc_decode (mc_with_buffer c b1) (encs l2 ++ rest) = (Ok None, mc_with_buffer c b, rest).
Proof.
  intros fs l c rest os b Hl HW Hwi HR Hp.
  destruct (results_snd (S (length fs)) fs _ _ _ ltac:(lia) HR) as (b1 & fs2 & pre & R1 & R2 & R3 & R4).
  destruct (mc_n_runs _ _ _ _ _ R1 l c rest) as (l2 & E1 & E2 & (pre2 & E3)); auto.
  exists b1, l2. split; [exact E1|]. rewrite mc_decode_mcl.
  rewrite mcl_exhaust; cbn [mc_with_buffer mc_buffer mc_df mc_max_msg]; auto.
  - rewrite <- E2, R4. reflexivity.
  - rewrite E3 in HW. apply wire_ok_app_r in HW. exact HW.
  - apply data_total_weight.
  - rewrite <- E2. eapply within_runs; eauto.
  - rewrite <- E2. exact R2.
Qed.

(** A stream that ends, asynchronously. *)
Lemma cdrain_runs_tail : forall buf fs os buf2 fs2, runs buf fs os buf2 fs2 ->
  forall ms l c rest, os = map Ok ms -> map fst l = fs -> mc_buffer c = buf ->
  wire_ok (dc_is_server (mc_df c)) (dc_max (mc_df c)) l ->
  within (mc_max_msg c) buf fs -> advance buf2 fs2 = None ->
  df_decode (mc_df c) rest = (Ok None, rest) ->
  cdrain mc_decode [] c (encs l ++ rest)
  = (ms, match rest with [] => PEnd | _ => PErr remaining end).
Proof.
  induction 1 as [buf fs|buf fs o buf1 fs1 os buf2 fs2 HA HR IH];
    intros ms l c rest Hos Hl Hb HW Hwi Hadv Hq.
  - destruct ms; [|discriminate]. subst.
    assert (mc_decode c (encs l ++ rest)
      = (Ok None, mc_with_buffer c (snd (results (mc_buffer c) (map fst l))), rest)) as E.
    { rewrite mc_decode_mcl. apply mcl_exhaust; auto. apply data_total_weight. }
    rewrite (cdrain_none _ _ _ mc_some mc_none _ _ _ _ _ E).
    apply mc_none in E as [_ E]. rewrite (cdrain_quiet _ _ _ mc_some _ _ _ E). reflexivity.
  - destruct ms as [|m ms]; [discriminate|]. cbn [map] in Hos. injection Hos as -> Hos. subst buf fs.
    pose proof (within_advance _ _ _ _ _ _ Hwi HA) as Hwi1.
    destruct (mc_decode_advance l c rest (Ok m) buf1 fs1) as (l' & E & -> & (pre & ->)); auto.
    rewrite (cdrain_item _ _ _ mc_some _ _ _ _ _ _ E).
    rewrite (IH ms l' (mc_with_buffer c buf1) rest); auto. eapply wire_ok_app_r, HW.
Qed.

