(** Limits and schedules: C21-C24, C26. *)
From Coq Require Import NArith ZArith String Bool List Lia.
From Coq Require Import ZifyBool ZifyNat ZifyN.
From Coq.Strings Require Import Byte.
From Verif.Model Require Import Base Io Header Mask Dataframe Utf8 Message Receiver Codec Framed.
From Verif.Spec Require Import RfcFrame FrameSpec Unicode Session Schedule Drive.
From Verif.Proofs Require Import BaseFacts MaskFacts HeaderFacts FrameFacts CodecFacts ScriptFacts
  Machine FramedFacts AsyncFacts Utf8Facts ThmFrames ThmStream SessionFacts RecvFacts MessageFacts
  ThmMessages.
Import ListNotations.
Local Open Scope string_scope.
Local Open Scope list_scope.
Local Open Scope N_scope.

Lemma capped_pos : forall n, 1 <= n -> 1 <= capped n.
Proof. intros n H. unfold capped. lia. Qed.
Local Opaque capped N.min.

Lemma retained_total : forall fs, retained fs = data_total fs.
Proof.
  induction fs as [|f fs IH]; [reflexivity|].
  change (f :: fs) with ([f] ++ fs). rewrite data_total_app, <- IH. reflexivity.
Qed.

(** ** Bounds until the first error *)
Lemma receiving_inv : forall r0 r, r_max_df r0 <= isize_max -> r_buffer r0 = [] -> receiving r0 r ->
  let B := N.max (r_max_df r0) (r_max_msg r0) in
  r = with_buffer r0 (r_buffer r) /\ data_total (r_buffer r) <= B /\
  llen (r_buffer r) < MAX_DATAFRAMES_IN_ONE_MESSAGE.
Proof.
  intros r0 r Hm Hb H B. induction H as [|r s m r' s' H (IH1 & IH2 & IH3) HR].
  - rewrite with_buffer_same, Hb. split; [reflexivity|]. split; [|reflexivity].
    cbn [data_total fold_left]. lia.
  - assert (r_max_df r = r_max_df r0) as HD by (rewrite IH1; reflexivity).
    assert (r_max_msg r = r_max_msg r0) as HM by (rewrite IH1; reflexivity).
    pose proof (recv_message_bound r s B) as HB. rewrite HR, HD, HM in HB.
    destruct HB as (B1 & B2 & _); auto; try (unfold B; lia).
    apply recv_message_limits in HR; [|rewrite HD; exact Hm].
    split; [|auto]. rewrite HR, IH1. reflexivity.
Qed.
(** [C21] Blocking: before the first error and after it, the payload octets and the number of
    frames held for an unfinished message are bounded by the limits, and so is every
    message delivered. *)
Lemma memory_bounded_blocking_proof : forall masked max_df max_msg r s x r' s',
  receiving (receiver_with_limits masked max_df max_msg) r ->
  recv_message r s = (x, r', s') ->
  let bound := N.max (capped max_df) (capped max_msg) + capped max_df in
  retained (r_buffer r') <= bound /\ N.of_nat (length (r_buffer r')) <= 2 ^ 20 /\
  (forall m, x = Ok m -> size (payload_of m) <= bound).
Proof.
  intros masked max_df max_msg r s x r' s' H HR bound.
  set (r0 := receiver_with_limits masked max_df max_msg) in *.
  assert (r_max_df r0 = capped max_df) as E1 by apply capped_eq.
  assert (r_max_msg r0 = capped max_msg) as E2 by apply capped_eq.
  pose proof (receiving_inv r0 r) as HI. rewrite E1, E2 in HI.
  destruct HI as (I1 & I2 & I3); [apply capped_isize|reflexivity|exact H|].
  assert (r_max_df r = capped max_df) as HD by (rewrite I1; exact E1).
  assert (r_max_msg r = capped max_msg) as HM by (rewrite I1; exact E2).
  pose proof (recv_message_bound r s (N.max (capped max_df) (capped max_msg))) as HB.
  rewrite HR, HD, HM in HB. rewrite retained_total.
  specialize (HB (capped_isize _) ltac:(lia) ltac:(lia) I2 I3).
  unfold bound_post, MAX_DATAFRAMES_IN_ONE_MESSAGE, llen in HB. change (2 ^ 20) with 1048576.
  subst bound. clear - HB.
  destruct x as [m|e| |]; destruct HB as (B1 & B2 & B3) || destruct HB as (B1 & B2);
    (split; [lia|]; split; [lia|]);
    intros m' Em; try discriminate. injection Em as <-. exact B3.
Qed.
Lemma decoding_inv : forall c0 c, mc_buffer c0 = [] -> decoding c0 c ->
  c = mc_with_buffer c0 (mc_buffer c) /\ data_total (mc_buffer c) <= mc_max_msg c0 /\
  llen (mc_buffer c) < MAX_DATAFRAMES_IN_ONE_MESSAGE.
Proof.
  intros c0 c Hb H. induction H as [|c src x c' src' H (IH1 & IH2 & IH3) HR].
  - rewrite mc_with_buffer_same, Hb. split; [reflexivity|]. split; [|reflexivity].
    cbn [data_total fold_left]. lia.
  - assert (mc_max_msg c = mc_max_msg c0) as HM by (rewrite IH1; reflexivity).
    pose proof (mcl_bound (S (length src)) src c (data_total (mc_buffer c)) ltac:(lia) ltac:(lia)
      ltac:(lia) IH3) as HB.
    rewrite <- mc_decode_mcl, HR in HB. destruct HB as (B1 & B2 & _).
    pose proof (mc_decode_sound c src) as HS. rewrite HR in HS.
    assert (c' = mc_with_buffer c (mc_buffer c')) as HC
      by (destruct x; destruct HS as (l & _ & _ & _ & HS); exact HS).
    split; [rewrite HC, IH1; reflexivity|]. rewrite <- HM. auto.
Qed.
(** [C21] Async. *)
Lemma memory_bounded_async_proof : forall ctx max_df max_msg c src x c' src',
  decoding (msg_codec_with_limits ctx max_df max_msg) c ->
  mc_decode c src = (x, c', src') ->
  let bound := capped max_msg + capped max_df in
  retained (mc_buffer c') <= bound /\ N.of_nat (length (mc_buffer c')) <= 2 ^ 20 /\
  (forall m, x = Ok (Some m) -> size (payload_of m) <= bound).
Proof.
  intros ctx max_df max_msg c src x c' src' H HR bound.
  set (c0 := msg_codec_with_limits ctx max_df max_msg) in *.
  assert (dc_max (mc_df c0) = capped max_df) as E1 by apply capped_eq.
  assert (mc_max_msg c0 = capped max_msg) as E2 by apply capped_eq.
  destruct (decoding_inv c0 c eq_refl H) as (I1 & I2 & I3).
  assert (dc_max (mc_df c) = capped max_df) as HD by (rewrite I1; exact E1).
  assert (mc_max_msg c = capped max_msg) as HM by (rewrite I1; exact E2).
  rewrite E2 in I2.
  pose proof (mcl_bound (S (length src)) src c (data_total (mc_buffer c)) ltac:(lia) ltac:(lia)
      ltac:(lia) I3) as HB.
  rewrite <- mc_decode_mcl, HR, HD, HM in HB. rewrite retained_total.
  unfold abound_post, MAX_DATAFRAMES_IN_ONE_MESSAGE, llen in HB. change (2 ^ 20) with 1048576.
  subst bound. clear - HB.
  destruct x as [m|e| |]; destruct HB as (B1 & B2 & B3) || destruct HB as (B1 & B2);
    (split; [lia|]; split; [lia|]); intros m' Em; try discriminate.
  injection Em as ->. apply B3. reflexivity.
Qed.
(*EX (** A receiver holding a fragment, about to read the rest of its message. *)
Example memory_bounded_ex :
  let r := receiver_with_limits false 10 100 in
  exists r1 s1, receiving r r1 /\ r_buffer r1 <> [] /\
    recv_message r1 s1 = (Ok (OText (str "ab")), r, []).
Proof.
  cbn zeta. exists (mk_recv [mk_df false no_rsv Text (str "a")] false 10 100), [RData x80 [x01; x62]].
  split; [|split; [discriminate|reflexivity]].
  apply (recv_next _ (receiver_with_limits false 10 100)
    [RData x01 [x01; x61; x89; x00]] (OPing []) _ []); [constructor|reflexivity].
Qed. EX*)

(** ** After an error *)
Definition growing (f : dataframe) : Prop := f_finished f = false /\ f_opcode f = Continuation.
Lemma growing_step : forall p f, p <> [] -> growing f -> step p f = (None, p ++ [f]).
Proof.
  intros p f Hp [H1 H2]. unfold step. rewrite H1, H2. destruct p; [contradiction|]. reflexivity.
Qed.
Lemma rmsg_grow : forall (l : list keyed) fuel r cur s, l <> [] -> clean s -> flat s = encs l ->
  (length (flat s) < fuel)%nat -> r_buffer r <> [] -> r_max_df r <= u32_max ->
  wire_ok (r_mask r) (r_max_df r) l -> Forall (fun p => growing (fst p)) l ->
  exists l1 l2 e s', l = l1 ++ l2 /\ l1 <> [] /\
    rmsg fuel r cur s = (Err e, with_buffer r (r_buffer r ++ map fst l1), s') /\
    clean s' /\ flat s' = encs l2.
Proof.
  induction l as [|[f key] l IH]; intros fuel r cur s Hl Hc Hf Hfu Hn Hu HW HG; [contradiction|].
  destruct fuel as [|fuel]; [lia|]. rewrite rmsg_step by exact Hn.
  inversion HW as [|? ? [W1 [W2 W3]] W4]; subst. inversion HG as [|? ? G1 G2]; subst. cbn [fst snd] in *.
  rewrite encs_cons in Hf. cbn [fst snd] in Hf.
  destruct (recv_dataframe_enc r s f key (encs l)) as (s1 & E & C1 & F1); auto.
  rewrite E, growing_step by auto.
  assert (forall x, exists l1 l2 e s', (f, key) :: l = l1 ++ l2 /\ l1 <> [] /\
    (@Err owned ws_error x, with_buffer r (r_buffer r ++ [f]), s1)
    = (Err e, with_buffer r (r_buffer r ++ map fst l1), s') /\ clean s' /\ flat s' = encs l2) as HStop.
  { intros x. exists [(f, key)], l, x, s1. cbn [map fst app]. repeat split; auto; discriminate. }
  destruct (over _); [apply HStop|]. destruct (_ <=? _); [apply HStop|].
  assert (r_buffer r ++ [f] <> []) as Hn' by (destruct (r_buffer r); discriminate).
  assert (length (flat s1) < fuel)%nat as Hfu'.
  { rewrite F1. rewrite Hf, app_length in Hfu. pose proof (enc_len_pos f key). unfold llen in *. lia. }
  destruct l as [|y l].
  - clear IH. destruct fuel as [|fuel]; [lia|]. rewrite rmsg_step by exact Hn'.
    cbn [encs map concat] in F1.
    assert (r_max_df r <= isize_max) as Hi by (unfold u32_max, isize_max in *; lia).
    unfold recv_dataframe.
    pose proof (read_with_limit_script (r_mask r) (r_max_df r) s1 C1 Hi) as [E1 [E2 E3]].
    rewrite F1, parse_nil in E1, E3.
    cbn [with_buffer r_mask r_max_df].
    destruct (read_dataframe_with_limit (r_mask r) (r_max_df r) s1) as [x s2].
    cbn [fst snd] in *. subst x. exists [(f, key)], [], NoDataAvailable, s2.
    cbn [map fst app]. repeat split; auto; discriminate.
  - destruct (IH fuel (with_buffer r (r_buffer r ++ [f]))
      (cur + (llen (f_data f) + PER_DATAFRAME_OVERHEAD)) s1) as (l1 & l2 & e & s' & I1 & I2 & I3 & I4 & I5);
      cbn [with_buffer r_buffer r_mask r_max_df r_max_msg]; auto; [discriminate|].
    exists ((f, key) :: l1), l2, e, s'. cbn [map fst app]. rewrite I1, I3.
    cbn [with_buffer r_buffer r_mask r_max_df r_max_msg]. rewrite <- app_assoc.
    repeat split; auto; discriminate.
Qed.
Lemma recv_grow : forall n (l : list keyed) r s, (length l < n)%nat -> clean s -> flat s = encs l ->
  r_buffer r <> [] -> r_max_df r <= u32_max ->
  wire_ok (r_mask r) (r_max_df r) l -> Forall (fun p => growing (fst p)) l ->
  exists k, snd (fst (recv_n k r s)) = with_buffer r (r_buffer r ++ map fst l).
Proof.
  induction n as [|n IH]; intros l r s Hln Hc Hf Hn Hu HW HG; [lia|].
  destruct l as [|x l].
  - exists 0%nat. cbn [recv_n fst snd map]. rewrite app_nil_r, with_buffer_same. reflexivity.
  - remember (x :: l) as l0 eqn:El. assert (l0 <> []) as Hl0 by (subst; discriminate). clear El.
    assert (r_max_df r <= isize_max) as Hi by (unfold u32_max, isize_max in *; lia).
    destruct (rmsg_grow l0 (S (script_bytes s)) r (data_total (r_buffer r)) s)
      as (l1 & l2 & e & s' & I1 & I2 & I3 & I4 & I5); auto.
    { rewrite script_bytes_flat. lia. }
    assert (recv_message r s = (Err e, with_buffer r (r_buffer r ++ map fst l1), s')) as HR.
    { rewrite recv_message_eq by exact Hi. destruct (r_buffer r) eqn:EB; [contradiction|]. exact I3. }
    subst l0. apply Forall_app in HW as [_ HW]. apply Forall_app in HG as [_ HG].
    destruct (IH l2 (with_buffer r (r_buffer r ++ map fst l1)) s') as (k & Hk);
      cbn [with_buffer r_buffer r_mask r_max_df r_max_msg]; auto.
    + rewrite app_length in Hln. destruct l1; [contradiction|cbn [length] in *; lia].
    + destruct (r_buffer r); [contradiction|discriminate].
    + exists (S k). cbn [recv_n]. rewrite HR.
      destruct (recv_n k (with_buffer r (r_buffer r ++ map fst l1)) s') as [[xs q] u].
      cbn [fst snd] in *. rewrite Hk. cbn [with_buffer r_buffer r_mask r_max_df r_max_msg].
      rewrite map_app, <- app_assoc. reflexivity.
Qed.
(** The octet "a", as the first and as a further fragment of a text that never ends. *)
Definition ga (masked : bool) : keyed :=
  (mk_df false no_rsv Text [x61], if masked then Some (mk_key x00 x00 x00 x00) else None).
Definition gb (masked : bool) : keyed :=
  (mk_df false no_rsv Continuation [x61], if masked then Some (mk_key x00 x00 x00 x00) else None).
Lemma gb_ok : forall masked d n, 1 <= d -> wire_ok masked d (repeat (gb masked) n).
Proof.
  intros masked d n Hd. apply Forall_forall. intros x Hx. apply repeat_spec in Hx. subst x.
  unfold gb. cbn [fst snd f_data]. split; [|split].
  - split; cbn [f_data f_opcode f_finished op_u8]; [unfold llen; cbn [length]; lia|lia].
  - unfold llen. cbn [length]. lia.
  - destruct masked; reflexivity.
Qed.
Lemma ga_ok : forall masked d, 1 <= d -> wire_ok masked d [ga masked].
Proof.
  intros masked d Hd. apply wire_ok_1.
  - destruct masked; reflexivity.
  - split; cbn [f_data f_opcode f_finished op_u8]; [unfold llen; cbn [length]; lia|lia].
  - unfold llen. cbn [f_data length]. lia.
Qed.
Lemma gb_retained : forall masked n,
  retained (fst (ga masked) :: map fst (repeat (gb masked) n)) = N.of_nat n + 1.
Proof.
  intros masked n. cbn [retained fold_right ga fst f_data].
  assert (retained (map fst (repeat (gb masked) n)) = N.of_nat n) as H.
  { induction n as [|n IH]; [reflexivity|]. cbn [repeat map retained fold_right gb fst f_data].
    unfold retained in IH. rewrite IH. unfold size. cbn [length]. lia. }
  unfold retained in H. rewrite H. unfold size. cbn [length]. lia.
Qed.
Definition script_of (l : bytes) : script := match l with [] => [] | b :: bs => [RData b bs] end.
Lemma script_of_clean : forall l, clean (script_of l) /\ flat (script_of l) = l.
Proof.
  intros l. assert (carries (script_of l) l) as H.
  { destruct l as [|b bs]; [constructor|]. cbn [script_of].
    rewrite <- (app_nil_r (b :: bs)). constructor. constructor. }
  apply carries_iff in H as [H1 H2]. auto.
Qed.
(** [C22] Refuted for the blocking receiver, whatever the limits: a peer that keeps
    sending one-octet fragments makes a receiver that is called again after each error
    hold any number of octets. *)
Lemma memory_bounded_after_error_blocking_refuted_proof : forall masked max_df max_msg bound,
  1 <= max_df ->
  exists s n, bound <= retained (r_buffer (snd (fst
    (recv_n n (receiver_with_limits masked max_df max_msg) s)))).
Proof.
  intros masked max_df max_msg bound Hd.
  set (r := receiver_with_limits masked max_df max_msg). set (l := repeat (gb masked) (N.to_nat bound)).
  assert (1 <= capped max_df) as Hd' by (apply capped_pos; exact Hd).
  assert (r_max_df r = capped max_df) as HD by apply capped_eq.
  destruct (script_of_clean (encs (ga masked :: l))) as [Hc Hf].
  set (s := script_of (encs (ga masked :: l))) in *.
  rewrite encs_cons in Hf.
  pose proof (ga_ok masked _ Hd') as HW. inversion HW as [|? ? [W1 [W2 W3]] _]; subst.
  destruct (recv_dataframe_enc r s (fst (ga masked)) (snd (ga masked)) (encs l)) as (s1 & E & C1 & F1);
    auto; try (rewrite HD; auto using capped_u32).
  assert (Forall (fun p : keyed => growing (fst p)) l) as HG.
  { apply Forall_forall. intros x Hx. apply repeat_spec in Hx. subst x. split; reflexivity. }
  assert (exists k, snd (fst (recv_n k r s)) = with_buffer r (fst (ga masked) :: map fst l)) as (k & Hk).
  2: { exists s, k. rewrite Hk. cbn [with_buffer r_buffer]. unfold l. rewrite gb_retained. lia. }
  pose proof (recv_message_eq r s) as HE. rewrite HD in HE. specialize (HE (capped_isize _)).
  cbn [r receiver_with_limits r_buffer] in HE. fold r in HE. rewrite E in HE.
  change (step [] (fst (ga masked))) with (@None (result owned ws_error), [fst (ga masked)]) in HE.
  cbv iota beta in HE.
  assert (l = [] \/ l <> []) as [El|El] by (destruct l; [left; reflexivity|right; discriminate]).
  - rewrite El in *. cbn [encs map concat] in F1. rewrite rmsg_step in HE by discriminate.
    unfold recv_dataframe in HE. cbn [with_buffer r_mask r_max_df] in HE. fold r in HE.
    pose proof (read_with_limit_script masked (r_max_df r) s1 C1) as HR. rewrite HD in HR.
    destruct (HR (capped_isize _)) as [E1 _]. rewrite F1, parse_nil in E1.
    change (r_mask r) with masked in HE. rewrite HD in HE.
    destruct (read_dataframe_with_limit masked (capped max_df) s1) as [x s2].
    cbn [fst] in E1. subst x. exists 1%nat. cbn [recv_n]. rewrite HE. reflexivity.
  - destruct (rmsg_grow l (S (script_bytes s1)) (with_buffer r [fst (ga masked)])
      (llen (f_data (fst (ga masked))) + PER_DATAFRAME_OVERHEAD) s1)
      as (l1 & l2 & e & s' & I1 & I2 & I3 & I4 & I5);
      cbn [with_buffer r_buffer r_mask r_max_df]; auto.
    { rewrite script_bytes_flat. lia. }
    { discriminate. }
    { rewrite HD. apply capped_u32. }
    { rewrite HD. apply gb_ok. exact Hd'. }
    rewrite I3 in HE. cbn [with_buffer r_buffer r_mask r_max_df r_max_msg app] in HE.
    destruct (recv_grow (S (length l2)) l2 (with_buffer r (fst (ga masked) :: map fst l1)) s')
      as (k & Hk); cbn [with_buffer r_buffer r_mask r_max_df]; auto.
    { discriminate. }
    { rewrite HD. apply capped_u32. }
    { pose proof (gb_ok masked (capped max_df) (N.to_nat bound) Hd') as HL. fold l in HL.
      rewrite I1 in HL. apply Forall_app in HL as [_ HL]. rewrite HD. exact HL. }
    { rewrite I1 in HG. apply Forall_app in HG as [_ HG]. exact HG. }
    assert (recv_message r s = (Err e, with_buffer r (fst (ga masked) :: map fst l1), s')) as HE2
      by exact HE. clear HE.
    exists (S k). cbn [recv_n]. rewrite HE2.
    destruct (recv_n k (with_buffer r (fst (ga masked) :: map fst l1)) s') as [[xs q] u].
    cbn [fst snd] in *. rewrite Hk. rewrite I1, map_app. reflexivity.
Qed.
Lemma mcl_grow : forall (l : list keyed) c cur, mc_buffer c <> [] ->
  wire_ok (dc_is_server (mc_df c)) (dc_max (mc_df c)) l -> Forall (fun p => growing (fst p)) l ->
  l <> [] -> exists l1 l2 x, l = l1 ++ l2 /\ l1 <> [] /\
    mcl c cur (encs l) = (x, mc_with_buffer c (mc_buffer c ++ map fst l1), encs l2).
Proof.
  induction l as [|[f key] l IH]; intros c cur Hn HW HG Hl; [contradiction|].
  rewrite mcl_eq. inversion HW as [|? ? [W1 [W2 W3]] W4]; subst.
  inversion HG as [|? ? G1 G2]; subst. cbn [fst snd] in *.
  rewrite encs_cons. cbn [fst snd]. rewrite df_decode_enc by auto.
  rewrite growing_step by auto.
  assert (forall x : result (option owned) ws_error, exists l1 l2 y, (f, key) :: l = l1 ++ l2 /\ l1 <> [] /\
    (x, mc_with_buffer c (mc_buffer c ++ [f]), encs l)
    = (y, mc_with_buffer c (mc_buffer c ++ map fst l1), encs l2)) as HStop.
  { intros x. exists [(f, key)], l, x. cbn [map fst app]. repeat split; auto; discriminate. }
  destruct (over _); [apply HStop|]. destruct (_ <? _); [apply HStop|].
  destruct l as [|y l].
  - cbn [encs map concat]. rewrite mcl_quiet by reflexivity.
    exists [(f, key)], [], (Ok None). cbn [map fst app]. repeat split; auto; discriminate.
  - destruct (IH (mc_with_buffer c (mc_buffer c ++ [f]))
      (cur + (llen (f_data f) + PER_DATAFRAME_OVERHEAD))) as (l1 & l2 & x & I1 & I2 & I3);
      cbn [mc_with_buffer mc_buffer mc_df]; auto; [destruct (mc_buffer c); discriminate|discriminate|].
    exists ((f, key) :: l1), l2, x. cbn [map fst app]. rewrite I3, I1.
    cbn [mc_with_buffer mc_buffer mc_df mc_max_msg]. rewrite <- app_assoc.
    repeat split; auto; discriminate.
Qed.
Lemma decode_grow : forall n (l : list keyed) c, (length l < n)%nat -> mc_buffer c <> [] ->
  wire_ok (dc_is_server (mc_df c)) (dc_max (mc_df c)) l -> Forall (fun p => growing (fst p)) l ->
  exists k, snd (fst (decode_n mc_decode k c (encs l))) = mc_with_buffer c (mc_buffer c ++ map fst l).
Proof.
  induction n as [|n IH]; intros l c Hln Hn HW HG; [lia|].
  destruct l as [|x l].
  - exists 0%nat. cbn [decode_n fst snd map]. rewrite app_nil_r, mc_with_buffer_same. reflexivity.
  - remember (x :: l) as l0 eqn:El. assert (l0 <> []) as Hl0 by (subst; discriminate). clear El.
    destruct (mcl_grow l0 c (data_total (mc_buffer c))) as (l1 & l2 & y & I1 & I2 & I3); auto.
    rewrite <- mc_decode_mcl in I3.
    subst l0. apply Forall_app in HW as [_ HW]. apply Forall_app in HG as [_ HG].
    destruct (IH l2 (mc_with_buffer c (mc_buffer c ++ map fst l1))) as (k & Hk);
      cbn [mc_with_buffer mc_buffer mc_df]; auto.
    + rewrite app_length in Hln. destruct l1; [contradiction|cbn [length] in *; lia].
    + destruct (mc_buffer c); [contradiction|discriminate].
    + exists (S k). cbn [decode_n]. rewrite I3.
      destruct (decode_n mc_decode k (mc_with_buffer c (mc_buffer c ++ map fst l1)) (encs l2)) as [[xs q] u].
      cbn [fst snd] in *. rewrite Hk. cbn [mc_with_buffer mc_buffer mc_df mc_max_msg].
      rewrite map_app, <- app_assoc. reflexivity.
Qed.
(** [C22] Refuted for the async codec as well. *)
Lemma memory_bounded_after_error_async_refuted_proof : forall ctx max_df max_msg bound,
  1 <= max_df ->
  exists src n, bound <= retained (mc_buffer (snd (fst
    (decode_n mc_decode n (msg_codec_with_limits ctx max_df max_msg) src)))).
Proof.
  intros ctx max_df max_msg bound Hd.
  set (c := msg_codec_with_limits ctx max_df max_msg). set (masked := receives_masked ctx).
  set (l := repeat (gb masked) (N.to_nat bound)).
  assert (1 <= capped max_df) as Hd' by (apply capped_pos; exact Hd).
  assert (dc_max (mc_df c) = capped max_df) as HD by apply capped_eq.
  assert (dc_is_server (mc_df c) = masked) as HS by reflexivity.
  pose proof (ga_ok masked _ Hd') as HW. inversion HW as [|? ? [W1 [W2 W3]] _]; subst.
  assert (Forall (fun p : keyed => growing (fst p)) l) as HG.
  { apply Forall_forall. intros x Hx. apply repeat_spec in Hx. subst x. split; reflexivity. }
  assert (wire_ok masked (capped max_df) l) as HL by (apply gb_ok; exact Hd').
  assert (exists k, snd (fst (decode_n mc_decode k c (encs (ga masked :: l))))
    = mc_with_buffer c (fst (ga masked) :: map fst l)) as (k & Hk).
  2: { exists (encs (ga masked :: l)), k. rewrite Hk. cbn [mc_with_buffer mc_buffer]. unfold l.
       rewrite gb_retained. lia. }
  pose proof (mc_decode_mcl c (encs (ga masked :: l))) as HE. rewrite mcl_eq, encs_cons in HE.
  rewrite df_decode_enc in HE by (rewrite ?HD; auto).
  change (step (mc_buffer c) (fst (ga masked))) with (@None (result owned ws_error), [fst (ga masked)]) in HE.
  cbv iota beta in HE. change (over (llen [fst (ga masked)])) with false in HE. cbv iota in HE.
  assert (forall x l1 l2, l = l1 ++ l2 ->
    mc_decode c (enc (fst (ga masked)) (snd (ga masked)) ++ encs l)
      = (x, mc_with_buffer c (fst (ga masked) :: map fst l1), encs l2) ->
    exists k, snd (fst (decode_n mc_decode k c (encs (ga masked :: l))))
      = mc_with_buffer c (fst (ga masked) :: map fst l)) as HGo.
  { intros x l1 l2 El Hx. rewrite El in HL, HG. apply Forall_app in HL as [_ HL].
    apply Forall_app in HG as [_ HG].
    destruct (decode_grow (S (length l2)) l2 (mc_with_buffer c (fst (ga masked) :: map fst l1)))
      as (k & Hk); cbn [mc_with_buffer mc_buffer mc_df]; auto;
      try match goal with |- _ <> [] => discriminate | |- wire_ok _ _ _ => rewrite HD, HS; exact HL end.
    exists (S k). cbn [decode_n]. rewrite encs_cons, Hx.
    destruct (decode_n mc_decode k (mc_with_buffer c (fst (ga masked) :: map fst l1)) (encs l2)) as [[xs q] u].
    cbn [fst snd] in *. rewrite Hk. rewrite El, map_app. reflexivity. }
  destruct (_ <? _); [apply (HGo _ [] l eq_refl HE)|].
  assert (l = [] \/ l <> []) as [El|El] by (destruct l; [left; reflexivity|right; discriminate]).
  - rewrite El in HE. cbn [encs map concat] in HE. rewrite mcl_quiet in HE by reflexivity.
    apply (HGo (Ok None) [] [] El). rewrite El. exact HE.
  - destruct (mcl_grow l (mc_with_buffer c [fst (ga masked)])
      (data_total (mc_buffer c) + (llen (f_data (fst (ga masked))) + PER_DATAFRAME_OVERHEAD)))
      as (l1 & l2 & x & I1 & I2 & I3); cbn [mc_with_buffer mc_buffer mc_df]; auto;
      try match goal with |- _ <> [] => discriminate | |- wire_ok _ _ _ => rewrite HD, HS; exact HL end.
    rewrite I3 in HE. apply (HGo x l1 l2 I1 HE).
Qed.

(** ** Chunking *)
Lemma run_at_once : forall c l, run_messages c [] (at_once l) = run_messages c l [].
Proof.
  intros c l. rewrite !run_messages_cdrain. destruct l as [|b bs]; [reflexivity|].
  assert (mc_decode c [] = (Ok None, c, [])) as HQ by (rewrite mc_decode_mcl; apply mcl_quiet; reflexivity).
  rewrite (cdrain_quiet _ _ _ mc_some _ _ _ HQ). reflexivity.
Qed.
(** [C23] If the stream decoded in one piece does not run into the message size limit, it
    decodes to the same messages and the same end however it is cut. *)
Lemma chunks_do_not_matter_proof : forall c s l,
  acarries s l ->
  snd (run_messages c [] (at_once l)) <> PErr (ProtocolError "Exceeded maximum WebSocket message size") ->
  run_messages c [] s = run_messages c [] (at_once l).
Proof.
  intros c s l Hs H. rewrite run_at_once in *. apply (run_messages_chunks c [] s l Hs). exact H.
Qed.
(** [C23] Refuted without that condition: two fragments refused in one piece are
    accepted in two. *)
Lemma chunks_do_not_matter_refuted_proof : exists c s l,
  acarries s l /\
  run_messages c [] (at_once l)
    = ([], PErr (ProtocolError "Exceeded maximum WebSocket message size")) /\
  run_messages c [] s = ([OText (str "abc")], PEnd).
Proof.
  exists (msg_codec_with_limits CtxClient 100 100),
    [AData x01 [x01; x61]; AData x00 [x01; x62]; AData x80 [x01; x63]],
    [x01; x01; x61; x00; x01; x62; x80; x01; x63].
  split; [|split; vm_compute; reflexivity].
  apply (acarries_data x01 [x01; x61] _ [x00; x01; x62; x80; x01; x63]).
  apply (acarries_data x00 [x01; x62] _ [x80; x01; x63]).
  apply (acarries_data x80 [x01; x63] _ []). constructor.
Qed.
(*EX Example chunks_ex :
  run_messages (msg_codec_with_limits CtxClient 100 100) [] (at_once [x01; x01; x61; x80; x01; x62])
  = ([OText (str "ab")], PEnd).
Proof. reflexivity. Qed. EX*)

(** ** Read schedules *)

(** [C24] Any number of calls from any state: results and state depend only on the bytes,
    and the same bytes remain. *)
Lemma reads_do_not_matter_proof : forall p masked max_df max_msg n s1 s2 l,
  carries s1 l -> carries s2 l ->
  let r := mk_recv p masked (capped max_df) max_msg in
  let '(os1, r1, t1) := recv_n n r s1 in
  let '(os2, r2, t2) := recv_n n r s2 in
  os1 = os2 /\ r1 = r2 /\ exists rest, carries t1 rest /\ carries t2 rest.
Proof.
  intros p masked max_df max_msg n s1 s2 l H1 H2 r.
  apply carries_iff in H1 as [C1 F1]. apply carries_iff in H2 as [C2 F2].
  destruct (recv_n_sched n r s1 s2 (capped_isize max_df) C1 C2) as (E1 & E2 & E3 & E4); [congruence|].
  destruct (recv_n n r s1) as [[os1 r1] t1], (recv_n n r s2) as [[os2 r2] t2]. cbn [fst snd] in *.
  injection E1 as -> ->. repeat split; auto. exists (flat t1).
  split; apply carries_iff; split; auto.
Qed.
(** [C24] The same for single frames. *)
Lemma reads_do_not_matter_frame_proof : forall masked max_df s1 s2 l,
  carries s1 l -> carries s2 l ->
  let '(x1, t1) := read_dataframe_with_limit masked (capped max_df) s1 in
  let '(x2, t2) := read_dataframe_with_limit masked (capped max_df) s2 in
  x1 = x2 /\ exists rest, carries t1 rest /\ carries t2 rest.
Proof.
  intros masked max_df s1 s2 l H1 H2.
  apply carries_iff in H1 as [C1 F1]. apply carries_iff in H2 as [C2 F2].
  pose proof (recv_dataframe_sched (mk_recv [] masked (capped max_df) 0) s1 s2 (capped_isize max_df) C1 C2)
    as HS. unfold recv_dataframe in HS. cbn [r_mask r_max_df] in HS.
  destruct HS as (E1 & E2 & E3 & E4); [congruence|].
  destruct (read_dataframe_with_limit masked (capped max_df) s1) as [x1 t1],
    (read_dataframe_with_limit masked (capped max_df) s2) as [x2 t2]. cbn [fst snd] in *.
  split; [exact E1|]. exists (flat t1). split; apply carries_iff; split; auto.
Qed.
(*EX Example reads_ex : exists s1 s2 l, carries s1 l /\ carries s2 l /\ s1 <> s2 /\
  fst (fst (recv_n 1 (receiver_with_limits false 10 10) s1)) = [Ok (OText (str "a"))].
Proof.
  exists [RData x81 [x01; x61]], [RIntr; RData x81 []; RData x01 []; RIntr; RData x61 []], [x81; x01; x61].
  split; [apply (carries_data x81 [x01; x61] [] []); constructor|].
  split; [|split; [discriminate|reflexivity]].
  apply carries_intr. apply (carries_data x81 [] _ [x01; x61]). apply (carries_data x01 [] _ [x61]).
  apply carries_intr. apply (carries_data x61 [] _ []). constructor.
Qed. EX*)

(** ** Both receivers agree *)

(** [C26] On frames whose messages stay under the limits, legal sequence or not, both
    receivers return the same messages and the same errors one after the other, and then
    ask for more, holding the same fragments. *)
Lemma receivers_agree_proof : forall ctx max_df max_msg fs ws s,
  under (capped max_msg) [] fs -> fits (capped max_df) fs ->
  on_wire (receives_masked ctx) fs ws -> carries s ws ->
  exists os p r1 s1 r2 s2 c1 src1 c2,
    recv_n (length os) (receiver_with_limits (receives_masked ctx) max_df max_msg) s = (os, r1, s1) /\
    recv_message r1 s1 = (Err NoDataAvailable, r2, s2) /\ r_buffer r2 = p /\ carries s2 [] /\
    decode_n mc_decode (length os) (msg_codec_with_limits ctx max_df max_msg) ws
      = (map (fun x => match x with Ok m => Ok (Some m) | Err e => Err e
                               | Panic => Panic | OutOfFuel => OutOfFuel end) os, c1, src1) /\
    mc_decode c1 src1 = (Ok None, c2, []) /\ mc_buffer c2 = p.
Proof.
  intros ctx max_df max_msg fs ws s HU HF HW Hs. apply carries_iff in Hs as [Hc Hf].
  apply under_iff in HU. destruct (on_wire_ok _ _ _ _ HW HF) as (l & L1 & L2 & L3).
  destruct (results [] fs) as [os p] eqn:ER.
  set (r := receiver_with_limits (receives_masked ctx) max_df max_msg).
  set (c := msg_codec_with_limits ctx max_df max_msg).
  assert (r_max_df r = capped max_df) as HD by apply capped_eq.
  assert (r_max_msg r = capped max_msg) as HM by apply capped_eq.
  assert (dc_max (mc_df c) = capped max_df) as HD' by apply capped_eq.
  assert (mc_max_msg c = capped max_msg) as HM' by apply capped_eq.
  destruct (recv_n_exhaust fs l r s [] [] os p) as (s1 & b1 & s2 & E1 & E2 & E3 & E4);
    rewrite ?HD, ?HM; auto using capped_u32.
  { rewrite app_nil_r. congruence. }
  destruct (decode_n_exhaust fs l c [] os p) as (b1' & l2 & E5 & E6); rewrite ?HD', ?HM'; auto.
  rewrite !app_nil_r in *. subst ws.
  exists os, p, (with_buffer r b1), s1, (with_buffer r p), s2, (mc_with_buffer c b1'), (encs l2),
    (mc_with_buffer c p).
  repeat split; auto.
  - apply carries_iff. split; auto.
  - rewrite L2, E5. reflexivity.
Qed.
(** [C26] At the size limit they differ: a message the blocking receiver refuses, the
    async codec delivers. *)
Lemma receivers_agree_refuted_proof : exists ws,
  fst (fst (recv_message (receiver_with_limits false 100 130) [RData x01 ws]))
    = Err (ProtocolError "Exceeded maximum WebSocket message size") /\
  fst (fst (mc_decode (msg_codec_with_limits CtxClient 100 130) (x01 :: ws)))
    = Ok (Some (OText (str "abc"))).
Proof. exists [x01; x61; x00; x01; x62; x80; x01; x63]. split; vm_compute; reflexivity. Qed.
(*EX (** A stray continuation, a text in two fragments with a ping in between, an
    unfinished message. *)
Example receivers_agree_ex :
  let fs := [mk_df true no_rsv Continuation []; mk_df false no_rsv Text (str "a");
             mk_df true no_rsv Ping []; mk_df true no_rsv Continuation (str "b");
             mk_df false no_rsv Binary (str "c")] in
  under (capped 1000) [] fs /\ fits (capped 100) fs.
Proof.
  cbn zeta. split.
  - vm_compute. repeat split.
  - unfold fits. facts.
Qed. EX*)

(** [C21] Where no limits are given, they are 100 MiB for a frame and 200 MiB for a message:
    [Receiver::new], [DataFrameCodec::new] and [MessageCodec::new] do on every input what they
    do with these limits. *)
Lemma default_limits_proof : forall masked ctx,
  let MiB := 1024 * 1024 in
  (forall n s, recv_n n (receiver_new masked) s = recv_n n (receiver_with_limits masked (100 * MiB) (200 * MiB)) s) /\
  (forall l, df_decode (df_codec_new ctx) l = df_decode (df_codec_with_limits ctx (100 * MiB)) l) /\
  (forall n l, decode_n mc_decode n (msg_codec_new ctx) l = decode_n mc_decode n (msg_codec_with_limits ctx (100 * MiB) (200 * MiB)) l).
Proof. intros masked ctx MiB. split; [|split]; reflexivity. Qed.
(*EX
(** A header announcing 100 MiB is waited for; one announcing a byte more is refused. *)
Example default_limits_ex :
  let head n := [x82; x7f; x00; x00; x00; x00; x06; x40; x00; n] in
  fst (df_decode (df_codec_new CtxClient) (head x00)) = Ok None /\
  fst (df_decode (df_codec_new CtxClient) (head x01)) = Err (ProtocolError "Exceeded maximum incoming DataFrame size") /\
  fst (fst (mc_decode (msg_codec_new CtxClient) (head x00))) = Ok None /\
  fst (fst (mc_decode (msg_codec_new CtxClient) (head x01))) = Err (ProtocolError "Exceeded maximum incoming DataFrame size").
Proof. repeat split; vm_compute; reflexivity. Qed.
EX*)
