(** The [Framed] read loop over any well-behaved decoder. *)
From Coq Require Import NArith ZArith String Bool List Lia.
From Coq Require Import ZifyBool ZifyNat ZifyN.
From Coq.Strings Require Import Byte.
From Verif.Model Require Import Base Io Header Mask Dataframe Utf8 Message Receiver Codec Framed.
From Verif.Spec Require Import Schedule Drive.
From Verif.Proofs Require Import BaseFacts MaskFacts HeaderFacts FrameFacts CodecFacts.
Import ListNotations.
Local Open Scope string_scope.
Local Open Scope list_scope.
Local Open Scope N_scope.

(** Why draining a buffer stopped. *)
Inductive dend : Type := DMore | DErr (e : ws_error).

Definition remaining : ws_error := of_io (OtherKind 0).

Section G.
  Variables St Item : Type.
  Variable decode : St -> bytes -> result (option Item) ws_error * St * bytes.
  Hypothesis H_some : forall st src i st' src',
    decode st src = (Ok (Some i), st', src') -> (length src' < length src)%nat.
  Hypothesis H_none : forall st src st' src',
    decode st src = (Ok None, st', src') ->
    (length src' <= length src)%nat /\ decode st' src' = (Ok None, st', src').
  Hypothesis H_total : forall st src st' src',
    decode st src <> (Panic, st', src') /\ decode st src <> (OutOfFuel, st', src').

  Fixpoint gdrain (fuel : nat) (st : St) (src : bytes) : list Item * dend * St * bytes :=
    match fuel with
    | O => ([], DMore, st, src)
    | S fuel' =>
        match decode st src with
        | (Ok (Some i), st', src') =>
            let '(l, e, st2, src2) := gdrain fuel' st' src' in (i :: l, e, st2, src2)
        | (Ok None, st', src') => ([], DMore, st', src')
        | (Err e, st', src') => ([], DErr e, st', src')
        | (_, st', src') => ([], DMore, st', src')
        end
    end.
  Definition drain (st : St) (src : bytes) := gdrain (S (length src)) st src.

  Lemma gdrain_fuel : forall f1 f2 st src, (length src < f1)%nat -> (length src < f2)%nat ->
    gdrain f1 st src = gdrain f2 st src.
  Proof using H_some. clear H_none H_total.
    induction f1 as [|f1 IH]; intros f2 st src H1 H2; [lia|].
    destruct f2 as [|f2]; [lia|]. cbn [gdrain].
    destruct (decode st src) as [[r st'] src'] eqn:E.
    destruct r as [[i|]|e| |]; auto.
    apply H_some in E. rewrite (IH f2) by lia. reflexivity.
  Qed.
  Lemma drain_eq : forall st src, drain st src =
    match decode st src with
    | (Ok (Some i), st', src') =>
        let '(l, e, st2, src2) := drain st' src' in (i :: l, e, st2, src2)
    | (Ok None, st', src') => ([], DMore, st', src')
    | (Err e, st', src') => ([], DErr e, st', src')
    | (_, st', src') => ([], DMore, st', src')
    end.
  Proof using H_some. clear H_none H_total.
    intros st src. unfold drain at 1. cbn [gdrain].
    destruct (decode st src) as [[r st'] src'] eqn:E.
    destruct r as [[i|]|e| |]; auto.
    apply H_some in E. unfold drain. rewrite (gdrain_fuel _ (S (length src'))) by lia. reflexivity.
  Qed.

  (** A script of chunks, drained chunk by chunk. *)
  Fixpoint cdrain (s : list aev) (st : St) (src : bytes) : list Item * poll Item :=
    let '(items, e, st', src') := drain st src in
    match e with
    | DErr e => (items, PErr e)
    | DMore =>
        match s with
        | [] => (items, match src' with [] => PEnd | _ => PErr remaining end)
        | AData b bs :: s' =>
            let '(l, r) := cdrain s' st' (src' ++ b :: bs) in (items ++ l, r)
        | ANotReady :: s' => let '(l, r) := cdrain s' st' src' in (items ++ l, r)
        | AErr k :: s' => (items, PErr (of_io k))
        end
    end.

  Lemma drain_quiet : forall st src, decode st src = (Ok None, st, src) ->
    drain st src = ([], DMore, st, src).
  Proof using H_some. clear H_none H_total. intros st src H. rewrite drain_eq, H. reflexivity. Qed.

  Lemma cdrain_quiet : forall s st src, decode st src = (Ok None, st, src) ->
    cdrain s st src =
    match s with
    | [] => ([], match src with [] => PEnd | _ => PErr remaining end)
    | AData b bs :: s' => cdrain s' st (src ++ b :: bs)
    | ANotReady :: s' => cdrain s' st src
    | AErr k :: s' => ([], PErr (of_io k))
    end.
  Proof using H_some. clear H_none H_total.
    intros s st src H. destruct s as [|[b bs| |k] s]; cbn [cdrain];
      rewrite drain_quiet by exact H; auto.
    - destruct (cdrain s st (src ++ b :: bs)); reflexivity.
    - destruct (cdrain s st src); reflexivity.
  Qed.

  Lemma cdrain_item : forall s st src i st' src',
    decode st src = (Ok (Some i), st', src') ->
    cdrain s st src = let '(l, e) := cdrain s st' src' in (i :: l, e).
  Proof using H_some. clear H_none H_total.
    intros s st src i st' src' H. destruct s as [|ev s]; cbn [cdrain];
      rewrite (drain_eq st src), H; destruct (drain st' src') as [[[l e] st2] src2];
      destruct e as [|e]; auto.
    destruct ev as [b bs| |k]; auto.
    - destruct (cdrain s st2 (src2 ++ b :: bs)); reflexivity.
    - destruct (cdrain s st2 src2); reflexivity.
  Qed.
  Lemma cdrain_err : forall s st src e st' src',
    decode st src = (Err e, st', src') -> cdrain s st src = ([], PErr e).
  Proof using H_some. clear H_none H_total.
    intros s st src e st' src' H. destruct s as [|ev s]; cbn [cdrain];
      rewrite (drain_eq st src), H; reflexivity.
  Qed.
  Lemma cdrain_none : forall s st src st' src',
    decode st src = (Ok None, st', src') -> cdrain s st src = cdrain s st' src'.
  Proof using H_some H_none. clear H_total.
    intros s st src st' src' H. pose proof (H_none _ _ _ _ H) as [_ H2].
    rewrite (cdrain_quiet s st' src' H2).
    destruct s as [|ev s]; cbn [cdrain]; rewrite (drain_eq st src), H; auto.
    destruct ev as [b bs| |k]; auto.
    - destruct (cdrain s st' (src' ++ b :: bs)); reflexivity.
    - destruct (cdrain s st' src'); reflexivity.
  Qed.

  (** One poll from a readable or a quiescent state. *)
  Definition fr_inv (f : framed St) : Prop :=
    fr_eof f = false /\
    (fr_readable f = false -> decode (fr_st f) (fr_buf f) = (Ok None, fr_st f, fr_buf f)).

  Lemma framed_decode_cases : forall f, fr_inv f ->
    match decode (fr_st f) (fr_buf f) with
    | (Ok (Some i), st', src') =>
        framed_decode decode f = (Some (PItem i), mk_framed st' src' true false)
    | (Ok None, st', src') => framed_decode decode f = (None, mk_framed st' src' false false)
    | (Err e, st', src') =>
        framed_decode decode f = (Some (PErr e), mk_framed st' src' true false)
    | _ => False
    end.
  Proof using H_total. clear H_some H_none.
    intros f [He Hr]. unfold framed_decode. destruct (fr_readable f) eqn:ER.
    - destruct (decode (fr_st f) (fr_buf f)) as [[r st'] src'] eqn:ED. rewrite He.
      destruct r as [[i|]|e| |]; auto.
      + apply (proj1 (H_total _ _ _ _) ED).
      + apply (proj2 (H_total _ _ _ _) ED).
    - rewrite (Hr eq_refl). destruct f; cbn in *; subst; reflexivity.
  Qed.

  Lemma framed_poll_spec : forall s f, fr_inv f ->
    match framed_poll decode s f with
    | (PItem i, f', s') =>
        fr_inv f' /\ cdrain s (fr_st f) (fr_buf f)
           = (let '(l, e) := cdrain s' (fr_st f') (fr_buf f') in (i :: l, e))
        /\ (length (fr_buf f') + length (aev_bytes s') + length s'
            < length (fr_buf f) + length (aev_bytes s) + length s)%nat
    | (PNotReady, f', s') =>
        fr_inv f' /\ cdrain s (fr_st f) (fr_buf f) = cdrain s' (fr_st f') (fr_buf f')
        /\ (length (fr_buf f') + length (aev_bytes s') + length s'
            < length (fr_buf f) + length (aev_bytes s) + length s)%nat
    | (PEnd, _, _) => cdrain s (fr_st f) (fr_buf f) = ([], PEnd)
    | (PErr e, _, _) => cdrain s (fr_st f) (fr_buf f) = ([], PErr e)
    | _ => False
    end.
  Proof using H_some H_none H_total.
    induction s as [|ev s IH]; intros f Hf; pose proof (framed_decode_cases f Hf) as HD;
      cbn [framed_poll]; destruct (decode (fr_st f) (fr_buf f)) as [[r st'] src'] eqn:ED;
      destruct r as [[i|]|e| |]; try contradiction; rewrite HD; clear HD.
    - (* item, end of script *)
      pose proof (H_some _ _ _ _ _ ED). cbn [fr_st fr_buf fr_inv].
      split; [split; [reflexivity|discriminate]|]. split; [apply cdrain_item; exact ED | lia].
    - (* none at end of script *)
      cbn [fr_eof fr_st fr_buf]. pose proof (H_none _ _ _ _ ED) as [_ H2].
      unfold framed_decode. cbn [fr_readable fr_st fr_buf fr_eof]. rewrite H2.
      rewrite (cdrain_none _ _ _ _ _ ED), (cdrain_quiet _ _ _ H2).
      destruct src'; reflexivity.
    - apply cdrain_err with (1 := ED).
    - pose proof (H_some _ _ _ _ _ ED). cbn [fr_st fr_buf fr_inv].
      split; [split; [reflexivity|discriminate]|]. split; [apply cdrain_item; exact ED | lia].
    - cbn [fr_eof fr_st fr_buf]. pose proof (H_none _ _ _ _ ED) as [HL H2].
      rewrite (cdrain_none _ _ _ _ _ ED), (cdrain_quiet _ _ _ H2).
      destruct ev as [b bs| |k].
      + specialize (IH (mk_framed st' (src' ++ b :: bs) true false)).
        cbn [fr_st fr_buf] in IH.
        assert (Hinv : fr_inv (mk_framed st' (src' ++ b :: bs) true false))
          by (split; [reflexivity|discriminate]).
        specialize (IH Hinv).
        destruct (framed_poll decode s (mk_framed st' (src' ++ b :: bs) true false))
          as [[[i| | |e| |] f'] s'].
        * destruct IH as (I1 & I2 & I3). split; [exact I1|]. split; [exact I2|].
          rewrite app_length in I3. cbn [length aev_bytes] in *. rewrite app_length. lia.
        * exact IH.
        * destruct IH as (I1 & I2 & I3). split; [exact I1|]. split; [exact I2|].
          rewrite app_length in I3. cbn [length aev_bytes] in *. rewrite app_length. lia.
        * exact IH.
        * exact IH.
        * exact IH.
      + split; [split; [reflexivity|intros _; exact H2]|]. split; [reflexivity|].
        cbn [fr_buf aev_bytes length]. lia.
      + reflexivity.
    - apply cdrain_err with (1 := ED).
  Qed.

  Lemma framed_run_cdrain : forall fuel s f, fr_inv f ->
    (length (fr_buf f) + length (aev_bytes s) + length s < fuel)%nat ->
    framed_run decode fuel s f = cdrain s (fr_st f) (fr_buf f).
  Proof using H_some H_none H_total.
    induction fuel as [|fuel IH]; intros s f Hf H; [lia|]. cbn [framed_run].
    pose proof (framed_poll_spec s f Hf) as HP.
    destruct (framed_poll decode s f) as [[[i| | |e| |] f'] s'].
    - destruct HP as (H1 & H2 & H3). rewrite IH by (auto; lia). rewrite H2.
      destruct (cdrain s' (fr_st f') (fr_buf f')); reflexivity.
    - symmetry; exact HP.
    - destruct HP as (H1 & H2 & H3). rewrite IH by (auto; lia). symmetry; exact H2.
    - symmetry; exact HP.
    - contradiction.
    - contradiction.
  Qed.

  (** A script of data and not-ready events only. *)
  Definition a_clean (s : list aev) : Prop :=
    Forall (fun e => match e with AErr _ => False | _ => True end) s.
End G.
Arguments drain {St Item}.
Arguments cdrain {St Item}.
Arguments fr_inv {St Item}.

(** ** Frames *)
Lemma df_decoder_some : forall c src f c' src',
  df_decoder c src = (Ok (Some f), c', src') -> (length src' < length src)%nat.
Proof.
  intros c src f c' src' H. unfold df_decoder in H.
  destruct (df_decode c src) as [r s] eqn:E. injection H as -> <- <-.
  apply df_decode_length in E. lia.
Qed.
Lemma df_decoder_none : forall c src c' src',
  df_decoder c src = (Ok None, c', src') ->
  (length src' <= length src)%nat /\ df_decoder c' src' = (Ok None, c', src').
Proof.
  intros c src c' src' H. unfold df_decoder in *.
  destruct (df_decode c src) as [r s] eqn:E. injection H as -> <- <-.
  pose proof (decode_none_parse _ _ _ E) as [-> _]. rewrite E. auto.
Qed.
Lemma df_decoder_total : forall c src c' src',
  df_decoder c src <> (Panic, c', src') /\ df_decoder c src <> (OutOfFuel, c', src').
Proof.
  intros c src c' src'. unfold df_decoder. pose proof (df_decode_total c src) as H.
  destruct (df_decode c src) as [r s]. cbn [fst] in H.
  split; intros E; injection E as -> _ _; contradiction.
Qed.

Lemma fr_inv_new_df : forall c buf, fr_inv df_decoder (framed_new c buf).
Proof.
  intros c buf. split; [reflexivity|]. cbn. destruct buf; [reflexivity|discriminate].
Qed.

Lemma run_frames_cdrain : forall c buf s,
  run_frames c buf s = cdrain df_decoder s c buf.
Proof.
  intros c buf s. unfold run_frames.
  rewrite (framed_run_cdrain _ _ _ df_decoder_some df_decoder_none df_decoder_total);
    [reflexivity | apply fr_inv_new_df | cbn; lia].
Qed.

(** Draining more bytes: the frames found in a prefix stay. *)
Lemma drain_df_app : forall n src c x, (length src < n)%nat ->
  drain df_decoder c (src ++ x) =
  match drain df_decoder c src with
  | (items, DMore, _, src') =>
      let '(l, e, c2, s2) := drain df_decoder c (src' ++ x) in (items ++ l, e, c2, s2)
  | (items, DErr e, c', src') => (items, DErr e, c', src' ++ x)
  end.
Proof.
  induction n as [|n IH]; intros src c x Hn; [lia|].
  rewrite (drain_eq _ _ _ df_decoder_some c (src ++ x)), (drain_eq _ _ _ df_decoder_some c src).
  unfold df_decoder at 1 3. pose proof (df_decode_stable c src x) as HS.
  destruct (df_decode c src) as [[[f|]|e| |] src1] eqn:E.
  - rewrite HS. pose proof (df_decode_length _ _ _ _ E). rewrite (IH src1 c x) by lia.
    destruct (drain df_decoder c src1) as [[[l e] c1] s1]. destruct e; [|reflexivity].
    destruct (drain df_decoder c (s1 ++ x)) as [[[l2 e2] c2] s2]. reflexivity.
  - pose proof (decode_none_parse _ _ _ E) as [-> _].
    rewrite (drain_eq _ _ _ df_decoder_some c (src ++ x)). cbn [app].
    unfold df_decoder at 2.
    destruct (df_decode c (src ++ x)) as [[[f|]|e| |] s2]; auto.
    destruct (drain df_decoder c s2) as [[[l e] c1] s1]. reflexivity.
  - rewrite HS. reflexivity.
  - pose proof (df_decode_total c src) as HT. rewrite E in HT. contradiction.
  - pose proof (df_decode_total c src) as HT. rewrite E in HT. contradiction.
Qed.

Lemma drain_df_state : forall n src c items e c' src', (length src < n)%nat ->
  drain df_decoder c src = (items, e, c', src') -> c' = c.
Proof.
  induction n as [|n IH]; intros src c items e c' src' Hn H; [lia|].
  rewrite (drain_eq _ _ _ df_decoder_some c src) in H. unfold df_decoder at 1 in H.
  destruct (df_decode c src) as [[[f|]|e0| |] src1] eqn:E; try (injection H; congruence).
  pose proof (df_decode_length _ _ _ _ E).
  destruct (drain df_decoder c src1) as [[[l e0] c1] s1] eqn:E2.
  injection H as _ _ -> _. eapply IH; [|exact E2]. lia.
Qed.

(** Chunk independence for frames. *)
Lemma cdrain_df_chunks : forall s c src, a_clean s ->
  cdrain df_decoder s c src = cdrain df_decoder [] c (src ++ aev_bytes s).
Proof.
  induction s as [|ev s IH]; intros c src Hs.
  - cbn [aev_bytes]. rewrite app_nil_r. reflexivity.
  - inversion Hs as [|e0 s0 He Hs']; subst e0 s0.
    assert (HN : forall c src x, 
      cdrain df_decoder [] c (src ++ x) =
      match drain df_decoder c src with
      | (items, DMore, c', src') =>
          let '(l, r) := cdrain df_decoder [] c' (src' ++ x) in (items ++ l, r)
      | (items, DErr e, _, _) => (items, PErr e)
      end).
    { clear. intros c src x. cbn [cdrain].
      rewrite (drain_df_app (S (length src))) by lia.
      destruct (drain df_decoder c src) as [[[items e] c'] src'] eqn:ED.
      destruct e; [|reflexivity].
      rewrite (drain_df_state _ _ _ _ _ _ _ (Nat.lt_succ_diag_r _) ED).
      destruct (drain df_decoder c (src' ++ x)) as [[[l2 e2] c2] s2].
      destruct e2; reflexivity. }
    rewrite HN. cbn [cdrain].
    destruct (drain df_decoder c src) as [[[items e] c'] src'].
    destruct e; [|reflexivity].
    destruct ev as [b bs| |k]; [| |contradiction].
    + rewrite IH by exact Hs'. cbn [aev_bytes]. rewrite <- app_assoc. reflexivity.
    + rewrite IH by exact Hs'. reflexivity.
Qed.

(** ** Relation with the driver programs of [Spec/Drive.v] *)
Definition dend_err (e : dend) : option ws_error :=
  match e with DMore => None | DErr e => Some e end.
Lemma decode_until_gdrain : forall St Item
  (decode : St -> bytes -> result (option Item) ws_error * St * bytes),
  (forall st src st' src',
    decode st src <> (Panic, st', src') /\ decode st src <> (OutOfFuel, st', src')) ->
  forall n st src, decode_until decode n st src =
    let '(l, e, st', src') := gdrain _ _ decode n st src in (l, dend_err e, st', src').
Proof.
  intros St Item decode HT. induction n as [|n IH]; intros st src; cbn [decode_until gdrain].
  - reflexivity.
  - destruct (decode st src) as [[[[i|]|e| |] st'] src'] eqn:E; auto.
    + rewrite IH. destruct (gdrain St Item decode n st' src') as [[[l e] st2] src2]. reflexivity.
    + exfalso. exact (proj1 (HT _ _ _ _) E).
    + exfalso. exact (proj2 (HT _ _ _ _) E).
Qed.
Lemma decode_buffer_drain : forall St Item
  (decode : St -> bytes -> result (option Item) ws_error * St * bytes),
  (forall st src st' src',
    decode st src <> (Panic, st', src') /\ decode st src <> (OutOfFuel, st', src')) ->
  forall st src, decode_buffer decode st src =
    let '(l, e, st', src') := drain decode st src in (l, dend_err e, st', src').
Proof. intros. apply decode_until_gdrain. assumption. Qed.

Lemma decode_chunks_df : forall chunks c src,
  decode_chunks df_decoder c src chunks = decode_buffer df_decoder c (src ++ concat chunks).
Proof.
  induction chunks as [|x chunks IH]; intros c src; cbn [decode_chunks concat].
  - rewrite app_nil_r. rewrite !(decode_buffer_drain _ _ _ df_decoder_total).
    destruct (drain df_decoder c src) as [[[l e] c'] src'].
    destruct e; cbn [dend_err]; rewrite ?app_nil_r; reflexivity.
  - rewrite !(decode_buffer_drain _ _ _ df_decoder_total).
    rewrite (drain_df_app (S (length src))) by lia.
    destruct (drain df_decoder c src) as [[[l e] c'] src'] eqn:ED.
    destruct e; cbn [dend_err]; [|reflexivity].
    rewrite (drain_df_state _ _ _ _ _ _ _ (Nat.lt_succ_diag_r _) ED).
    rewrite IH, (decode_buffer_drain _ _ _ df_decoder_total), <- app_assoc.
    destruct (drain df_decoder c (src' ++ x ++ concat chunks)) as [[[l2 e2] c2] s2]. reflexivity.
Qed.

Lemma acarries_iff : forall s l, acarries s l <-> a_clean s /\ aev_bytes s = l.
Proof.
  split.
  - induction 1 as [|b bs s l H [IH1 IH2]|s l H [IH1 IH2]].
    + split; [constructor|reflexivity].
    + split; [constructor; [exact I|exact IH1]|]. cbn [aev_bytes]. rewrite IH2. reflexivity.
    + split; [constructor; [exact I|exact IH1]|]. exact IH2.
  - intros [H1 H2]. revert l H2. induction H1 as [|e s He Hs IH]; intros l H2.
    + cbn in H2. subst l. constructor.
    + destruct e; try contradiction; cbn [aev_bytes] in H2; subst l.
      * apply acarries_data. apply IH. reflexivity.
      * constructor. apply IH. reflexivity.
Qed.

Lemma run_frames_chunks : forall c buf s l, acarries s l ->
  run_frames c buf s = run_frames c (buf ++ l) [].
Proof.
  intros c buf s l H. apply acarries_iff in H as [H1 H2]. subst l.
  rewrite !run_frames_cdrain. apply cdrain_df_chunks. exact H1.
Qed.
