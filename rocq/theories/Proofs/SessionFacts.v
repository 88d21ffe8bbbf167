(** The reassembly machine delivers exactly what the frame rules say. *)
From Coq Require Import NArith ZArith String Bool List Lia.
From Coq Require Import ZifyBool ZifyNat ZifyN.
From Coq.Strings Require Import Byte.
From Verif.Model Require Import Base Io Header Mask Dataframe Utf8 Message Receiver Codec Framed.
From Verif.Spec Require Import RfcFrame FrameSpec Unicode Session Schedule Drive.
From Verif.Proofs Require Import BaseFacts MaskFacts HeaderFacts FrameFacts CodecFacts ScriptFacts
  Machine FramedFacts AsyncFacts Utf8Facts ThmFrames.
Import ListNotations.
Local Open Scope string_scope.
Local Open Scope list_scope.
Local Open Scope N_scope.

(** ** Wire *)
Lemma on_wire_encs : forall m fs ws, on_wire m fs ws ->
  exists l : list keyed, map fst l = fs /\ ws = encs l /\ Forall (fun p => is_some (snd p) = m) l.
Proof.
  induction 1 as [|f key w fs ws Hk Hw H (l & I1 & I2 & I3)].
  - exists []. repeat split. constructor.
  - exists ((f, key) :: l). cbn [map fst]. rewrite I1. apply octets_eq_enc in Hw. subst.
    repeat split; auto.
Qed.
Lemma encs_on_wire : forall m d l, wire_ok m d l -> on_wire m (map fst l) (encs l).
Proof.
  induction 1 as [|[f key] l (H1 & H2 & H3) Hl IH]; [constructor|].
  rewrite encs_cons. cbn [map fst snd] in *. apply wire_cons with key; auto.
  rewrite octets_b2n. apply enc_rfc.
Qed.
Lemma legal_key : forall f k k', rfc_legal (rfc_of_frame f k) -> rfc_legal (rfc_of_frame f k').
Proof. intros f k k' H. apply frame_ok_legal. eapply legal_frame_ok, H. Qed.
Lemma on_wire_ok : forall m d fs ws, on_wire m fs ws -> fits d fs ->
  exists l : list keyed, map fst l = fs /\ ws = encs l /\ wire_ok m d l.
Proof.
  intros m d fs ws H HF. apply on_wire_encs in H as (l & H1 & H2 & H3). exists l.
  repeat split; auto. subst fs. unfold wire_ok, fits in *. rewrite Forall_forall in *.
  intros p Hp. specialize (HF (fst p) (in_map fst l p Hp)) as [F1 F2].
  repeat split; auto; try (apply legal_frame_ok in F1; apply F1; assumption).
Qed.
Lemma wire_ok_fits : forall m d l, wire_ok m d l -> fits d (map fst l).
Proof.
  induction 1 as [|p l (H1 & H2 & H3) Hl IH]; cbn [map]; constructor; auto.
  split; [apply frame_ok_legal; exact H1|exact H2].
Qed.

(** ** Limits *)
Lemma control_opcode_u8 : forall o, control_opcode o = (8 <=? op_u8 o).
Proof. destruct o; reflexivity. Qed.
Lemma cost_weight : forall l, cost l = weight l.
Proof.
  induction l as [|f l IH]; [reflexivity|]. cbn [cost weight fold_right].
  fold (cost l) (weight l). rewrite IH. reflexivity.
Qed.
Lemma under_within : forall lim fs p, under lim p fs <-> within lim p fs.
Proof.
  intros lim. induction fs as [|f fs IH]; intros p; cbn [under within]; [tauto|].
  cbv zeta. unfold step. rewrite control_opcode_u8.
  destruct (N.leb_spec 8 (op_u8 (f_opcode f))) as [H8|H8].
  - assert ((op_u8 (f_opcode f) =? 0) = false) as -> by lia. cbn [andb]. apply IH.
  - assert (X : match f_opcode f, p with
               | Continuation, [] => true | Continuation, _ => false | _, [] => false | _, _ => true end
            = ((op_u8 (f_opcode f) =? 0) && is_nil p || (1 <=? op_u8 (f_opcode f)) && negb (is_nil p))%bool).
    { destruct (f_opcode f), p; reflexivity. }
    rewrite X. clear X.
    destruct ((op_u8 (f_opcode f) =? 0) && is_nil p)%bool; cbn [orb]; [apply IH|].
    destruct ((1 <=? op_u8 (f_opcode f)) && negb (is_nil p))%bool; [apply IH|].
    destruct (f_finished f); [apply IH|]. rewrite IH, cost_weight. reflexivity.
Qed.

(** ** Messages and frames *)
Lemma octet_hi : forall a b, octet (of_be [a; b] / 256) = a.
Proof.
  intros a b. unfold of_be. cbn [fold_left]. pose proof (b2n_lt a). pose proof (b2n_lt b).
  replace ((((0 * 256 + b2n a) * 256) + b2n b) / 256) with (b2n a) by lia.
  unfold octet, b2n. rewrite Byte.of_to_N. reflexivity.
Qed.
Lemma octet_lo : forall a b, octet (of_be [a; b] mod 256) = b.
Proof.
  intros a b. unfold of_be. cbn [fold_left]. pose proof (b2n_lt a). pose proof (b2n_lt b).
  replace ((((0 * 256 + b2n a) * 256) + b2n b) mod 256) with (b2n b) by lia.
  unfold octet, b2n. rewrite Byte.of_to_N. reflexivity.
Qed.
Lemma octet_b2n : forall n, n < 256 -> b2n (octet n) = n.
Proof.
  intros n H. unfold octet. destruct (Byte.of_N n) eqn:E.
  - apply Byte.to_of_N. exact E.
  - apply Byte.of_N_None_iff in E. lia.
Qed.
Lemma of_be_octets : forall n, n < 2 ^ 16 -> of_be [octet (n / 256); octet (n mod 256)] = n.
Proof.
  intros n H. unfold of_be. cbn [fold_left]. rewrite !octet_b2n by lia. lia.
Qed.
Lemma be16_octets : forall n, n < 2 ^ 16 -> be16 n = [octet (n / 256); octet (n mod 256)].
Proof.
  intros n H. unfold be16. apply map_b2n_inj. cbn [map]. rewrite !b2n_n2b, !octet_b2n by lia.
  rewrite N.mod_small with (a := n / 256) by lia. reflexivity.
Qed.

(** The control frames. *)
Lemma from_control : forall f m, f_finished f = true -> 8 <= op_u8 (f_opcode f) ->
  owned_from_dataframes [df_ops f] = Ok m ->
  f = whole_frame m /\ control_message m /\ typed m.
Proof.
  intros [fin rsv op d] m Hf Hop H. cbn [f_finished f_opcode] in *. subst fin.
  unfold owned_from_dataframes, from_dataframes in H.
  cbn [df_ops df_opcode gather df_reserved df_take_payload f_opcode f_reserved f_data app] in H.
  cbn [N.ltb N.compare andb] in H.
  rewrite opcode_new_u8 in H.
  destruct rsv as [[[|] [|]] [|]]; try discriminate. cbn [rbind gather] in H.
  destruct op; cbn in Hop; try lia; try discriminate.
  - destruct d as [|a [|b r]]; cbn [rbind] in H; try discriminate.
    + injection H as <-. cbn. auto.
    + destruct (utf8_valid r) eqn:E; cbn [rbind] in H; [|discriminate].
      injection H as <-.
      cbn [to_owned m_opcode m_status m_payload msg_close_because].
      rewrite utf8_lossy_id by exact E.
      unfold whole_frame, typed, control_message. cbn [opcode_of payload_of c_status c_reason].
      rewrite octet_hi, octet_lo.
      split; [reflexivity|]. split; [exact I|]. split; [|apply utf8_valid_iff, E].
      unfold of_be. cbn [fold_left]. pose proof (b2n_lt a). pose proof (b2n_lt b). lia.
  - cbn [rbind] in H. injection H as <-. cbn. auto.
  - cbn [rbind] in H. injection H as <-. cbn. auto.
Qed.
Lemma to_control : forall m, control_message m -> typed m ->
  owned_from_dataframes [df_ops (whole_frame m)] = Ok m.
Proof.
  intros m Hc Ht. destruct m as [d|d|[[code reason]|]|d|d]; try contradiction; try reflexivity.
  cbn [typed c_status c_reason] in Ht. destruct Ht as [H1 H2]. apply utf8_valid_iff in H2.
  unfold owned_from_dataframes, from_dataframes, whole_frame.
  cbn [opcode_of payload_of c_status c_reason df_ops df_opcode gather df_reserved df_take_payload
       f_opcode f_reserved f_data app].
  cbn [N.ltb N.compare andb rbind opcode_new op_u8].
  rewrite H2. cbn [rbind]. rewrite of_be_octets by exact H1.
  cbn [to_owned m_opcode m_status m_payload msg_close_because].
  rewrite utf8_lossy_id by exact H2. reflexivity.
Qed.

(** The data messages. *)
Lemma gather_cont : forall fs i data d, 0 < i ->
  gather i data (map df_ops fs) = Ok d <->
  (exists rest, d = data ++ rest /\ rest = concat (map f_data fs) /\
    Forall (fun f => f_opcode f = Continuation /\ f_reserved f = (false, false, false)) fs).
Proof.
  induction fs as [|f fs IH]; intros i data d Hi; cbn [map gather concat].
  - split.
    + intros H. injection H as <-. exists []. rewrite app_nil_r. auto.
    + intros (rest & -> & -> & _). rewrite app_nil_r. reflexivity.
  - destruct (N.ltb_spec 0 i); [|lia]. cbn [andb df_ops df_opcode df_reserved df_take_payload].
    destruct (N.eqb_spec (op_u8 (f_opcode f)) (op_u8 Continuation)) as [E|E]; cbn [negb].
    + assert (f_opcode f = Continuation) as EC
        by (destruct (f_opcode f); try discriminate; reflexivity).
      destruct (f_reserved f) as [[[|] [|]] [|]] eqn:ER;
        try (split; [discriminate|intros (rest & _ & _ & HH); inversion HH as [|? ? [_ ?]]; congruence]).
      rewrite IH by lia. split.
      * intros (rest & -> & -> & HF). exists (f_data f ++ concat (map f_data fs)).
        rewrite app_assoc. repeat split; auto.
      * intros (rest & -> & -> & HF). inversion HF; subst. exists (concat (map f_data fs)).
        rewrite app_assoc. repeat split; auto.
    + split; [discriminate|]. intros (rest & _ & _ & HH). inversion HH as [|? ? [H1 _]].
      rewrite H1 in E. contradiction.
Qed.
Lemma gather_first : forall f fs d,
  gather 0 [] (map df_ops (f :: fs)) = Ok d <->
  (d = concat (map f_data (f :: fs)) /\ f_reserved f = (false, false, false) /\
   Forall (fun f => f_opcode f = Continuation /\ f_reserved f = (false, false, false)) fs).
Proof.
  intros f fs d. cbn [map gather concat N.ltb N.compare andb df_ops df_reserved df_take_payload app].
  destruct (f_reserved f) as [[[|] [|]] [|]] eqn:ER; try (split; [discriminate|intuition congruence]).
  rewrite gather_cont by lia. split.
  - intros (rest & -> & -> & HF). auto.
  - intros (-> & _ & HF). exists (concat (map f_data fs)). auto.
Qed.
Lemma gather_err : forall fs i d e, gather i d fs = Err e -> exists s, e = ProtocolError s.
Proof.
  induction fs as [|f fs IH]; intros i d e H; cbn [gather] in H; [discriminate|].
  destruct (_ && _); [injection H as <-; eauto|].
  destruct (df_reserved f) as [[[|] [|]] [|]]; try (injection H as <-; eauto). eauto.
Qed.

Lemma conts_of : forall fs, fs <> [] ->
  Forall (fun f => f_opcode f = Continuation /\ f_reserved f = (false, false, false)) fs ->
  Forall (fun f => f_finished f = false) (removelast fs) ->
  f_finished (last fs (mk_df true (false, false, false) Continuation [])) = true ->
  continuations fs (concat (map f_data fs)).
Proof.
  induction fs as [|f fs IH]; intros Hn HF HR HL; [contradiction|].
  inversion HF as [|? ? [H1 H2] HF']; subst.
  destruct f as [fin rsv op d]. cbn [f_opcode f_reserved f_finished f_data] in *. subst.
  destruct fs as [|g fs].
  - cbn in HL. subst fin. cbn [map concat f_data]. rewrite app_nil_r. constructor.
  - cbn [removelast] in HR. inversion HR as [|? ? H3 HR']; subst.
    cbn [f_finished] in H3. subst fin.
    change (concat (map f_data (mk_df false (false, false, false) Continuation d :: g :: fs)))
      with (d ++ concat (map f_data (g :: fs))).
    constructor. apply IH; auto. discriminate.
Qed.
Lemma conts_inv : forall fs ds, continuations fs ds ->
  ds = concat (map f_data fs) /\ fs <> [] /\
  Forall (fun f => f_opcode f = Continuation /\ f_reserved f = (false, false, false)) fs /\
  Forall (fun f => f_finished f = false) (removelast fs) /\
  f_finished (last fs (mk_df true (false, false, false) Continuation [])) = true.
Proof.
  induction 1 as [d|d fs ds H (I1 & I2 & I3 & I4 & I5)].
  - cbn. rewrite app_nil_r. repeat split; auto; discriminate.
  - cbn [map concat f_data]. rewrite <- I1. split; [reflexivity|]. split; [discriminate|].
    split; [constructor; auto|].
    destruct fs as [|g fs]; [contradiction|]. split; [constructor; auto|exact I5].
Qed.

Definition pend_ok (p : list dataframe) : Prop :=
  Forall (fun f => f_finished f = false /\ op_u8 (f_opcode f) < 8) p.

Lemma from_fragments : forall p f m, pend_ok p -> f_finished f = true ->
  Forall (fun f => op_u8 (f_opcode f) < 8) (p ++ [f]) ->
  owned_from_dataframes (map df_ops (p ++ [f])) = Ok m ->
  fragments m (p ++ [f]) /\ typed m.
Proof.
  intros p f m Hp Hf Hop H.
  destruct (p ++ [f]) as [|g gs] eqn:E; [destruct p; discriminate|].
  unfold owned_from_dataframes, from_dataframes in H.
  change (map df_ops (g :: gs)) with (df_ops g :: map df_ops gs) in H. cbv beta iota in H.
  change (df_ops g :: map df_ops gs) with (map df_ops (g :: gs)) in H.
  destruct (gather 0 [] (map df_ops (g :: gs))) as [d|e| |] eqn:EG; try discriminate.
  apply gather_first in EG as (Ed & Er & EF). cbn [rbind] in H.
  cbn [df_ops df_opcode] in H. rewrite opcode_new_u8 in H.
  inversion Hop as [|? ? Hg Hgs]; subst.
  assert (exists m', m = m' /\ ~ control_message m' /\ opcode_of m' = f_opcode g
            /\ payload_of m' = concat (map f_data (g :: gs)) /\ typed m') as (m' & -> & H1 & H2 & H3 & H4).
  { destruct (f_opcode g); cbn in Hg; try lia; try discriminate.
    - destruct (utf8_valid _) eqn:EU; cbn [rbind] in H; [|discriminate].
      cbn [to_owned msg_text m_opcode m_payload] in H. rewrite utf8_lossy_id in H by exact EU.
      injection H as <-. eexists. split; [reflexivity|]. cbn. repeat split; auto.
      apply utf8_valid_iff in EU. exact EU.
    - cbn [rbind to_owned msg_binary m_opcode m_payload] in H. injection H as <-.
      eexists. split; [reflexivity|]. cbn. repeat split; auto. }
  split; [|exact H4].
  destruct g as [gfin grsv gop gd]. cbn [f_opcode f_reserved f_data] in *. subst gop grsv.
  destruct gs as [|g2 gs].
  - destruct p as [|? [|? ?]]; try discriminate. cbn [app] in E. injection E as ->.
    cbn [f_finished] in Hf. subst gfin. cbn [map concat f_data] in H3. rewrite app_nil_r in H3. subst gd.
    apply frag_whole. exact H1.
  - destruct p as [|p0 p]; [discriminate|]. cbn [app] in E. injection E as -> E.
    inversion Hp as [|? ? [Hp1 _] Hp']; subst. cbn [f_finished] in Hp1. subst gfin.
    apply frag_many with (ds := concat (map f_data (g2 :: gs))); auto.
    rewrite <- E in *. apply conts_of; auto.
    + destruct p; discriminate.
    + rewrite removelast_last. unfold pend_ok in Hp'. eapply Forall_impl; [|exact Hp']. cbn. tauto.
    + rewrite last_last. exact Hf.
Qed.
Lemma owned_from_first : forall g gs m, opcode_of m = f_opcode g ->
  gather 0 [] (map df_ops (g :: gs)) = Ok (payload_of m) -> typed m -> ~ control_message m ->
  owned_from_dataframes (map df_ops (g :: gs)) = Ok m.
Proof.
  intros g gs m H1 H2 H3 H4. unfold owned_from_dataframes, from_dataframes.
  change (map df_ops (g :: gs)) with (df_ops g :: map df_ops gs). cbv beta iota.
  change (df_ops g :: map df_ops gs) with (map df_ops (g :: gs)). rewrite H2. cbn [rbind].
  cbn [df_ops df_opcode]. rewrite <- H1, opcode_new_u8.
  destruct m as [d|d|c|d|d]; try (exfalso; apply H4; exact I); cbn [opcode_of payload_of] in *.
  - cbn [typed] in H3. apply utf8_valid_iff in H3. rewrite H3. cbn [rbind to_owned msg_text m_opcode m_payload].
    rewrite utf8_lossy_id by exact H3. reflexivity.
  - reflexivity.
Qed.
Lemma to_fragments : forall m fs, fragments m fs -> typed m ->
  owned_from_dataframes (map df_ops fs) = Ok m.
Proof.
  intros m fs H Ht. destruct H as [m Hm|m d fs ds Hm Hc Hp].
  - apply owned_from_first; auto.
  - apply conts_inv in Hc as (C1 & C2 & C3 & C4 & C5).
    apply owned_from_first; auto. apply gather_first. cbn [map concat f_data f_reserved].
    rewrite Hp, C1. auto.
Qed.
Lemma fragments_last : forall m p f, fragments m (p ++ [f]) ->
  f_finished f = true /\ op_u8 (f_opcode f) < 8 /\ (p = [] <-> f_opcode f <> Continuation).
Proof.
  intros m p f H. inversion H as [m' Hm E1 E2|m' d fs ds Hm Hc Hpay E1 E2].
  - subst. destruct p as [|? [|? ?]]; try discriminate. injection E2 as <-.
    destruct m; try (exfalso; apply Hm; exact I); cbn; repeat split; try lia; discriminate.
  - subst. destruct p as [|p0 p].
    + cbn [app] in E2. injection E2 as <- ->. inversion Hc.
    + cbn [app] in E2. injection E2 as <- ->. apply conts_inv in Hc as (_ & _ & C3 & _ & C5).
      rewrite last_last in C5. apply Forall_app in C3 as [_ C3]. inversion C3 as [|? ? [C6 _]]; subst.
      rewrite C6. cbn. repeat split; auto; try lia; try discriminate. intros HH. contradiction HH. reflexivity.
Qed.

(** ** The machine *)
Lemma is_nil_iff : forall (A : Type) (l : list A), is_nil l = true <-> l = [].
Proof. intros A []; cbn; split; intros; congruence. Qed.

Lemma delivers_results : forall p fs ms p', delivers p fs ms p' ->
  results p fs = (map Ok ms, p').
Proof.
  induction 1 as [p|p m fs ms p' Hc Ht H IH|p f fs ms p' Hf Ho Hn H IH|p f fs m ms p' Ht Hfr H IH].
  - reflexivity.
  - cbn [results]. unfold step. cbn [whole_frame f_opcode].
    assert (8 <=? op_u8 (opcode_of m) = true) as -> by (destruct m; try contradiction; reflexivity).
    assert (op_u8 (opcode_of m) =? 0 = false) as -> by (destruct m; try contradiction; reflexivity).
    cbn [andb]. rewrite IH. fold (whole_frame m). rewrite to_control by assumption. reflexivity.
  - cbn [results]. unfold step. rewrite control_opcode_u8 in Ho. rewrite Ho, Hf.
    destruct p as [|p0 p]; cbn [is_nil negb].
    + assert (op_u8 (f_opcode f) =? 0 = false) as ->.
      { assert (f_opcode f <> Continuation) by (apply Hn; reflexivity). destruct (f_opcode f); try reflexivity. congruence. }
      cbn [andb]. rewrite andb_false_r. rewrite IH. reflexivity.
    + assert (f_opcode f = Continuation) as EC.
      { destruct (f_opcode f) eqn:E; try reflexivity;
          (assert (p0 :: p = []) by (apply Hn; discriminate); discriminate). }
      rewrite EC. cbn [op_u8 N.eqb N.leb N.compare andb negb]. rewrite IH. reflexivity.
  - destruct (fragments_last _ _ _ Hfr) as (F1 & F2 & F3).
    cbn [results]. unfold step. rewrite F1.
    destruct (N.leb_spec 8 (op_u8 (f_opcode f))); [lia|].
    rewrite to_fragments with (m := m) by assumption.
    destruct p as [|p0 p]; cbn [is_nil negb].
    + assert (op_u8 (f_opcode f) =? 0 = false) as ->.
      { assert (f_opcode f <> Continuation) by (apply F3; reflexivity). destruct (f_opcode f); try reflexivity. congruence. }
      cbn [andb]. rewrite andb_false_r. rewrite IH. reflexivity.
    + assert (f_opcode f = Continuation) as EC.
      { destruct (f_opcode f) eqn:E; try reflexivity;
          (assert (p0 :: p = []) by (apply F3; discriminate); discriminate). }
      rewrite EC. cbn [op_u8 N.eqb N.leb N.compare andb negb]. rewrite IH. reflexivity.
Qed.

Definition ctl_final (f : dataframe) : Prop := 8 <= op_u8 (f_opcode f) -> f_finished f = true.

Lemma results_delivers : forall fs p ms p', pend_ok p -> Forall ctl_final fs ->
  results p fs = (map Ok ms, p') -> delivers p fs ms p' /\ pend_ok p'.
Proof.
  induction fs as [|f fs IH]; intros p ms p' Hp Hc H; cbn [results] in H.
  - injection H as H <-. destruct ms; [|discriminate]. split; [constructor|exact Hp].
  - inversion Hc as [|? ? Hcf Hc']; subst. unfold step in H.
    destruct ((op_u8 (f_opcode f) =? 0) && is_nil p)%bool eqn:E1.
    { destruct (results p fs). destruct ms; discriminate. }
    destruct (N.leb_spec 8 (op_u8 (f_opcode f))) as [H8|H8].
    { destruct (results p fs) as [os b] eqn:ER. destruct ms as [|m ms]; [discriminate|].
      cbn [map] in H. injection H as H1 H2 <-.
      destruct (from_control f m (Hcf H8) H8 H1) as (-> & G1 & G2).
      subst os. apply IH in ER as [G3 G4]; auto. split; [constructor; auto|exact G4]. }
    destruct ((1 <=? op_u8 (f_opcode f)) && negb (is_nil p))%bool eqn:E2.
    { destruct (results p fs). destruct ms; discriminate. }
    assert (p = [] <-> f_opcode f <> Continuation) as HN.
    { destruct p, (f_opcode f); cbn in E1, E2, H8; try discriminate; try lia;
        split; intros; try congruence; discriminate. }
    destruct (f_finished f) eqn:EF.
    + destruct (results [] fs) as [os b] eqn:ER. destruct ms as [|m ms]; [discriminate|].
      cbn [map] in H. injection H as H1 H2 <-. subst os.
      apply from_fragments in H1 as [G1 G2]; auto.
      * apply IH in ER as [G3 G4]; auto; [|constructor].
        split; [|exact G4]. eapply del_message; eauto.
      * apply Forall_app. split; [|repeat constructor; exact H8].
        eapply Forall_impl; [|exact Hp]. cbn. tauto.
    + apply IH in H as [G3 G4]; auto.
      * split; [|exact G4]. apply del_fragment; auto. rewrite control_opcode_u8. lia.
      * apply Forall_app. split; [exact Hp|]. repeat constructor; auto.
Qed.

Lemma results_runs : forall n fs p os b, (length fs < n)%nat -> results p fs = (os, b) ->
  exists buf2 fs2, runs p fs os buf2 fs2 /\ advance buf2 fs2 = None
    /\ snd (results buf2 fs2) = b.
Proof.
  induction n as [|n IH]; intros fs p os b Hn H; [lia|].
  rewrite results_advance in H. destruct (advance p fs) as [[[o b1] fs1]|] eqn:EA.
  - destruct (results b1 fs1) as [l b2] eqn:ER. injection H as <- <-.
    pose proof (advance_suffix _ _ _ _ _ EA) as (pre & -> & HP). rewrite app_length in Hn.
    apply IH in ER as (buf2 & fs2 & R1 & R2 & R3); [|lia].
    exists buf2, fs2. repeat split; auto. econstructor; eauto.
  - injection H as <- <-. exists p, fs. repeat split; auto. constructor.
Qed.

(** ** Sessions *)
Lemma delivers_app : forall p fs ms p', delivers p fs ms p' ->
  forall fs2 ms2 p2, delivers p' fs2 ms2 p2 -> delivers p (fs ++ fs2) (ms ++ ms2) p2.
Proof.
  induction 1; intros fs2 ms2 p2 HH2; cbn [app]; auto.
  - constructor; auto.
  - apply del_fragment; auto.
  - eapply del_message; eauto.
Qed.
Lemma delivers_controls : forall cs p, Forall (fun m => control_message m /\ typed m) cs ->
  delivers p (map whole_frame cs) cs p.
Proof.
  induction 1 as [|m cs [H1 H2] Hc IH]; cbn [map]; constructor; auto.
Qed.

(** Pending frames of a cut message. *)
Definition open_frames (t : bool) (ds : list bytes) : list dataframe :=
  match ds with
  | [] => []
  | d :: ds' => mk_df false (false, false, false) (if t then Text else Binary) d
                :: map (mk_df false (false, false, false) Continuation) ds'
  end.
Lemma open_frames_app : forall t ds d, ds <> [] ->
  open_frames t (ds ++ [d]) = open_frames t ds ++ [mk_df false (false, false, false) Continuation d].
Proof. intros t [|x ds] d H; [contradiction|]. cbn [app open_frames]. rewrite map_app. reflexivity. Qed.
Lemma conts_map : forall ds d, continuations
  (map (mk_df false (false, false, false) Continuation) ds
   ++ [mk_df true (false, false, false) Continuation d]) (concat ds ++ d).
Proof.
  induction ds as [|x ds IH]; intros d; cbn [map app concat]; [constructor|].
  rewrite <- app_assoc. constructor. apply IH.
Qed.
Lemma open_frames_fragments : forall (t : bool) ds d, ds <> [] ->
  fragments (if t then OText (concat ds ++ d) else OBinary (concat ds ++ d))
    (open_frames t ds ++ [mk_df true (false, false, false) Continuation d]).
Proof.
  intros t [|x ds] d H; [contradiction|]. cbn [open_frames app concat].
  replace (if t then Text else Binary)
    with (opcode_of (if t then OText ((x ++ concat ds) ++ d) else OBinary ((x ++ concat ds) ++ d)))
    by (destruct t; reflexivity).
  apply frag_many with (ds := concat ds ++ d).
  - destruct t; intros [].
  - apply conts_map.
  - rewrite <- app_assoc. destruct t; reflexivity.
Qed.
Lemma more_delivers : forall more (t : bool) ds, ds <> [] -> more <> [] ->
  typed (if t then OText (concat ds ++ concat (map snd more)) else OBinary (concat ds ++ concat (map snd more))) ->
  Forall (fun m => control_message m /\ typed m) (concat (map fst more)) ->
  delivers (open_frames t ds) (more_frames more)
    (concat (map fst more) ++
     [if t then OText (concat ds ++ concat (map snd more)) else OBinary (concat ds ++ concat (map snd more))]) [].
Proof.
  induction more as [|[cs d] more IH]; intros t ds Hds Hm Ht Hc; [contradiction|].
  cbn [more_frames map concat fst snd] in *. apply Forall_app in Hc as [Hc1 Hc2].
  rewrite <- app_assoc. apply delivers_app with (p' := open_frames t ds); [apply delivers_controls, Hc1|].
  destruct more as [|q more].
  - cbn [map concat] in *. rewrite !app_nil_r in *. cbn [app more_frames].
    eapply del_message; [exact Ht| |constructor]. apply open_frames_fragments. exact Hds.
  - apply del_fragment; auto.
    { cbn [f_opcode]. destruct ds; [contradiction|]. cbn [open_frames].
      split; [discriminate|intros HH; contradiction HH; reflexivity]. }
    rewrite <- open_frames_app by exact Hds.
    assert (forall x, concat ds ++ d ++ x = concat (ds ++ [d]) ++ x) as EX.
    { intros x. rewrite concat_app. cbn [concat]. rewrite app_nil_r, <- app_assoc. reflexivity. }
    rewrite EX in *. apply IH; auto.
    + destruct ds; discriminate.
    + discriminate.
Qed.
Lemma item_delivers : forall i d m, item_ok d m i -> delivers [] (item_frames i) (item_delivered i) [].
Proof.
  intros [m|c] md mm H; cbn [item_frames item_delivered item_ok] in *.
  - destruct H as [(H1 & H2 & _) _]. constructor; auto. constructor.
  - destruct H as (H1 & H2 & H3 & _).
    assert (Forall (fun m => control_message m /\ typed m) (concat (map fst (cm_more c)))) as H3'.
    { eapply Forall_impl; [|exact H3]. cbn. intros a [(? & ? & _) _]. auto. }
    destruct c as [t first more]. cbn [cm_more cm_first cm_text cm_message cm_payload] in *.
    unfold cm_message, cm_payload in *. cbn [cm_more cm_first cm_text] in *.
    destruct more as [|q more].
    + cbn [map concat app more_frames] in *. rewrite app_nil_r in *.
      eapply del_message; [exact H1| |constructor]. cbn [app].
      replace (mk_df true (false, false, false) (if t then Text else Binary) first)
        with (whole_frame (if t then OText first else OBinary first)) by (destruct t; reflexivity).
      apply frag_whole. destruct t; intros [].
    + apply del_fragment; auto.
      { destruct t; reflexivity. }
      { destruct t; split; auto; discriminate. }
      cbn [app]. pose proof (more_delivers (q :: more) t [first]) as HM.
      cbn [concat open_frames map] in HM. rewrite app_nil_r in HM.
      apply HM; auto; discriminate.
Qed.
Lemma session_delivers : forall d m l, Forall (item_ok d m) l ->
  delivers [] (concat (map item_frames l)) (concat (map item_delivered l)) [].
Proof.
  induction 1 as [|i l Hi Hl IH]; cbn [map concat]; [constructor|].
  eapply delivers_app; [eapply item_delivers, Hi|exact IH].
Qed.

Lemma whole_frame_fits : forall d m, control_ok m -> size (payload_of m) <= d ->
  rfc_legal (rfc_of_frame (whole_frame m) None) /\ size (f_data (whole_frame m)) <= d.
Proof.
  intros d m (H1 & H2 & H3) Hd. split; [|exact Hd]. apply frame_ok_legal.
  unfold frame_ok, llen. unfold size in *. cbn [whole_frame f_data f_opcode f_finished].
  split; [lia|]. auto.
Qed.
Lemma data_frame_fits : forall d f, f_reserved f = (false, false, false) ->
  op_u8 (f_opcode f) < 8 -> d < 2 ^ 64 -> size (f_data f) <= d ->
  rfc_legal (rfc_of_frame f None) /\ size (f_data f) <= d.
Proof.
  intros d f Hr Ho Hd Hs. split; [|exact Hs]. apply frame_ok_legal. unfold frame_ok, llen.
  unfold size in *. split; [lia|]. intros. lia.
Qed.
Lemma more_fits : forall d more, d < 2 ^ 64 -> Forall (fun x => size x <= d) (map snd more) ->
  Forall (fun m => control_ok m /\ size (payload_of m) <= d) (concat (map fst more)) ->
  fits d (more_frames more).
Proof.
  intros d. induction more as [|[cs x] more IH]; intros Hd H1 H2; cbn [more_frames]; [constructor|].
  cbn [map concat fst snd] in *. apply Forall_app in H2 as [H2 H3]. inversion H1; subst.
  apply Forall_app. split.
  - apply Forall_map. eapply Forall_impl; [|exact H2]. intros a [? ?]. apply whole_frame_fits; auto.
  - constructor; [|apply IH; auto]. apply data_frame_fits; auto. cbn. lia.
Qed.
Lemma item_fits : forall d m i, d < 2 ^ 64 -> item_ok d m i -> fits d (item_frames i).
Proof.
  intros d m [c|c] Hd H; cbn [item_frames item_ok] in *.
  - destruct H. constructor; [|constructor]. apply whole_frame_fits; auto.
  - destruct H as (H1 & H2 & H3 & _). inversion H2; subst.
    constructor; [|apply more_fits; auto]. apply data_frame_fits; auto.
    destruct (cm_text c); cbn; lia.
Qed.

Lemma within_app : forall lim p fs ms p' fs2, delivers p fs ms p' ->
  within lim p fs -> within lim p' fs2 -> within lim p (fs ++ fs2).
Proof.
  intros lim p fs ms p' fs2 HD. apply delivers_results in HD. revert p ms p' HD.
  induction fs as [|f fs IH]; intros p ms p' HD H1 H2; cbn [app within results] in *.
  - injection HD as _ <-. exact H2.
  - destruct (step p f) as [[o|] b] eqn:ES.
    + destruct (results b fs) as [os bb] eqn:ER. destruct ms as [|m ms]; [discriminate|].
      cbn [map] in HD. injection HD as _ HD <-. subst os. eapply IH; eauto.
    + destruct H1 as (? & ? & ?). repeat split; auto. eapply IH; eauto.
Qed.
Lemma controls_within : forall lim cs p, Forall (fun m => control_message m /\ typed m) cs ->
  within lim p (map whole_frame cs).
Proof.
  intros lim cs p H. apply under_within. induction H as [|m cs [H1 H2] H IH]; cbn [map under]; [exact I|].
  cbn [whole_frame f_opcode]. destruct m; try contradiction; exact IH.
Qed.

Definition dcost (ds : list bytes) : N := fold_right (fun d a => size d + 64 + a) 0 ds.
Lemma dcost_app : forall a b, dcost (a ++ b) = dcost a + dcost b.
Proof. induction a; intros; cbn [app dcost fold_right]; auto. fold (dcost (a0 ++ b)) (dcost a0). rewrite IHa. lia. Qed.
Lemma cost_open : forall t ds, cost (open_frames t ds) = dcost ds.
Proof.
  intros t [|d ds]; [reflexivity|]. cbn [open_frames cost dcost fold_right f_data].
  f_equal. fold (cost (map (mk_df false (false, false, false) Continuation) ds)) (dcost ds).
  induction ds as [|x ds IH]; [reflexivity|]. cbn [map cost dcost fold_right f_data].
  fold (cost (map (mk_df false (false, false, false) Continuation) ds)) (dcost ds). rewrite IH. reflexivity.
Qed.
Lemma length_open : forall t ds, length (open_frames t ds) = length ds.
Proof. intros t [|d ds]; [reflexivity|]. cbn [open_frames length]. rewrite map_length. reflexivity. Qed.
Lemma more_within : forall lim more t ds, ds <> [] -> more <> [] ->
  Forall (fun m => control_message m /\ typed m) (concat (map fst more)) ->
  N.of_nat (length (ds ++ removelast (map snd more))) < 2 ^ 20 ->
  dcost (ds ++ removelast (map snd more)) < lim ->
  within lim (open_frames t ds) (more_frames more).
Proof.
  intros lim. induction more as [|[cs d] more IH]; intros t ds Hds Hm Hc Hl Hw; [contradiction|].
  cbn [more_frames map concat fst snd] in *. apply Forall_app in Hc as [Hc1 Hc2].
  apply within_app with (ms := cs) (p' := open_frames t ds);
    [apply delivers_controls, Hc1|apply controls_within, Hc1|].
  apply under_within. cbn [under]. cbn [f_opcode control_opcode f_finished].
  destruct (open_frames t ds) as [|o0 op] eqn:EO.
  { destruct ds; [contradiction|discriminate]. }
  rewrite <- EO. clear o0 op EO.
  destruct more as [|q more].
  - cbn [more_frames under]. exact I.
  - rewrite <- open_frames_app by exact Hds. rewrite length_open, cost_open.
    assert (E : ds ++ removelast (d :: map snd (q :: more)) = (ds ++ [d]) ++ removelast (map snd (q :: more))).
    { rewrite <- app_assoc. reflexivity. }
    rewrite E in *. split; [|split].
    + rewrite app_length in Hl. lia.
    + rewrite dcost_app in Hw. lia.
    + apply under_within. apply IH; auto.
      * destruct ds; discriminate.
      * discriminate.
Qed.
Lemma item_within : forall d lim i, item_ok d lim i -> within lim [] (item_frames i).
Proof.
  intros d lim [m|c] H; cbn [item_frames item_ok] in *.
  - destruct H as [(H1 & H2 & _) _]. apply (controls_within lim [m] []). repeat constructor; auto.
  - destruct H as (H1 & H2 & H3 & H4 & H5).
    assert (Forall (fun m => control_message m /\ typed m) (concat (map fst (cm_more c)))) as H3'.
    { eapply Forall_impl; [|exact H3]. cbn. intros a [(? & ? & _) _]. auto. }
    destruct c as [t first more]. unfold open_fragments in *. cbn [cm_more cm_first cm_text] in *.
    apply under_within. cbn [under f_opcode f_finished].
    replace (control_opcode (if t then Text else Binary)) with false by (destruct t; reflexivity).
    replace (match (if t then Text else Binary) with Continuation => true | _ => false end)
      with false by (destruct t; reflexivity).
    destruct more as [|q more]; [exact I|].
    change ([] ++ [mk_df false (false, false, false) (if t then Text else Binary) first])
      with (open_frames t [first]). rewrite length_open, cost_open.
    assert (E : removelast (first :: map snd (q :: more)) = [first] ++ removelast (map snd (q :: more))) by reflexivity.
    rewrite E in *. fold (dcost ([first] ++ removelast (map snd (q :: more)))) in H5.
    split; [cbn [length]; lia|]. split; [rewrite dcost_app in H5; lia|].
    apply under_within. apply more_within; auto; discriminate.
Qed.
Lemma session_within : forall d lim l, Forall (item_ok d lim) l ->
  within lim [] (concat (map item_frames l)).
Proof.
  induction 1 as [|i l Hi Hl IH]; cbn [map concat]; [exact I|].
  eapply within_app; [eapply item_delivers, Hi|eapply item_within, Hi|exact IH].
Qed.
Lemma session_fits : forall d lim l, d < 2 ^ 64 -> Forall (item_ok d lim) l ->
  fits d (concat (map item_frames l)).
Proof.
  induction 2 as [|i l Hi Hl IH]; cbn [map concat]; [constructor|].
  apply Forall_app. split; [eapply item_fits; eauto|exact IH].
Qed.
