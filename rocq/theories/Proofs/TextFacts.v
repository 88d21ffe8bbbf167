(** Facts about the text operations: case, white space, splitting. *)
From Coq Require Import NArith ZArith String Bool List Lia.
From Coq Require Import ZifyBool ZifyNat ZifyN.
From Coq.Strings Require Import Byte.
From Verif.Model Require Import Base Utf8 Text.
From Verif.Spec Require Import FrameSpec Unicode Fields.
From Verif.Proofs Require Import BaseFacts Utf8Facts.
Import ListNotations.
Local Open Scope string_scope.
Local Open Scope list_scope.
Local Open Scope N_scope.

(** ** Equality and case *)
Lemma beqb_eq : forall s t, beqb s t = true <-> s = t.
Proof.
  induction s as [|a s IH]; intros [|b t]; cbn [beqb]; split; intros H; try congruence; try discriminate.
  - apply andb_true_iff in H as [H1 H2]. apply Byte.byte_dec_bl in H1. apply IH in H2. congruence.
  - injection H as -> ->. apply andb_true_iff. split; [apply Byte.byte_dec_lb; reflexivity|].
    apply IH. reflexivity.
Qed.
Lemma beqb_refl : forall s, beqb s s = true.
Proof. intros. apply beqb_eq. reflexivity. Qed.
Lemma beqb_false : forall s t, beqb s t = false <-> s <> t.
Proof.
  intros. rewrite <- beqb_eq. destruct (beqb s t); split; intros; try congruence.
Qed.

Lemma lower_upcase : forall a b, lower a = lower b <-> upcase a = upcase b.
Proof.
  assert (forall a, lower (upcase a) = lower a) as H1 by (intros []; reflexivity).
  assert (forall a, upcase (lower a) = upcase a) as H2 by (intros []; reflexivity).
  intros a b. split; intros H.
  - rewrite <- (H2 a), <- (H2 b). congruence.
  - rewrite <- (H1 a), <- (H1 b). congruence.
Qed.
Lemma same_name_lower : forall s t, map lower s = map lower t <-> same_name s t.
Proof.
  unfold same_name. induction s as [|a s IH]; intros [|b t]; cbn [map]; split; intros H;
    try discriminate; try reflexivity.
  - injection H as Ha Hs. apply lower_upcase in Ha. apply IH in Hs. congruence.
  - injection H as Ha Hs. apply lower_upcase in Ha. apply IH in Hs. congruence.
Qed.
Lemma eq_nocase_iff : forall s t, eq_nocase s t = true <-> same_name s t.
Proof. intros. unfold eq_nocase. rewrite beqb_eq. apply same_name_lower. Qed.
Lemma eq_nocase_false : forall s t, eq_nocase s t = false <-> ~ same_name s t.
Proof. intros. rewrite <- eq_nocase_iff. destruct (eq_nocase s t); split; congruence. Qed.
Lemma same_name_refl : forall s, same_name s s.
Proof. reflexivity. Qed.
Lemma same_name_sym : forall s t, same_name s t -> same_name t s.
Proof. unfold same_name. congruence. Qed.
Lemma same_name_trans : forall s t u, same_name s t -> same_name t u -> same_name s u.
Proof. unfold same_name. congruence. Qed.
Lemma eq_nocase_refl : forall s, eq_nocase s s = true.
Proof. intros. apply eq_nocase_iff. reflexivity. Qed.
Lemma eq_nocase_sym : forall s t, eq_nocase s t = eq_nocase t s.
Proof.
  intros. destruct (eq_nocase t s) eqn:E.
  - apply eq_nocase_iff in E. apply eq_nocase_iff. congruence.
  - apply eq_nocase_false in E. apply eq_nocase_false. unfold same_name in *. congruence.
Qed.
(** [eq_nocase _ n] depends on [n] up to case only. *)
Lemma eq_nocase_cong : forall m n n', eq_nocase n n' = true -> eq_nocase m n = eq_nocase m n'.
Proof.
  intros m n n' H. apply eq_nocase_iff in H. destruct (eq_nocase m n') eqn:E.
  - apply eq_nocase_iff in E. apply eq_nocase_iff. unfold same_name in *. congruence.
  - apply eq_nocase_false in E. apply eq_nocase_false. unfold same_name in *. congruence.
Qed.

(** ** White space *)
Inductive wchar : bytes -> Prop :=
| wc1 : forall a, ws1 a = true -> wchar [a]
| wc2 : forall a b, ws2 a b = true -> wchar [a; b]
| wc3 : forall a b c, ws3 a b c = true -> wchar [a; b; c].
Inductive wtext : bytes -> Prop :=
| wt_nil : wtext []
| wt_cons : forall p r, wchar p -> wtext r -> wtext (p ++ r).

Lemma ws3_inv : forall a b c, ws3 a b c = true ->
  (b2n a = 0xE1 /\ b2n b = 0x9A /\ b2n c = 0x80) \/
  (b2n a = 0xE2 /\ b2n b = 0x80 /\ (0x80 <= b2n c <= 0x8A \/ b2n c = 0xA8 \/ b2n c = 0xA9 \/ b2n c = 0xAF)) \/
  (b2n a = 0xE2 /\ b2n b = 0x81 /\ b2n c = 0x9F) \/
  (b2n a = 0xE3 /\ b2n b = 0x80 /\ b2n c = 0x80).
Proof.
  intros a b c H. unfold ws3 in H.
  destruct (N.eqb_spec (b2n a) 0xE1) as [Ha|Ha]; [rewrite Ha in H; lia|].
  destruct (N.eqb_spec (b2n a) 0xE2) as [Ha2|Ha2]; [rewrite Ha2 in H; lia|].
  destruct (N.eqb_spec (b2n a) 0xE3) as [Ha3|Ha3]; [rewrite Ha3 in H; lia|].
  exfalso. destruct (b2n a) as [|p]; [discriminate|].
  do 8 (destruct p as [p|p|]; try discriminate H; try (exfalso; lia)).
Qed.
Lemma ws3_mk : forall a b c,
  (b2n a = 0xE1 /\ b2n b = 0x9A /\ b2n c = 0x80) \/
  (b2n a = 0xE2 /\ b2n b = 0x80 /\ (0x80 <= b2n c <= 0x8A \/ b2n c = 0xA8 \/ b2n c = 0xA9 \/ b2n c = 0xAF)) \/
  (b2n a = 0xE2 /\ b2n b = 0x81 /\ b2n c = 0x9F) \/
  (b2n a = 0xE3 /\ b2n b = 0x80 /\ b2n c = 0x80) -> ws3 a b c = true.
Proof.
  intros a b c H. unfold ws3. decompose [or and] H; clear H;
  repeat match goal with H : b2n a = _ |- _ => rewrite H end; lia.
Qed.

Lemma wchar_white : forall p, wchar p <-> exists c, white c /\ octets p = utf8 c.
Proof.
  intros p. split.
  - intros [a H|a b H|a b c H]; unfold octets; cbn [map]; change Byte.to_N with b2n.
    + exists (b2n a). unfold ws1 in H. unfold utf8. replace (b2n a <? 0x80) with true by lia.
      split; [|reflexivity]. unfold white. cbn [In]. lia.
    + unfold ws2 in H. exists (b2n b). unfold white, utf8. cbn [In].
      replace (b2n b <? 0x80) with false by lia. replace (b2n b <? 0x800) with true by lia.
      split; [lia|]. repeat (apply f_equal2; [lia|]). reflexivity.
    + apply ws3_inv in H.
      assert (b2n c = 0x80 \/ b2n c = 0x81 \/ b2n c = 0x82 \/ b2n c = 0x83 \/ b2n c = 0x84 \/
              b2n c = 0x85 \/ b2n c = 0x86 \/ b2n c = 0x87 \/ b2n c = 0x88 \/ b2n c = 0x89 \/
              b2n c = 0x8A \/ b2n c = 0xA8 \/ b2n c = 0xA9 \/ b2n c = 0xAF \/
              (b2n b = 0x81 /\ b2n c = 0x9F) \/ b2n b = 0x9A) as HC by lia.
      destruct H as [(Ha & Hb & Hc)|[(Ha & Hb & Hc)|[(Ha & Hb & Hc)|(Ha & Hb & Hc)]]].
      * rewrite Ha, Hb, Hc. exists 0x1680. split; [unfold white; cbn [In]; tauto|reflexivity].
      * rewrite Ha, Hb. exists (0x2000 + (b2n c - 0x80)).
        repeat (destruct HC as [HC|HC]; [rewrite HC; split; [unfold white; cbn; tauto|reflexivity]|]).
        exfalso. lia.
      * rewrite Ha, Hb, Hc. exists 0x205F. split; [unfold white; cbn [In]; tauto|reflexivity].
      * rewrite Ha, Hb, Hc. exists 0x3000. split; [unfold white; cbn [In]; tauto|reflexivity].
  - intros (c & H & E). unfold octets in E. change Byte.to_N with b2n in E.
    unfold white in H. cbn [In] in H.
    repeat (destruct H as [<-|H]; [
      match type of E with _ = ?r => let r' := eval vm_compute in r in change r with r' in E end;
      destruct p as [|a [|b [|d [|x p]]]]; cbn [map] in E; try discriminate E;
      injection E; clear E; intros;
      first [ apply wc1; unfold ws1; lia | apply wc2; unfold ws2; lia | apply wc3, ws3_mk; lia ] |]).
    contradiction.
Qed.

Lemma wtext_app : forall a b, wtext a -> wtext b -> wtext (a ++ b).
Proof. induction 1 as [|p r Hp Hr IH]; intros; [assumption|]. rewrite <- app_assoc. constructor; auto. Qed.
Lemma utf8_octs : forall c, white c -> exists p, octets p = utf8 c.
Proof.
  intros c H. apply (octets_range (utf8 c)); [|reflexivity]. apply utf8_octets.
  unfold white in H. cbn [In] in H. unfold scalar. lia.
Qed.
Lemma blank_wtext : forall w, blank w <-> wtext w.
Proof.
  intros w. split.
  - intros (cs & HC & E). revert w E. induction HC as [|c cs Hc HC IH]; intros w E.
    + cbn in E. destruct w; [constructor|discriminate].
    + cbn [map concat] in E. destruct (utf8_octs c Hc) as [p Hp].
      assert (exists r, w = p ++ r /\ octets r = concat (map utf8 cs)) as (r & -> & Er).
      { exists (skipn (length p) w). rewrite <- Hp in E.
        assert (firstn (length p) w = p) as HF.
        { apply octets_inj. unfold octets. rewrite <- firstn_map. fold (octets w). rewrite E.
          rewrite <- (map_length Byte.to_N p). rewrite firstn_app, Nat.sub_diag.
          unfold octets. rewrite firstn_all. cbn [firstn]. apply app_nil_r. }
        split; [rewrite <- HF at 1; symmetry; apply firstn_skipn|].
        unfold octets. rewrite <- skipn_map. fold (octets w). rewrite E.
        rewrite <- (map_length Byte.to_N p). rewrite skipn_app, Nat.sub_diag.
        unfold octets. rewrite skipn_all. reflexivity. }
      constructor; [|apply IH, Er]. apply wchar_white. eauto.
  - induction 1 as [|p r Hp Hr (cs & HC & E)].
    + exists []. split; [constructor|reflexivity].
    + apply wchar_white in Hp as (c & Hc & Ep). exists (c :: cs). split; [constructor; assumption|].
      rewrite octets_app, Ep, E. reflexivity.
Qed.
Lemma blank_nil : blank [].
Proof. exists []. split; [constructor|reflexivity]. Qed.
Lemma blank_app : forall a b, blank a -> blank b -> blank (a ++ b).
Proof. intros a b. rewrite !blank_wtext. apply wtext_app. Qed.
Lemma blank_space : blank [x20].
Proof. apply blank_wtext. apply (wt_cons [x20] []); constructor. reflexivity. Qed.
Lemma white_scalar : forall c, white c -> scalar c.
Proof. intros c H. unfold white in H. cbn [In] in H. unfold scalar. lia. Qed.
Lemma blank_utf8 : forall w, blank w -> utf8_text w.
Proof.
  intros w (cs & HC & E). exists cs. split; [|exact E]. eapply Forall_impl; [|exact HC]. apply white_scalar.
Qed.

(** Texts that begin or end with something else. *)
Definition starts_black (t : bytes) : Prop := forall p r, wchar p -> t <> p ++ r.
Definition ends_black (t : bytes) : Prop := forall p r, wchar p -> t <> r ++ p.

Lemma trim_start_wchar : forall p r, wchar p -> trim_start (p ++ r) = trim_start r.
Proof.
  intros p r [a H|a b H|a b c H]; cbn [app trim_start].
  - rewrite H. reflexivity.
  - replace (ws1 a) with false by (unfold ws1, ws2 in *; lia). rewrite H. reflexivity.
  - pose proof (ws3_inv _ _ _ H). replace (ws1 a) with false by (unfold ws1; lia).
    replace (ws2 a b) with false by (unfold ws2; lia). rewrite H. reflexivity.
Qed.
Lemma trim_back_wchar : forall p r, wchar p -> trim_back (rev p ++ r) = trim_back r.
Proof.
  intros p r [a H|a b H|a b c H]; cbn [List.rev app trim_back].
  - rewrite H. reflexivity.
  - replace (ws1 b) with false by (unfold ws1, ws2 in *; lia). rewrite H. reflexivity.
  - pose proof (ws3_inv _ _ _ H). replace (ws1 c) with false by (unfold ws1; lia).
    replace (ws2 b c) with false by (unfold ws2; lia). rewrite H. reflexivity.
Qed.
Lemma trim_start_wtext : forall w r, wtext w -> trim_start (w ++ r) = trim_start r.
Proof.
  induction 1 as [|p w Hp Hw IH]; [reflexivity|]. rewrite <- app_assoc, trim_start_wchar by exact Hp.
  exact IH.
Qed.
Lemma trim_back_wtext : forall w r, wtext w -> trim_back (rev w ++ r) = trim_back r.
Proof.
  intros w r H. revert r. induction H as [|p w Hp Hw IH]; intros r; [reflexivity|].
  rewrite rev_app_distr, <- app_assoc, IH, trim_back_wchar by exact Hp. reflexivity.
Qed.
Lemma trim_start_black : forall t, starts_black t -> trim_start t = t.
Proof.
  intros [|a t] H; [reflexivity|]. cbn [trim_start].
  destruct (ws1 a) eqn:E1; [exfalso; apply (H [a] t); [constructor; exact E1|reflexivity]|].
  destruct t as [|b t]; [reflexivity|].
  destruct (ws2 a b) eqn:E2; [exfalso; apply (H [a; b] t); [constructor; exact E2|reflexivity]|].
  destruct t as [|c t]; [reflexivity|].
  destruct (ws3 a b c) eqn:E3; [exfalso; apply (H [a; b; c] t); [constructor; exact E3|reflexivity]|].
  reflexivity.
Qed.
Lemma trim_back_black : forall t, ends_black t -> trim_back (rev t) = rev t.
Proof.
  intros t H. remember (rev t) as s eqn:E.
  assert (t = rev s) as -> by (rewrite E, rev_involutive; reflexivity). clear E.
  destruct s as [|a s]; [reflexivity|]. cbn [trim_back].
  destruct (ws1 a) eqn:E1; [exfalso; apply (H [a] (rev s)); [constructor; exact E1|reflexivity]|].
  destruct s as [|b s]; [reflexivity|].
  destruct (ws2 b a) eqn:E2.
  { exfalso; apply (H [b; a] (rev s)); [constructor; exact E2|].
    cbn [List.rev]. rewrite <- !app_assoc. reflexivity. }
  destruct s as [|c s]; [reflexivity|].
  destruct (ws3 c b a) eqn:E3; [|reflexivity].
  exfalso; apply (H [c; b; a] (rev s)); [constructor; exact E3|].
  cbn [List.rev]. rewrite <- !app_assoc. reflexivity.
Qed.
Lemma trim_start_split : forall s, exists w, wtext w /\ s = w ++ trim_start s /\ starts_black (trim_start s).
Proof.
  assert (forall n s, (length s < n)%nat ->
    exists w, wtext w /\ s = w ++ trim_start s /\ starts_black (trim_start s)) as HH.
  { induction n as [|n IH]; intros s Hn; [lia|].
    assert (forall p r, wchar p -> s = p ++ r ->
      exists w, wtext w /\ s = w ++ trim_start s /\ starts_black (trim_start s)) as HW.
    { intros p r Hp ->. rewrite trim_start_wchar by exact Hp.
      assert (0 < length p)%nat by (destruct Hp; cbn; lia). rewrite app_length in Hn.
      destruct (IH r ltac:(lia)) as (w & Hw & E & Hb).
      exists (p ++ w). split; [constructor; assumption|]. split; [|exact Hb].
      rewrite <- app_assoc, <- E. reflexivity. }
    assert ((exists p r, wchar p /\ s = p ++ r) \/ starts_black s) as [(p & r & Hp & E)|HB].
    { destruct s as [|a s]; [right; intros p r Hp E; destruct Hp; discriminate|].
      destruct (ws1 a) eqn:E1; [left; exists [a], s; split; [constructor; exact E1|reflexivity]|].
      destruct s as [|b s].
      { right; intros p r Hp E; destruct Hp; cbn in E; try discriminate; congruence. }
      destruct (ws2 a b) eqn:E2; [left; exists [a; b], s; split; [constructor; exact E2|reflexivity]|].
      destruct s as [|c s].
      { right; intros p r Hp E; destruct Hp; cbn in E; try discriminate; congruence. }
      destruct (ws3 a b c) eqn:E3; [left; exists [a; b; c], s; split; [constructor; exact E3|reflexivity]|].
      right; intros p r Hp E; destruct Hp; cbn in E; congruence. }
    - eapply HW; eassumption.
    - exists []. split; [constructor|]. rewrite trim_start_black by exact HB. auto. }
  intros s. apply (HH (S (length s))). lia.
Qed.
Lemma trim_back_split : forall s, exists w,
  wtext w /\ s = rev (trim_back (rev s)) ++ w /\ ends_black (rev (trim_back (rev s))).
Proof.
  assert (forall n s, (length s < n)%nat ->
    exists w, wtext w /\ s = rev (trim_back (rev s)) ++ w /\ ends_black (rev (trim_back (rev s)))) as HH.
  { induction n as [|n IH]; intros s Hn; [lia|].
    assert (forall p r, wchar p -> s = r ++ p ->
      exists w, wtext w /\ s = rev (trim_back (rev s)) ++ w /\ ends_black (rev (trim_back (rev s)))) as HW.
    { intros p r Hp ->. rewrite rev_app_distr, trim_back_wchar by exact Hp.
      assert (0 < length p)%nat by (destruct Hp; cbn; lia). rewrite app_length in Hn.
      destruct (IH r ltac:(lia)) as (w & Hw & E & Hb).
      exists (w ++ p). split.
      - apply wtext_app; [exact Hw|]. rewrite <- (app_nil_r p). constructor; [exact Hp|constructor].
      - split; [|exact Hb]. rewrite app_assoc, <- E. reflexivity. }
    assert ((exists p r, wchar p /\ s = r ++ p) \/ ends_black s) as [(p & r & Hp & E)|HB].
    { remember (rev s) as t eqn:Et.
      assert (s = rev t) as -> by (rewrite Et, rev_involutive; reflexivity). clear Et HW Hn.
      destruct t as [|a s]; [right; intros p r Hp E; destruct Hp, r; discriminate|].
      assert (forall p r, wchar p -> rev (a :: s) = r ++ p -> a :: s = rev p ++ rev r) as HR.
      { intros p r _ E. rewrite <- rev_app_distr, <- E, rev_involutive. reflexivity. }
      destruct (ws1 a) eqn:E1; [left; exists [a], (rev s); split; [constructor; exact E1|reflexivity]|].
      destruct s as [|b s].
      { right; intros p r Hp E; apply HR in E; [|exact Hp]; destruct Hp; cbn in E; try discriminate; congruence. }
      destruct (ws2 b a) eqn:E2.
      { left; exists [b; a], (rev s); split; [constructor; exact E2|].
        cbn [List.rev]. rewrite <- !app_assoc. reflexivity. }
      destruct s as [|c s].
      { right; intros p r Hp E; apply HR in E; [|exact Hp]; destruct Hp; cbn in E; try discriminate; congruence. }
      destruct (ws3 c b a) eqn:E3.
      { left; exists [c; b; a], (rev s); split; [constructor; exact E3|].
        cbn [List.rev]. rewrite <- !app_assoc. reflexivity. }
      right; intros p r Hp E; apply HR in E; [|exact Hp]; destruct Hp; cbn in E; congruence. }
    - eapply HW; eassumption.
    - exists []. split; [constructor|]. rewrite trim_back_black, rev_involutive by exact HB.
      rewrite app_nil_r. auto. }
  intros s. apply (HH (S (length s))). lia.
Qed.

Lemma starts_black_nil : starts_black [].
Proof. intros p r Hp E. destruct Hp; discriminate. Qed.
Lemma ends_black_nil : ends_black [].
Proof. intros p r Hp E. destruct Hp, r; discriminate. Qed.
(** A black beginning stays black when white space follows: no white character straddles. *)
Lemma starts_black_app : forall t w, t <> [] -> starts_black t -> wtext w -> starts_black (t ++ w).
Proof.
  intros t w Hn Hb Hw p r Hp E.
  assert (forall w, wtext w -> w = [] \/ exists x w', w = x :: w' /\
    (ws1 x = true \/ b2n x = 0xC2 \/ b2n x = 0xE1 \/ b2n x = 0xE2 \/ b2n x = 0xE3)) as HX.
  { intros w0 [|q r0 Hq _]; [auto|right]. destruct Hq as [a H|a b H|a b c H]; cbn [app];
      eexists; eexists; (split; [reflexivity|]).
    - auto.
    - unfold ws2 in H. lia.
    - apply ws3_inv in H. lia. }
  destruct t as [|a t]; [congruence|]. clear Hn.
  destruct Hp as [a' H|a' b' H|a' b' c' H]; cbn [app] in E.
  - injection E as -> E. apply (Hb [a'] t); [constructor; exact H|reflexivity].
  - injection E as -> E. destruct t as [|b t].
    + cbn [app] in E. destruct (HX w Hw) as [->|(x & w' & -> & HXX)]; [discriminate|].
      injection E as -> E. unfold ws1, ws2 in *. lia.
    + cbn [app] in E. injection E as -> E. apply (Hb [a'; b'] t); [constructor; exact H|reflexivity].
  - injection E as -> E. destruct t as [|b t].
    + cbn [app] in E. destruct (HX w Hw) as [->|(x & w' & -> & HXX)]; [discriminate|].
      injection E as -> E. apply ws3_inv in H. unfold ws1 in *. lia.
    + cbn [app] in E. injection E as -> E. destruct t as [|c t].
      * cbn [app] in E. destruct (HX w Hw) as [->|(x & w' & -> & HXX)]; [discriminate|].
        injection E as -> E. apply ws3_inv in H. unfold ws1 in *. lia.
      * cbn [app] in E. injection E as -> E.
        apply (Hb [a'; b'; c'] t); [constructor; exact H|reflexivity].
Qed.

Lemma trim_padded : forall t s, starts_black t -> ends_black t -> padded t s -> trim s = t.
Proof.
  intros t s Hs He (w1 & w2 & H1 & H2 & ->). apply blank_wtext in H1. apply blank_wtext in H2.
  unfold trim. rewrite trim_start_wtext by exact H1.
  destruct t as [|a t].
  - cbn [app]. rewrite <- (app_nil_r w2), trim_start_wtext by exact H2. reflexivity.
  - rewrite trim_start_black by (apply starts_black_app; [discriminate|assumption|assumption]).
    rewrite rev_app_distr, trim_back_wtext, trim_back_black by assumption. apply rev_involutive.
Qed.
Lemma trim_spec : forall s, padded (trim s) s /\ starts_black (trim s) /\ ends_black (trim s).
Proof.
  intros s. unfold trim. destruct (trim_start_split s) as (w1 & H1 & E1 & B1).
  destruct (trim_back_split (trim_start s)) as (w2 & H2 & E2 & B2).
  split; [|split; [|exact B2]].
  - exists w1, w2. rewrite !blank_wtext. split; [exact H1|]. split; [exact H2|].
    rewrite <- E2. exact E1.
  - intros p r Hp E. apply (B1 p (r ++ w2)); [exact Hp|]. rewrite E2 at 1. rewrite E, <- app_assoc.
    reflexivity.
Qed.
Lemma trim_iff : forall t s, starts_black t -> ends_black t -> (padded t s <-> trim s = t).
Proof.
  intros t s H1 H2. split; [apply trim_padded; assumption|]. intros <-. apply trim_spec.
Qed.
Lemma padded_trim : forall s, padded (trim s) s.
Proof. intros. apply trim_spec. Qed.
Lemma trim_blank : forall s, trim s = [] <-> blank s.
Proof.
  intros s. rewrite <- (trim_iff [] s starts_black_nil ends_black_nil). split.
  - intros (w1 & w2 & H1 & H2 & ->). apply blank_app; assumption.
  - intros H. exists s, []. split; [exact H|]. split; [apply blank_nil|]. rewrite app_nil_r. reflexivity.
Qed.
Lemma trim_blank_r : forall s w, blank w -> trim (s ++ w) = trim s.
Proof.
  intros s w Hw. destruct (trim_spec s) as ((w1 & w2 & H1 & H2 & E) & B1 & B2).
  apply trim_padded; [exact B1|exact B2|]. exists w1, (w2 ++ w). split; [exact H1|].
  split; [apply blank_app; assumption|]. rewrite E at 1. rewrite <- !app_assoc. reflexivity.
Qed.
Lemma trim_blank_l : forall s w, blank w -> trim (w ++ s) = trim s.
Proof.
  intros s w Hw. destruct (trim_spec s) as ((w1 & w2 & H1 & H2 & E) & B1 & B2).
  apply trim_padded; [exact B1|exact B2|]. exists (w ++ w1), w2.
  split; [apply blank_app; assumption|]. split; [exact H2|]. rewrite E at 1. rewrite <- !app_assoc. reflexivity.
Qed.
Lemma trim_idem : forall s, trim (trim s) = trim s.
Proof.
  intros s. destruct (trim_spec s) as (_ & B1 & B2). apply trim_padded; [exact B1|exact B2|].
  exists [], []. rewrite app_nil_r. repeat split; apply blank_nil.
Qed.
Lemma trim_id : forall t, starts_black t -> ends_black t -> trim t = t.
Proof.
  intros t H1 H2. apply trim_padded; [exact H1|exact H2|]. exists [], []. rewrite app_nil_r.
  repeat split; apply blank_nil.
Qed.

(** Sufficient: the first byte begins no white character, the last ends none. *)
Definition black (b : byte) : bool := (33 <=? b2n b) && (b2n b <? 128).
Lemma starts_black_byte : forall a t, black a = true -> starts_black (a :: t).
Proof.
  intros a t H p r Hp E. unfold black in H. destruct Hp as [a' H'|a' b' H'|a' b' c' H'];
    cbn [app] in E; injection E as -> E.
  - unfold ws1 in H'. lia.
  - unfold ws2 in H'. lia.
  - apply ws3_inv in H'. lia.
Qed.
Lemma ends_black_byte : forall a t, black a = true -> ends_black (t ++ [a]).
Proof.
  intros a t H p r Hp E. unfold black in H.
  assert (rev (t ++ [a]) = rev p ++ rev r) as E' by (rewrite E; apply rev_app_distr).
  rewrite rev_app_distr in E'. cbn [List.rev app] in E'.
  destruct Hp as [a' H'|a' b' H'|a' b' c' H']; cbn [List.rev app] in E'; injection E' as E1 E2;
    rewrite E1 in H.
  - unfold ws1 in H'. lia.
  - unfold ws2 in H'. lia.
  - apply ws3_inv in H'. lia.
Qed.
Lemma black_text : forall t, forallb black t = true -> starts_black t /\ ends_black t.
Proof.
  intros t H. split.
  - destruct t; [apply starts_black_nil|]. cbn [forallb] in H. apply andb_true_iff in H as [H _].
    apply starts_black_byte, H.
  - destruct t as [|a t] using rev_ind; [apply ends_black_nil|].
    rewrite forallb_app in H. apply andb_true_iff in H as [_ H]. cbn [forallb] in H.
    apply ends_black_byte. apply andb_true_iff in H as [H _]. exact H.
Qed.
Lemma trim_black : forall t, forallb black t = true -> trim t = t.
Proof. intros t H. destruct (black_text t H). apply trim_id; assumption. Qed.
Lemma padded_black : forall t s, forallb black t = true -> (padded t s <-> trim s = t).
Proof. intros t s H. destruct (black_text t H). apply trim_iff; assumption. Qed.

(** ** Splitting *)
Lemma eqb_spec : forall a b, Byte.eqb a b = true <-> a = b.
Proof. intros. split; [apply Byte.byte_dec_bl|apply Byte.byte_dec_lb]. Qed.
Lemma eqb_false : forall a b, Byte.eqb a b = false <-> a <> b.
Proof. intros. rewrite <- eqb_spec. destruct (Byte.eqb a b); split; congruence. Qed.
Lemma eqb_refl : forall a, Byte.eqb a a = true.
Proof. intros. apply eqb_spec. reflexivity. Qed.

Lemma split_on_nonnil : forall c s, split_on c s <> [].
Proof. intros c [|a s]; cbn [split_on]; [discriminate|]. destruct (Byte.eqb a c); [discriminate|].
  destruct (split_on c s); discriminate. Qed.
Lemma split_on_join : forall c s, join [c] (split_on c s) = s.
Proof.
  intros c. induction s as [|a s IH]; [reflexivity|]. cbn [split_on].
  pose proof (split_on_nonnil c s) as HN. destruct (split_on c s) as [|p ps]; [congruence|].
  destruct (Byte.eqb a c) eqn:E.
  - apply eqb_spec in E as ->. cbn [join app] in *. rewrite IH. reflexivity.
  - destruct ps; cbn [join app] in *; rewrite <- IH; reflexivity.
Qed.
Lemma split_on_free : forall c s, Forall (fun p => ~ In c p) (split_on c s).
Proof.
  intros c. induction s as [|a s IH]; cbn [split_on]; [constructor; [auto|constructor]|].
  pose proof (split_on_nonnil c s) as HN. destruct (split_on c s) as [|p ps]; [congruence|].
  inversion IH as [|? ? H1 H2]; subst. destruct (Byte.eqb a c) eqn:E.
  - constructor; [auto|]. constructor; assumption.
  - apply eqb_false in E. constructor; [|assumption]. intros [->|H]; [congruence|auto].
Qed.
Lemma split_on_one : forall c p, ~ In c p -> split_on c p = [p].
Proof.
  intros c. induction p as [|a p IH]; intros H; [reflexivity|]. cbn [split_on].
  rewrite IH by (intros HI; apply H; right; exact HI).
  replace (Byte.eqb a c) with false; [reflexivity|]. symmetry. apply eqb_false. intros ->. apply H. left. reflexivity.
Qed.
Lemma split_on_cons : forall c p s, ~ In c p -> split_on c (p ++ c :: s) = p :: split_on c s.
Proof.
  intros c. induction p as [|a p IH]; intros s H; cbn [app split_on].
  - rewrite eqb_refl. reflexivity.
  - rewrite IH by (intros HI; apply H; right; exact HI).
    replace (Byte.eqb a c) with false; [reflexivity|]. symmetry. apply eqb_false. intros ->. apply H. left. reflexivity.
Qed.
Lemma split_on_unique : forall c ps, ps <> [] -> Forall (fun p => ~ In c p) ps ->
  split_on c (join [c] ps) = ps.
Proof.
  intros c ps HN HF. induction HF as [|p ps Hp HF IH]; [congruence|].
  destruct ps as [|q ps].
  - cbn [join]. apply split_on_one, Hp.
  - change (join [c] (p :: q :: ps)) with (p ++ c :: join [c] (q :: ps)).
    rewrite split_on_cons by exact Hp. rewrite IH by discriminate. reflexivity.
Qed.
Lemma commas_join : forall ps, commas ps = join [x2c] ps.
Proof. induction ps as [|p [|q ps] IH]; [reflexivity|reflexivity|]. cbn [commas join] in *. rewrite IH. reflexivity. Qed.
Lemma pieces_split : forall v ps, pieces v ps <-> ps = split_on x2c v.
Proof.
  intros v ps. unfold pieces. split.
  - intros (H1 & H2 & ->). rewrite commas_join. symmetry. apply split_on_unique; assumption.
  - intros ->. split; [apply split_on_nonnil|]. split; [apply split_on_free|].
    rewrite commas_join. symmetry. apply split_on_join.
Qed.
Lemma split2_spec : forall c s p q, split2 c s = (p, q) ->
  ~ In c p /\ s = p ++ match q with Some r => c :: r | None => [] end.
Proof.
  intros c. induction s as [|a s IH]; intros p q H; cbn [split2] in H.
  - injection H as <- <-. split; [auto|reflexivity].
  - destruct (Byte.eqb a c) eqn:E.
    + injection H as <- <-. apply eqb_spec in E as ->. split; [auto|reflexivity].
    + destruct (split2 c s) as [p' q'] eqn:E2. injection H as <- <-. destruct (IH _ _ eq_refl) as [H1 H2].
      apply eqb_false in E. split; [intros [->|HI]; [congruence|auto]|]. cbn [app]. rewrite <- H2. reflexivity.
Qed.
Lemma split2_unique : forall c p r, ~ In c p ->
  split2 c (p ++ match r with Some r => c :: r | None => [] end) = (p, r).
Proof.
  intros c. induction p as [|a p IH]; intros r H; cbn [app].
  - destruct r; cbn [split2]; [rewrite eqb_refl|]; reflexivity.
  - cbn [split2]. rewrite IH by (intros HI; apply H; right; exact HI).
    replace (Byte.eqb a c) with false; [reflexivity|]. symmetry. apply eqb_false. intros ->. apply H. left. reflexivity.
Qed.

(** ** UTF-8 around an ASCII byte *)
Lemma cont_ascii : forall a, b2n a < 0x80 -> is_cont a = false.
Proof. intros a H. unfold is_cont, in_range. lia. Qed.
Lemma second3_ascii : forall x a, b2n a < 0x80 -> second3_ok x a = false.
Proof. intros x a H. unfold second3_ok, in_range. branch; lia. Qed.
Lemma second4_ascii : forall x a, b2n a < 0x80 -> second4_ok x a = false.
Proof. intros x a H. unfold second4_ok, in_range. branch; lia. Qed.
Lemma utf8_ascii : forall a t, b2n a < 0x80 -> utf8_valid (a :: t) = utf8_valid t.
Proof. intros a t H. cbn [utf8_valid]. replace (b2n a <? 0x80) with true by lia. reflexivity. Qed.
Lemma utf8_app_ascii : forall a t s, b2n a < 0x80 ->
  utf8_valid (s ++ a :: t) = utf8_valid s && utf8_valid t.
Proof.
  intros a t s Ha. pose proof (cont_ascii a Ha) as H1.
  pose proof (fun x => second3_ascii x a Ha) as H3. pose proof (fun x => second4_ascii x a Ha) as H4.
  assert (forall n s, (length s < n)%nat -> utf8_valid (s ++ a :: t) = utf8_valid s && utf8_valid t) as HH.
  { induction n as [|n IH]; intros [|x s0] Hn; [inversion Hn|inversion Hn| |].
    { cbn [app]. rewrite utf8_ascii by exact Ha. reflexivity. }
    cbn [length] in Hn. cbn [app utf8_valid]. destruct (b2n x <? 0x80); [apply IH; lia|].
    destruct (in_range 0xC2 0xDF x).
    { destruct s0 as [|y s1]; cbn [app]; [rewrite H1; reflexivity|]. cbn [length] in Hn.
      rewrite IH by lia. apply andb_assoc. }
    destruct (in_range 0xE0 0xEF x).
    { destruct s0 as [|y [|z s1]]; cbn [app].
      - destruct t; [reflexivity|]. rewrite H3. reflexivity.
      - rewrite H1, andb_false_r. reflexivity.
      - cbn [length] in Hn. rewrite IH by lia. rewrite <- !andb_assoc. reflexivity. }
    destruct (in_range 0xF0 0xF4 x); [|reflexivity].
    destruct s0 as [|y [|z [|w s1]]]; cbn [app].
    - destruct t as [|t1 [|t2 t]]; try reflexivity. rewrite H4. reflexivity.
    - destruct t as [|t1 t]; [reflexivity|]. rewrite H1, andb_false_r. reflexivity.
    - rewrite H1, andb_false_r. reflexivity.
    - cbn [length] in Hn. rewrite IH by lia. rewrite <- !andb_assoc. reflexivity. }
  apply (HH (S (length s))). lia.
Qed.
Lemma utf8_app : forall s t, utf8_valid s = true -> utf8_valid (s ++ t) = utf8_valid t.
Proof.
  intros s t H. apply utf8_valid_utext in H. induction H as [|p r Hp Hr IH]; [reflexivity|].
  rewrite <- app_assoc, utf8_valid_uchar by exact Hp. exact IH.
Qed.
Lemma utf8_ascii_text : forall s, forallb (fun b => b2n b <? 0x80) s = true -> utf8_valid s = true.
Proof.
  induction s as [|a s IH]; intros H; [reflexivity|]. cbn [forallb] in H. apply andb_true_iff in H as [H1 H2].
  rewrite utf8_ascii by lia. auto.
Qed.
Lemma utf8_text_iff : forall s, utf8_valid s = true <-> utf8_text s.
Proof. apply utf8_valid_iff. Qed.
