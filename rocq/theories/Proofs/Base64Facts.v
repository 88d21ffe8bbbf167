(** Base64: the encoder is RFC 4648, the decoder accepts exactly the encodings with
    optional padding. *)
From Coq Require Import NArith ZArith String Bool List Lia.
From Coq Require Import ZifyBool ZifyNat ZifyN.
From Coq.Strings Require Import Byte.
From Verif.Model Require Import Base Base64.
From Verif.Spec Require Import Rfc4648.
From Verif.Proofs Require Import BaseFacts Utf8Facts.
Import ListNotations.
Local Open Scope N_scope.

Lemma lor_add : forall x k y, y < 2 ^ k -> N.lor (x * 2 ^ k) y = x * 2 ^ k + y.
Proof.
  intros x k y H. rewrite <- N.lxor_lor.
  - symmetry. apply N.add_nocarry_lxor. apply N.bits_inj. intros i. rewrite N.land_spec, N.bits_0.
    destruct (N.ltb_spec i k) as [Hi|Hi].
    + rewrite N.mul_pow2_bits_low by exact Hi. reflexivity.
    + rewrite <- (N.mod_small y (2 ^ k)) by exact H. rewrite N.mod_pow2_bits_high by exact Hi.
      apply andb_false_r.
  - apply N.bits_inj. intros i. rewrite N.land_spec, N.bits_0.
    destruct (N.ltb_spec i k) as [Hi|Hi].
    + rewrite N.mul_pow2_bits_low by exact Hi. reflexivity.
    + rewrite <- (N.mod_small y (2 ^ k)) by exact H. rewrite N.mod_pow2_bits_high by exact Hi.
      apply andb_false_r.
Qed.
Lemma land3 : forall x, N.land x 3 = x mod 4.
Proof. intros. change 3 with (N.ones 2). apply N.land_ones. Qed.
Lemma land15 : forall x, N.land x 15 = x mod 16.
Proof. intros. change 15 with (N.ones 4). apply N.land_ones. Qed.
Lemma land63 : forall x, N.land x 63 = x mod 64.
Proof. intros. change 63 with (N.ones 6). apply N.land_ones. Qed.
Lemma shr : forall x k, N.shiftr x k = x / 2 ^ k.
Proof. intros. apply N.shiftr_div_pow2. Qed.
Lemma shl : forall x k, N.shiftl x k = x * 2 ^ k.
Proof. intros. apply N.shiftl_mul_pow2. Qed.

Lemma val_sym : forall n, n < 64 -> b64_val (b64_sym n) = Some n.
Proof.
  intros n H.
  assert (forallb (fun k => match b64_val (b64_sym (N.of_nat k)) with Some m => m =? N.of_nat k | None => false end)
            (seq 0 64) = true) as HA by (vm_compute; reflexivity).
  rewrite forallb_forall in HA. specialize (HA (N.to_nat n)). rewrite in_seq in HA.
  rewrite N2Nat.id in HA. specialize (HA ltac:(lia)).
  destruct (b64_val (b64_sym n)) as [m|]; [|discriminate]. apply N.eqb_eq in HA. congruence.
Qed.
Lemma val_inv : forall c n, b64_val c = Some n -> n < 64 /\ c = b64_sym n.
Proof.
  intros c n H.
  assert (match b64_val c with Some m => (m <? 64) && Byte.eqb c (b64_sym m) | None => true end = true) as HA
    by (destruct c; reflexivity).
  rewrite H in HA. apply andb_true_iff in HA as [H1 H2]. apply Byte.byte_dec_bl in H2. split; [lia|exact H2].
Qed.
Lemma sym_not_pad : forall n, n < 64 -> b64_sym n <> x3d.
Proof. intros n H E. apply val_sym in H. rewrite E in H. discriminate. Qed.
Lemma eqb_pad_sym : forall n, n < 64 -> Byte.eqb (b64_sym n) b64_pad = false.
Proof.
  intros n H. destruct (Byte.eqb (b64_sym n) b64_pad) eqn:E; auto.
  apply Byte.byte_dec_bl in E. exfalso. apply (sym_not_pad n H E).
Qed.

Ltac syms := repeat (apply (f_equal2 (@cons byte)); [first [reflexivity | apply (f_equal b64_sym); lia
  | apply (f_equal n2b); lia]|]); reflexivity.
Ltac dsyms := repeat (apply (f_equal2 (@cons byte));
  [etransitivity; [|apply n2b_b2n]; apply (f_equal n2b); lia|]); reflexivity.
(** The symbols of one group. *)
Definition g1 (a : N) := a / 4.
Definition g2 (a b : N) := a mod 4 * 16 + b / 16.
Definition g3 (b c : N) := b mod 16 * 4 + c / 64.
Definition g4 (c : N) := c mod 64.
Lemma text1 : forall a, base64_text [a] = [b64_sym (g1 (b2n a)); b64_sym (g2 (b2n a) 0); x3d; x3d].
Proof.
  intros a. pose proof (b2n_lt a). cbn [base64_text]. unfold g1, g2. change (num a) with (b2n a).
  change symbol with b64_sym. syms.
Qed.
Lemma text2 : forall a b, base64_text [a; b]
  = [b64_sym (g1 (b2n a)); b64_sym (g2 (b2n a) (b2n b)); b64_sym (g3 (b2n b) 0); x3d].
Proof.
  intros a b. pose proof (b2n_lt a). pose proof (b2n_lt b). cbn [base64_text]. unfold g1, g2, g3.
  change (num a) with (b2n a). change (num b) with (b2n b).
  change symbol with b64_sym. syms.
Qed.
Lemma text3 : forall a b c l, base64_text (a :: b :: c :: l)
  = b64_sym (g1 (b2n a)) :: b64_sym (g2 (b2n a) (b2n b)) :: b64_sym (g3 (b2n b) (b2n c))
    :: b64_sym (g4 (b2n c)) :: base64_text l.
Proof.
  intros a b c l. pose proof (b2n_lt a). pose proof (b2n_lt b). pose proof (b2n_lt c).
  cbn [base64_text app]. unfold g1, g2, g3, g4.
  change (num a) with (b2n a). change (num b) with (b2n b). change (num c) with (b2n c).
  change symbol with b64_sym. syms.
Qed.
Lemma g_lt : forall a b, a < 256 -> b < 256 -> g1 a < 64 /\ g2 a b < 64 /\ g3 a b < 64 /\ g4 a < 64.
Proof. intros. unfold g1, g2, g3, g4. repeat split; lia. Qed.

Lemma list3_ind : forall A (P : list A -> Prop),
  P [] -> (forall a, P [a]) -> (forall a b, P [a; b]) ->
  (forall a b c l, P l -> P (a :: b :: c :: l)) -> forall l, P l.
Proof.
  intros A P H0 H1 H2 H3 l.
  assert (forall n l, (length l < n)%nat -> P l) as HG.
  { induction n as [|n IH]; intros m Hm; [lia|].
    destruct m as [|a [|b [|c m]]]; auto. apply H3, IH. cbn [length] in Hm. lia. }
  apply (HG (S (length l))). lia.
Qed.
Lemma encode_rfc : forall l, b64_encode l = base64_text l.
Proof.
  induction l as [|a|a b|a b c l IH] using list3_ind; [reflexivity| | |].
  - rewrite text1. cbn [b64_encode]. rewrite shr, shl, land3. unfold g1, g2.
    change (2 ^ 2) with 4. change (2 ^ 4) with 16. rewrite N.add_0_r. reflexivity.
  - rewrite text2. cbn [b64_encode]. rewrite !shr, !shl, land3, land15, lor_add.
    + unfold g1, g2, g3. change (2 ^ 2) with 4. change (2 ^ 4) with 16. rewrite N.add_0_r. reflexivity.
    + pose proof (b2n_lt b). change (2 ^ 4) with 16. lia.
  - rewrite text3. cbn [b64_encode]. rewrite IH, !shr, !shl, land3, land15, land63, !lor_add.
    + reflexivity.
    + pose proof (b2n_lt c). change (2 ^ 6) with 64. change (2 ^ 2) with 4. lia.
    + pose proof (b2n_lt b). change (2 ^ 4) with 16. lia.
Qed.

Lemma list4_ind : forall A (P : list A -> Prop),
  P [] -> (forall a, P [a]) -> (forall a b, P [a; b]) -> (forall a b c, P [a; b; c]) ->
  (forall a b c d l, P l -> P (a :: b :: c :: d :: l)) -> forall l, P l.
Proof.
  intros A P H0 H1 H2 H3 H4 l.
  assert (forall n l, (length l < n)%nat -> P l) as HG.
  { induction n as [|n IH]; intros m Hm; [lia|].
    destruct m as [|a [|b [|c [|d m]]]]; auto. apply H4, IH. cbn [length] in Hm. lia. }
  apply (HG (S (length l))). lia.
Qed.
(** The bytes of one group. *)
Definition d1 (x y : N) := x * 4 + y / 16.
Definition d2 (y z : N) := y mod 16 * 16 + z / 4.
Definition d3 (z w : N) := z mod 4 * 64 + w.
Lemma last2_inv : forall a b l, b64_last2 a b = Some l ->
  exists c, l = [c] /\ base64_text [c] = [a; b; x3d; x3d].
Proof.
  intros a b l H. unfold b64_last2 in H.
  destruct (b64_val a) as [x|] eqn:Ea; [|discriminate].
  destruct (b64_val b) as [y|] eqn:Eb; [|discriminate].
  apply val_inv in Ea as [Hx ->]. apply val_inv in Eb as [Hy ->].
  rewrite land15 in H. destruct (N.eqb_spec (y mod 16) 0) as [E|]; [|discriminate].
  rewrite shr, shl, lor_add in H by (change (2 ^ 4) with 16; change (2 ^ 2) with 4; lia).
  injection H as <-. eexists. split; [reflexivity|]. rewrite text1.
  change (2 ^ 4) with 16. change (2 ^ 2) with 4.
  rewrite b2n_n2b_small by lia. unfold g1, g2. syms.
Qed.
Lemma last3_inv : forall a b c l, b64_last3 a b c = Some l ->
  exists d e, l = [d; e] /\ base64_text [d; e] = [a; b; c; x3d].
Proof.
  intros a b c l H. unfold b64_last3 in H.
  destruct (b64_val a) as [x|] eqn:Ea; [|discriminate].
  destruct (b64_val b) as [y|] eqn:Eb; [|discriminate].
  destruct (b64_val c) as [z|] eqn:Ec; [|discriminate].
  apply val_inv in Ea as [Hx ->]. apply val_inv in Eb as [Hy ->]. apply val_inv in Ec as [Hz ->].
  rewrite land3, land15 in H. destruct (N.eqb_spec (z mod 4) 0) as [E|]; [|discriminate].
  rewrite !shr, !shl, !lor_add in H by (change (2 ^ 4) with 16; change (2 ^ 2) with 4; lia).
  injection H as <-. eexists _, _. split; [reflexivity|]. rewrite text2.
  change (2 ^ 4) with 16. change (2 ^ 2) with 4.
  rewrite !b2n_n2b_small by lia. unfold g1, g2, g3. syms.
Qed.
Lemma group_inv : forall a b c d l, b64_group a b c d = Some l ->
  exists e f g, l = [e; f; g] /\ base64_text [e; f; g] = [a; b; c; d].
Proof.
  intros a b c d l H. unfold b64_group in H.
  destruct (b64_val a) as [x|] eqn:Ea; [|discriminate].
  destruct (b64_val b) as [y|] eqn:Eb; [|discriminate].
  destruct (b64_val c) as [z|] eqn:Ec; [|discriminate].
  destruct (b64_val d) as [w|] eqn:Ed; [|discriminate].
  apply val_inv in Ea as [Hx ->]. apply val_inv in Eb as [Hy ->]. apply val_inv in Ec as [Hz ->].
  apply val_inv in Ed as [Hw ->].
  rewrite land3, land15 in H.
  rewrite !shr, !shl, !lor_add in H
    by (change (2 ^ 6) with 64; change (2 ^ 4) with 16; change (2 ^ 2) with 4; lia).
  injection H as <-. eexists _, _, _. split; [reflexivity|]. rewrite text3.
  change (2 ^ 4) with 16. change (2 ^ 2) with 4. change (2 ^ 6) with 64.
  rewrite !b2n_n2b_small by lia. unfold g1, g2, g3, g4. cbn [base64_text]. syms.
Qed.
Lemma text_app3 : forall a b c l, base64_text (a :: b :: c :: l) = base64_text [a; b; c] ++ base64_text l.
Proof. intros. rewrite !text3. reflexivity. Qed.
Lemma decode_sound : forall t l, b64_decode t = Some l -> base64_of l t.
Proof.
  induction t as [|a|a b|a b c|a b c d t IH] using list4_ind; intros l H.
  - injection H as <-. exists []. split; [reflexivity|constructor].
  - discriminate.
  - cbn [b64_decode] in H. apply last2_inv in H as (e & -> & H). exists [x3d; x3d]. rewrite H.
    split; [reflexivity|repeat constructor].
  - cbn [b64_decode] in H. destruct (Byte.eqb c b64_pad) eqn:E.
    + apply Byte.byte_dec_bl in E. subst c. apply last2_inv in H as (e & -> & H). exists [x3d].
      rewrite H. split; [reflexivity|repeat constructor].
    + apply last3_inv in H as (e & f & -> & H). exists [x3d]. rewrite H.
      split; [reflexivity|repeat constructor].
  - cbn [b64_decode] in H. destruct t as [|t0 t].
    + exists []. rewrite app_nil_r. split; [|constructor]. destruct (Byte.eqb d b64_pad) eqn:E.
      * apply Byte.byte_dec_bl in E. subst d. destruct (Byte.eqb c b64_pad) eqn:E'.
        -- apply Byte.byte_dec_bl in E'. subst c. apply last2_inv in H as (e & -> & H). exact H.
        -- apply last3_inv in H as (e & f & -> & H). exact H.
      * apply group_inv in H as (e & f & g & -> & H). exact H.
    + destruct (b64_group a b c d) as [gr|] eqn:EG; [|discriminate].
      destruct (b64_decode (t0 :: t)) as [r|] eqn:ED; [|discriminate]. injection H as <-.
      apply group_inv in EG as (e & f & g & -> & EG). destruct (IH r eq_refl) as (p & P1 & P2).
      exists p. cbn [app]. rewrite text_app3, EG, P1. split; [reflexivity|exact P2].
Qed.
Lemma last2_enc : forall a, b64_last2 (b64_sym (g1 (b2n a))) (b64_sym (g2 (b2n a) 0)) = Some [a].
Proof.
  intros a. pose proof (b2n_lt a). unfold b64_last2.
  rewrite !val_sym by (unfold g1, g2; lia). rewrite land15.
  destruct (N.eqb_spec (g2 (b2n a) 0 mod 16) 0) as [_|E]; [|unfold g2 in E; lia].
  f_equal. rewrite shr, shl, lor_add by (unfold g2; change (2 ^ 4) with 16; change (2 ^ 2) with 4; lia).
  unfold g1, g2. change (2 ^ 4) with 16. change (2 ^ 2) with 4. dsyms.
Qed.
Lemma last3_enc : forall a b,
  b64_last3 (b64_sym (g1 (b2n a))) (b64_sym (g2 (b2n a) (b2n b))) (b64_sym (g3 (b2n b) 0)) = Some [a; b].
Proof.
  intros a b. pose proof (b2n_lt a). pose proof (b2n_lt b). unfold b64_last3.
  rewrite !val_sym by (unfold g1, g2, g3; lia). rewrite land3, land15.
  destruct (N.eqb_spec (g3 (b2n b) 0 mod 4) 0) as [_|E]; [|unfold g3 in E; lia].
  rewrite !shr, !shl, !lor_add by (unfold g2, g3; change (2 ^ 4) with 16; change (2 ^ 2) with 4; lia).
  f_equal.
  unfold g1, g2, g3. change (2 ^ 4) with 16. change (2 ^ 2) with 4. dsyms.
Qed.
Lemma group_enc : forall a b c,
  b64_group (b64_sym (g1 (b2n a))) (b64_sym (g2 (b2n a) (b2n b))) (b64_sym (g3 (b2n b) (b2n c)))
    (b64_sym (g4 (b2n c))) = Some [a; b; c].
Proof.
  intros a b c. pose proof (b2n_lt a). pose proof (b2n_lt b). pose proof (b2n_lt c). unfold b64_group.
  rewrite !val_sym by (unfold g1, g2, g3, g4; lia). rewrite land3, land15.
  rewrite !shr, !shl, !lor_add
    by (unfold g2, g3, g4; change (2 ^ 6) with 64; change (2 ^ 4) with 16; change (2 ^ 2) with 4; lia).
  f_equal.
  unfold g1, g2, g3, g4. change (2 ^ 4) with 16. change (2 ^ 2) with 4. change (2 ^ 6) with 64.
  dsyms.
Qed.
Lemma text_nopad : forall l p, base64_text l = p -> Forall (eq x3d) p -> l = [].
Proof.
  intros l p H HP. destruct l as [|a l]; [reflexivity|exfalso].
  assert (exists t, base64_text (a :: l) = b64_sym (g1 (b2n a)) :: t) as [t Ht].
  { destruct l as [|b [|c l]]; [rewrite text1|rewrite text2|rewrite text3]; eauto. }
  rewrite Ht in H. subst p. inversion HP as [|? ? E _].
  apply (sym_not_pad (g1 (b2n a))); [|symmetry; exact E]. pose proof (b2n_lt a). unfold g1. lia.
Qed.
Lemma app_peel : forall (s : byte) u t p, s <> x3d -> s :: u = t ++ p -> Forall (eq x3d) p ->
  exists t', t = s :: t' /\ u = t' ++ p.
Proof.
  intros s u t p Hs H HP. destruct t as [|x t].
  - cbn [app] in H. subst p. inversion HP; congruence.
  - apply cons_inv in H as [-> H]. eauto.
Qed.
Lemma decode_complete : forall l t, base64_of l t -> b64_decode t = Some l.
Proof.
  induction l as [|a|a b|a b c l IH] using list3_ind; intros t (p & H & HP).
  - cbn [base64_text] in H. destruct t; [reflexivity|discriminate].
  - rewrite text1 in H. pose proof (b2n_lt a).
    apply app_peel in H as (t1 & -> & H); [|apply sym_not_pad; unfold g1; lia|exact HP].
    apply app_peel in H as (t2 & -> & H); [|apply sym_not_pad; unfold g2; lia|exact HP].
    destruct t2 as [|x [|y [|z t2]]]; cbn [app] in H; try discriminate.
    + apply last2_enc.
    + apply cons_inv in H as [<- H]. cbn [b64_decode]. change (Byte.eqb x3d b64_pad) with true. cbv iota.
      apply last2_enc.
    + apply cons_inv in H as [<- H]. apply cons_inv in H as [<- H]. cbn [b64_decode].
      change (Byte.eqb x3d b64_pad) with true. cbv iota. apply last2_enc.
  - rewrite text2 in H. pose proof (b2n_lt a). pose proof (b2n_lt b).
    apply app_peel in H as (t1 & -> & H); [|apply sym_not_pad; unfold g1; lia|exact HP].
    apply app_peel in H as (t2 & -> & H); [|apply sym_not_pad; unfold g2; lia|exact HP].
    apply app_peel in H as (t3 & -> & H); [|apply sym_not_pad; unfold g3; lia|exact HP].
    destruct t3 as [|x [|y t3]]; cbn [app] in H; try discriminate; cbn [b64_decode].
    + rewrite eqb_pad_sym by (unfold g3; lia). apply last3_enc.
    + apply cons_inv in H as [<- H]. change (Byte.eqb x3d b64_pad) with true. cbv iota.
      rewrite eqb_pad_sym by (unfold g3; lia). apply last3_enc.
  - rewrite text3 in H. pose proof (b2n_lt a). pose proof (b2n_lt b). pose proof (b2n_lt c).
    apply app_peel in H as (t1 & -> & H); [|apply sym_not_pad; unfold g1; lia|exact HP].
    apply app_peel in H as (t2 & -> & H); [|apply sym_not_pad; unfold g2; lia|exact HP].
    apply app_peel in H as (t3 & -> & H); [|apply sym_not_pad; unfold g3; lia|exact HP].
    apply app_peel in H as (t4 & -> & H); [|apply sym_not_pad; unfold g4; lia|exact HP].
    cbn [b64_decode]. destruct t4 as [|x t4].
    + cbn [app] in H. apply text_nopad in H; [|exact HP]. subst l.
      rewrite eqb_pad_sym by (unfold g4; lia). apply group_enc.
    + rewrite group_enc. rewrite (IH (x :: t4)); [reflexivity|]. exists p. auto.
Qed.
Lemma text_len : forall l, llen (base64_text l) = (llen l + 2) / 3 * 4.
Proof.
  induction l as [|a|a b|a b c l IH] using list3_ind; try reflexivity.
  rewrite text3. unfold llen in *. cbn [length]. lia.
Qed.
