(** The validator accepts exactly the UTF-8 encodings. *)
From Coq Require Import NArith ZArith String Bool List Lia.
From Coq Require Import ZifyBool ZifyNat ZifyN.
From Coq.Strings Require Import Byte.
From Verif.Model Require Import Base Utf8.
From Verif.Spec Require Import Unicode FrameSpec.
From Verif.Proofs Require Import BaseFacts.
Import ListNotations.
Local Open Scope list_scope.
Local Open Scope N_scope.

(** One character at the front of a valid text. *)
Inductive uchar : bytes -> Prop :=
| uc1 : forall a, b2n a < 0x80 -> uchar [a]
| uc2 : forall a b, 0xC2 <= b2n a <= 0xDF -> is_cont b = true -> uchar [a; b]
| uc3 : forall a b c, 0xE0 <= b2n a <= 0xEF -> second3_ok a b = true -> is_cont c = true ->
    uchar [a; b; c]
| uc4 : forall a b c d, 0xF0 <= b2n a <= 0xF4 -> second4_ok a b = true -> is_cont c = true ->
    is_cont d = true -> uchar [a; b; c; d].

Ltac b2n_bounds := repeat match goal with
  | b : byte |- _ => lazymatch goal with
      | _ : b2n b < 256 |- _ => fail
      | _ => pose proof (b2n_lt b) end end.

Ltac unr := unfold second3_ok, second4_ok, is_cont, in_range in *.
Ltac branch := repeat match goal with
  | H : context [if ?c then _ else _] |- _ => destruct c eqn:?
  | |- context [if ?c then _ else _] => destruct c eqn:?
  end.

Lemma cons_inv : forall (A : Type) (x y : A) l m, x :: l = y :: m -> x = y /\ l = m.
Proof. intros. split; congruence. Qed.
Lemma uchar_enc : forall l, uchar l <-> exists c, scalar c /\ octets l = utf8 c.
Proof.
  intros l. split.
  - intros H. destruct H as [a H|a b H Hb|a b c H Hb Hc|a b c d H Hb Hc Hd]; b2n_bounds;
      unfold octets; cbn [map]; fold b2n; change Byte.to_N with b2n.
    + exists (b2n a). split; [left; lia|]. unfold utf8. destruct (N.ltb_spec (b2n a) 0x80); [reflexivity|lia].
    + exists ((b2n a - 0xC0) * 64 + (b2n b - 0x80)). unr.
      split; [left; lia|]. unfold utf8.
      repeat match goal with |- context [?x <? ?y] => destruct (N.ltb_spec x y); try lia end.
      repeat f_equal; lia.
    + exists ((b2n a - 0xE0) * 4096 + (b2n b - 0x80) * 64 + (b2n c - 0x80)). unr.
      assert (0x800 <= (b2n a - 0xE0) * 4096 + (b2n b - 0x80) * 64 + (b2n c - 0x80) < 0x10000) by (branch; lia).
      split; [unfold scalar; branch; lia|]. unfold utf8.
      repeat match goal with |- context [?x <? ?y] => destruct (N.ltb_spec x y); try lia end.
      assert (128 <= b2n b < 192) by (branch; lia).
      repeat f_equal; lia.
    + exists ((b2n a - 0xF0) * 262144 + (b2n b - 0x80) * 4096 + (b2n c - 0x80) * 64 + (b2n d - 0x80)). unr.
      assert (128 <= b2n b < 192) by (branch; lia).
      assert (0x10000 <= (b2n a - 0xF0) * 262144 + (b2n b - 0x80) * 4096 + (b2n c - 0x80) * 64 + (b2n d - 0x80) < 0x110000) by (branch; lia).
      split; [unfold scalar; lia|]. unfold utf8.
      repeat match goal with |- context [?x <? ?y] => destruct (N.ltb_spec x y); try lia end.
      repeat f_equal; lia.
  - intros (c & Hc & H). unfold octets in H. change Byte.to_N with b2n in H. unfold utf8 in H.
    destruct (N.ltb_spec c 0x80); [|destruct (N.ltb_spec c 0x800); [|destruct (N.ltb_spec c 0x10000)]];
      repeat (destruct l as [|? l]; try discriminate); cbn [map] in H;
      repeat (apply cons_inv in H as [? H]); b2n_bounds;
      unfold scalar in Hc.
    + apply uc1. lia.
    + apply uc2; unr; lia.
    + apply uc3; unr; branch; lia.
    + apply uc4; unr; branch; lia.
Qed.

Lemma in_range_t : forall lo hi b, in_range lo hi b = true <-> lo <= b2n b <= hi.
Proof. intros. unfold in_range. lia. Qed.
Lemma in_range_f : forall lo hi b, in_range lo hi b = false <-> ~ (lo <= b2n b <= hi).
Proof. intros. unfold in_range. lia. Qed.

Lemma utf8_valid_uchar : forall l r, uchar l -> utf8_valid (l ++ r) = utf8_valid r.
Proof.
  intros l r H. destruct H as [a H|a b H Hb|a b c H Hb Hc|a b c d H Hb Hc Hd]; cbn [app utf8_valid].
  - replace (b2n a <? 0x80) with true by lia. reflexivity.
  - replace (b2n a <? 0x80) with false by lia. rewrite (proj2 (in_range_t 0xC2 0xDF a)) by lia.
    rewrite Hb. reflexivity.
  - replace (b2n a <? 0x80) with false by lia. rewrite (proj2 (in_range_f 0xC2 0xDF a)) by lia.
    rewrite (proj2 (in_range_t 0xE0 0xEF a)) by lia. rewrite Hb, Hc. reflexivity.
  - replace (b2n a <? 0x80) with false by lia. rewrite (proj2 (in_range_f 0xC2 0xDF a)) by lia.
    rewrite (proj2 (in_range_f 0xE0 0xEF a)) by lia.
    rewrite (proj2 (in_range_t 0xF0 0xF4 a)) by lia. rewrite Hb, Hc, Hd. reflexivity.
Qed.
Lemma utf8_valid_inv : forall l, utf8_valid l = true ->
  l = [] \/ exists p r, uchar p /\ l = p ++ r /\ utf8_valid r = true.
Proof.
  intros [|a l] H; [auto|right]. cbn [utf8_valid] in H.
  destruct (N.ltb_spec (b2n a) 0x80).
  { exists [a], l. repeat split; auto. constructor. lia. }
  destruct (in_range 0xC2 0xDF a) eqn:E2.
  { apply in_range_t in E2. destruct l as [|b l]; [discriminate|]. apply andb_true_iff in H as [H1 H2].
    exists [a; b], l. repeat split; auto. constructor; auto. }
  destruct (in_range 0xE0 0xEF a) eqn:E3.
  { apply in_range_t in E3. destruct l as [|b [|c l]]; try discriminate.
    apply andb_true_iff in H as [H1 H2]. apply andb_true_iff in H1 as [H1 H3].
    exists [a; b; c], l. repeat split; auto. constructor; auto. }
  destruct (in_range 0xF0 0xF4 a) eqn:E4; [|discriminate].
  apply in_range_t in E4. destruct l as [|b [|c [|d l]]]; try discriminate.
  apply andb_true_iff in H as [H1 H2]. apply andb_true_iff in H1 as [H1 H3].
  apply andb_true_iff in H1 as [H1 H4].
  exists [a; b; c; d], l. repeat split; auto. constructor; auto.
Qed.
Lemma uchar_nonnil : forall p, uchar p -> (0 < length p)%nat.
Proof. intros p []; cbn; lia. Qed.

Inductive utext : bytes -> Prop :=
| ut_nil : utext []
| ut_cons : forall p r, uchar p -> utext r -> utext (p ++ r).
Lemma utf8_valid_utext : forall l, utf8_valid l = true <-> utext l.
Proof.
  intros l. split.
  - assert (forall n l, (length l < n)%nat -> utf8_valid l = true -> utext l) as HH.
    { induction n as [|n IH]; intros l0 Hn H; [lia|].
      apply utf8_valid_inv in H as [->|(p & r & Hp & -> & Hr)]; constructor; auto.
      apply IH; auto. rewrite app_length in Hn. pose proof (uchar_nonnil _ Hp). lia. }
    apply (HH (S (length l))). lia.
  - induction 1 as [|p r Hp Hr IH]; [reflexivity|]. rewrite utf8_valid_uchar by exact Hp. exact IH.
Qed.

Lemma octets_inj : forall a b, octets a = octets b -> a = b.
Proof.
  unfold octets. induction a as [|x a IH]; intros [|y b] H; try discriminate; [reflexivity|].
  cbn [map] in H. injection H as H1 H2. f_equal; [|auto]. apply b2n_inj. exact H1.
Qed.
Lemma octets_app : forall a b, octets (a ++ b) = octets a ++ octets b.
Proof. intros. apply map_app. Qed.
Lemma octets_range : forall l n, Forall (fun x => x < 256) l -> n = l -> exists b, octets b = n.
Proof.
  induction l as [|x l IH]; intros n H ->; [exists []; reflexivity|].
  inversion H; subst. destruct (IH l) as [b Hb]; auto. exists (n2b x :: b).
  unfold octets in *. cbn [map]. rewrite Hb. f_equal. change Byte.to_N with b2n.
  rewrite b2n_n2b. apply N.mod_small. lia.
Qed.

Lemma utf8_octets : forall c, scalar c -> Forall (fun x => x < 256) (utf8 c).
Proof.
  intros c H. unfold scalar in H. unfold utf8.
  repeat match goal with |- context [?x <? ?y] => destruct (N.ltb_spec x y) end;
    repeat constructor; lia.
Qed.

Lemma utext_well_formed : forall l, utext l <-> well_formed (octets l).
Proof.
  intros l. split.
  - induction 1 as [|p r Hp Hr IH].
    + exists []. split; [constructor|reflexivity].
    + apply uchar_enc in Hp as (c & Hc & Hp). destruct IH as (cs & Hcs & IH).
      exists (c :: cs). split; [constructor; auto|]. rewrite octets_app. cbn [map concat]. congruence.
  - intros (cs & Hcs & H). revert l H. induction Hcs as [|c cs Hc Hcs IH]; intros l H.
    + destruct l; [constructor|discriminate].
    + cbn [map concat] in H.
      pose proof (utf8_octets c Hc) as Hr.
      destruct (octets_range _ _ Hr eq_refl) as [p Hp].
      assert (Forall (fun x => x < 256) (concat (map utf8 cs))) as Hr2.
      { clear -Hcs. induction Hcs; cbn [map concat]; [constructor|]. apply Forall_app. split; auto using utf8_octets. }
      destruct (octets_range _ _ Hr2 eq_refl) as [q Hq].
      assert (l = p ++ q) as ->.
      { apply octets_inj. rewrite octets_app. congruence. }
      constructor; [apply uchar_enc; eauto|]. apply IH. exact Hq.
Qed.

Lemma utf8_valid_iff : forall l, utf8_valid l = true <-> well_formed (octets l).
Proof. intros l. rewrite utf8_valid_utext. apply utext_well_formed. Qed.
Lemma utf8_valid_false : forall l, utf8_valid l = false <-> ~ well_formed (octets l).
Proof.
  intros l. rewrite <- utf8_valid_iff. destruct (utf8_valid l); split; intros; try congruence.
Qed.

(** ** The lossy conversion *)
Lemma utf8_lossy_uchar : forall l r, uchar l -> utf8_lossy (l ++ r) = l ++ utf8_lossy r.
Proof.
  intros l r H. destruct H as [a H|a b H Hb|a b c H Hb Hc|a b c d H Hb Hc Hd]; cbn [app utf8_lossy].
  - replace (b2n a <? 0x80) with true by lia. reflexivity.
  - replace (b2n a <? 0x80) with false by lia. rewrite (proj2 (in_range_t 0xC2 0xDF a)) by lia.
    rewrite Hb. reflexivity.
  - replace (b2n a <? 0x80) with false by lia. rewrite (proj2 (in_range_f 0xC2 0xDF a)) by lia.
    rewrite (proj2 (in_range_t 0xE0 0xEF a)) by lia. rewrite Hb, Hc. reflexivity.
  - replace (b2n a <? 0x80) with false by lia. rewrite (proj2 (in_range_f 0xC2 0xDF a)) by lia.
    rewrite (proj2 (in_range_f 0xE0 0xEF a)) by lia.
    rewrite (proj2 (in_range_t 0xF0 0xF4 a)) by lia. rewrite Hb, Hc, Hd. reflexivity.
Qed.
Lemma utf8_lossy_prefix : forall l r, utf8_valid l = true -> utf8_lossy (l ++ r) = l ++ utf8_lossy r.
Proof.
  intros l r H. apply utf8_valid_utext in H. induction H as [|p l Hp Hl IH]; [reflexivity|].
  rewrite <- !app_assoc. rewrite utf8_lossy_uchar by exact Hp. rewrite IH. reflexivity.
Qed.
Lemma utf8_lossy_id : forall l, utf8_valid l = true -> utf8_lossy l = l.
Proof.
  intros l H. rewrite <- (app_nil_r l) at 1. rewrite utf8_lossy_prefix by exact H. apply app_nil_r.
Qed.
Lemma replacement_uchar : uchar replacement.
Proof. apply uc3; try reflexivity. vm_compute. split; discriminate. Qed.

(** A text cut into characters and maximal ill-formed pieces, and what the lossy
    conversion makes of it: one U+FFFD per piece. *)
Lemma lossy_step : forall l, l <> [] ->
  (exists p r, uchar p /\ l = p ++ r /\ utf8_lossy l = p ++ utf8_lossy r) \/
  (exists p r, (0 < length p <= 3)%nat /\ (forall q, ~ uchar (firstn q l)) /\ l = p ++ r /\
     utf8_lossy l = replacement ++ utf8_lossy r).
Proof.
  intros [|a l] H; [contradiction|]. clear H.
  assert (Hnil : ~ uchar []) by (intros HH; inversion HH).
  destruct (N.ltb_spec (b2n a) 0x80) as [H1|H1].
  { left. exists [a], l. assert (uchar [a]) by (constructor; lia). repeat split; auto.
    apply (utf8_lossy_uchar [a]); auto. }
  assert (X1 : (b2n a <? 128) = false) by lia.
  destruct (in_range 0xC2 0xDF a) eqn:E2.
  { destruct l as [|b l]; [|destruct (is_cont b) eqn:Eb].
    - right. exists [a], []. cbn [utf8_lossy]. rewrite X1, E2. repeat split; auto; cbn [length]; try lia.
      intros [|q] HH; cbn [firstn] in HH; [auto|]. rewrite firstn_nil in HH. inversion HH; lia.
    - left. exists [a; b], l. apply in_range_t in E2.
      assert (uchar [a; b]) by (constructor; auto). repeat split; auto.
      apply (utf8_lossy_uchar [a; b]); auto.
    - right. exists [a], (b :: l). cbn [utf8_lossy]. rewrite X1, E2, Eb. apply in_range_t in E2.
      repeat split; auto; cbn [length]; try lia.
      intros q HH. destruct q as [|[|q]]; cbn [firstn] in HH; auto; inversion HH; subst; try lia; congruence. }
  destruct (in_range 0xE0 0xEF a) eqn:E3.
  { apply in_range_t in E3 as R3. apply in_range_f in E2 as R2.
    destruct l as [|b l]; [|destruct (second3_ok a b) eqn:Eb].
    - right. exists [a], []. cbn [utf8_lossy]. rewrite X1, E2, E3. repeat split; auto; cbn [length]; try lia.
      intros [|q] HH; cbn [firstn] in HH; [auto|]. rewrite firstn_nil in HH. inversion HH; lia.
    - destruct l as [|c l]; [|destruct (is_cont c) eqn:Ec].
      + right. exists [a; b], []. cbn [utf8_lossy]. rewrite X1, E2, E3, Eb.
        repeat split; auto; cbn [length]; try lia.
        intros q HH. destruct q as [|[|q]]; cbn [firstn] in HH; rewrite ?firstn_nil in HH; auto; inversion HH; subst; lia.
      + left. exists [a; b; c], l. assert (uchar [a; b; c]) by (constructor; auto). repeat split; auto.
        apply (utf8_lossy_uchar [a; b; c]); auto.
      + right. exists [a; b], (c :: l). cbn [utf8_lossy]. rewrite X1, E2, E3, Eb, Ec.
        repeat split; auto; cbn [length]; try lia.
        intros q HH. destruct q as [|[|[|q]]]; cbn [firstn] in HH; auto; inversion HH; subst; try lia; congruence.
    - right. exists [a], (b :: l). cbn [utf8_lossy]. rewrite X1, E2, E3, Eb.
      repeat split; auto; cbn [length]; try lia.
      intros q HH. destruct q as [|[|q]]; cbn [firstn] in HH; auto;
        inversion HH; subst; try lia; congruence. }
  destruct (in_range 0xF0 0xF4 a) eqn:E4.
  { apply in_range_t in E4 as R4. apply in_range_f in E3 as R3. apply in_range_f in E2 as R2.
    destruct l as [|b l]; [|destruct (second4_ok a b) eqn:Eb].
    - right. exists [a], []. cbn [utf8_lossy]. rewrite X1, E2, E3, E4. repeat split; auto; cbn [length]; try lia.
      intros [|q] HH; cbn [firstn] in HH; [auto|]. rewrite firstn_nil in HH. inversion HH; lia.
    - destruct l as [|c l]; [|destruct (is_cont c) eqn:Ec].
      + right. exists [a; b], []. cbn [utf8_lossy]. rewrite X1, E2, E3, E4, Eb.
        repeat split; auto; cbn [length]; try lia.
        intros q HH. destruct q as [|[|q]]; cbn [firstn] in HH; rewrite ?firstn_nil in HH; auto; inversion HH; subst; lia.
      + destruct l as [|d l]; [|destruct (is_cont d) eqn:Ed].
        * right. exists [a; b; c], []. cbn [utf8_lossy]. rewrite X1, E2, E3, E4, Eb, Ec.
          repeat split; auto; cbn [length]; try lia.
          intros q HH. destruct q as [|[|[|q]]]; cbn [firstn] in HH; rewrite ?firstn_nil in HH; auto; inversion HH; subst; lia.
        * left. exists [a; b; c; d], l. assert (uchar [a; b; c; d]) by (constructor; auto). repeat split; auto.
          apply (utf8_lossy_uchar [a; b; c; d]); auto.
        * right. exists [a; b; c], (d :: l). cbn [utf8_lossy]. rewrite X1, E2, E3, E4, Eb, Ec, Ed.
          repeat split; auto; cbn [length]; try lia.
          intros q HH. destruct q as [|[|[|[|q]]]]; cbn [firstn] in HH; auto; inversion HH; subst; try lia; congruence.
      + right. exists [a; b], (c :: l). cbn [utf8_lossy]. rewrite X1, E2, E3, E4, Eb, Ec.
        repeat split; auto; cbn [length]; try lia.
        intros q HH. destruct q as [|[|[|q]]]; cbn [firstn] in HH; auto;
          inversion HH; subst; try lia; congruence.
    - right. exists [a], (b :: l). cbn [utf8_lossy]. rewrite X1, E2, E3, E4, Eb.
      repeat split; auto; cbn [length]; try lia.
      intros q HH. destruct q as [|[|q]]; cbn [firstn] in HH; auto;
        inversion HH; subst; try lia; congruence. }
  right. exists [a], l. cbn [utf8_lossy]. rewrite X1, E2, E3, E4.
  repeat split; auto; cbn [length]; try lia.
  apply in_range_f in E4 as R4. apply in_range_f in E3 as R3. apply in_range_f in E2 as R2.
  intros [|q] HH; cbn [firstn] in HH; [auto|]. inversion HH; subst; lia.
Qed.

Lemma utf8_lossy_valid : forall l, utf8_valid (utf8_lossy l) = true.
Proof.
  assert (forall n l, (length l < n)%nat -> utf8_valid (utf8_lossy l) = true) as HH.
  { induction n as [|n IH]; intros l Hn; [lia|].
    destruct l as [|a l]; [reflexivity|].
    destruct (lossy_step (a :: l)) as [(p & r & Hp & E & ->)|(p & r & Hp & _ & E & ->)]; [discriminate| |];
      rewrite E, app_length in Hn.
    - rewrite utf8_valid_uchar by exact Hp. apply IH. pose proof (uchar_nonnil _ Hp). lia.
    - rewrite utf8_valid_uchar by exact replacement_uchar. apply IH. lia. }
  intros l. apply (HH (S (length l))). lia.
Qed.
