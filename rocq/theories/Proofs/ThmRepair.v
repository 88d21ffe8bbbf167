(** Text that is not UTF-8: C20. *)
From Coq Require Import NArith ZArith String Bool List Lia.
From Coq Require Import ZifyBool ZifyNat ZifyN.
From Coq.Strings Require Import Byte.
From Verif.Model Require Import Base Utf8 Message.
From Verif.Spec Require Import Unicode FrameSpec Repair.
From Verif.Proofs Require Import BaseFacts Utf8Facts ExTac.
Import ListNotations.
Local Open Scope string_scope.
Local Open Scope list_scope.
Local Open Scope N_scope.

Lemma character_uchar : forall c, character c <-> uchar c.
Proof. intros c. symmetry. apply uchar_enc. Qed.
Lemma begun_uchar : forall c, begun c <-> exists d, uchar (c ++ d).
Proof. intros c. unfold begun. setoid_rewrite character_uchar. reflexivity. Qed.

Lemma begun_prefix : forall a b, begun (a ++ b) -> begun a.
Proof. intros a b [d H]. exists (b ++ d). rewrite app_assoc. exact H. Qed.
Lemma app_prefix : forall (a b c d : bytes), a ++ b = c ++ d -> (length a <= length c)%nat -> exists e, c = a ++ e.
Proof.
  induction a as [|x a IH]; intros b c d H HL; [exists c; reflexivity|]. destruct c as [|y c]; [cbn in HL; lia|].
  cbn [app] in H. injection H as <- H. destruct (IH b c d H) as [e ->]; [cbn in HL; lia|]. exists e. reflexivity.
Qed.
Lemma app_same : forall (a b c d : bytes), a ++ b = c ++ d -> length a = length c -> a = c /\ b = d.
Proof.
  induction a as [|x a IH]; intros b [|y c] d H HL; try discriminate; [auto|].
  cbn [app] in H. injection H as <- H. destruct (IH b c d H) as [-> ->]; [cbn in HL; lia|]. auto.
Qed.

(** Only one result. *)
Lemma uchar_first : forall p q, uchar p -> forall r s, uchar q -> p ++ r = q ++ s -> p = q.
Proof.
  intros p q Hp r s Hq E.
  destruct Hp as [a H|a b H Hb|a b c H Hb Hc|a b c d H Hb Hc Hd];
    destruct Hq as [a' H'|a' b' H' Hb'|a' b' c' H' Hb' Hc'|a' b' c' d' H' Hb' Hc' Hd'];
    cbn [app] in E; injection E as -> E; try lia; congruence.
Qed.
Lemma begun_lone : forall x l, begun (x :: l) -> begun [x].
Proof. intros x l H. apply (begun_prefix [x] l). exact H. Qed.
Lemma repaired_inv : forall l o, repaired l o -> (l = [] /\ o = []) \/
  (exists c l' o', l = c ++ l' /\ o = c ++ o' /\ character c /\ repaired l' o') \/
  (exists b l' o', l = b ++ l' /\ o = replacement ++ o' /\ (forall c r, b ++ l' = c ++ r -> ~ character c) /\
    (begun b \/ length b = 1%nat) /\ b <> [] /\
    (forall b' r, b ++ l' = b' ++ r -> begun b' -> (length b' <= length b)%nat) /\ repaired l' o').
Proof.
  intros l o [|c l' o' Hc Hl|b l' o' H1 H2 H3 H4 Hl]; [auto|right; left|right; right].
  - exists c, l', o'. auto.
  - exists b, l', o'. auto 8.
Qed.
Lemma repaired_unique : forall l o, repaired l o -> forall o', repaired l o' -> o' = o.
Proof.
  induction 1 as [|c l o Hc Hl IH|b l o H1 H2 H3 H4 Hl IH]; intros o' H';
    apply repaired_inv in H' as [[HE ->]|[(c2 & l2 & o2 & HE & -> & Hc2 & Hl2)|(b2 & l2 & o2 & HE & -> & K1 & K2 & K3 & K4 & Hl2)]].
  - reflexivity.
  - symmetry in HE. apply app_eq_nil in HE as [-> _]. apply character_uchar in Hc2. inversion Hc2.
  - symmetry in HE. apply app_eq_nil in HE as [-> _]. contradiction.
  - apply app_eq_nil in HE as [-> _]. apply character_uchar in Hc. inversion Hc.
  - apply character_uchar in Hc, Hc2. pose proof (uchar_first _ _ Hc _ _ Hc2 HE) as ->. apply app_inv_head in HE as ->.
    rewrite (IH _ Hl2). reflexivity.
  - exfalso. exact (K1 _ _ (eq_sym HE) Hc).
  - apply app_eq_nil in HE as [-> _]. contradiction.
  - exfalso. exact (H1 _ _ HE Hc2).
  - assert (length b2 = length b) as HL.
    { destruct (Nat.le_gt_cases (length b2) (length b)) as [HL|HL].
      - destruct H2 as [H2|H2]; [pose proof (K4 _ _ (eq_sym HE) H2); lia|]. destruct b2; [contradiction|cbn in *; lia].
      - destruct K2 as [K2|K2]; [pose proof (H4 _ _ HE K2); lia|]. destruct b; [contradiction|cbn in *; lia]. }
    destruct (app_same _ _ _ _ HE (eq_sym HL)) as [-> ->]. rewrite (IH _ Hl2). reflexivity.
Qed.

Lemma begun_1 : forall a l, begun (a :: l) -> b2n a < 0x80 \/ 0xC2 <= b2n a <= 0xF4.
Proof. intros a l H. apply begun_uchar in H as [d H]. inversion H; subst; lia. Qed.
Lemma begun_2 : forall a b l, begun (a :: b :: l) -> (0xC2 <= b2n a <= 0xDF /\ is_cont b = true) \/
  (0xE0 <= b2n a <= 0xEF /\ second3_ok a b = true) \/ (0xF0 <= b2n a <= 0xF4 /\ second4_ok a b = true).
Proof. intros a b l H. apply begun_uchar in H as [d H]. inversion H; subst; auto. Qed.
Lemma begun_3 : forall a b c l, begun (a :: b :: c :: l) ->
  (0xE0 <= b2n a <= 0xEF /\ is_cont c = true) \/ (0xF0 <= b2n a <= 0xF4 /\ is_cont c = true).
Proof. intros a b c l H. apply begun_uchar in H as [d H]. inversion H; subst; auto. Qed.
Lemma begun_4 : forall a b c d l, begun (a :: b :: c :: d :: l) -> 0xF0 <= b2n a <= 0xF4 /\ is_cont d = true.
Proof. intros a b c d l H. apply begun_uchar in H as [x H]. inversion H; subst; auto. Qed.
Lemma cont_x80 : is_cont x80 = true. Proof. reflexivity. Qed.
Lemma begin_2 : forall a, 0xC2 <= b2n a <= 0xDF -> begun [a].
Proof. intros a H. apply begun_uchar. exists [x80]. constructor; auto. Qed.
Lemma begin_3 : forall a b, 0xE0 <= b2n a <= 0xEF -> second3_ok a b = true -> begun [a; b].
Proof. intros a b H H2. apply begun_uchar. exists [x80]. constructor; auto. Qed.
Lemma begin_4 : forall a b c, 0xF0 <= b2n a <= 0xF4 -> second4_ok a b = true -> is_cont c = true -> begun [a; b; c].
Proof. intros a b c H H2 H3. apply begun_uchar. exists [x80]. constructor; auto. Qed.
Lemma begin_42 : forall a b, 0xF0 <= b2n a <= 0xF4 -> second4_ok a b = true -> begun [a; b].
Proof. intros a b H H2. apply (begun_prefix [a; b] [x80]), begin_4; auto. Qed.

(** Take [b] for the beginning of a character when it is not one, and what follows does not go on with it. *)
Lemma bad_step : forall b l o, b <> [] -> begun b \/ length b = 1%nat -> ~ uchar b ->
  (forall x y, l = x :: y -> ~ begun (b ++ [x])) -> repaired l o -> repaired (b ++ l) (replacement ++ o).
Proof.
  intros b l o Hn Hb Hu Hx Hl.
  assert (HM : forall b' r, b ++ l = b' ++ r -> begun b' -> (length b' <= length b)%nat).
  { intros b' r E HB. destruct (Nat.le_gt_cases (length b') (length b)) as [|HL]; [assumption|exfalso].
    destruct (app_prefix _ _ _ _ E ltac:(lia)) as [e ->]. destruct e as [|x e]; [rewrite app_nil_r in HL; lia|].
    rewrite <- app_assoc in E. apply app_inv_head in E. cbn [app] in E. apply (Hx x _ E).
    apply (begun_prefix (b ++ [x]) e). rewrite <- app_assoc. exact HB. }
  apply rep_bad; auto.
  intros c r E HC. pose proof HC as HU. apply character_uchar in HU.
  assert (begun c) as HB by (exists []; rewrite app_nil_r; exact HC).
  pose proof (HM _ _ E HB) as HL. destruct (app_prefix _ _ _ _ (eq_sym E) HL) as [e ->].
  assert (e = []) as ->.
  { destruct Hb as [Hb|Hb].
    - apply begun_uchar in Hb as [d Hb]. pose proof (uchar_first _ _ HU (e ++ d) [] Hb) as HE.
      rewrite app_nil_r in HE. specialize (HE (app_assoc _ _ _)). apply (f_equal (@length byte)) in HE. rewrite !app_length in HE.
      destruct e; [reflexivity|cbn in HE; lia].
    - pose proof (uchar_nonnil _ HU). rewrite app_length in Hb. destruct e; [reflexivity|cbn in Hb; lia]. }
  rewrite app_nil_r in *. contradiction.
Qed.

Ltac notchar := let K := fresh in intros K; inversion K; subst; lia.
Lemma lossy_repaired : forall n l, (length l < n)%nat -> repaired l (utf8_lossy l).
Proof.
  induction n as [|n IH]; intros l Hn; [lia|]. destruct l as [|a l0]; [constructor|]. cbn [length] in Hn. cbn [utf8_lossy].
  destruct (N.ltb_spec (b2n a) 0x80).
  { apply (rep_char [a]); [apply character_uchar; constructor; lia|apply IH; lia]. }
  assert (HR : forall l, repaired l (utf8_lossy l) -> repaired l (utf8_lossy l)) by auto.
  destruct (in_range 0xC2 0xDF a) eqn:E2.
  { apply in_range_t in E2. destruct l0 as [|b l1]; [|destruct (is_cont b) eqn:Eb].
    - apply (bad_step [a] [] []); [discriminate|left; apply begin_2; auto|notchar|discriminate|constructor].
    - apply (rep_char [a; b]); [apply character_uchar; constructor; auto|apply IH; cbn in Hn; lia].
    - apply (bad_step [a] (b :: l1)); [discriminate|left; apply begin_2; auto|notchar| |apply IH; cbn in *; lia].
      intros x y E K. injection E as <- <-. apply begun_2 in K. cbn in K. destruct K as [[_ K]|[[K _]|[K _]]]; [congruence|lia|lia]. }
  apply in_range_f in E2. destruct (in_range 0xE0 0xEF a) eqn:E3.
  { apply in_range_t in E3. assert (B1 : begun [a]).
    { apply (begun_prefix [a] [if b2n a =? 0xE0 then xa0 else x80]), begin_3; auto. unfold second3_ok.
      destruct (b2n a =? 0xE0) eqn:?; [reflexivity|]. destruct (b2n a =? 0xED); reflexivity. }
    destruct l0 as [|b l1]; [|destruct (second3_ok a b) eqn:Eb; [destruct l1 as [|c l2]; [|destruct (is_cont c) eqn:Ec]|]].
    - apply (bad_step [a] [] []); [discriminate|auto|notchar|discriminate|constructor].
    - apply (bad_step [a; b] [] []); [discriminate|left; apply begin_3; auto|notchar|discriminate|constructor].
    - apply (rep_char [a; b; c]); [apply character_uchar; constructor; auto|apply IH; cbn in Hn; lia].
    - apply (bad_step [a; b] (c :: l2)); [discriminate|left; apply begin_3; auto|notchar| |apply IH; cbn in *; lia].
      intros x y E K. injection E as <- <-. apply begun_3 in K. destruct K as [[_ K]|[K _]]; [congruence|lia].
    - apply (bad_step [a] (b :: l1)); [discriminate|auto|notchar| |apply IH; cbn in *; lia].
      intros x y E K. injection E as <- <-. apply begun_2 in K. cbn in K. destruct K as [[K _]|[[_ K]|[K _]]]; [lia|congruence|lia]. }
  apply in_range_f in E3. destruct (in_range 0xF0 0xF4 a) eqn:E4.
  { apply in_range_t in E4. assert (B1 : begun [a]).
    { apply (begun_prefix [a] [if b2n a =? 0xF0 then x90 else x80]), begin_42; auto. unfold second4_ok.
      destruct (b2n a =? 0xF0) eqn:?; [reflexivity|]. destruct (b2n a =? 0xF4); reflexivity. }
    destruct l0 as [|b l1]; [|destruct (second4_ok a b) eqn:Eb; [destruct l1 as [|c l2]; [|destruct (is_cont c) eqn:Ec; [destruct l2 as [|d l3]; [|destruct (is_cont d) eqn:Ed]|]]|]].
    - apply (bad_step [a] [] []); [discriminate|auto|notchar|discriminate|constructor].
    - apply (bad_step [a; b] [] []); [discriminate|left; apply begin_42; auto|notchar|discriminate|constructor].
    - apply (bad_step [a; b; c] [] []); [discriminate|left; apply begin_4; auto|notchar|discriminate|constructor].
    - apply (rep_char [a; b; c; d]); [apply character_uchar; constructor; auto|apply IH; cbn in Hn; lia].
    - apply (bad_step [a; b; c] (d :: l3)); [discriminate|left; apply begin_4; auto|notchar| |apply IH; cbn in *; lia].
      intros x y E K. injection E as <- <-. apply begun_4 in K. destruct K as [_ K]. congruence.
    - apply (bad_step [a; b] (c :: l2)); [discriminate|left; apply begin_42; auto|notchar| |apply IH; cbn in *; lia].
      intros x y E K. injection E as <- <-. apply begun_3 in K. destruct K as [[K _]|[_ K]]; [lia|congruence].
    - apply (bad_step [a] (b :: l1)); [discriminate|auto|notchar| |apply IH; cbn in *; lia].
      intros x y E K. injection E as <- <-. apply begun_2 in K. cbn in K. destruct K as [[K _]|[[K _]|[_ K]]]; [lia|lia|congruence]. }
  apply in_range_f in E4. apply (bad_step [a] l0); [discriminate|auto|notchar| |apply IH; lia].
  intros x y E K. apply begun_1 in K. lia.
Qed.

(** [C20] What an OwnedMessage has for a text or a close reason that is not UTF-8: every character
    is kept, and where there is none, as many bytes as could have begun one, and at least one, become a single U+FFFD. *)
Lemma ill_formed_repaired_proof : forall d, exists o,
  to_owned (msg_text d) = OText o /\ (forall code, to_owned (msg_close_because code d) = OClose (Some (mk_close code o))) /\
  repaired d o /\ (forall o', repaired d o' -> o' = o).
Proof.
  intros d. exists (utf8_lossy d). pose proof (lossy_repaired (S (length d)) d ltac:(lia)) as H.
  split; [reflexivity|]. split; [reflexivity|]. split; [exact H|]. intros o' H'. apply (repaired_unique _ _ H), H'.
Qed.
(*EX
(** A character cut short, a stray continuation byte, an overlong form and a surrogate, between letters. *)
Example ill_formed_repaired_ex :
  to_owned (msg_text ([x61; xe2; x82; x62; x80; x63] ++ [xc0; xaf; x64; xed; xa0; x80; x65]))
  = OText ([x61] ++ [xef; xbf; xbd] ++ [x62] ++ [xef; xbf; xbd] ++ [x63] ++ [xef; xbf; xbd] ++ [xef; xbf; xbd] ++ [x64]
           ++ [xef; xbf; xbd] ++ [xef; xbf; xbd] ++ [xef; xbf; xbd] ++ [x65]).
Proof. reflexivity. Qed.
EX*)
