(** Facts about bytes, lists and big-endian numbers. *)
From Coq Require Import NArith ZArith String Bool List Lia.
From Coq Require Import ZifyBool ZifyNat ZifyN.
From Coq.Strings Require Import Byte.
From Verif.Model Require Import Base.
Import ListNotations.
Local Open Scope N_scope.

Ltac Zify.zify_post_hook ::= Z.div_mod_to_equations.

Lemma b2n_lt : forall b, b2n b < 256.
Proof. intros b. unfold b2n. pose proof (Byte.to_N_bounded b). lia. Qed.

Lemma n2b_b2n : forall b, n2b (b2n b) = b.
Proof.
  intros b. unfold n2b. rewrite N.mod_small by apply b2n_lt.
  unfold b2n. rewrite Byte.of_to_N. reflexivity.
Qed.

Lemma b2n_n2b : forall n, b2n (n2b n) = n mod 256.
Proof.
  intros n. unfold n2b, b2n.
  destruct (Byte.of_N (n mod 256)) as [b|] eqn:E.
  - apply Byte.to_of_N in E. exact E.
  - apply Byte.of_N_None_iff in E. pose proof (N.mod_lt n 256). lia.
Qed.

Lemma b2n_n2b_small : forall n, n < 256 -> b2n (n2b n) = n.
Proof. intros n H. rewrite b2n_n2b. apply N.mod_small. exact H. Qed.

Lemma b2n_inj : forall a b, b2n a = b2n b -> a = b.
Proof. intros a b H. rewrite <- (n2b_b2n a), <- (n2b_b2n b), H. reflexivity. Qed.

Lemma map_b2n_inj : forall l l', map b2n l = map b2n l' -> l = l'.
Proof.
  induction l as [|a l IH]; intros [|b l'] H; cbn in H; try discriminate; auto.
  injection H as H1 H2. f_equal; auto using b2n_inj.
Qed.

Lemma n2b_mod : forall n, n2b (n mod 256) = n2b n.
Proof. intros. apply b2n_inj. rewrite !b2n_n2b. apply N.mod_mod. discriminate. Qed.

Lemma lxor_lt_256 : forall a b, a < 256 -> b < 256 -> N.lxor a b < 256.
Proof.
  intros a b Ha Hb.
  assert (H : N.lxor a b = (N.lxor a b) mod 2 ^ 8).
  { apply N.bits_inj. intros i. rewrite N.lxor_spec.
    destruct (N.lt_ge_cases i 8) as [Hi|Hi].
    - rewrite N.mod_pow2_bits_low by exact Hi. rewrite N.lxor_spec. reflexivity.
    - rewrite N.mod_pow2_bits_high by exact Hi.
      replace a with (a mod 2 ^ 8) by (apply N.mod_small; exact Ha).
      replace b with (b mod 2 ^ 8) by (apply N.mod_small; exact Hb).
      rewrite !N.mod_pow2_bits_high by exact Hi. reflexivity. }
  rewrite H. apply N.mod_lt. discriminate.
Qed.

Lemma b2n_bxor : forall a b, b2n (bxor a b) = N.lxor (b2n a) (b2n b).
Proof.
  intros a b. unfold bxor. rewrite b2n_n2b_small; [reflexivity|].
  apply lxor_lt_256; apply b2n_lt.
Qed.

Lemma bxor_invol : forall a k, bxor (bxor a k) k = a.
Proof.
  intros a k. apply b2n_inj. rewrite !b2n_bxor.
  rewrite N.lxor_assoc, N.lxor_nilpotent, N.lxor_0_r. reflexivity.
Qed.

(** ** Lists *)

Lemma llen_nil : forall A, llen (@nil A) = 0.
Proof. reflexivity. Qed.
Lemma llen_cons : forall A (x : A) l, llen (x :: l) = 1 + llen l.
Proof. intros. unfold llen. cbn [length]. lia. Qed.
Lemma llen_app : forall A (l l' : list A), llen (l ++ l') = llen l + llen l'.
Proof. intros. unfold llen. rewrite app_length. lia. Qed.
Lemma llen_map : forall A B (f : A -> B) l, llen (map f l) = llen l.
Proof. intros. unfold llen. rewrite map_length. reflexivity. Qed.
Lemma llen_0_iff : forall A (l : list A), llen l = 0 <-> l = [].
Proof. intros A [|x l]; split; intros H; auto; discriminate. Qed.

Lemma take_0 : forall A (l : list A), take 0 l = [].
Proof. intros A [|x l]; reflexivity. Qed.
Lemma drop_0 : forall A (l : list A), drop 0 l = l.
Proof. intros A [|x l]; reflexivity. Qed.

Lemma take_firstn : forall A (l : list A) n, take n l = firstn (N.to_nat n) l.
Proof.
  induction l as [|x l IH]; intros n; cbn [take].
  - rewrite firstn_nil. reflexivity.
  - destruct (N.eqb_spec n 0) as [->|Hn]; [reflexivity|].
    rewrite IH. replace (N.to_nat n) with (S (N.to_nat (n - 1))) by lia. reflexivity.
Qed.
Lemma drop_skipn : forall A (l : list A) n, drop n l = skipn (N.to_nat n) l.
Proof.
  induction l as [|x l IH]; intros n; cbn [drop].
  - rewrite skipn_nil. reflexivity.
  - destruct (N.eqb_spec n 0) as [->|Hn]; [reflexivity|].
    rewrite IH. replace (N.to_nat n) with (S (N.to_nat (n - 1))) by lia. reflexivity.
Qed.

Lemma take_drop : forall A n (l : list A), take n l ++ drop n l = l.
Proof. intros. rewrite take_firstn, drop_skipn. apply firstn_skipn. Qed.
Lemma llen_take : forall A n (l : list A), llen (take n l) = N.min n (llen l).
Proof. intros. rewrite take_firstn. unfold llen. rewrite firstn_length. lia. Qed.
Lemma llen_drop : forall A n (l : list A), llen (drop n l) = llen l - n.
Proof. intros. rewrite drop_skipn. unfold llen. rewrite skipn_length. lia. Qed.
Lemma take_all : forall A n (l : list A), llen l <= n -> take n l = l.
Proof. intros. rewrite take_firstn. apply firstn_all2. unfold llen in *. lia. Qed.
Lemma drop_all : forall A n (l : list A), llen l <= n -> drop n l = [].
Proof. intros. rewrite drop_skipn. apply skipn_all2. unfold llen in *. lia. Qed.
Lemma take_app : forall A n (l l' : list A),
  take n (l ++ l') = take n l ++ take (n - llen l) l'.
Proof.
  intros. rewrite !take_firstn, firstn_app. do 2 f_equal. unfold llen. lia.
Qed.
Lemma drop_app : forall A n (l l' : list A),
  drop n (l ++ l') = drop n l ++ drop (n - llen l) l'.
Proof.
  intros. rewrite !drop_skipn, skipn_app. do 2 f_equal. unfold llen. lia.
Qed.
Lemma take_app_exact : forall A n (l l' : list A), n = llen l -> take n (l ++ l') = l.
Proof.
  intros. subst n. rewrite take_app, N.sub_diag, take_0, app_nil_r.
  apply take_all. lia.
Qed.
Lemma drop_app_exact : forall A n (l l' : list A), n = llen l -> drop n (l ++ l') = l'.
Proof.
  intros. subst n. rewrite drop_app, N.sub_diag, drop_0, drop_all by lia. reflexivity.
Qed.
Lemma take_app_le : forall A n (l l' : list A), n <= llen l -> take n (l ++ l') = take n l.
Proof.
  intros. rewrite take_app. replace (n - llen l) with 0 by lia.
  rewrite take_0, app_nil_r. reflexivity.
Qed.
Lemma drop_app_le : forall A n (l l' : list A),
  n <= llen l -> drop n (l ++ l') = drop n l ++ l'.
Proof.
  intros. rewrite drop_app. replace (n - llen l) with 0 by lia.
  rewrite drop_0. reflexivity.
Qed.
Lemma drop_drop : forall A n m (l : list A), drop n (drop m l) = drop (m + n) l.
Proof.
  intros A n m l. revert n m. induction l as [|x l IH]; intros n m; [reflexivity|].
  cbn [drop]. destruct (N.eqb_spec m 0) as [->|Hm].
  - rewrite N.add_0_l. reflexivity.
  - destruct (N.eqb_spec (m + n) 0) as [|H]; [lia|].
    rewrite IH. f_equal. lia.
Qed.

(** ** Big-endian numbers *)

Lemma of_be_app1 : forall l b, of_be (l ++ [b]) = of_be l * 256 + b2n b.
Proof. intros. unfold of_be. rewrite fold_left_app. reflexivity. Qed.

Lemma of_be_1 : forall b, of_be [b] = b2n b.
Proof. reflexivity. Qed.
Lemma of_be_2 : forall a b, of_be [a; b] = b2n a * 256 + b2n b.
Proof. reflexivity. Qed.

Lemma of_be_bound : forall l, of_be l < 256 ^ llen l.
Proof.
  intros l. induction l as [|b l IH] using rev_ind; [reflexivity|].
  rewrite of_be_app1, llen_app. change (llen [b]) with 1.
  rewrite N.pow_add_r. pose proof (b2n_lt b).
  change (256 ^ 1) with 256. lia.
Qed.

Lemma of_be_be16 : forall n, n < 65536 -> of_be (be16 n) = n.
Proof.
  intros n H. unfold be16. rewrite of_be_2, !b2n_n2b.
  rewrite (N.mod_small (n / 256)) by lia. lia.
Qed.

Lemma be16_of_be : forall a b, be16 (of_be [a; b]) = [a; b].
Proof.
  intros a b. rewrite of_be_2. unfold be16.
  pose proof (b2n_lt a). pose proof (b2n_lt b).
  f_equal; [|f_equal]; apply b2n_inj; rewrite b2n_n2b; lia.
Qed.

(** [be64] digit by digit. *)
Fixpoint be_rec (k : nat) (n : N) : bytes :=
  match k with
  | O => []
  | S k' => be_rec k' (n / 256) ++ [n2b n]
  end.

Lemma be64_rec : forall n, be64 n = be_rec 8 n.
Proof.
  intros n. cbn [be_rec app]. unfold be64.
  rewrite !N.div_div by discriminate. reflexivity.
Qed.
Lemma be16_rec : forall n, be16 n = be_rec 2 n.
Proof. reflexivity. Qed.

Lemma of_be_be_rec : forall k n, n < 256 ^ N.of_nat k -> of_be (be_rec k n) = n.
Proof.
  induction k as [|k IH]; intros n H.
  - cbn in H. cbn. lia.
  - cbn [be_rec]. rewrite of_be_app1, IH.
    + rewrite b2n_n2b. lia.
    + rewrite Nat2N.inj_succ, N.pow_succ_r in H by lia.
      apply N.div_lt_upper_bound; lia.
Qed.

Lemma be_rec_of_be : forall l, be_rec (length l) (of_be l) = l.
Proof.
  induction l as [|b l IH] using rev_ind; [reflexivity|].
  rewrite app_length, Nat.add_comm. cbn [length Nat.add be_rec].
  rewrite of_be_app1. pose proof (b2n_lt b).
  f_equal.
  - replace ((of_be l * 256 + b2n b) / 256) with (of_be l) by lia. exact IH.
  - f_equal. apply b2n_inj. rewrite b2n_n2b. lia.
Qed.

Lemma of_be_be64 : forall n, n < 2 ^ 64 -> of_be (be64 n) = n.
Proof. intros n H. rewrite be64_rec. apply of_be_be_rec. exact H. Qed.
Lemma be64_of_be : forall l, length l = 8%nat -> be64 (of_be l) = l.
Proof. intros l H. rewrite be64_rec, <- H. apply be_rec_of_be. Qed.

Lemma length_be16 : forall n, length (be16 n) = 2%nat.
Proof. reflexivity. Qed.
Lemma length_be64 : forall n, length (be64 n) = 8%nat.
Proof. reflexivity. Qed.
