(** The model of SHA-1 against FIPS 180-4. *)
From Coq Require Import NArith ZArith String Bool List Lia.
From Coq Require Import ZifyBool ZifyNat ZifyN.
From Coq.Strings Require Import Byte.
From Verif.Model Require Import Base Sha1.
From Verif.Spec Require Import RfcFrame FrameSpec Fips180.
From Verif.Proofs Require Import BaseFacts FrameFacts.
Import ListNotations.
Local Open Scope list_scope.
Local Open Scope N_scope.

(** ** Words *)

Lemma testbit_lt : forall a n i, a < 2 ^ n -> n <= i -> N.testbit a i = false.
Proof.
  intros a n i H Hi. destruct (N.eq_dec a 0) as [->|Ha]; [apply N.bits_0|].
  apply N.bits_above_log2. apply N.log2_lt_pow2 in H; [|lia]. lia.
Qed.
Lemma lt_testbit : forall a n, (forall i, n <= i -> N.testbit a i = false) -> a < 2 ^ n.
Proof.
  intros a n H. assert (a mod 2 ^ n = a) as <-.
  { apply N.bits_inj. intros i. destruct (N.le_gt_cases n i) as [Hi|Hi].
    - rewrite N.mod_pow2_bits_high by exact Hi. symmetry. apply H, Hi.
    - apply N.mod_pow2_bits_low, Hi. }
  apply N.mod_lt. apply N.pow_nonzero. lia.
Qed.
Lemma lxor_lt : forall a b n, a < 2 ^ n -> b < 2 ^ n -> N.lxor a b < 2 ^ n.
Proof.
  intros a b n Ha Hb. apply lt_testbit. intros i Hi.
  rewrite N.lxor_spec, (testbit_lt a n i Ha Hi), (testbit_lt b n i Hb Hi). reflexivity.
Qed.
Lemma lor_add : forall a b k, b < 2 ^ k -> N.lor (a * 2 ^ k) b = a * 2 ^ k + b.
Proof.
  intros a b k H. assert (N.land (a * 2 ^ k) b = 0) as HL.
  { apply N.bits_inj. intros i. rewrite N.land_spec, N.bits_0.
    destruct (N.le_gt_cases k i) as [Hi|Hi].
    - rewrite (testbit_lt b k i H Hi). apply andb_false_r.
    - rewrite <- N.shiftl_mul_pow2, N.shiftl_spec_low by exact Hi. reflexivity. }
  rewrite N.add_nocarry_lxor by exact HL. symmetry. apply N.lxor_lor, HL.
Qed.
Lemma rotl_eq : forall k x, 0 < k -> k < 32 -> x < 2 ^ 32 -> rotl32 x k = ROTL k x.
Proof.
  intros k x Hk0 Hk Hx. unfold rotl32, ROTL, w32. change 4294967296 with (2 ^ 32).
  rewrite N.shiftl_mul_pow2, N.shiftr_div_pow2.
  assert (2 ^ 32 = 2 ^ (32 - k) * 2 ^ k) as HP.
  { rewrite <- N.pow_add_r. f_equal. lia. }
  assert (2 ^ k <> 0) by (apply N.pow_nonzero; lia).
  assert (2 ^ (32 - k) <> 0) by (apply N.pow_nonzero; lia).
  rewrite HP at 1 2. rewrite !N.mul_mod_distr_r by assumption.
  apply lor_add. apply N.div_lt_upper_bound; [assumption|]. rewrite <- HP. exact Hx.
Qed.
Lemma ROTL_lt : forall k x, k < 32 -> x < 2 ^ 32 -> ROTL k x < 2 ^ 32.
Proof.
  intros k x Hk Hx. unfold ROTL.
  assert (2 ^ 32 = 2 ^ (32 - k) * 2 ^ k) as HP.
  { rewrite <- N.pow_add_r. f_equal. lia. }
  assert (2 ^ k <> 0) by (apply N.pow_nonzero; lia).
  assert (2 ^ (32 - k) <> 0) by (apply N.pow_nonzero; lia).
  rewrite HP at 1. rewrite N.mul_mod_distr_r by assumption.
  assert (x / 2 ^ (32 - k) < 2 ^ k) as H1.
  { apply N.div_lt_upper_bound; [assumption|]. rewrite <- HP. exact Hx. }
  pose proof (N.mod_lt x (2 ^ (32 - k)) ltac:(assumption)) as H2. rewrite HP. nia.
Qed.
Lemma not32_spec : forall x i, x < 2 ^ 32 -> i < 32 -> N.testbit (not32 x) i = negb (N.testbit x i).
Proof.
  intros x i Hx Hi. unfold not32. replace (2 ^ 32 - 1) with (N.ones 32) by reflexivity.
  rewrite <- N.lnot_sub_low.
  - apply N.lnot_spec_low, Hi.
  - destruct (N.eq_dec x 0) as [->|H]; [reflexivity|]. apply N.log2_lt_pow2; lia.
Qed.
Lemma not32_lt : forall x, not32 x < 2 ^ 32.
Proof. intros x. unfold not32. lia. Qed.
Lemma f_eq : forall t b c d, b < 2 ^ 32 -> d < 2 ^ 32 -> sha1_f (N.of_nat t) b c d = f t b c d.
Proof.
  intros t b c d Hb Hd. unfold sha1_f, f.
  destruct (Nat.ltb_spec t 20) as [H1|H1], (N.ltb_spec (N.of_nat t) 20) as [H1'|H1']; try lia.
  - unfold Ch. apply N.bits_inj. intros i. rewrite !N.lxor_spec, !N.land_spec, !N.lxor_spec.
    destruct (N.le_gt_cases 32 i) as [Hi|Hi].
    + rewrite (testbit_lt b 32 i Hb Hi), (testbit_lt d 32 i Hd Hi), andb_false_r. reflexivity.
    + rewrite (not32_spec b i Hb Hi).
      destruct (N.testbit b i), (N.testbit c i), (N.testbit d i); reflexivity.
  - destruct (Nat.ltb_spec t 40) as [H2|H2], (N.ltb_spec (N.of_nat t) 40) as [H2'|H2']; try lia.
    + unfold Parity. rewrite N.lxor_assoc. reflexivity.
    + destruct (Nat.ltb_spec t 60) as [H3|H3], (N.ltb_spec (N.of_nat t) 60) as [H3'|H3']; try lia.
      * unfold Maj. apply N.bits_inj. intros i.
        rewrite !N.lxor_spec, !N.lor_spec, !N.land_spec, !N.lor_spec.
        destruct (N.testbit b i), (N.testbit c i), (N.testbit d i); reflexivity.
      * unfold Parity. rewrite N.lxor_assoc. reflexivity.
Qed.
Lemma k_eq : forall t, sha1_k (N.of_nat t) = K t.
Proof.
  intros t. unfold sha1_k, K.
  destruct (Nat.ltb_spec t 20), (N.ltb_spec (N.of_nat t) 20); try reflexivity; try lia.
  destruct (Nat.ltb_spec t 40), (N.ltb_spec (N.of_nat t) 40); try reflexivity; try lia.
  destruct (Nat.ltb_spec t 60), (N.ltb_spec (N.of_nat t) 60); try reflexivity; lia.
Qed.

(** ** The schedule *)

Lemma schedule_length : forall n rws, length (sha1_schedule n rws) = (n + length rws)%nat.
Proof.
  induction n as [|n IH]; intros rws; [reflexivity|]. cbn [sha1_schedule]. rewrite IH.
  cbn [length]. lia.
Qed.
Lemma nth_rev_head : forall (l : list N) i, (i < length l)%nat ->
  nth (length l - 1 - i) (rev l) 0 = nth i l 0.
Proof.
  intros l i H. rewrite rev_nth by lia. f_equal. lia.
Qed.
Lemma schedule_old : forall n rws i, (i < length rws)%nat ->
  nth i (rev (sha1_schedule n rws)) 0 = nth i (rev rws) 0.
Proof.
  induction n as [|n IH]; intros rws i H; [reflexivity|]. cbn [sha1_schedule].
  rewrite IH by (cbn [length]; lia). cbn [rev]. apply app_nth1. rewrite rev_length. exact H.
Qed.
Definition word_at (l : list N) (t : nat) : N := nth t l 0.
Lemma schedule_new : forall n rws t, (16 <= length rws)%nat ->
  (length rws <= t < length rws + n)%nat ->
  let W := word_at (rev (sha1_schedule n rws)) in
  W t = rotl32 (N.lxor (N.lxor (W (t - 3)%nat) (W (t - 8)%nat))
                       (N.lxor (W (t - 14)%nat) (W (t - 16)%nat))) 1.
Proof.
  induction n as [|n IH]; intros rws t HL Ht; [lia|]. cbn [sha1_schedule].
  set (w := rotl32 _ 1). cbv zeta.
  destruct (Nat.eq_dec t (length rws)) as [->|Hne].
  - assert (forall i, (i < 16)%nat ->
      word_at (rev (sha1_schedule n (w :: rws))) (length rws - 1 - i) = nth i rws 0) as HO.
    { intros i Hi. unfold word_at. rewrite schedule_old by (cbn [length]; lia). cbn [rev].
      rewrite app_nth1 by (rewrite rev_length; lia). apply nth_rev_head. lia. }
    replace (length rws - 3)%nat with (length rws - 1 - 2)%nat by lia.
    replace (length rws - 8)%nat with (length rws - 1 - 7)%nat by lia.
    replace (length rws - 14)%nat with (length rws - 1 - 13)%nat by lia.
    replace (length rws - 16)%nat with (length rws - 1 - 15)%nat by lia.
    rewrite !HO by lia. unfold word_at. rewrite schedule_old by (cbn [length]; lia). cbn [rev].
    rewrite app_nth2 by (rewrite rev_length; lia). rewrite rev_length, Nat.sub_diag. reflexivity.
  - apply (IH (w :: rws) t); cbn [length]; lia.
Qed.
Lemma schedule_lt : forall n rws, Forall (fun w => w < 2 ^ 32) rws ->
  Forall (fun w => w < 2 ^ 32) (sha1_schedule n rws).
Proof.
  induction n as [|n IH]; intros rws H; [exact H|]. cbn [sha1_schedule]. apply IH.
  constructor; [|exact H].
  assert (forall i, nth i rws 0 < 2 ^ 32) as HN.
  { intros i. destruct (Nat.lt_ge_cases i (length rws)) as [Hi|Hi].
    - rewrite Forall_forall in H. apply H, nth_In, Hi.
    - rewrite nth_overflow by exact Hi. reflexivity. }
  rewrite rotl_eq; [|lia|lia|]; [apply ROTL_lt; [lia|]|]; apply lxor_lt; apply lxor_lt; apply HN.
Qed.

(** ** Blocks *)

Lemma words_nth : forall j b, (4 * j + 4 <= length b)%nat ->
  nth j (sha1_words b) 0 = word (octets b) j.
Proof.
  induction j as [|j IH]; intros b H;
    destruct b as [|a0 [|a1 [|a2 [|a3 b]]]]; cbn [length] in H; try lia.
  - cbn [sha1_words nth]. unfold word. cbn [Nat.mul Nat.add octets map nth].
    unfold of_be. cbn [fold_left]. fold b2n.
    change (2 ^ 24) with 16777216. change (2 ^ 16) with 65536. change (2 ^ 8) with 256.
    unfold b2n. lia.
  - cbn [sha1_words nth]. rewrite IH by lia. unfold word, octets. cbn [map].
    replace (4 * S j + 0)%nat with (S (S (S (S (4 * j + 0))))) by lia.
    replace (4 * S j + 1)%nat with (S (S (S (S (4 * j + 1))))) by lia.
    replace (4 * S j + 2)%nat with (S (S (S (S (4 * j + 2))))) by lia.
    replace (4 * S j + 3)%nat with (S (S (S (S (4 * j + 3))))) by lia.
    cbn [nth]. reflexivity.
Qed.
Lemma words_length : forall n b, length b = (4 * n)%nat -> length (sha1_words b) = n.
Proof.
  induction n as [|n IH]; intros b H;
    destruct b as [|a0 [|a1 [|a2 [|a3 b]]]]; cbn [length] in H; try lia; [reflexivity|].
  cbn [sha1_words length]. f_equal. apply IH. lia.
Qed.
Lemma words_lt : forall n b, (length b <= n)%nat -> Forall (fun w => w < 2 ^ 32) (sha1_words b).
Proof.
  induction n as [|n IH]; intros b H;
    destruct b as [|a0 [|a1 [|a2 [|a3 b]]]]; cbn [length] in H; try lia; cbn [sha1_words]; constructor.
  - pose proof (of_be_bound [a0; a1; a2; a3]) as HB. exact HB.
  - apply IH. lia.
Qed.

Definition to5 (s : sha1_state) : five := mk5 (sh_a s) (sh_b s) (sh_c s) (sh_d s) (sh_e s).
Definition state_ok (s : sha1_state) : Prop :=
  sh_a s < 2 ^ 32 /\ sh_b s < 2 ^ 32 /\ sh_c s < 2 ^ 32 /\ sh_d s < 2 ^ 32 /\ sh_e s < 2 ^ 32.
Definition one_round (w : N) (t : N) (s : sha1_state) : sha1_state := sha1_rounds [w] t s.
Lemma rounds_cons : forall w ws t s,
  sha1_rounds (w :: ws) t s = sha1_rounds ws (t + 1) (one_round w t s).
Proof. reflexivity. Qed.
Lemma w32_lt : forall n, w32 n < 2 ^ 32.
Proof. intros n. unfold w32. apply N.mod_lt. lia. Qed.
Lemma add32_w32 : forall a b, w32 (a + b) = add32 a b.
Proof. reflexivity. Qed.
Lemma one_round_ok : forall w t s, w < 2 ^ 32 -> state_ok s -> state_ok (one_round w t s).
Proof.
  intros w t s Hw (Ha & Hb & Hc & Hd & He). unfold one_round, state_ok.
  cbn [sha1_rounds sh_a sh_b sh_c sh_d sh_e].
  repeat split; try assumption; [apply w32_lt|].
  rewrite rotl_eq by (assumption || lia). apply ROTL_lt; [lia|assumption].
Qed.
Lemma sum_mod : forall a b c d e M, M <> 0 ->
  ((((a + b) mod M + c) mod M + d) mod M + e) mod M = (a + b + c + d + e) mod M.
Proof.
  intros a b c d e M H. rewrite N.add_mod_idemp_l by exact H.
  rewrite <- N.add_assoc. rewrite N.add_mod_idemp_l by exact H.
  rewrite <- N.add_assoc. rewrite N.add_mod_idemp_l by exact H.
  rewrite !N.add_assoc. reflexivity.
Qed.
Lemma one_round_step : forall w t s, state_ok s ->
  to5 (one_round w (N.of_nat t) s) = step t w (to5 s).
Proof.
  intros w t s (Ha & Hb & Hc & Hd & He). unfold one_round, to5, step.
  cbn [sha1_rounds sh_a sh_b sh_c sh_d sh_e va vb vc vd ve].
  rewrite !rotl_eq by (assumption || lia). rewrite f_eq by assumption. rewrite k_eq.
  f_equal. unfold w32, add32. change 4294967296 with (2 ^ 32). symmetry. apply sum_mod. discriminate.
Qed.

(** The states between the rounds. *)
Fixpoint trace (ws : list N) (t : N) (s : sha1_state) (n : nat) : sha1_state :=
  match n, ws with
  | O, _ => s
  | _, [] => s
  | S n', w :: ws' => trace ws' (t + 1) (one_round w t s) n'
  end.
Lemma trace_end : forall ws t s, trace ws t s (length ws) = sha1_rounds ws t s.
Proof.
  induction ws as [|w ws IH]; intros t s; [reflexivity|]. cbn [length trace]. rewrite IH. reflexivity.
Qed.
Lemma trace_step : forall n ws t s, (n < length ws)%nat ->
  trace ws t s (S n) = one_round (nth n ws 0) (t + N.of_nat n) (trace ws t s n).
Proof.
  induction n as [|n IH]; intros ws t s H; destruct ws as [|w ws]; cbn [length] in H; try lia.
  - cbn [trace nth]. replace (t + N.of_nat 0) with t by lia. destruct ws; reflexivity.
  - transitivity (trace ws (t + 1) (one_round w t s) (S n)); [reflexivity|].
    rewrite IH by lia. cbn [nth trace]. f_equal. lia.
Qed.
Lemma trace_ok : forall n ws t s, Forall (fun w => w < 2 ^ 32) ws -> state_ok s ->
  state_ok (trace ws t s n).
Proof.
  induction n as [|n IH]; intros ws t s HF Hs; [destruct ws; exact Hs|].
  destruct ws as [|w ws]; [exact Hs|]. cbn [trace]. inversion HF as [|? ? Hw HF']; subst.
  apply IH; [exact HF'|]. apply one_round_ok; assumption.
Qed.

Definition sum_state (s r : sha1_state) : sha1_state :=
  mk_sha (w32 (sh_a s + sh_a r)) (w32 (sh_b s + sh_b r)) (w32 (sh_c s + sh_c r))
         (w32 (sh_d s + sh_d r)) (w32 (sh_e s + sh_e r)).
Lemma block_unfold : forall b s,
  sha1_block b s
  = sum_state s (sha1_rounds (rev (sha1_schedule 64 (rev (sha1_words b)))) 0 s).
Proof. reflexivity. Qed.
Lemma sum_state_ok : forall s r, state_ok (sum_state s r).
Proof. intros s r. unfold state_ok, sum_state. cbn [sh_a sh_b sh_c sh_d sh_e]. repeat split; apply w32_lt. Qed.
Lemma sum_state_add : forall s r,
  to5 (sum_state s r)
  = mk5 (add32 (va (to5 r)) (va (to5 s))) (add32 (vb (to5 r)) (vb (to5 s)))
        (add32 (vc (to5 r)) (vc (to5 s))) (add32 (vd (to5 r)) (vd (to5 s)))
        (add32 (ve (to5 r)) (ve (to5 s))).
Proof.
  intros s r. unfold to5, sum_state. cbn [sh_a sh_b sh_c sh_d sh_e va vb vc vd ve].
  rewrite (N.add_comm (sh_a s)), (N.add_comm (sh_b s)), (N.add_comm (sh_c s)),
    (N.add_comm (sh_d s)), (N.add_comm (sh_e s)), !add32_w32. reflexivity.
Qed.
Lemma rounds_compressed : forall b s ws,
  length ws = 80%nat -> Forall (fun w => w < 2 ^ 32) ws -> state_ok s ->
  (forall t, (t < 16)%nat -> word_at ws t = word b t) ->
  (forall t, (16 <= t < 80)%nat ->
    word_at ws t = rotl32 (N.lxor (N.lxor (word_at ws (t - 3)%nat) (word_at ws (t - 8)%nat))
                       (N.lxor (word_at ws (t - 14)%nat) (word_at ws (t - 16)%nat))) 1) ->
  compressed (to5 s) b (to5 (sum_state s (sha1_rounds ws 0 s))).
Proof.
  intros b s ws HS HF Hs HOld HN.
  assert (forall i, word_at ws i < 2 ^ 32) as HI.
  { intros i. unfold word_at. destruct (Nat.lt_ge_cases i (length ws)) as [Hi|Hi].
    - rewrite Forall_forall in HF. apply HF, nth_In, Hi.
    - rewrite nth_overflow by exact Hi. reflexivity. }
  exists (word_at ws), (fun t => to5 (trace ws 0 s t)). split; [|split; [|split]].
  - intros t. split; intros Ht; [apply HOld, Ht|].
    rewrite HN by lia. rewrite rotl_eq; [|lia|lia|apply lxor_lt; apply lxor_lt; apply HI].
    rewrite !N.lxor_assoc. reflexivity.
  - destruct ws; reflexivity.
  - intros t Ht. rewrite trace_step by lia. replace (0 + N.of_nat t) with (N.of_nat t) by lia.
    rewrite one_round_step; [reflexivity|]. apply trace_ok; assumption.
  - rewrite <- trace_end, HS. apply sum_state_add.
Qed.
Lemma block_compressed : forall b s, length b = 64%nat -> state_ok s ->
  state_ok (sha1_block b s) /\ compressed (to5 s) (octets b) (to5 (sha1_block b s)).
Proof.
  intros b s HL Hs. rewrite block_unfold. split; [apply sum_state_ok|].
  assert (length (sha1_words b) = 16%nat) as HW by (apply (words_length 16); exact HL).
  assert (length (rev (sha1_words b)) = 16%nat) as HR by (rewrite rev_length; exact HW).
  apply rounds_compressed.
  - rewrite rev_length, schedule_length, HR. reflexivity.
  - apply Forall_rev, schedule_lt, Forall_rev. apply (words_lt (length b)). lia.
  - exact Hs.
  - intros t Ht. unfold word_at. rewrite schedule_old by lia. rewrite rev_involutive.
    apply words_nth. lia.
  - intros t Ht. apply (schedule_new 64 (rev (sha1_words b)) t); lia.
Qed.

(** ** The whole message *)

Definition blocks_state (p : bytes) (i : nat) : sha1_state := sha1_blocks i p sha1_init.
Lemma blocks_snoc : forall n l s,
  sha1_blocks (S n) l s = sha1_block (take 64 (drop (64 * N.of_nat n) l)) (sha1_blocks n l s).
Proof.
  induction n as [|n IH]; intros l s.
  - cbn [sha1_blocks]. change (64 * N.of_nat 0) with 0. rewrite drop_0. reflexivity.
  - transitivity (sha1_blocks (S n) (drop 64 l) (sha1_block (take 64 l) s)); [reflexivity|].
    rewrite IH. cbn [sha1_blocks]. rewrite drop_drop. do 3 f_equal. lia.
Qed.
Lemma pad_padded : forall m, 8 * llen m < 2 ^ 64 ->
  padded (octets m) (octets (sha1_pad m)) /\ llen (sha1_pad m) mod 64 = 0.
Proof.
  intros m H. set (k := (119 - llen m mod 64) mod 64).
  assert (octets (sha1_pad m)
    = octets m ++ [128] ++ repeat 0 (N.to_nat k)
      ++ network_order 8 (8 * N.of_nat (length (octets m)))) as HE.
  { unfold sha1_pad, octets. rewrite !map_app. fold k. f_equal.
    apply (f_equal (cons 128)). f_equal.
    - clear. induction (N.to_nat k) as [|n IH]; [reflexivity|]. cbn [repeat map]. rewrite IH. reflexivity.
    - rewrite map_length. fold (llen m). apply network_order_be64. }
  assert (llen (sha1_pad m) = llen m + 1 + k + 8) as HL.
  { unfold sha1_pad. rewrite !llen_app. fold k. unfold llen at 2 3 4.
    rewrite repeat_length. cbn [length be64]. lia. }
  assert (llen (sha1_pad m) mod 64 = 0) as HM.
  { rewrite HL. unfold k. clear. pose proof (N.div_mod (llen m) 64). lia. }
  split; [|exact HM]. exists (N.to_nat k). split; [exact HE|]. split.
  - unfold octets. rewrite map_length. unfold llen in HM. clear - HM. lia.
  - unfold k. clear. lia.
Qed.
Lemma state_init_ok : state_ok sha1_init.
Proof. repeat split; reflexivity. Qed.
Lemma octets_take_drop : forall p i,
  octets (take 64 (drop (64 * N.of_nat i) p)) = block (octets p) i.
Proof.
  intros p i. unfold block, octets. rewrite take_firstn, drop_skipn.
  replace (N.to_nat 64) with 64%nat by reflexivity.
  replace (N.to_nat (64 * N.of_nat i)) with (64 * i)%nat by lia.
  rewrite skipn_map, firstn_map. reflexivity.
Qed.
Lemma be32_network : forall n, n < 2 ^ 32 -> octets (be32 n) = network_order 4 n.
Proof.
  intros n H. unfold octets, be32. cbn [map network_order].
  assert (forall m, Byte.to_N (n2b m) = m mod 256) as HB by apply b2n_n2b.
  change (N.of_nat 3) with 3. change (N.of_nat 2) with 2. change (N.of_nat 1) with 1.
  change (N.of_nat 0) with 0.
  change (256 ^ 3) with 16777216. change (256 ^ 2) with 65536. change (256 ^ 1) with 256.
  change (256 ^ 0) with 1. rewrite N.div_1_r.
  repeat (f_equal; [apply HB|]). f_equal. apply HB.
Qed.

Theorem sha1_fips : forall m : bytes, 8 * llen m < 2 ^ 64 -> sha1_digest (octets m) (octets (sha1 m)).
Proof.
  intros m H. split; [unfold octets; rewrite map_length; exact H|].
  destruct (pad_padded m H) as [HP HM]. set (p := sha1_pad m) in *.
  assert (forall i, (64 * i <= length p)%nat -> state_ok (blocks_state p i)) as HOK.
  { induction i as [|i IH]; intros Hi; [exact state_init_ok|].
    unfold blocks_state. rewrite blocks_snoc. apply block_compressed.
    - rewrite take_firstn, drop_skipn, firstn_length, skipn_length. lia.
    - apply IH. lia. }
  exists (octets p), (fun i => to5 (blocks_state p i)). split; [exact HP|]. split; [reflexivity|].
  assert (length (octets p) = length p) as HLp by (unfold octets; apply map_length).
  split.
  - intros i Hi. rewrite HLp in Hi.
    assert (64 * S i <= length p)%nat as Hi'.
    { unfold llen in HM. clear - HM Hi. lia. }
    rewrite <- octets_take_drop. unfold blocks_state. rewrite blocks_snoc.
    apply block_compressed; [|apply HOK; lia].
    rewrite take_firstn, drop_skipn, firstn_length, skipn_length. lia.
  - cbv zeta. rewrite HLp. unfold sha1. fold p.
    replace (N.to_nat (llen p / 64)) with (length p / 64)%nat by (unfold llen; lia).
    fold (blocks_state p (length p / 64)).
    pose proof (HOK (length p / 64)%nat ltac:(lia)) as (Ha & Hb & Hc & Hd & He).
    unfold octets. rewrite !map_app. fold octets.
    unfold to5. cbn [va vb vc vd ve].
    rewrite <- !be32_network by assumption. reflexivity.
Qed.

(** ** The standard determines the digest *)

Lemma schedule_unique : forall b W W', schedule b W -> schedule b W' ->
  forall t, (t < 80)%nat -> W t = W' t.
Proof.
  intros b W W' H H' t. induction t as [t IH] using (well_founded_induction lt_wf). intros Ht.
  destruct (Nat.lt_ge_cases t 16) as [H1|H1].
  - rewrite (proj1 (H t) H1), (proj1 (H' t) H1). reflexivity.
  - rewrite (proj2 (H t)), (proj2 (H' t)) by lia. rewrite !IH by lia. reflexivity.
Qed.
Lemma compressed_unique : forall h b h1 h2, compressed h b h1 -> compressed h b h2 -> h1 = h2.
Proof.
  intros h b h1 h2 (W & v & HW & H0 & HS & ->) (W' & v' & HW' & H0' & HS' & ->).
  assert (forall t, (t <= 80)%nat -> v t = v' t) as HE.
  { induction t as [|t IH]; intros Ht; [congruence|].
    rewrite HS, HS' by lia. rewrite IH by lia. rewrite (schedule_unique b W W' HW HW') by lia.
    reflexivity. }
  rewrite HE by lia. reflexivity.
Qed.
Lemma padded_unique : forall m p p', padded m p -> padded m p' -> p = p'.
Proof.
  intros m p p' (k & -> & H1 & H2) (k' & -> & H1' & H2').
  rewrite !app_length, repeat_length in H1, H1'. cbn [length] in H1, H1'.
  assert (k = k') as ->; [|reflexivity].
  assert (length (network_order 8 (8 * N.of_nat (length m))) = 8%nat) as HL by reflexivity.
  rewrite HL in H1, H1'. clear - H1 H1' H2 H2'. lia.
Qed.
Theorem sha1_digest_unique : forall m d d', sha1_digest m d -> sha1_digest m d' -> d = d'.
Proof.
  intros m d d' (_ & p & h & HP & H0 & HS & HD) (_ & p' & h' & HP' & H0' & HS' & HD').
  rewrite <- (padded_unique m p p' HP HP') in *.
  assert (forall i, (64 * i <= length p)%nat -> h i = h' i) as HE.
  { induction i as [|i IH]; intros Hi; [congruence|].
    apply (compressed_unique (h i) (block p i)); [apply HS; lia|].
    rewrite IH by lia. apply HS'. lia. }
  cbv zeta in HD, HD'. rewrite HD, HD', HE; [reflexivity|].
  pose proof (Nat.div_mod (length p) 64 ltac:(discriminate)). lia.
Qed.
