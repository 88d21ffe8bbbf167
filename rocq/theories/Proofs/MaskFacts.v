(** Masking: [mask_data], [Masker] and the RFC formula agree. *)
From Coq Require Import NArith ZArith String Bool List Lia.
From Coq Require Import ZifyBool ZifyNat ZifyN.
From Coq.Strings Require Import Byte.
From Verif.Model Require Import Base Io Header Mask.
From Verif.Spec Require Import RfcFrame.
From Verif.Proofs Require Import BaseFacts.
Import ListNotations.
Local Open Scope N_scope.

Lemma nat4 : forall i, (i < 4)%nat -> i = 0%nat \/ i = 1%nat \/ i = 2%nat \/ i = 3%nat.
Proof. intros. lia. Qed.

Lemma S_mod4 : forall i, (S i mod 4 = if Nat.eqb (i mod 4) 3 then 0 else S (i mod 4))%nat.
Proof.
  intros i. pose proof (Nat.mod_upper_bound i 4 ltac:(discriminate)).
  destruct (Nat.eqb_spec (i mod 4) 3) as [E|E]; lia.
Qed.

Lemma mask_cycle_nil : forall k d,
  mask_cycle (key_bytes k) [] d = mask_cycle (key_bytes k) (key_bytes k) d.
Proof. intros k [|b d]; reflexivity. Qed.

Lemma mask_cycle_rfc : forall k d i,
  map b2n (mask_cycle (key_bytes k) (skipn (i mod 4) (key_bytes k)) d)
  = rfc_mask_from i (map b2n (key_bytes k)) (map b2n d).
Proof.
  intros k d. induction d as [|b d IH]; intros i; [reflexivity|].
  specialize (IH (S i)). rewrite S_mod4 in IH.
  cbn [map rfc_mask_from].
  pose proof (Nat.mod_upper_bound i 4 ltac:(discriminate)) as Hb.
  destruct (nat4 _ Hb) as [E|[E|[E|E]]]; rewrite E in *;
    cbn [Nat.eqb skipn key_bytes mask_cycle map nth] in *;
    rewrite b2n_bxor; f_equal; try exact IH.
  change (mask_cycle [k0 k; k1 k; k2 k; k3 k] [] d)
    with (mask_cycle (key_bytes k) [] d).
  rewrite mask_cycle_nil. exact IH.
Qed.

Lemma mask_data_rfc : forall k d,
  map b2n (mask_data k d) = rfc_mask_from 0 (map b2n (key_bytes k)) (map b2n d).
Proof. intros. unfold mask_data. exact (mask_cycle_rfc k d 0). Qed.

Lemma masker_buf_rfc : forall k d i,
  map b2n (fst (masker_buf k (N.of_nat (i mod 4)) d))
  = rfc_mask_from i (map b2n (key_bytes k)) (map b2n d)
  /\ snd (masker_buf k (N.of_nat (i mod 4)) d) = N.of_nat ((i + length d) mod 4).
Proof.
  intros k d. induction d as [|b d IH]; intros i; cbn [masker_buf].
  - cbn [fst snd map rfc_mask_from length]. rewrite Nat.add_0_r. auto.
  - replace ((N.of_nat (i mod 4) + 1) mod 4) with (N.of_nat (S i mod 4)) by lia.
    specialize (IH (S i)).
    destruct (masker_buf k (N.of_nat (S i mod 4)) d) as [out pos'].
    cbn [fst snd] in *. destruct IH as [IH1 IH2]. split.
    + cbn [map rfc_mask_from]. f_equal; [|exact IH1].
      rewrite b2n_bxor. f_equal. unfold key_at.
      rewrite Nat2N.id, <- (map_nth b2n). reflexivity.
    + rewrite IH2. cbn [length]. f_equal. f_equal. lia.
Qed.

Lemma masker_buf_mask : forall k d, fst (masker_buf k 0 d) = mask_data k d.
Proof.
  intros. apply map_b2n_inj. rewrite mask_data_rfc.
  exact (proj1 (masker_buf_rfc k d 0)).
Qed.

Lemma masker_buf_app : forall k d1 d2 pos,
  masker_buf k pos (d1 ++ d2)
  = (fst (masker_buf k pos d1) ++ fst (masker_buf k (snd (masker_buf k pos d1)) d2),
     snd (masker_buf k (snd (masker_buf k pos d1)) d2)).
Proof.
  intros k d1. induction d1 as [|b d1 IH]; intros d2 pos; cbn [app masker_buf].
  - cbn [fst snd app]. destruct (masker_buf k pos d2); reflexivity.
  - rewrite IH.
    destruct (masker_buf k ((pos + 1) mod 4) d1) as [o p]. cbn [fst snd].
    destruct (masker_buf k p d2) as [o' p']. reflexivity.
Qed.

Lemma length_masker_buf : forall k d pos, length (fst (masker_buf k pos d)) = length d.
Proof.
  intros k d. induction d as [|b d IH]; intros pos; [reflexivity|].
  cbn [masker_buf]. specialize (IH ((pos + 1) mod 4)).
  destruct (masker_buf k ((pos + 1) mod 4) d). cbn [fst length] in *. congruence.
Qed.

Lemma length_rfc_mask_from : forall key d i, length (rfc_mask_from i key d) = length d.
Proof. induction d; intros; cbn; auto. Qed.

Lemma length_mask_data : forall k d, length (mask_data k d) = length d.
Proof. intros. rewrite <- masker_buf_mask. apply length_masker_buf. Qed.

Lemma rfc_mask_from_invol : forall key d i,
  rfc_mask_from i key (rfc_mask_from i key d) = d.
Proof.
  induction d as [|b d IH]; intros i; cbn; [reflexivity|].
  rewrite N.lxor_assoc, N.lxor_nilpotent, N.lxor_0_r, IH. reflexivity.
Qed.

Lemma mask_data_invol : forall k d, mask_data k (mask_data k d) = d.
Proof.
  intros. apply map_b2n_inj. rewrite !mask_data_rfc. apply rfc_mask_from_invol.
Qed.

Lemma nth_rfc_mask_from : forall key d i j,
  (j < length d)%nat ->
  nth j (rfc_mask_from i key d) 0 = N.lxor (nth j d 0) (nth ((i + j) mod 4) key 0).
Proof.
  induction d as [|b d IH]; intros i j H; cbn [length] in H; [lia|].
  destruct j as [|j]; cbn [rfc_mask_from nth].
  - rewrite Nat.add_0_r. reflexivity.
  - rewrite IH by lia. do 3 f_equal. lia.
Qed.

Lemma nth_mask_data : forall k d j,
  (j < length d)%nat ->
  b2n (nth j (mask_data k d) x00)
  = N.lxor (b2n (nth j d x00)) (b2n (nth (j mod 4) (key_bytes k) x00)).
Proof.
  intros k d j H. rewrite <- !(map_nth b2n), mask_data_rfc.
  change (b2n x00) with 0.
  rewrite nth_rfc_mask_from by (rewrite map_length; exact H). reflexivity.
Qed.

(** On an endpoint that takes everything (script exhausted, e.g. a [Vec]). *)
Lemma masker_write_all_vec : forall fuel k pos out d,
  masker_write_all (S fuel) (mk_masker k pos (mk_w out [])) d
  = (Ok tt, mk_masker k (snd (masker_buf k pos d))
              (mk_w (out ++ fst (masker_buf k pos d)) [])).
Proof.
  intros fuel k pos out d. destruct d as [|b d].
  - cbn. rewrite app_nil_r. reflexivity.
  - cbn [masker_write_all]. unfold masker_write. cbn [m_key m_pos m_end].
    pose proof (length_masker_buf k (b :: d) pos) as HL.
    destruct (masker_buf k pos (b :: d)) as [buf pos'] eqn:E. cbn [fst snd] in *.
    unfold w_write. cbn [w_script w_out].
    assert (HN : llen buf = llen (b :: d)) by (unfold llen; rewrite HL; reflexivity).
    rewrite HN. rewrite llen_cons. destruct (N.eqb_spec (1 + llen d) 0); [lia|].
    rewrite drop_all by (rewrite llen_cons; lia).
    destruct fuel; reflexivity.
Qed.

Lemma masker_write_list_vec : forall l k pos out,
  masker_write_list (mk_masker k pos (mk_w out [])) l
  = (Ok tt, mk_masker k (snd (masker_buf k pos (concat l)))
              (mk_w (out ++ fst (masker_buf k pos (concat l))) [])).
Proof.
  induction l as [|d l IH]; intros k pos out.
  - cbn. rewrite app_nil_r. reflexivity.
  - cbn [masker_write_list]. cbn [m_end w_script length].
    rewrite masker_write_all_vec, IH. cbn [concat].
    rewrite masker_buf_app. cbn [fst snd]. rewrite app_assoc. reflexivity.
Qed.
