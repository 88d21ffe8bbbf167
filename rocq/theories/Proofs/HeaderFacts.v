(** Reading and writing headers. *)
From Coq Require Import NArith ZArith String Bool List Lia.
From Coq Require Import ZifyBool ZifyNat ZifyN.
From Coq.Strings Require Import Byte.
From Verif.Model Require Import Base Io Header.
From Verif.Proofs Require Import BaseFacts.
Import ListNotations.
Local Open Scope N_scope.

(** ** A reader over a plain byte list, the reference for all readers. *)
Definition lst_exact (n : N) (l : bytes) : result bytes io_kind * bytes :=
  if n <=? llen l then (Ok (take n l), drop n l) else (Err UnexpectedEof, []).

(** ** Simulation between readers *)
Section Sim.
  Variables R1 R2 : Type.
  Variable rel : R1 -> R2 -> Prop.
  Definition sim {A E : Type} (x : result A E * R1) (y : result A E * R2) : Prop :=
    fst x = fst y /\ rel (snd x) (snd y).

  Lemma sim_bind : forall A B E (x : result A E * R1) (y : result A E * R2)
    (f : A -> R1 -> result B E * R1) (g : A -> R2 -> result B E * R2),
    sim x y -> (forall a r1 r2, rel r1 r2 -> sim (f a r1) (g a r2)) ->
    sim (sbind x f) (sbind y g).
  Proof.
    intros A B E [x r1] [y r2] f g [H1 H2] Hf. cbn in H1, H2. subst y.
    destruct x; cbn [sbind]; try (split; auto; fail). apply Hf. exact H2.
  Qed.
  Lemma sim_ret : forall A E (x : result A E) r1 r2, rel r1 r2 -> sim (x, r1) (x, r2).
  Proof. split; auto. Qed.

  Variable e1 : N -> R1 -> result bytes io_kind * R1.
  Variable e2 : N -> R2 -> result bytes io_kind * R2.
  Hypothesis Hexact : forall n r1 r2, rel r1 r2 -> sim (e1 n r1) (e2 n r2).

  Lemma read_uint_sim : forall n r1 r2, rel r1 r2 -> sim (read_uint e1 n r1) (read_uint e2 n r2).
  Proof.
    intros n r1 r2 H. apply (Hexact n) in H. unfold read_uint.
    destruct (e1 n r1) as [x r1'], (e2 n r2) as [y r2']. destruct H as [H1 H2].
    cbn in H1, H2. subst y. destruct x; split; auto.
  Qed.
  Lemma read_header_sim : forall r1 r2, rel r1 r2 ->
    sim (read_header e1 r1) (read_header e2 r2).
  Proof.
    intros r1 r2 H. unfold read_header.
    apply sim_bind; [apply read_uint_sim; exact H|]. clear r1 r2 H; intros b0 r1 r2 H.
    apply sim_bind; [apply read_uint_sim; exact H|]. clear r1 r2 H; intros b1 r1 r2 H.
    apply sim_bind.
    { unfold read_len.
      destruct (N.land b1 127 <=? 125); [apply sim_ret; exact H|].
      destruct (N.land b1 127 =? 126);
        [|destruct (N.land b1 127 =? 127); [|apply sim_ret; exact H]].
      all: apply sim_bind; [apply read_uint_sim; exact H|];
        intros a ra rb Hab; match goal with |- context [if ?c then _ else _] => destruct c end;
        apply sim_ret; exact Hab. }
    clear r1 r2 H; intros len r1 r2 H.
    destruct (_ && _); [apply sim_ret; exact H|].
    destruct (_ && _); [apply sim_ret; exact H|].
    apply sim_bind.
    { unfold read_mask. destruct (_ =? _); [|apply sim_ret; exact H].
      apply sim_bind; [apply read_uint_sim; exact H|]. clear r1 r2 H; intros k0 r1 r2 H.
      apply sim_bind; [apply read_uint_sim; exact H|]. clear r1 r2 H; intros k1 r1 r2 H.
      apply sim_bind; [apply read_uint_sim; exact H|]. clear r1 r2 H; intros k2 r1 r2 H.
      apply sim_bind; [apply read_uint_sim; exact H|]. clear r1 r2 H; intros k3 r1 r2 H.
      apply sim_ret; exact H. }
    clear r1 r2 H; intros m r1 r2 H. apply sim_ret; exact H.
  Qed.
End Sim.
Arguments sim {R1 R2} rel {A E}.

(** ** The cursor *)
Definition cur_rel (total : N) (c : cursor) (l : bytes) : Prop :=
  cur_rest c = l /\ cur_pos c + llen l = total.

Lemma cur_exact_sim : forall total n c l,
  cur_rel total c l -> sim (cur_rel total) (cur_exact n c) (lst_exact n l).
Proof.
  intros total n c l [H1 H2]. unfold cur_exact, lst_exact. rewrite H1.
  destruct (N.leb_spec n (llen l)) as [Hn|Hn]; split; cbn [fst snd]; auto.
  - split; cbn [cur_rest cur_pos]; [reflexivity|]. rewrite llen_drop. lia.
  - split; cbn [cur_rest cur_pos]; [reflexivity|]. rewrite llen_nil. lia.
Qed.

Lemma read_header_cursor : forall src,
  sim (cur_rel (llen src)) (read_header cur_exact (mk_cursor 0 src))
      (read_header lst_exact src).
Proof.
  intros src. apply read_header_sim.
  - intros. apply cur_exact_sim. assumption.
  - split; cbn; [reflexivity | lia].
Qed.

(** ** Clean scripts: data and interruptions only *)
Fixpoint flat (s : script) : bytes :=
  match s with
  | [] => []
  | RData b bs :: s' => (b :: bs) ++ flat s'
  | _ :: s' => flat s'
  end.
Definition clean_ev (e : rd_ev) : Prop :=
  match e with RData _ _ => True | RIntr => True | _ => False end.
Definition clean (s : script) : Prop := Forall clean_ev s.
Definition scr_rel (s : script) (l : bytes) : Prop := clean s /\ flat s = l.

Lemma flat_push_back : forall bs s, flat (push_back bs s) = bs ++ flat s.
Proof. intros [|b bs] s; reflexivity. Qed.
Lemma clean_push_back : forall bs s, clean s -> clean (push_back bs s).
Proof. intros [|b bs] s H; cbn; auto. constructor; auto. exact I. Qed.

Lemma rd_exact_sim : forall s n l,
  scr_rel s l -> sim scr_rel (rd_exact n s) (lst_exact n l).
Proof.
  induction s as [|e s IH]; intros n l [Hc Hf].
  - cbn in Hf. subst l. cbn [rd_exact]. unfold lst_exact.
    rewrite llen_nil. destruct (N.eqb_spec n 0) as [->|Hn].
    + cbn. repeat split; auto.
    + destruct (N.leb_spec n 0); [lia|]. cbn. repeat split; auto.
  - inversion Hc as [|e' s' He Hs]; subst e' s'. cbn [rd_exact].
    destruct (N.eqb_spec n 0) as [->|Hn].
    { unfold lst_exact. destruct (N.leb_spec 0 (llen l)); [|lia].
      rewrite take_0, drop_0. repeat split; auto. }
    destruct e as [b bs| | |k]; try contradiction.
    + cbn [flat] in Hf. set (d := b :: bs) in *.
      destruct (N.leb_spec n (llen d)) as [Hle|Hgt].
      * subst l. unfold lst_exact. rewrite llen_app.
        destruct (N.leb_spec n (llen d + llen (flat s))); [|lia].
        rewrite take_app_le, drop_app_le by lia.
        repeat split; cbn [fst snd]; auto using clean_push_back, flat_push_back.
      * specialize (IH (n - llen d) (flat s) (conj Hs eq_refl)).
        unfold lst_exact in *. subst l. rewrite llen_app.
        destruct (N.leb_spec (n - llen d) (llen (flat s))) as [H1|H1];
        destruct (N.leb_spec n (llen d + llen (flat s))) as [H2|H2]; try lia;
        destruct (rd_exact (n - llen d) s) as [x s'']; destruct IH as [I1 I2];
        cbn [fst snd] in *; subst x.
        -- rewrite take_app, (take_all _ n d), drop_app, (drop_all _ n d) by lia.
           split; auto.
        -- split; auto.
    + cbn [flat] in Hf. apply IH. split; auto.
Qed.

Lemma read_header_script : forall s, clean s ->
  sim scr_rel (read_header rd_exact s) (read_header lst_exact (flat s)).
Proof.
  intros s H. apply read_header_sim.
  - intros. apply rd_exact_sim. assumption.
  - split; auto.
Qed.

Lemma rd_take_to_end_clean : forall s n, clean s ->
  exists s', rd_take_to_end n s = (Ok (take n (flat s)), s')
             /\ clean s' /\ flat s' = drop n (flat s).
Proof.
  induction s as [|e s IH]; intros n Hc.
  - cbn [rd_take_to_end flat]. exists []. destruct (n =? 0); repeat split; auto.
  - inversion Hc as [|e' s' He Hs]; subst e' s'. cbn [rd_take_to_end].
    destruct (N.eqb_spec n 0) as [->|Hn].
    { exists (e :: s). rewrite take_0, drop_0. auto. }
    destruct e as [b bs| | |k]; try contradiction.
    + cbn [flat]. set (d := b :: bs) in *.
      destruct (N.leb_spec n (llen d)) as [Hle|Hgt].
      * rewrite take_app_le, drop_app_le by lia. eexists. split; [reflexivity|].
        split; auto using clean_push_back, flat_push_back.
      * destruct (IH (n - llen d) Hs) as (s' & E & C & F). rewrite E.
        exists s'. rewrite take_app, (take_all _ n d), drop_app, (drop_all _ n d) by lia. auto.
    + cbn [flat]. apply IH. exact Hs.
Qed.

(** ** Stability under more input *)
Definition stable {A : Type} (p : bytes -> result A ws_error * bytes) : Prop :=
  forall l x, match p l with
              | (Err NoDataAvailable, _) => True
              | (r, l') => p (l ++ x) = (r, l' ++ x)
              end.

Lemma stable_ret : forall A (r : result A ws_error), stable (fun l => (r, l)).
Proof. intros A r l x. destruct r as [a|e| |]; auto. destruct e; auto. Qed.

Lemma stable_bind : forall A B (p : bytes -> result A ws_error * bytes)
  (f : A -> bytes -> result B ws_error * bytes),
  stable p -> (forall a, stable (f a)) -> stable (fun l => sbind (p l) f).
Proof.
  intros A B p f Hp Hf l x. specialize (Hp l x).
  destruct (p l) as [[a|e| |] l'] eqn:E; cbn [sbind].
  - rewrite Hp. cbn [sbind]. apply Hf.
  - destruct e; auto; rewrite Hp; reflexivity.
  - rewrite Hp; reflexivity.
  - rewrite Hp; reflexivity.
Qed.

Lemma stable_if : forall A (c : bool) (p q : bytes -> result A ws_error * bytes),
  stable p -> stable q -> stable (fun l => if c then p l else q l).
Proof. intros A [|] p q; auto. Qed.

Lemma stable_uint : forall n, stable (read_uint lst_exact n).
Proof.
  intros n l x. unfold read_uint, lst_exact.
  destruct (N.leb_spec n (llen l)) as [H|H].
  - rewrite llen_app. destruct (N.leb_spec n (llen l + llen x)); [|lia].
    rewrite take_app_le, drop_app_le by lia. reflexivity.
  - cbn. exact I.
Qed.

Lemma stable_header : stable (read_header lst_exact).
Proof.
  unfold read_header.
  apply stable_bind; [apply stable_uint|]. intros b0.
  apply stable_bind; [apply stable_uint|]. intros b1.
  apply stable_bind.
  { unfold read_len. apply stable_if; [apply stable_ret|].
    repeat apply stable_if; try apply stable_ret.
    all: apply stable_bind; [apply stable_uint|]; intros a;
      apply stable_if; apply stable_ret. }
  intros len. apply stable_if; [apply stable_ret|]. apply stable_if; [apply stable_ret|].
  apply stable_bind.
  { unfold read_mask. apply stable_if; [|apply stable_ret].
    apply stable_bind; [apply stable_uint|]. intros ?.
    apply stable_bind; [apply stable_uint|]. intros ?.
    apply stable_bind; [apply stable_uint|]. intros ?.
    apply stable_bind; [apply stable_uint|]. intros ?. apply stable_ret. }
  intros m. apply stable_ret.
Qed.

(** ** Bits *)
Lemma lor_lt_256 : forall a b, a < 256 -> b < 256 -> N.lor a b < 256.
Proof.
  intros a b Ha Hb.
  assert (H : N.lor a b = (N.lor a b) mod 2 ^ 8).
  { apply N.bits_inj. intros i. rewrite N.lor_spec.
    destruct (N.lt_ge_cases i 8) as [Hi|Hi].
    - rewrite N.mod_pow2_bits_low by exact Hi. rewrite N.lor_spec. reflexivity.
    - rewrite N.mod_pow2_bits_high by exact Hi.
      replace a with (a mod 2 ^ 8) by (apply N.mod_small; exact Ha).
      replace b with (b mod 2 ^ 8) by (apply N.mod_small; exact Hb).
      rewrite !N.mod_pow2_bits_high by exact Hi. reflexivity. }
  rewrite H. apply N.mod_lt. discriminate.
Qed.

Lemma land_15_small : forall op, op < 16 -> N.land op 15 = op.
Proof.
  intros op H. change 15 with (N.ones 4). rewrite N.land_ones.
  apply N.mod_small. exact H.
Qed.

Lemma flags_op_bits : forall f op, fl_truncate f = f -> op < 16 ->
  N.land (N.lor f op) 0x0F = op /\ fl_truncate (N.lor f op) = f.
Proof.
  intros f op Hf Hop. unfold fl_truncate in *.
  rewrite !N.land_lor_distr_l. split.
  - rewrite <- Hf, <- N.land_assoc. change (N.land 240 15) with 0.
    rewrite N.land_0_r, N.lor_0_l. apply land_15_small. exact Hop.
  - rewrite Hf. rewrite <- (land_15_small op Hop), <- N.land_assoc.
    change (N.land 15 240) with 0. rewrite N.land_0_r, N.lor_0_r. reflexivity.
Qed.

Lemma len7_bits : forall m l7, l7 < 128 ->
  N.land (N.lor (if m : bool then 0x80 else 0) l7) 0x7F = l7
  /\ (N.land (N.lor (if m then 0x80 else 0) l7) 0x80 =? 0x80) = m.
Proof.
  intros m l7 H.
  assert (E : N.land l7 127 = l7).
  { change 127 with (N.ones 7). rewrite N.land_ones. apply N.mod_small. exact H. }
  assert (E2 : N.land l7 128 = 0).
  { rewrite <- E, <- N.land_assoc. change (N.land 127 128) with 0. apply N.land_0_r. }
  rewrite !N.land_lor_distr_l, E, E2, N.lor_0_r.
  destruct m; cbn; auto.
Qed.

Lemma byte0_join : forall b, N.lor (fl_truncate (b2n b)) (N.land (b2n b) 0x0F) = b2n b.
Proof. intros b. destruct b; reflexivity. Qed.
Lemma byte0_op_lt : forall b, N.land (b2n b) 0x0F < 16.
Proof. intros b. destruct b; reflexivity. Qed.
Lemma byte0_trunc : forall b, fl_truncate (fl_truncate (b2n b)) = fl_truncate (b2n b).
Proof. intros b. destruct b; reflexivity. Qed.
Lemma byte1_join : forall b,
  N.lor (if N.land (b2n b) 0x80 =? 0x80 then 0x80 else 0) (N.land (b2n b) 0x7F) = b2n b.
Proof. intros b. destruct b; reflexivity. Qed.
Lemma byte1_len_lt : forall b, N.land (b2n b) 0x7F < 128.
Proof. intros b. destruct b; reflexivity. Qed.

(** ** Well-formed headers: those [write_header] and [read_header] agree on. *)
Definition header_ok (h : dfheader) : Prop :=
  fl_truncate (h_flags h) = h_flags h /\
  h_opcode h < 16 /\
  h_len h < 2 ^ 64 /\
  (8 <= h_opcode h -> h_len h <= 125).
Definition header_fin_ok (h : dfheader) : Prop :=
  8 <= h_opcode h -> fl_contains (h_flags h) FIN = true.

Lemma trunc_lt : forall f, fl_truncate f = f -> f < 256.
Proof.
  intros f H. unfold fl_truncate in H. rewrite <- H.
  assert (H2 : N.land f 240 = N.land (N.land f 240) 255).
  { rewrite <- N.land_assoc. reflexivity. }
  rewrite H2. change 255 with (N.ones 8). rewrite N.land_ones.
  apply N.mod_lt. discriminate.
Qed.

Lemma read_uint1 : forall b l, read_uint lst_exact 1 (b :: l) = (Ok (b2n b), l).
Proof.
  intros b l. unfold read_uint, lst_exact. rewrite llen_cons.
  destruct (N.leb_spec 1 (1 + llen l)); [|lia].
  cbn [take drop N.eqb]. change (1 - 1) with 0. rewrite take_0, drop_0. reflexivity.
Qed.
Lemma read_uint_app : forall d l n, n = llen d ->
  read_uint lst_exact n (d ++ l) = (Ok (of_be d), l).
Proof.
  intros d l n ->. unfold read_uint, lst_exact. rewrite llen_app.
  destruct (N.leb_spec (llen d) (llen d + llen l)); [|lia].
  rewrite take_app_exact, drop_app_exact by reflexivity. reflexivity.
Qed.

Definition len7 (len : N) : N :=
  if len <=? 125 then len mod 256 else if len <=? 65535 then 126 else 127.
Definition ext_len (len : N) : bytes :=
  if (126 <=? len) && (len <=? 65535) then be16 (len mod 65536)
  else if 65535 <? len then be64 len else [].

Lemma len7_lt : forall len, len7 len < 128.
Proof.
  intros len. unfold len7. destruct (N.leb_spec len 125); [lia|].
  destruct (len <=? 65535); reflexivity.
Qed.

Lemma read_len_write : forall len l, len < 2 ^ 64 ->
  read_len lst_exact (len7 len) (ext_len len ++ l) = (Ok len, l).
Proof.
  intros len l H. unfold len7, ext_len, read_len.
  destruct (N.leb_spec len 125) as [H1|H1].
  - rewrite N.mod_small by lia.
    destruct (N.leb_spec len 125); [|lia].
    destruct (N.leb_spec 126 len); [lia|].
    destruct (N.ltb_spec 65535 len); [lia|]. reflexivity.
  - destruct (N.leb_spec 126 len); [|lia].
    destruct (N.leb_spec len 65535) as [H2|H2]; cbn [andb].
    + change (126 <=? 125) with false. change (126 =? 126) with true. cbv iota.
      rewrite N.mod_small by lia.
      rewrite read_uint_app by reflexivity. cbn [sbind].
      rewrite of_be_be16 by lia. destruct (N.leb_spec len 125); [lia|reflexivity].
    + change (127 <=? 125) with false. change (127 =? 126) with false.
      change (127 =? 127) with true. cbv iota.
      destruct (N.ltb_spec 65535 len); [|lia].
      rewrite read_uint_app by reflexivity. cbn [sbind].
      rewrite of_be_be64 by exact H. destruct (N.leb_spec len 65535); [lia|reflexivity].
Qed.

(** Writing succeeds exactly on small-enough headers, with known bytes. *)
Definition header_bytes (h : dfheader) : bytes :=
  [n2b (N.lor (h_flags h) (h_opcode h));
   n2b (N.lor (match h_mask h with Some _ => 0x80 | None => 0x00 end) (len7 (h_len h)))]
  ++ ext_len (h_len h) ++ match h_mask h with Some k => key_bytes k | None => [] end.

Lemma write_header_ok : forall h,
  h_opcode h < 16 -> (8 <= h_opcode h -> h_len h <= 125) ->
  write_header h = Ok (header_bytes h).
Proof.
  intros h H1 H2. unfold write_header.
  destruct (N.ltb_spec 15 (h_opcode h)); [lia|].
  destruct (N.leb_spec 8 (h_opcode h)); destruct (N.leb_spec 126 (h_len h));
    cbn [andb]; try lia; unfold header_bytes, len7, ext_len; f_equal; f_equal; f_equal;
    try (destruct (N.leb_spec 126 (h_len h)); try lia; reflexivity).
Qed.

Lemma write_header_err : forall h,
  ~ (h_opcode h < 16 /\ (8 <= h_opcode h -> h_len h <= 125)) ->
  exists m, write_header h = Err (DataFrameError m).
Proof.
  intros h H. unfold write_header.
  destruct (N.ltb_spec 15 (h_opcode h)); [eauto|].
  destruct (N.leb_spec 8 (h_opcode h)); destruct (N.leb_spec 126 (h_len h));
    cbn [andb]; eauto; exfalso; apply H; split; lia.
Qed.

Lemma read_mask_write : forall m l7 l, l7 < 128 ->
  read_mask lst_exact (N.lor (match m with Some _ => 0x80 | None => 0x00 end) l7)
    (match m with Some k => key_bytes k | None => [] end ++ l) = (Ok m, l).
Proof.
  intros m l7 l H. unfold read_mask.
  pose proof (len7_bits (match m with Some _ => true | None => false end) l7 H) as [_ E].
  destruct m as [[a b c d]|]; rewrite E; [|reflexivity].
  cbn [key_bytes k0 k1 k2 k3 app].
  rewrite read_uint1; cbn [sbind]. rewrite read_uint1; cbn [sbind].
  rewrite read_uint1; cbn [sbind]. rewrite read_uint1; cbn [sbind].
  rewrite !n2b_b2n. reflexivity.
Qed.

Lemma read_header_bytes : forall h l, header_ok h -> header_fin_ok h ->
  read_header lst_exact (header_bytes h ++ l) = (Ok h, l).
Proof.
  intros h l (Hf & Hop & Hlen & Hc) Hfin. unfold read_header, header_bytes.
  rewrite <- !app_assoc. cbn [app].
  rewrite read_uint1. cbn [sbind]. rewrite read_uint1. cbn [sbind].
  pose proof (trunc_lt _ Hf) as Hf256. pose proof (len7_lt (h_len h)) as H7.
  destruct (flags_op_bits _ _ Hf Hop) as [B1 B2].
  rewrite (b2n_n2b_small (N.lor (h_flags h) (h_opcode h))) by (apply lor_lt_256; lia).
  rewrite B1, B2.
  rewrite (b2n_n2b_small (N.lor _ (len7 (h_len h))))
    by (apply lor_lt_256; destruct (h_mask h); lia).
  pose proof (len7_bits (match h_mask h with Some _ => true | None => false end) _ H7) as [B3 _].
  replace (N.land (N.lor match h_mask h with Some _ => 128 | None => 0 end (len7 (h_len h))) 127)
    with (len7 (h_len h)) by (destruct (h_mask h); symmetry; exact B3).
  rewrite read_len_write by exact Hlen. cbn [sbind].
  assert (E1 : (8 <=? h_opcode h) && (126 <=? h_len h) = false) by lia.
  assert (E2 : (8 <=? h_opcode h) && negb (fl_contains (h_flags h) FIN) = false).
  { destruct (N.leb_spec 8 (h_opcode h)) as [H8|H8]; [|reflexivity].
    rewrite (Hfin H8). reflexivity. }
  rewrite E1, E2. rewrite read_mask_write by exact H7. cbn [sbind].
  destruct h; reflexivity.
Qed.

(** ** Inversion: whatever is read was written canonically. *)
Lemma read_uint1_inv : forall l v r, read_uint lst_exact 1 l = (Ok v, r) ->
  exists b, l = b :: r /\ v = b2n b.
Proof.
  intros [|b l] v r H; [discriminate|]. rewrite read_uint1 in H.
  injection H as <- <-. eauto.
Qed.
Lemma read_uint_inv : forall n l v r, read_uint lst_exact n l = (Ok v, r) ->
  exists d, l = d ++ r /\ v = of_be d /\ llen d = n.
Proof.
  intros n l v r H. unfold read_uint, lst_exact in H.
  destruct (N.leb_spec n (llen l)) as [Hn|Hn]; [|discriminate].
  injection H as <- <-. exists (take n l). rewrite take_drop, llen_take.
  repeat split. lia.
Qed.

Lemma sbind_ok_inv : forall S A B E (x : result A E * S) (f : A -> S -> result B E * S) b s,
  sbind x f = (Ok b, s) -> exists a s1, x = (Ok a, s1) /\ f a s1 = (Ok b, s).
Proof. intros S A B E [[a|e| |] s1] f b s H; try discriminate. eauto. Qed.

Lemma read_len_inv : forall l7 l len r, l7 < 128 -> read_len lst_exact l7 l = (Ok len, r) ->
  len7 len = l7 /\ l = ext_len len ++ r /\ len < 2 ^ 64.
Proof.
  intros l7 l len r H7 H. unfold read_len in H.
  destruct (N.leb_spec l7 125) as [H1|H1].
  - injection H as <- <-. unfold len7, ext_len.
    destruct (N.leb_spec l7 125); [|lia].
    destruct (N.leb_spec 126 l7); [lia|]. destruct (N.ltb_spec 65535 l7); [lia|].
    cbn [andb app]. rewrite N.mod_small by lia. repeat split; auto. lia.
  - destruct (N.eqb_spec l7 126) as [->|H2]; [|destruct (N.eqb_spec l7 127) as [->|H3]; [|lia]].
    + apply sbind_ok_inv in H. destruct H as (v & s & Hv & H).
      apply read_uint_inv in Hv. destruct Hv as (d & -> & -> & Hd).
      destruct (N.leb_spec (of_be d) 125) as [|Hgt]; [discriminate|].
      injection H as <- <-.
      pose proof (of_be_bound d) as Hb. rewrite Hd in Hb. change (256 ^ 2) with 65536 in Hb.
      unfold len7, ext_len.
      destruct (N.leb_spec (of_be d) 125); [lia|].
      destruct (N.leb_spec (of_be d) 65535); [|lia].
      destruct (N.leb_spec 126 (of_be d)); [|lia]. cbn [andb].
      rewrite N.mod_small by lia. repeat split; [|lia].
      destruct d as [|a [|b [|c d]]]; try (cbn in Hd; discriminate).
      * rewrite be16_of_be. reflexivity.
      * rewrite !llen_cons in Hd. lia.
    + apply sbind_ok_inv in H. destruct H as (v & s & Hv & H).
      apply read_uint_inv in Hv. destruct Hv as (d & -> & -> & Hd).
      destruct (N.leb_spec (of_be d) 65535) as [|Hgt]; [discriminate|].
      injection H as <- <-.
      pose proof (of_be_bound d) as Hb. rewrite Hd in Hb.
      unfold len7, ext_len.
      destruct (N.leb_spec (of_be d) 125); [lia|].
      destruct (N.leb_spec (of_be d) 65535); [lia|].
      destruct (N.ltb_spec 65535 (of_be d)); [|lia]. rewrite andb_false_r.
      repeat split; auto.
      rewrite be64_of_be; [reflexivity|]. unfold llen in Hd. lia.
Qed.

Lemma read_mask_inv : forall b1 l m r, read_mask lst_exact (b2n b1) l = (Ok m, r) ->
  l = match m with Some k => key_bytes k | None => [] end ++ r
  /\ (N.land (b2n b1) 0x80 =? 0x80) = match m with Some _ => true | None => false end.
Proof.
  intros b1 l m r H. unfold read_mask in H.
  destruct (N.land (b2n b1) 128 =? 128).
  - apply sbind_ok_inv in H. destruct H as (v & s & Hv & H).
    apply read_uint1_inv in Hv. destruct Hv as (x0 & -> & ->).
    apply sbind_ok_inv in H. destruct H as (v & s1 & Hv & H).
    apply read_uint1_inv in Hv. destruct Hv as (x1 & -> & ->).
    apply sbind_ok_inv in H. destruct H as (v & s2 & Hv & H).
    apply read_uint1_inv in Hv. destruct Hv as (x2 & -> & ->).
    apply sbind_ok_inv in H. destruct H as (v & s3 & Hv & H).
    apply read_uint1_inv in Hv. destruct Hv as (x3 & -> & ->).
    injection H as <- <-. rewrite !n2b_b2n. auto.
  - injection H as <- <-. auto.
Qed.

Lemma read_header_inv : forall l h r, read_header lst_exact l = (Ok h, r) ->
  l = header_bytes h ++ r /\ header_ok h /\ header_fin_ok h.
Proof.
  intros l h r H. unfold read_header in H.
  apply sbind_ok_inv in H. destruct H as (v & s & Hv & H).
  apply read_uint1_inv in Hv. destruct Hv as (b0 & -> & ->).
  apply sbind_ok_inv in H. destruct H as (v & s1 & Hv & H).
  apply read_uint1_inv in Hv. destruct Hv as (b1 & -> & ->).
  apply sbind_ok_inv in H. destruct H as (len & s2 & Hlen & H).
  apply read_len_inv in Hlen; [|apply byte1_len_lt]. destruct Hlen as (E7 & -> & Hl64).
  destruct ((8 <=? N.land (b2n b0) 15) && (126 <=? len)) eqn:C1; [discriminate|].
  destruct ((8 <=? N.land (b2n b0) 15) && negb (fl_contains (fl_truncate (b2n b0)) FIN)) eqn:C2;
    [discriminate|].
  apply sbind_ok_inv in H. destruct H as (m & s3 & Hm & H).
  apply read_mask_inv in Hm. destruct Hm as (-> & EM).
  injection H as <- <-.
  split; [|split].
  - unfold header_bytes. cbn [h_flags h_opcode h_mask h_len].
    rewrite <- !app_assoc. cbn [app].
    rewrite byte0_join, n2b_b2n.
    replace (N.lor match m with Some _ => 128 | None => 0 end (len7 len)) with (b2n b1).
    + rewrite n2b_b2n. reflexivity.
    + rewrite <- (byte1_join b1) at 1. rewrite EM, E7. destruct m; reflexivity.
  - unfold header_ok. cbn [h_flags h_opcode h_mask h_len].
    split; [apply byte0_trunc|]. split; [apply byte0_op_lt|]. split; [exact Hl64|]. lia.
  - unfold header_fin_ok. cbn [h_flags h_opcode]. intros H8.
    destruct (fl_contains (fl_truncate (b2n b0)) FIN); [reflexivity|].
    destruct (N.leb_spec 8 (N.land (b2n b0) 15)); [discriminate C2|lia].
Qed.

(** Reading a header never panics and never runs out of fuel. *)
Lemma read_header_total : forall l,
  match fst (read_header lst_exact l) with
  | Ok _ => True
  | Err (DataFrameError _) => True
  | Err (ProtocolError _) => True
  | Err NoDataAvailable => True
  | _ => False
  end.
Proof.
  intros l.
  assert (HU : forall n l, exists r x, read_uint lst_exact n l = (r, x) /\
     ((exists v, r = Ok v) \/ r = Err NoDataAvailable)).
  { intros n l0. unfold read_uint, lst_exact. destruct (n <=? llen l0); eauto 8. }
  unfold read_header.
  destruct l as [|b0 l]; [exact I|]. rewrite read_uint1. cbn [sbind].
  destruct l as [|b1 l]; [exact I|]. rewrite read_uint1. cbn [sbind].
  pose proof (byte1_len_lt b1) as H7. set (l7 := N.land (b2n b1) 127) in *. clearbody l7.
  assert (HL : exists r x, read_len lst_exact l7 l = (r, x) /\
     ((exists v, r = Ok v) \/ r = Err NoDataAvailable \/ exists m, r = Err (DataFrameError m))).
  { unfold read_len. destruct (N.leb_spec l7 125); [eauto 8|].
    destruct (N.eqb_spec l7 126); [|destruct (N.eqb_spec l7 127); [|lia]].
    - destruct (HU 2 l) as (r & x & -> & [[v ->]| ->]); cbn [sbind]; [|eauto 8].
      destruct (v <=? 125); eauto 8.
    - destruct (HU 8 l) as (r & x & -> & [[v ->]| ->]); cbn [sbind]; [|eauto 8].
      destruct (v <=? 65535); eauto 8. }
  destruct HL as (r & x & -> & [[v ->]|[->|[m ->]]]); cbn [sbind fst]; auto.
  destruct (_ && _); [exact I|]. destruct (_ && _); [exact I|].
  unfold read_mask. destruct (_ =? _); [|exact I].
  destruct (HU 1 x) as (r1 & x1 & -> & [[v1 ->]| ->]); cbn [sbind]; [|exact I].
  destruct (HU 1 x1) as (r2 & x2 & -> & [[v2 ->]| ->]); cbn [sbind]; [|exact I].
  destruct (HU 1 x2) as (r3 & x3 & -> & [[v3 ->]| ->]); cbn [sbind]; [|exact I].
  destruct (HU 1 x3) as (r4 & x4 & -> & [[v4 ->]| ->]); cbn [sbind]; exact I.
Qed.

(** The errors of [read_header] on a byte list. *)
Definition hdr_errs : list ws_error :=
  [NoDataAvailable; DataFrameError "Invalid data frame length";
   DataFrameError "Control frame length too long";
   ProtocolError "Illegal fragmented control frame"].
Definition hdr_outcome (r : result dfheader ws_error) : Prop :=
  match r with Ok _ => True | Err e => In e hdr_errs | _ => False end.
Lemma read_header_errs : forall l, hdr_outcome (fst (read_header lst_exact l)).
Proof.
  intros l.
  assert (HU : forall n l, exists r x, read_uint lst_exact n l = (r, x) /\
     ((exists v, r = Ok v) \/ r = Err NoDataAvailable)).
  { intros n l0. unfold read_uint, lst_exact. destruct (n <=? llen l0); eauto 8. }
  assert (HN : In NoDataAvailable hdr_errs) by (cbn; auto).
  unfold read_header.
  destruct l as [|b0 l]; [exact HN|]. rewrite read_uint1. cbn [sbind].
  destruct l as [|b1 l]; [exact HN|]. rewrite read_uint1. cbn [sbind].
  pose proof (byte1_len_lt b1) as H7. set (l7 := N.land (b2n b1) 127) in *. clearbody l7.
  assert (HL : exists r x, read_len lst_exact l7 l = (r, x) /\
     ((exists v, r = Ok v) \/ r = Err NoDataAvailable \/
      r = Err (DataFrameError "Invalid data frame length"))).
  { unfold read_len. destruct (N.leb_spec l7 125); [eauto 8|].
    destruct (N.eqb_spec l7 126); [|destruct (N.eqb_spec l7 127); [|lia]].
    - destruct (HU 2 l) as (r & x & -> & [[v ->]| ->]); cbn [sbind]; [|eauto 8].
      destruct (v <=? 125); eauto 8.
    - destruct (HU 8 l) as (r & x & -> & [[v ->]| ->]); cbn [sbind]; [|eauto 8].
      destruct (v <=? 65535); eauto 8. }
  destruct HL as (r & x & -> & [[v ->]|[->| ->]]); cbn [sbind fst hdr_outcome]; auto;
    [|cbn; auto].
  destruct (_ && _); [cbn; auto 6|]. destruct (_ && _); [cbn; auto 6|].
  unfold read_mask. destruct (_ =? _); [|exact I].
  destruct (HU 1 x) as (r1 & x1 & -> & [[v1 ->]| ->]); cbn [sbind]; [|exact HN].
  destruct (HU 1 x1) as (r2 & x2 & -> & [[v2 ->]| ->]); cbn [sbind]; [|exact HN].
  destruct (HU 1 x2) as (r3 & x3 & -> & [[v3 ->]| ->]); cbn [sbind]; [|exact HN].
  destruct (HU 1 x3) as (r4 & x4 & -> & [[v4 ->]| ->]); cbn [sbind]; [exact I|exact HN].
Qed.
