(** Reading from arbitrary scripts. *)
From Coq Require Import NArith ZArith String Bool List Lia.
From Coq Require Import ZifyBool ZifyNat ZifyN.
From Coq.Strings Require Import Byte.
From Verif.Model Require Import Base Io Header Mask Dataframe Utf8 Message Receiver Codec Framed.
From Verif.Spec Require Import RfcFrame FrameSpec Schedule.
From Verif.Proofs Require Import BaseFacts MaskFacts HeaderFacts FrameFacts CodecFacts.
Import ListNotations.
Local Open Scope string_scope.
Local Open Scope list_scope.
Local Open Scope N_scope.

Lemma carries_iff : forall s l, carries s l <-> scr_rel s l.
Proof.
  split.
  - induction 1 as [|b bs s l H [IH1 IH2]|s l H [IH1 IH2]].
    + split; [constructor|reflexivity].
    + split; [constructor; [exact I|exact IH1]|]. cbn [flat]. rewrite IH2. reflexivity.
    + split; [constructor; [exact I|exact IH1]|]. exact IH2.
  - intros [H1 H2]. revert l H2. induction H1 as [|e s He Hs IH]; intros l H2.
    + cbn in H2. subst l. constructor.
    + destruct e; try contradiction; cbn [flat] in H2; subst l.
      * constructor. apply IH. reflexivity.
      * constructor. apply IH. reflexivity.
Qed.
Lemma contains_iff : forall s l, contains s l <-> flat s = l.
Proof.
  split.
  - induction 1; cbn [flat]; subst; reflexivity.
  - intros H. subst l. induction s as [|[b bs| | |k] s IH]; cbn [flat]; constructor; exact IH.
Qed.

(** ** Partial simulation: whatever is read successfully is what a list gives *)
Section PSim.
  Variables R1 R2 : Type.
  Variable rel : R1 -> R2 -> Prop.
  Definition psim {A E : Type} (x : result A E * R1) (y : result A E * R2) : Prop :=
    match fst x with
    | Ok a => fst y = Ok a /\ rel (snd x) (snd y)
    | Err _ => True
    | Panic => fst y = Panic
    | OutOfFuel => fst y = OutOfFuel
    end.

  Lemma psim_bind : forall A B E (x : result A E * R1) (y : result A E * R2)
    (f : A -> R1 -> result B E * R1) (g : A -> R2 -> result B E * R2),
    psim x y -> (forall a r1 r2, rel r1 r2 -> psim (f a r1) (g a r2)) ->
    psim (sbind x f) (sbind y g).
  Proof.
    intros A B E [x r1] [y r2] f g H Hf. unfold psim in H. cbn [fst snd] in H.
    destruct x as [a|e| |]; cbn [sbind].
    - destruct H as [-> H]. cbn [sbind]. apply Hf. exact H.
    - exact I.
    - subst y. reflexivity.
    - subst y. reflexivity.
  Qed.
  Lemma psim_ret : forall A E (x : result A E) r1 r2, rel r1 r2 -> psim (x, r1) (x, r2).
  Proof. intros A E [a|e| |] r1 r2 H; cbn; auto. Qed.

  Variable e1 : N -> R1 -> result bytes io_kind * R1.
  Variable e2 : N -> R2 -> result bytes io_kind * R2.
  Hypothesis Hexact : forall n r1 r2, rel r1 r2 -> psim (e1 n r1) (e2 n r2).

  Lemma read_uint_psim : forall n r1 r2, rel r1 r2 ->
    psim (read_uint e1 n r1) (read_uint e2 n r2).
  Proof using Hexact.
    intros n r1 r2 H. apply (Hexact n) in H. unfold read_uint, psim in *.
    destruct (e1 n r1) as [x r1'], (e2 n r2) as [y r2']. cbn [fst snd] in *.
    destruct x; cbn [fst snd].
    - destruct H as [-> H]. split; [reflexivity|exact H].
    - exact I.
    - subst y; reflexivity.
    - subst y; reflexivity.
  Qed.
  Lemma read_header_psim : forall r1 r2, rel r1 r2 ->
    psim (read_header e1 r1) (read_header e2 r2).
  Proof using Hexact.
    intros r1 r2 H. unfold read_header.
    apply psim_bind; [apply read_uint_psim; exact H|]. clear r1 r2 H; intros b0 r1 r2 H.
    apply psim_bind; [apply read_uint_psim; exact H|]. clear r1 r2 H; intros b1 r1 r2 H.
    apply psim_bind.
    { unfold read_len.
      destruct (N.land b1 127 <=? 125); [apply psim_ret; exact H|].
      destruct (N.land b1 127 =? 126);
        [|destruct (N.land b1 127 =? 127); [|apply psim_ret; exact H]].
      all: apply psim_bind; [apply read_uint_psim; exact H|];
        intros a ra rb Hab; match goal with |- context [if ?c then _ else _] => destruct c end;
        apply psim_ret; exact Hab. }
    clear r1 r2 H; intros len r1 r2 H.
    destruct (_ && _); [apply psim_ret; exact H|].
    destruct (_ && _); [apply psim_ret; exact H|].
    apply psim_bind.
    { unfold read_mask. destruct (_ =? _); [|apply psim_ret; exact H].
      apply psim_bind; [apply read_uint_psim; exact H|]. clear r1 r2 H; intros k0 r1 r2 H.
      apply psim_bind; [apply read_uint_psim; exact H|]. clear r1 r2 H; intros k1 r1 r2 H.
      apply psim_bind; [apply read_uint_psim; exact H|]. clear r1 r2 H; intros k2 r1 r2 H.
      apply psim_bind; [apply read_uint_psim; exact H|]. clear r1 r2 H; intros k3 r1 r2 H.
      apply psim_ret; exact H. }
    clear r1 r2 H; intros m r1 r2 H. apply psim_ret; exact H.
  Qed.
End PSim.
Arguments psim {R1 R2} rel {A E}.

Definition frel (s : script) (l : bytes) : Prop := flat s = l.

Lemma rd_exact_flat : forall s n l s', rd_exact n s = (Ok l, s') ->
  flat s = l ++ flat s' /\ llen l = n.
Proof.
  induction s as [|e s IH]; intros n l s' H; cbn [rd_exact] in H.
  - destruct (N.eqb_spec n 0) as [->|]; [|discriminate]. injection H as <- <-. auto.
  - destruct (N.eqb_spec n 0) as [->|Hn]; [injection H as <- <-; auto|].
    destruct e as [b bs| | |k]; try discriminate.
    + destruct (N.leb_spec n (llen (b :: bs))) as [Hle|Hgt].
      * remember (b :: bs) as d eqn:Ed. injection H as <- <-. rewrite flat_push_back.
        cbn [flat]. rewrite <- Ed. split; [|rewrite llen_take; lia].
        rewrite (app_assoc (take n d)), take_drop. reflexivity.
      * destruct (rd_exact (n - llen (b :: bs)) s) as [[l1|e1| |] s1] eqn:E; try discriminate.
        injection H as <- <-. apply IH in E as [E1 E2]. cbn [flat].
        change (b :: bs ++ l1) with ((b :: bs) ++ l1). rewrite <- app_assoc.
        split; [f_equal; exact E1|]. rewrite llen_app. lia.
    + apply IH in H. exact H.
Qed.
Lemma rd_exact_noPanic : forall s n, match fst (rd_exact n s) with
  | Panic => False | OutOfFuel => False | _ => True end.
Proof.
  induction s as [|e s IH]; intros n; cbn [rd_exact].
  - destruct (n =? 0); exact I.
  - destruct (n =? 0); [exact I|]. destruct e as [b bs| | |k]; try exact I.
    + destruct (_ <=? _); [exact I|]. specialize (IH (n - llen (b :: bs))).
      destruct (rd_exact _ s) as [[l1|e1| |] s1]; auto.
    + apply IH.
Qed.
Lemma rd_exact_psim : forall n s l, frel s l -> psim frel (rd_exact n s) (lst_exact n l).
Proof.
  intros n s l H. pose proof (rd_exact_noPanic s n) as HP. unfold psim.
  destruct (rd_exact n s) as [[d|e| |] s'] eqn:E; cbn [fst snd] in *; try contradiction; auto.
  apply rd_exact_flat in E as [E1 E2]. unfold frel in *. subst l. rewrite E1.
  unfold lst_exact. rewrite llen_app.
  destruct (N.leb_spec n (llen d + llen (flat s'))); [|lia]. cbn [fst snd].
  rewrite take_app_exact, drop_app_exact by lia. auto.
Qed.

Lemma rd_take_flat : forall s n l s', rd_take_to_end n s = (Ok l, s') ->
  flat s = l ++ flat s' /\ llen l <= n.
Proof.
  induction s as [|e s IH]; intros n l s' H; cbn [rd_take_to_end] in H.
  - destruct (N.eqb_spec n 0) as [->|]; injection H as <- <-; cbn; split; auto; lia.
  - destruct (N.eqb_spec n 0) as [->|Hn]; [injection H as <- <-; auto; split; auto; cbn; lia|].
    destruct e as [b bs| | |k]; try discriminate.
    + destruct (N.leb_spec n (llen (b :: bs))) as [Hle|Hgt].
      * remember (b :: bs) as d eqn:Ed. injection H as <- <-. rewrite flat_push_back.
        cbn [flat]. rewrite <- Ed. split; [|rewrite llen_take; lia].
        rewrite (app_assoc (take n d)), take_drop. reflexivity.
      * destruct (rd_take_to_end (n - llen (b :: bs)) s) as [[l1|e1| |] s1] eqn:E; try discriminate.
        injection H as <- <-. apply IH in E as [E1 E2]. cbn [flat].
        change (b :: bs ++ l1) with ((b :: bs) ++ l1). rewrite <- app_assoc.
        split; [f_equal; exact E1|]. rewrite llen_app. lia.
    + apply IH in H. exact H.
    + injection H as <- <-. cbn [flat]. split; [reflexivity|cbn; lia].
Qed.
Lemma rd_take_noPanic : forall s n, match fst (rd_take_to_end n s) with
  | Panic => False | OutOfFuel => False | _ => True end.
Proof.
  induction s as [|e s IH]; intros n; cbn [rd_take_to_end].
  - destruct (n =? 0); exact I.
  - destruct (n =? 0); [exact I|]. destruct e as [b bs| | |k]; try exact I.
    + destruct (_ <=? _); [exact I|]. specialize (IH (n - llen (b :: bs))).
      destruct (rd_take_to_end _ s) as [[l1|e1| |] s1]; auto.
    + apply IH.
Qed.

Lemma read_header_any : forall s,
  psim frel (read_header rd_exact s) (read_header lst_exact (flat s)).
Proof.
  intros s. apply read_header_psim; [apply rd_exact_psim|reflexivity].
Qed.

(** Any script: a frame read is the frame the bytes encode; never a panic. *)
Lemma read_payload_any : forall h m s, h_opcode h < 16 -> h_len h <= isize_max ->
  match read_payload h m s with
  | (Ok f, s') => exists d, flat s = d ++ flat s' /\ llen d = h_len h
                            /\ read_dataframe_body h d m = Ok f
  | (Err _, _) => True
  | _ => False
  end.
Proof.
  intros h m s Hop Hlen. unfold read_payload.
  destruct (N.ltb_spec isize_max (h_len h)); [lia|].
  pose proof (rd_take_noPanic s (h_len h)) as HP.
  destruct (rd_take_to_end (h_len h) s) as [[d|e| |] s'] eqn:E; try contradiction; auto.
  apply rd_take_flat in E as [E1 E2].
  destruct (N.ltb_spec (llen d) (h_len h)); [exact I|].
  destruct (read_body_total h d m Hop) as [[f Hf]|[x Hf]]; rewrite Hf; [|exact I].
  exists d. repeat split; auto. lia.
Qed.

Lemma read_limit_any : forall m limit s, limit <= isize_max ->
  match read_dataframe_with_limit m limit s with
  | (Ok f, s') => exists key, flat s = enc f key ++ flat s' /\ is_some key = m
                              /\ frame_ok f /\ llen (f_data f) <= limit
  | (Err _, _) => True
  | _ => False
  end.
Proof.
  intros m limit s Hl. unfold read_dataframe_with_limit.
  pose proof (read_header_any s) as HH. pose proof (read_header_total (flat s)) as HT.
  destruct (read_header rd_exact s) as [[h|e| |] s1]; unfold psim in HH; cbn [fst snd] in HH.
  - destruct HH as [E1 E2]. cbn [sbind].
    destruct (read_header lst_exact (flat s)) as [y l1] eqn:EH. cbn [fst snd] in *. subst y.
    unfold frel in E2. subst l1.
    destruct (N.ltb_spec limit (h_len h)); [exact I|].
    pose proof (read_header_inv _ _ _ EH) as (HB & HO & HF).
    pose proof (read_payload_any h m s1 (proj1 (proj2 HO)) ltac:(lia)) as HP.
    destruct (read_payload h m s1) as [[f|e| |] s2]; auto.
    destruct HP as (d & Hd1 & Hd2 & Hd3).
    assert (parse_frame m limit (flat s) = (Ok f, flat s2)) as HPF.
    { unfold parse_frame. rewrite EH. cbn [sbind].
      destruct (N.ltb_spec limit (h_len h)); [lia|].
      rewrite Hd1, llen_app. destruct (N.ltb_spec (llen d + llen (flat s2)) (h_len h)); [lia|].
      rewrite take_app_exact, drop_app_exact by lia. rewrite Hd3. reflexivity. }
    apply parse_inv in HPF as (key & K1 & K2 & K3 & K4). exists key. auto.
  - exact I.
  - rewrite HH in HT. contradiction.
  - rewrite HH in HT. contradiction.
Qed.

Lemma read_unlimited_any : forall m s f s',
  read_dataframe m s = (Ok f, s') ->
  exists key, flat s = enc f key ++ flat s' /\ is_some key = m /\ frame_ok f
              /\ llen (f_data f) <= isize_max.
Proof.
  intros m s f s' H.
  assert (read_dataframe_with_limit m isize_max s = (Ok f, s')) as H2.
  { unfold read_dataframe, read_dataframe_with_limit in *.
    destruct (read_header rd_exact s) as [[h|e| |] s1]; cbn [sbind] in *; try discriminate.
    destruct (isize_max <? h_len h) eqn:E; [|exact H].
    unfold read_payload in H. rewrite E in H. discriminate. }
  pose proof (read_limit_any m isize_max s ltac:(lia)) as HL. rewrite H2 in HL.
  destruct HL as (key & A & B & C & D). exists key. auto.
Qed.
