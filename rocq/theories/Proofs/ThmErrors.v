(** What the error [NoDataAvailable] means: C65. *)
From Coq Require Import NArith ZArith String Bool List Lia.
From Coq Require Import ZifyBool ZifyNat ZifyN.
From Coq.Strings Require Import Byte.
From Verif.Model Require Import Base Io Header Mask Dataframe Utf8 Text Base64 WsKey Headers
  Handshake Message Receiver Codec Framed Http Connect.
From Verif.Spec Require Import RfcFrame FrameSpec Schedule Unicode Drive Session Connection Polled.
From Verif.Proofs Require Import BaseFacts MaskFacts HeaderFacts FrameFacts CodecFacts ScriptFacts
  Machine FramedFacts AsyncFacts Utf8Facts ThmFrames ThmStream SessionFacts RecvFacts MessageFacts
  ThmMessages ThmFlow.
Import ListNotations.
Local Open Scope string_scope.
Local Open Scope list_scope.
Local Open Scope N_scope.

(** ** After the end *)

(** ** What is left of the bytes *)

Definition shrinks {A E} (p : bytes -> result A E * bytes) : Prop :=
  forall l, exists pre, l = pre ++ snd (p l).
Definition drains {A} (p : bytes -> result A ws_error * bytes) : Prop :=
  forall l r, p l = (Err NoDataAvailable, r) -> r = [].

Lemma shrinks_ret : forall A E (x : result A E), shrinks (fun l => (x, l)).
Proof. intros A E x l. exists []. reflexivity. Qed.
Lemma shrinks_bind : forall A B E (p : bytes -> result A E * bytes) (f : A -> bytes -> result B E * bytes),
  shrinks p -> (forall a, shrinks (f a)) -> shrinks (fun l => sbind (p l) f).
Proof.
  intros A B E p f Hp Hf l. destruct (Hp l) as (pre & El).
  destruct (p l) as [[a|e| |] l1]; cbn [sbind snd] in *; eauto.
  destruct (Hf a l1) as (pre' & El'). exists (pre ++ pre'). rewrite <- app_assoc. congruence.
Qed.
Lemma shrinks_if : forall A E (c : bool) (p q : bytes -> result A E * bytes),
  shrinks p -> shrinks q -> shrinks (fun l => if c then p l else q l).
Proof. intros A E [|] p q; auto. Qed.
Lemma shrinks_uint : forall n, shrinks (read_uint lst_exact n).
Proof.
  intros n l. unfold read_uint, lst_exact. destruct (n <=? llen l); cbn [snd].
  - exists (take n l). symmetry. apply take_drop.
  - exists l. symmetry. apply app_nil_r.
Qed.
Lemma shrinks_header : shrinks (read_header lst_exact).
Proof.
  unfold read_header.
  apply shrinks_bind; [apply shrinks_uint|]. intros b0.
  apply shrinks_bind; [apply shrinks_uint|]. intros b1.
  apply shrinks_bind.
  { unfold read_len. apply shrinks_if; [apply shrinks_ret|].
    repeat apply shrinks_if; try apply shrinks_ret.
    all: apply shrinks_bind; [apply shrinks_uint|]; intros a;
      apply shrinks_if; apply shrinks_ret. }
  intros len. apply shrinks_if; [apply shrinks_ret|]. apply shrinks_if; [apply shrinks_ret|].
  apply shrinks_bind; [|intros; apply shrinks_ret].
  unfold read_mask. apply shrinks_if; [|apply shrinks_ret].
  do 4 (apply shrinks_bind; [apply shrinks_uint|]; intros ?). apply shrinks_ret.
Qed.
Lemma shrinks_parse : forall m limit, shrinks (parse_frame m limit).
Proof.
  intros m limit. unfold parse_frame. apply shrinks_bind; [apply shrinks_header|]. intros h.
  apply shrinks_if; [apply shrinks_ret|]. intros l.
  destruct (llen l <? h_len h); cbn [snd].
  - exists l. symmetry. apply app_nil_r.
  - exists (take (h_len h) l). symmetry. apply take_drop.
Qed.

Lemma drains_ret : forall A (x : result A ws_error), x <> Err NoDataAvailable -> drains (fun l => (x, l)).
Proof. intros A x Hx l r H. injection H as H _. contradiction. Qed.
Lemma drains_bind : forall A B (p : bytes -> result A ws_error * bytes)
  (f : A -> bytes -> result B ws_error * bytes),
  drains p -> (forall a, drains (f a)) -> drains (fun l => sbind (p l) f).
Proof.
  intros A B p f Hp Hf l r H. destruct (p l) as [[a|e| |] l1] eqn:E; cbn [sbind] in H; try discriminate.
  - eapply Hf, H.
  - injection H as -> ->. eapply Hp, E.
Qed.
Lemma drains_if : forall A (c : bool) (p q : bytes -> result A ws_error * bytes),
  drains p -> drains q -> drains (fun l => if c then p l else q l).
Proof. intros A [|] p q; auto. Qed.
Lemma drains_uint : forall n, drains (read_uint lst_exact n).
Proof.
  intros n l r. unfold read_uint, lst_exact. destruct (n <=? llen l); intros H; [discriminate|].
  now injection H.
Qed.
Lemma drains_header : drains (read_header lst_exact).
Proof.
  unfold read_header.
  apply drains_bind; [apply drains_uint|]. intros b0.
  apply drains_bind; [apply drains_uint|]. intros b1.
  apply drains_bind.
  { unfold read_len. apply drains_if; [apply drains_ret; discriminate|].
    repeat apply drains_if; try (apply drains_ret; discriminate).
    all: apply drains_bind; [apply drains_uint|]; intros a;
      apply drains_if; apply drains_ret; discriminate. }
  intros len. apply drains_if; [apply drains_ret; discriminate|].
  apply drains_if; [apply drains_ret; discriminate|].
  apply drains_bind; [|intros; apply drains_ret; discriminate].
  unfold read_mask. apply drains_if; [|apply drains_ret; discriminate].
  do 4 (apply drains_bind; [apply drains_uint|]; intros ?). apply drains_ret. discriminate.
Qed.
Lemma body_no_nodata : forall h b m, read_dataframe_body h b m <> Err NoDataAvailable.
Proof.
  intros h b m. unfold read_dataframe_body. destruct (opcode_new _); [|discriminate].
  destruct (h_mask h); destruct m; discriminate.
Qed.
Lemma drains_parse : forall m limit, drains (parse_frame m limit).
Proof.
  intros m limit. unfold parse_frame. apply drains_bind; [apply drains_header|]. intros h.
  apply drains_if; [apply drains_ret; discriminate|]. intros l r H.
  destruct (llen l <? h_len h); [congruence|]. injection H as H1 H2. now apply body_no_nodata in H1.
Qed.

(** ** Which messages are refused with it *)

Definition data_ops (fs : list dataframe) : Prop := Forall (fun f => op_u8 (f_opcode f) < 8) fs.

Lemma gather_no_nodata : forall fs i d, gather i d fs <> Err NoDataAvailable.
Proof.
  induction fs as [|f fs IH]; intros i d; cbn [gather]; [discriminate|].
  destruct (_ && _); [discriminate|].
  destruct (df_reserved f) as [[[] []] []]; try discriminate. apply IH.
Qed.
Lemma owned_nodata : forall f fs, owned_from_dataframes (map df_ops (f :: fs)) = Err NoDataAvailable ->
  f_opcode f = Close /\ exists a, gather 0 [] (map df_ops (f :: fs)) = Ok [a].
Proof.
  intros f fs H. unfold owned_from_dataframes, from_dataframes in H.
  pose proof (gather_no_nodata (map df_ops (f :: fs)) 0 []) as HG.
  change (map df_ops (f :: fs)) with (df_ops f :: map df_ops fs) in *. cbv iota beta zeta in H.
  destruct (gather 0 [] (df_ops f :: map df_ops fs)) as [data|e| |]; cbn [rbind] in H;
    try discriminate; [|injection H as ->; contradiction].
  cbn [df_ops df_opcode] in H. rewrite opcode_new_u8 in H.
  destruct (f_opcode f); cbn [rbind] in H; try discriminate.
  - destruct (utf8_valid data); discriminate.
  - destruct data as [|a [|b rest]]; cbn [rbind] in H; try discriminate; eauto.
    destruct (utf8_valid rest); discriminate.
Qed.
Lemma step_nodata : forall buf f b, data_ops buf ->
  step buf f = (Some (Err NoDataAvailable), b) ->
  b = buf /\ f_opcode f = Close /\ f_reserved f = no_rsv /\ exists a, f_data f = [a].
Proof.
  intros buf f b HB H. unfold step in H.
  destruct (_ && _); [discriminate|].
  destruct (N.leb_spec 8 (op_u8 (f_opcode f))) as [H8|H8].
  - injection H as H <-. apply (owned_nodata f []) in H. destruct H as (Ho & a & HG).
    cbn [map gather df_ops df_reserved df_opcode df_take_payload] in HG.
    replace (0 <? 0) with false in HG by reflexivity. cbn [andb app] in HG.
    destruct (f_reserved f) as [[[] []] []] eqn:ER; try discriminate. injection HG as HG. eauto.
  - destruct (_ && _); [discriminate|]. destruct (f_finished f); [|discriminate].
    injection H as H _. destruct buf as [|f0 buf]; cbn [app] in H; apply owned_nodata in H;
      destruct H as (Ho & _).
    + rewrite Ho in H8. cbn in H8. lia.
    + inversion HB; subst. rewrite Ho in *. cbn in *. lia.
Qed.
Lemma step_none : forall buf f b, step buf f = (None, b) -> b <> [].
Proof.
  intros buf f b H. unfold step in H.
  destruct (_ && _) in H; [discriminate|]. destruct (8 <=? _); [discriminate|].
  destruct (_ && _) in H; [discriminate|]. destruct (f_finished f); [discriminate|].
  injection H as <-. now destruct buf.
Qed.
Lemma step_ops : forall buf f o b, data_ops buf -> step buf f = (o, b) -> data_ops b.
Proof.
  intros buf f o b HB H. unfold step in H.
  destruct (_ && _); [injection H as _ <-; auto|].
  destruct (N.leb_spec 8 (op_u8 (f_opcode f))) as [H8|H8]; [injection H as _ <-; auto|].
  destruct (_ && _); [injection H as _ <-; auto|].
  destruct (f_finished f); injection H as _ <-; [constructor|].
  apply Forall_app. split; auto.
Qed.

Definition one_byte_close (l : bytes) : Prop :=
  exists a key, octets l = rfc_encode (rfc_of_frame (mk_df true no_rsv Close [a]) key).

Lemma close_enc : forall f key, frame_ok f -> f_opcode f = Close -> f_reserved f = no_rsv ->
  (exists a, f_data f = [a]) -> one_byte_close (enc f key).
Proof.
  intros [fin rsv op d] key Hf Ho Hr (a & Hd). cbn in Ho, Hr, Hd. subst.
  exists a, key. unfold octets. fold b2n. rewrite enc_rfc.
  destruct Hf as (_ & Hf). cbn in Hf. destruct Hf as (_ & Hf); [lia|]. subst fin. reflexivity.
Qed.

(** ** Blocking *)

Lemma frame_read : forall r s x s', clean s -> r_max_df r <= isize_max ->
  recv_dataframe r s = (x, s') ->
  clean s' /\ parse_frame (r_mask r) (r_max_df r) (flat s) = (x, flat s') /\
  exists pre, flat s = pre ++ flat s'.
Proof.
  intros r s x s' Hc Hm H. unfold recv_dataframe in H.
  pose proof (read_with_limit_script (r_mask r) (r_max_df r) s Hc Hm) as [E1 [E2 E3]].
  rewrite H in E1, E2, E3. cbn [fst snd] in *. split; [exact E2|].
  pose proof (shrinks_parse (r_mask r) (r_max_df r) (flat s)) as (pre & HS).
  destruct (parse_frame (r_mask r) (r_max_df r) (flat s)) as [y l1]. cbn [fst snd] in *.
  subst. split; [reflexivity|]. exists pre. exact HS.
Qed.

Definition ended_or_close (l l' : bytes) : Prop :=
  l' = [] \/ exists pre w, l = pre ++ w ++ l' /\ one_byte_close w.
Lemma ended_or_close_before : forall p l l', ended_or_close l l' -> ended_or_close (p ++ l) l'.
Proof.
  intros p l l' [H|(pre & w & H1 & H2)]; [left; auto|right].
  exists (p ++ pre), w. rewrite <- app_assoc, H1. auto.
Qed.

Lemma rmsg_nodata : forall fuel r cur s x r' s',
  clean s -> r_max_df r <= isize_max -> r_buffer r <> [] -> data_ops (r_buffer r) ->
  rmsg fuel r cur s = (x, r', s') ->
  clean s' /\ data_ops (r_buffer r') /\ r_max_df r' = r_max_df r /\
  (exists pre, flat s = pre ++ flat s') /\
  (x = Err NoDataAvailable -> ended_or_close (flat s) (flat s')).
Proof.
  induction fuel as [|fuel IH]; intros r cur s x r' s' Hc Hm Hb HO H.
  { cbn in H. injection H as <- <- <-. repeat split; auto; [exists []; auto|discriminate]. }
  rewrite rmsg_step in H by auto.
  destruct (recv_dataframe r s) as [y s1] eqn:ER.
  destruct (frame_read _ _ _ _ Hc Hm ER) as (Hc1 & HP & pre & HS).
  destruct y as [f|e| |];
    try (injection H as <- <- <-; repeat split; eauto; try discriminate; fail).
  - apply parse_inv in HP. destruct HP as (key & Hk & HE & Hf & Hl).
    destruct (step (r_buffer r) f) as [[o|] b] eqn:ES.
    + injection H as <- <- <-. cbn [with_buffer r_buffer r_max_df].
      repeat split; eauto using step_ops. intros ->.
      apply step_nodata in ES; auto. destruct ES as (-> & Ho & Hr & Hd).
      right. exists [], (enc f key). split; [exact HE|]. apply close_enc; auto.
    + pose proof (step_ops _ _ _ _ HO ES) as HO'.
      destruct (over (llen b)); [injection H as <- <- <-; repeat split; eauto; discriminate|].
      destruct (_ <=? _); [injection H as <- <- <-; repeat split; eauto; discriminate|].
      assert (b <> []) as Hb'.
      { eapply step_none, ES. }
      apply IH in H; auto. destruct H as (A & B & C & (pre' & D) & F).
      repeat split; auto.
      * exists (pre ++ pre'). rewrite <- app_assoc. congruence.
      * intros Hx. rewrite HS. apply ended_or_close_before. auto.
  - injection H as <- <- <-. repeat split; eauto. intros Hx. injection Hx as ->.
    left. eapply drains_parse, HP.
Qed.

Lemma recv_nodata : forall r s x r' s',
  clean s -> r_max_df r <= isize_max -> data_ops (r_buffer r) ->
  recv_message r s = (x, r', s') ->
  clean s' /\ data_ops (r_buffer r') /\ r_max_df r' = r_max_df r /\
  (exists pre, flat s = pre ++ flat s') /\
  (x = Err NoDataAvailable -> ended_or_close (flat s) (flat s')).
Proof.
  intros r s x r' s' Hc Hm HO H. rewrite recv_message_eq in H by auto.
  destruct (r_buffer r) as [|f0 buf] eqn:EB.
  2:{ eapply rmsg_nodata; eauto; rewrite EB; [discriminate|auto]. }
  destruct (recv_dataframe r s) as [y s1] eqn:ER.
  destruct (frame_read _ _ _ _ Hc Hm ER) as (Hc1 & HP & pre & HS).
  destruct y as [f|e| |];
    try (injection H as <- <- <-; rewrite EB; repeat split; eauto; try discriminate; fail).
  - apply parse_inv in HP. destruct HP as (key & Hk & HE & Hf & Hl).
    destruct (step [] f) as [[o|] b] eqn:ES.
    + injection H as <- <- <-. cbn [with_buffer r_buffer r_max_df].
      repeat split; eauto using step_ops. intros ->.
      apply step_nodata in ES; auto. destruct ES as (-> & Ho & Hr & Hd).
      right. exists [], (enc f key). split; [exact HE|]. apply close_enc; auto.
    + pose proof (step_ops _ _ _ _ HO ES) as HO'.
      assert (b <> []) as Hb'.
      { eapply step_none, ES. }
      apply rmsg_nodata in H; auto. destruct H as (A & B & C & (pre' & D) & F).
      repeat split; auto.
      * exists (pre ++ pre'). rewrite <- app_assoc. congruence.
      * intros Hx. rewrite HS. apply ended_or_close_before. auto.
  - injection H as <- <- <-. rewrite EB. repeat split; eauto. intros Hx. injection Hx as ->.
    left. eapply drains_parse, HP.
Qed.

Lemma recv_n_nodata : forall n r s xs r' s',
  clean s -> r_max_df r <= isize_max -> data_ops (r_buffer r) ->
  recv_n n r s = (xs ++ [Err NoDataAvailable], r', s') -> ended_or_close (flat s) (flat s').
Proof.
  induction n as [|n IH]; intros r s xs r' s' Hc Hm HO H; cbn [recv_n] in H.
  { destruct xs; discriminate. }
  destruct (recv_message r s) as [[x r1] s1] eqn:E.
  destruct (recv_nodata _ _ _ _ _ Hc Hm HO E) as (A & B & C & (pre & D) & F).
  destruct (recv_n n r1 s1) as [[ys r2] s2] eqn:E2.
  destruct xs as [|x0 xs]; cbn [app] in H.
  - injection H as -> Hy <- <-. destruct n as [|n]; [|].
    + cbn in E2. injection E2 as _ <- <-. auto.
    + cbn [recv_n] in E2. destruct (recv_message r1 s1) as [[x' r3] s3].
      destruct (recv_n n r3 s3) as [[ys' r4] s4]. injection E2 as E2 _ _. subst. discriminate.
  - injection H as _ Hy <- <-. rewrite D. apply ended_or_close_before.
    apply (IH r1 s1 xs r2 s2); auto; [lia|]. rewrite E2, Hy. reflexivity.
Qed.

Lemma recv_n_clean : forall n r s xs r' s',
  clean s -> r_max_df r <= isize_max -> data_ops (r_buffer r) ->
  recv_n n r s = (xs, r', s') -> clean s'.
Proof.
  induction n as [|n IH]; intros r s xs r' s' Hc Hm HO H; cbn [recv_n] in H; [congruence|].
  destruct (recv_message r s) as [[x r1] s1] eqn:E.
  destruct (recv_nodata _ _ _ _ _ Hc Hm HO E) as (A & B & C & (pre & D) & F).
  destruct (recv_n n r1 s1) as [[ys r2] s2] eqn:E2. injection H as _ <- <-.
  apply (IH r1 s1 ys r2 s2); auto. lia.
Qed.

(** ** Asynchronous *)

Lemma decode_parts : forall c src x src', df_decode c src = (x, src') ->
  x <> Err NoDataAvailable /\ (exists pre, src = pre ++ src') /\
  forall f, x = Ok (Some f) -> exists key, src = enc f key ++ src' /\ frame_ok f.
Proof.
  intros c src x src' H. pose proof (shrinks_parse (dc_is_server c) (dc_max c) src) as (pre & HS).
  pose proof (parse_inv (dc_is_server c) (dc_max c) src) as HI.
  rewrite df_decode_eq in H. unfold parse_frame in HS, HI.
  destruct (read_header lst_exact src) as [[h|e| |] r] eqn:E; cbn [sbind snd] in HS, HI.
  - destruct (dc_max c <? h_len h).
    { injection H as <- <-. repeat split; [discriminate|exists []; auto|discriminate]. }
    destruct (llen r <? h_len h).
    { injection H as <- <-. repeat split; [discriminate|exists []; auto|discriminate]. }
    injection H as <- <-. cbn [snd] in HS.
    pose proof (body_no_nodata h (take (h_len h) r) (dc_is_server c)) as HB.
    destruct (read_dataframe_body h (take (h_len h) r) (dc_is_server c)) as [f|e| |];
      cbn [opt_res rbind]; (repeat split; [congruence|eauto|]); try discriminate.
    intros f' Hf. injection Hf as <-. destruct (HI _ _ eq_refl) as (key & _ & A & B & _). eauto.
  - destruct e; injection H as <- <-; (repeat split; [discriminate|exists []; auto|discriminate]).
  - injection H as <- <-. repeat split; [discriminate|exists []; auto|discriminate].
  - injection H as <- <-. repeat split; [discriminate|exists []; auto|discriminate].
Qed.

Lemma mc_nodata : forall fuel c cur src x c' src',
  data_ops (mc_buffer c) -> mc_loop fuel c cur src = (x, c', src') ->
  data_ops (mc_buffer c') /\ (exists pre, src = pre ++ src') /\
  (x = Err NoDataAvailable -> exists pre w, src = pre ++ w ++ src' /\ one_byte_close w).
Proof.
  induction fuel as [|fuel IH]; intros c cur src x c' src' HO H.
  { cbn in H. injection H as <- <- <-. repeat split; auto; [exists []; auto|discriminate]. }
  rewrite mc_loop_step in H.
  destruct (df_decode (mc_df c) src) as [y src1] eqn:ED.
  destruct (decode_parts _ _ _ _ ED) as (HN & (pre & HS) & HF).
  destruct y as [[f|]|e| |];
    try (injection H as <- <- <-; repeat split; eauto; try discriminate; congruence).
  destruct (HF f eq_refl) as (key & HE & Hf).
  destruct (step (mc_buffer c) f) as [[o|] b] eqn:ES.
  - injection H as <- <- <-. cbn [mc_with_buffer mc_buffer].
    repeat split; eauto using step_ops. intros Hx.
    assert (o = Err NoDataAvailable) as ->.
    { unfold some_owned in Hx. destruct o; cbn [rbind] in Hx; congruence. }
    apply step_nodata in ES; auto. destruct ES as (-> & Ho & Hr & Hd).
    exists [], (enc f key). split; [exact HE|]. apply close_enc; auto.
  - pose proof (step_ops _ _ _ _ HO ES) as HO'.
    destruct (over (llen b)); [injection H as <- <- <-; repeat split; eauto; discriminate|].
    destruct (_ <? _); [injection H as <- <- <-; repeat split; eauto; discriminate|].
    apply IH in H; auto. destruct H as (A & (pre' & B) & C).
    repeat split; auto.
    + exists (pre ++ pre'). rewrite <- app_assoc. congruence.
    + intros Hx. destruct (C Hx) as (p & w & D1 & D2). exists (pre ++ p), w.
      rewrite <- app_assoc. split; [congruence|auto].
Qed.

Lemma decode_n_nodata : forall n c src xs c' src',
  data_ops (mc_buffer c) ->
  decode_n mc_decode n c src = (xs ++ [Err NoDataAvailable], c', src') ->
  exists pre w, src = pre ++ w ++ src' /\ one_byte_close w.
Proof.
  induction n as [|n IH]; intros c src xs c' src' HO H; cbn [decode_n] in H.
  { destruct xs; discriminate. }
  destruct (mc_decode c src) as [[x c1] s1] eqn:E.
  destruct (mc_nodata _ _ _ _ _ _ _ HO E) as (A & (pre & B) & C).
  destruct (decode_n mc_decode n c1 s1) as [[ys c2] s2] eqn:E2.
  destruct xs as [|x0 xs]; cbn [app] in H.
  - injection H as -> Hy <- <-. destruct n as [|n].
    + cbn in E2. injection E2 as _ <- <-. auto.
    + cbn [decode_n] in E2. destruct (mc_decode c1 s1) as [[x' c3] s3].
      destruct (decode_n mc_decode n c3 s3) as [[ys' c4] s4]. injection E2 as E2 _ _. subst. discriminate.
  - injection H as _ Hy <- <-.
    destruct (IH c1 s1 xs c2 s2 A) as (p & w & D1 & D2); [rewrite E2, Hy; reflexivity|].
    exists (pre ++ p), w. rewrite <- app_assoc. split; [congruence|auto].
Qed.

(** [C65] Blocking: the error [NoDataAvailable] means that the stream has ended, or that the
    frame just consumed was a Close frame whose payload is a single byte. *)
Lemma no_data_blocking_proof : forall masked max_df max_msg s l n xs r' s',
  carries s l ->
  recv_n n (receiver_with_limits masked max_df max_msg) s = (xs ++ [Err NoDataAvailable], r', s') ->
  exists l', carries s' l' /\
    (l' = [] \/
     exists before w a key, l = before ++ w ++ l' /\
       octets w = rfc_encode (rfc_of_frame (mk_df true no_rsv Close [a]) key)).
Proof.
  intros masked max_df max_msg s l n xs r' s' Hs H. apply carries_iff in Hs. destruct Hs as [Hc <-].
  assert (r_max_df (receiver_with_limits masked max_df max_msg) <= isize_max) as Hm.
  { cbn [receiver_with_limits r_max_df]. clear. unfold isize_max, u32_max. lia. }
  exists (flat s'). split.
  - apply carries_iff. split; [|reflexivity].
    apply recv_n_clean in H; auto. constructor.
  - apply recv_n_nodata in H; auto; [|constructor].
    destruct H as [H|(pre & w & H & a & key & Hw)]; [auto|]. right. exists pre, w, a, key. auto.
Qed.
(*EX
Example no_data_blocking_ex :
  recv_n 2 (receiver_with_limits false 100 100) [RData x81 [x01; x61]] =
    ([Ok (OText [x61]); Err NoDataAvailable], receiver_with_limits false 100 100, []).
Proof. vm_compute. reflexivity. Qed.
EX*)

(** [C65] Asynchronous: the codec asks for more bytes instead of failing when a frame is not
    complete, so here the error always means the latter. *)
Lemma no_data_async_proof : forall ctx max_df max_msg src n xs c' rest,
  decode_n mc_decode n (msg_codec_with_limits ctx max_df max_msg) src =
    (xs ++ [Err NoDataAvailable], c', rest) ->
  exists before w a key, src = before ++ w ++ rest /\
    octets w = rfc_encode (rfc_of_frame (mk_df true no_rsv Close [a]) key).
Proof.
  intros ctx max_df max_msg src n xs c' rest H.
  apply decode_n_nodata in H; [|constructor].
  destruct H as (pre & w & H & a & key & Hw). exists pre, w, a, key. auto.
Qed.
(*EX
Example no_data_async_ex :
  decode_n mc_decode 2 (msg_codec_with_limits CtxClient 100 100)
    [x81; x01; x61; x88; x01; x41; x81] =
    ([Ok (Some (OText [x61])); Err NoDataAvailable], msg_codec_with_limits CtxClient 100 100, [x81]).
Proof. vm_compute. reflexivity. Qed.
EX*)

(** [C65] So it does not mean that the stream has ended: after a Close frame with a payload of
    one byte, which RFC 6455 (5.5.1) does not allow and which should be reported as a protocol
    error, both sides report [NoDataAvailable] with messages still to come, which the next calls
    return. *)
Lemma no_data_is_the_end_refuted_proof :
  exists l,
    (forall s, carries s l -> exists s', carries s' [] /\
      recv_n 2 (receiver_new false) s =
        ([Err NoDataAvailable; Ok (OText [x61])], receiver_new false, s')) /\
    decode_n mc_decode 2 (msg_codec_new CtxClient) l =
      ([Err NoDataAvailable; Ok (Some (OText [x61]))], msg_codec_new CtxClient, []).
Proof.
  exists [x88; x01; x41; x81; x01; x61]. split; [|vm_compute; reflexivity].
  intros s Hs.
  destruct (recv_n_complete (receiver_new false) s
    [mk_df true no_rsv Close [x41]; mk_df true no_rsv Text [x61]]
    [x88; x01; x41; x81; x01; x61] [] [Err NoDataAvailable; Ok (OText [x61])])
    as (s' & E1 & E2).
  - exact Hs.
  - apply (wire_cons _ _ None [x88; x01; x41] _ [x81; x01; x61]); [reflexivity..|].
    apply (wire_cons _ _ None [x81; x01; x61] _ []); [reflexivity..|]. constructor.
  - repeat constructor; vm_compute; discriminate.
  - vm_compute. discriminate.
  - vm_compute. exact I.
  - vm_compute. reflexivity.
  - exists s'. split; [exact E2|exact E1].
Qed.
