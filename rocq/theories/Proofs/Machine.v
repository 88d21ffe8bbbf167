(** The reassembly machine both receivers implement, without limits, and the two
    refinements to it under limits. *)
From Coq Require Import NArith ZArith String Bool List Lia.
From Coq Require Import ZifyBool ZifyNat ZifyN.
From Coq.Strings Require Import Byte.
From Verif.Model Require Import Base Io Header Mask Dataframe Utf8 Message Receiver Codec Framed.
From Verif.Proofs Require Import BaseFacts MaskFacts HeaderFacts FrameFacts CodecFacts.
Import ListNotations.
Local Open Scope string_scope.
Local Open Scope list_scope.
Local Open Scope N_scope.

Definition e_cont : ws_error := ProtocolError "Unexpected continuation data frame opcode".
Definition e_data : ws_error := ProtocolError "Unexpected data frame opcode".
Definition e_count : ws_error :=
  ProtocolError "Exceeded count of data frames in one WebSocket message".
Definition e_size : ws_error := ProtocolError "Exceeded maximum WebSocket message size".

Definition is_nil {A : Type} (l : list A) : bool := match l with [] => true | _ => false end.

(** One frame. *)
Definition step (buf : list dataframe) (f : dataframe)
  : option (result owned ws_error) * list dataframe :=
  let op := op_u8 (f_opcode f) in
  if (op =? 0) && is_nil buf then (Some (Err e_cont), buf)
  else if 8 <=? op then (Some (owned_from_dataframes [df_ops f]), buf)
  else if (1 <=? op) && negb (is_nil buf) then (Some (Err e_data), buf)
  else if f_finished f then
    (Some (owned_from_dataframes (map df_ops (buf ++ [f]))), [])
  else (None, buf ++ [f]).

(** Size accounting of both receivers. *)
Definition weight (l : list dataframe) : N :=
  fold_right (fun f acc => llen (f_data f) + PER_DATAFRAME_OVERHEAD + acc) 0 l.

Lemma weight_app : forall l l', weight (l ++ l') = weight l + weight l'.
Proof. induction l as [|f l IH]; intros l'; cbn [app weight fold_right]; auto. fold (weight (l++l')) (weight l). rewrite IH. lia. Qed.

Lemma data_total_app : forall l l', data_total (l ++ l') = data_total l + data_total l'.
Proof.
  intros l l'. unfold data_total. rewrite fold_left_app.
  assert (H : forall m a, fold_left (fun acc f => acc + llen (f_data f)) m a
     = a + fold_left (fun acc f => acc + llen (f_data f)) m 0).
  { induction m as [|f m IH]; intros a; cbn; [lia|]. rewrite IH. rewrite (IH (llen (f_data f))). lia. }
  rewrite H. reflexivity.
Qed.
Lemma data_total_1 : forall f, data_total [f] = llen (f_data f).
Proof. reflexivity. Qed.
Lemma data_total_weight : forall l, data_total l <= weight l.
Proof.
  induction l as [|f l IH] using rev_ind; [reflexivity|].
  rewrite data_total_app, weight_app, data_total_1. cbn [weight fold_right]. lia.
Qed.

(** Reading frames up to the first result. *)
Fixpoint advance (buf : list dataframe) (fs : list dataframe)
  : option (result owned ws_error * list dataframe * list dataframe) :=
  match fs with
  | [] => None
  | f :: fs' =>
      match step buf f with
      | (Some o, buf') => Some (o, buf', fs')
      | (None, buf') => advance buf' fs'
      end
  end.

(** All results, and the frames left in the buffer. *)
Fixpoint results (buf : list dataframe) (fs : list dataframe)
  : list (result owned ws_error) * list dataframe :=
  match fs with
  | [] => ([], buf)
  | f :: fs' =>
      match step buf f with
      | (Some o, buf') => let '(l, b) := results buf' fs' in (o :: l, b)
      | (None, buf') => results buf' fs'
      end
  end.

(** The limits are never hit: at every unfinished point the frame count and the
    weight are below the limits. *)
Fixpoint within (lim : N) (buf : list dataframe) (fs : list dataframe) : Prop :=
  match fs with
  | [] => True
  | f :: fs' =>
      match step buf f with
      | (Some o, buf') => within lim buf' fs'
      | (None, buf') =>
          llen buf' < MAX_DATAFRAMES_IN_ONE_MESSAGE /\ weight buf' < lim /\ within lim buf' fs'
      end
  end.

Lemma results_advance : forall fs buf,
  results buf fs =
  match advance buf fs with
  | Some (o, buf', fs') => let '(l, b) := results buf' fs' in (o :: l, b)
  | None => ([], snd (results buf fs))
  end.
Proof.
  induction fs as [|f fs IH]; intros buf; cbn [results advance]; [reflexivity|].
  destruct (step buf f) as [[o|] buf']; [reflexivity|]. apply IH.
Qed.
Lemma within_advance : forall lim fs buf o buf' fs',
  within lim buf fs -> advance buf fs = Some (o, buf', fs') -> within lim buf' fs'.
Proof.
  induction fs as [|f fs IH]; intros buf o buf' fs' HW HA; cbn in *; [discriminate|].
  destruct (step buf f) as [[o1|] b1].
  - injection HA as <- <- <-. exact HW.
  - eapply IH; [apply HW | exact HA].
Qed.
Lemma advance_suffix : forall fs buf o buf' fs',
  advance buf fs = Some (o, buf', fs') ->
  exists pre, fs = pre ++ fs' /\ (0 < length pre)%nat.
Proof.
  induction fs as [|f fs IH]; intros buf o buf' fs' HA; cbn in *; [discriminate|].
  destruct (step buf f) as [[o1|] b1].
  - injection HA as <- <- <-. exists [f]. split; [reflexivity | cbn; lia].
  - apply IH in HA. destruct HA as (pre & -> & _). exists (f :: pre).
    split; [reflexivity | cbn; lia].
Qed.

(** ** Frames on the wire *)
Definition keyed := (dataframe * option mkey)%type.
Definition encs (l : list keyed) : bytes := concat (map (fun p => enc (fst p) (snd p)) l).
Definition wire_ok (masked : bool) (max_df : N) (l : list keyed) : Prop :=
  Forall (fun p => frame_ok (fst p) /\ llen (f_data (fst p)) <= max_df
                   /\ is_some (snd p) = masked) l.

Lemma encs_cons : forall p l, encs (p :: l) = enc (fst p) (snd p) ++ encs l.
Proof. reflexivity. Qed.
Lemma encs_app : forall l l', encs (l ++ l') = encs l ++ encs l'.
Proof. intros. unfold encs. rewrite map_app, concat_app. reflexivity. Qed.

(** ** The blocking receiver *)
Lemma recv_dataframe_enc : forall r s f key rest,
  clean s -> flat s = enc f key ++ rest -> frame_ok f -> llen (f_data f) <= r_max_df r ->
  is_some key = r_mask r -> r_max_df r <= u32_max ->
  exists s', recv_dataframe r s = (Ok f, s') /\ clean s' /\ flat s' = rest.
Proof.
  intros r s f key rest Hc Hf Hok Hl Hk Hm. unfold recv_dataframe.
  destruct (read_with_limit_script (r_mask r) (r_max_df r) s Hc) as [H1 H2].
  { unfold u32_max, isize_max in *. lia. }
  rewrite Hf, <- Hk, parse_enc in H1, H2 by assumption.
  rewrite <- Hk. destruct (read_dataframe_with_limit (is_some key) (r_max_df r) s) as [x s'].
  cbn [fst snd] in *. destruct H2 as [H2 H3]. exists s'. subst x. auto.
Qed.

Lemma script_bytes_flat : forall s, script_bytes s = length (flat s).
Proof.
  induction s as [|[b bs| | |k] s IH]; cbn [script_bytes flat app]; auto.
  cbn [length]. rewrite app_length, IH. lia.
Qed.

Lemma with_buffer_twice : forall r b b', with_buffer (with_buffer r b) b' = with_buffer r b'.
Proof. reflexivity. Qed.
Lemma with_buffer_same : forall r, with_buffer r (r_buffer r) = r.
Proof. intros []; reflexivity. Qed.

(** The loop, on a stream of good frames that leads to a result. *)
Lemma recv_loop_run : forall l fuel r cur s rest o buf' fs',
  clean s -> flat s = encs l ++ rest -> (length (flat s) < fuel)%nat ->
  wire_ok (r_mask r) (r_max_df r) l -> r_max_df r <= u32_max ->
  r_buffer r <> [] -> cur <= weight (r_buffer r) ->
  within (r_max_msg r) (r_buffer r) (map fst l) ->
  advance (r_buffer r) (map fst l) = Some (o, buf', fs') ->
  exists l' s' x,
    recv_loop fuel r cur s = (x, with_buffer r buf', s') /\
    fs' = map fst l' /\ (exists pre, l = pre ++ l') /\ clean s' /\ flat s' = encs l' ++ rest /\
    match x with
    | Ok frames => o = owned_from_dataframes (map df_ops frames)
    | Err e => o = Err e
    | _ => False
    end.
Proof.
  induction l as [|[f key] l IH];
    intros fuel r cur s rest o buf' fs' Hc Hf Hfuel Hw Hm Hnil Hcur Hwi Ha;
    cbn [map fst advance] in Ha; [discriminate|].
  inversion Hw as [|p l0 (Hok & Hlen & Hkey) Hw']; subst p l0. cbn [fst snd] in *.
  rewrite encs_cons in Hf. cbn [fst snd] in Hf. rewrite <- app_assoc in Hf.
  destruct fuel as [|fuel]; [lia|]. cbn [recv_loop].
  destruct (recv_dataframe_enc r s f key _ Hc Hf Hok Hlen Hkey Hm) as (s1 & E1 & Hc1 & Hf1).
  rewrite E1.
  assert (Hfuel' : (length (flat s1) < fuel)%nat).
  { rewrite Hf1. rewrite Hf in Hfuel. pose proof (enc_len_pos f key) as HP.
    rewrite app_length in Hfuel. unfold llen in HP. lia. }
  cbn [map fst within] in Hwi. unfold step in Ha, Hwi.
  assert (Hn : is_nil (r_buffer r) = false) by (destruct (r_buffer r); [contradiction|reflexivity]).
  rewrite Hn in Ha, Hwi. cbn [negb] in Ha, Hwi. rewrite andb_false_r, andb_true_r in Ha, Hwi.
  cbv zeta. pose proof (op_u8_lt (f_opcode f)) as Hop.
  destruct (N.eqb_spec (op_u8 (f_opcode f)) 0) as [E0|E0].
  - assert (X1 : 8 <=? op_u8 (f_opcode f) = false) by lia.
    assert (X2 : 1 <=? op_u8 (f_opcode f) = false) by lia.
    rewrite X1, X2 in Ha, Hwi.
    destruct (f_finished f) eqn:Efin.
    + injection Ha as <- <- <-.
      exists l, s1, (Ok (r_buffer r ++ [f])). cbn [with_buffer r_buffer r_mask r_max_df r_max_msg].
      split; [reflexivity|]. split; [reflexivity|]. split; [exists [(f, key)]; reflexivity|].
      auto.
    + cbn in Hwi. destruct Hwi as (Hcount & Hweight & Hwi).
      cbn [with_buffer r_buffer r_mask r_max_df r_max_msg].
      destruct (N.leb_spec MAX_DATAFRAMES_IN_ONE_MESSAGE (llen (r_buffer r ++ [f]))); [lia|].
      rewrite weight_app in Hweight. cbn [weight fold_right] in Hweight.
      destruct (N.leb_spec (r_max_msg r) (cur + (llen (f_data f) + PER_DATAFRAME_OVERHEAD))); [lia|].
      set (r' := mk_recv (r_buffer r ++ [f]) (r_mask r) (r_max_df r) (r_max_msg r)).
      edestruct (IH fuel r' (cur + (llen (f_data f) + PER_DATAFRAME_OVERHEAD)) s1 rest)
        as (l' & s' & x & G1 & G2 & (pre & G3) & G4 & G5 & G6); eauto.
      * cbn. destruct (r_buffer r); discriminate.
      * cbn [r' r_buffer]. rewrite weight_app. cbn [weight fold_right]. lia.
      * exists l', s', x. split; [exact G1|]. split; [exact G2|].
        split; [exists ((f, key) :: pre); rewrite G3; reflexivity|]. auto.
  - destruct (N.leb_spec 8 (op_u8 (f_opcode f))) as [H8|H8].
    + injection Ha as <- <- <-.
      destruct (N.leb_spec (op_u8 (f_opcode f)) 15); [|lia]. cbn [andb].
      exists l, s1, (Ok [f]). rewrite with_buffer_same.
      split; [reflexivity|]. split; [reflexivity|]. split; [exists [(f, key)]; reflexivity|]. auto.
    + assert (X2 : 1 <=? op_u8 (f_opcode f) = true) by lia. rewrite X2 in Ha.
      injection Ha as <- <- <-. cbn [andb].
      exists l, s1, (Err e_data). rewrite with_buffer_same.
      split; [reflexivity|]. split; [reflexivity|]. split; [exists [(f, key)]; reflexivity|]. auto.
Qed.

Lemma opcode_not_cont : forall A o (x y : A), op_u8 o <> 0 ->
  match o with Continuation => x | _ => y end = y.
Proof. intros A [] x y H; auto. contradiction H. reflexivity. Qed.

(** One [recv_message] call. *)
Lemma recv_message_advance : forall l r s rest o buf' fs',
  clean s -> flat s = encs l ++ rest ->
  wire_ok (r_mask r) (r_max_df r) l -> r_max_df r <= u32_max ->
  within (r_max_msg r) (r_buffer r) (map fst l) ->
  advance (r_buffer r) (map fst l) = Some (o, buf', fs') ->
  exists l' s', recv_message r s = (o, with_buffer r buf', s') /\
    fs' = map fst l' /\ (exists pre, l = pre ++ l') /\ clean s' /\ flat s' = encs l' ++ rest.
Proof.
  intros l r s rest o buf' fs' Hc Hf Hw Hm Hwi Ha.
  assert (Hfin : forall l r cur s, clean s -> flat s = encs l ++ rest ->
    wire_ok (r_mask r) (r_max_df r) l -> r_max_df r <= u32_max -> r_buffer r <> [] ->
    cur <= weight (r_buffer r) ->
    within (r_max_msg r) (r_buffer r) (map fst l) ->
    advance (r_buffer r) (map fst l) = Some (o, buf', fs') ->
    exists l' s', match recv_loop (S (script_bytes s)) r cur s with
      | (Ok frames, r', s') => (owned_from_dataframes (map df_ops frames), r', s')
      | (Err e, r', s') => (Err e, r', s')
      | (Panic, r', s') => (Panic, r', s')
      | (OutOfFuel, r', s') => (OutOfFuel, r', s')
      end = (o, with_buffer r buf', s') /\
      fs' = map fst l' /\ (exists pre, l = pre ++ l') /\ clean s' /\ flat s' = encs l' ++ rest).
  { clear. intros l r cur s Hc Hf Hw Hm Hn Hcur Hwi Ha.
    destruct (recv_loop_run l (S (script_bytes s)) r cur s rest o buf' fs')
      as (l' & s' & x & G1 & G2 & G3 & G4 & G5 & G6); auto.
    { rewrite script_bytes_flat. lia. }
    exists l', s'. rewrite G1. destruct x; try contradiction; subst o; auto. }
  unfold recv_message, recv_message_dataframes.
  destruct (r_buffer r) as [|b0 bt] eqn:EB.
  - destruct l as [|[f key] l]; [discriminate|].
    cbn [map fst advance] in Ha. cbn [map fst within] in Hwi.
    inversion Hw as [|p l0 (Hok & Hlen & Hkey) Hw']; subst p l0. cbn [fst snd] in *.
    rewrite encs_cons in Hf. cbn [fst snd] in Hf. rewrite <- app_assoc in Hf.
    destruct (recv_dataframe_enc r s f key _ Hc Hf Hok Hlen Hkey Hm) as (s1 & E1 & Hc1 & Hf1).
    rewrite E1. unfold step in Ha, Hwi. cbn [is_nil negb] in Ha, Hwi.
    rewrite andb_true_r, andb_false_r in Ha, Hwi.
    destruct (N.eqb_spec (op_u8 (f_opcode f)) 0) as [E0|E0].
    + assert (EC : f_opcode f = Continuation) by (destruct (f_opcode f); try discriminate; reflexivity).
      rewrite EC. injection Ha as <- <- <-. exists l, s1.
      rewrite <- EB, with_buffer_same.
      split; [reflexivity|]. split; [reflexivity|].
      split; [exists [(f, key)]; reflexivity|]. auto.
    + rewrite opcode_not_cont by exact E0.
      cbn [data_total fold_left]. cbn [with_buffer r_buffer r_mask r_max_df r_max_msg].
      destruct (N.leb_spec 8 (op_u8 (f_opcode f))) as [H8|H8].
      * destruct (proj2 Hok H8) as [_ Hfin1]. rewrite Hfin1.
        injection Ha as <- <- <-. exists l, s1.
        split; [reflexivity|]. split; [reflexivity|].
        split; [exists [(f, key)]; reflexivity|]. auto.
      * destruct (f_finished f) eqn:Efin.
        -- injection Ha as <- <- <-. exists l, s1.
           split; [reflexivity|]. split; [reflexivity|].
           split; [exists [(f, key)]; reflexivity|]. auto.
        -- cbn [app] in *. destruct Hwi as (Hcount & Hweight & Hwi).
           destruct (Hfin l (mk_recv [f] (r_mask r) (r_max_df r) (r_max_msg r))
             (0 + (llen (f_data f) + PER_DATAFRAME_OVERHEAD)) s1)
             as (l' & s' & G1 & G2 & (pre & G3) & G4 & G5); auto.
           { discriminate. }
           { cbn [r_buffer weight fold_right]. lia. }
           exists l', s'. split; [exact G1|]. split; [exact G2|].
           split; [exists ((f, key) :: pre); rewrite G3; reflexivity|]. auto.
  - rewrite <- EB in *. apply Hfin; auto.
    + rewrite EB. discriminate.
    + apply data_total_weight.
Qed.

Lemma wire_ok_app_r : forall m d pre l, wire_ok m d (pre ++ l) -> wire_ok m d l.
Proof. intros m d pre l H. unfold wire_ok in *. rewrite Forall_app in H. apply H. Qed.

(** A sequence of results and the state after the last of them. *)
Inductive runs : list dataframe -> list dataframe -> list (result owned ws_error) ->
                 list dataframe -> list dataframe -> Prop :=
| runs_nil : forall buf fs, runs buf fs [] buf fs
| runs_cons : forall buf fs o buf1 fs1 os buf2 fs2,
    advance buf fs = Some (o, buf1, fs1) -> runs buf1 fs1 os buf2 fs2 ->
    runs buf fs (o :: os) buf2 fs2.

(** Any number of calls: exactly the results of the machine, in order. *)
Lemma recv_n_runs : forall buf fs os buf2 fs2,
  runs buf fs os buf2 fs2 ->
  forall l r s rest, map fst l = fs -> r_buffer r = buf ->
  clean s -> flat s = encs l ++ rest ->
  wire_ok (r_mask r) (r_max_df r) l -> r_max_df r <= u32_max ->
  within (r_max_msg r) buf fs ->
  exists s' l2, recv_n (length os) r s = (os, with_buffer r buf2, s')
    /\ fs2 = map fst l2 /\ (exists pre, l = pre ++ l2) /\ clean s' /\ flat s' = encs l2 ++ rest.
Proof.
  intros buf fs os buf2 fs2 H.
  induction H as [buf fs|buf fs o buf1 fs1 os buf2 fs2 HA HR IH];
    intros l r s rest Hl Hb Hc Hf Hw Hm Hwi.
  - exists s, l. cbn. subst. rewrite with_buffer_same.
    split; [reflexivity|]. split; [reflexivity|]. split; [exists []; reflexivity|]. auto.
  - subst buf fs.
    destruct (recv_message_advance l r s rest o buf1 fs1 Hc Hf Hw Hm Hwi HA)
      as (l1 & s1 & E1 & E2 & (pre & E3) & Hc1 & Hf1).
    destruct (IH l1 (with_buffer r buf1) s1 rest) as (s2 & l2 & F1 & F2 & (pre2 & F3) & F4 & F5); auto.
    + cbn. subst l. eapply wire_ok_app_r; eauto.
    + cbn. subst fs1. eapply within_advance; eauto.
    + exists s2, l2. cbn [length recv_n]. rewrite E1, F1, with_buffer_twice.
      split; [reflexivity|]. split; [exact F2|].
      split; [exists (pre ++ pre2); subst l l1; apply app_assoc|]. auto.
Qed.
