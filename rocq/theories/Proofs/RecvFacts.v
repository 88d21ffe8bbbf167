(** The receivers on arbitrary input. *)
From Coq Require Import NArith ZArith String Bool List Lia.
From Coq Require Import ZifyBool ZifyNat ZifyN.
From Coq.Strings Require Import Byte.
From Verif.Model Require Import Base Io Header Mask Dataframe Utf8 Message Receiver Codec Framed.
From Verif.Spec Require Import RfcFrame FrameSpec Unicode Session Schedule Drive.
From Verif.Proofs Require Import BaseFacts MaskFacts HeaderFacts FrameFacts CodecFacts ScriptFacts
  Machine FramedFacts AsyncFacts Utf8Facts ThmFrames SessionFacts.
Import ListNotations.
Local Open Scope string_scope.
Local Open Scope list_scope.
Local Open Scope N_scope.

(** ** The machine once more *)
Lemma wire_ok_1 : forall m d f key, is_some key = m -> frame_ok f -> llen (f_data f) <= d ->
  wire_ok m d [(f, key)].
Proof. intros. constructor; [cbn; auto|constructor]. Qed.
Lemma step_none : forall buf f b, step buf f = (None, b) ->
  b = buf ++ [f] /\ op_u8 (f_opcode f) < 8 /\ f_finished f = false.
Proof.
  intros buf f b H. unfold step in H. destruct (_ && _); [discriminate|].
  destruct (N.leb_spec 8 (op_u8 (f_opcode f))); [discriminate|].
  destruct (_ && _); [discriminate|]. destruct (f_finished f); [discriminate|].
  injection H as <-. auto.
Qed.
Lemma step_some : forall buf f o b, step buf f = (Some o, b) ->
  (b = buf /\ (o = Err e_cont \/ o = Err e_data \/
     (8 <= op_u8 (f_opcode f) /\ o = owned_from_dataframes [df_ops f]))) \/
  (b = [] /\ o = owned_from_dataframes (map df_ops (buf ++ [f]))).
Proof.
  intros buf f o b H. unfold step in H. destruct (_ && _); [injection H as <- <-; auto|].
  destruct (N.leb_spec 8 (op_u8 (f_opcode f))); [injection H as <- <-; auto 6|].
  destruct (_ && _); [injection H as <- <-; auto|]. destruct (f_finished f); [|discriminate].
  injection H as <- <-. auto.
Qed.
Lemma advance_app_results : forall fs1 buf o b fs2,
  advance buf fs1 = Some (o, b, []) ->
  results buf (fs1 ++ fs2) = (let '(l, b2) := results b fs2 in (o :: l, b2)).
Proof.
  induction fs1 as [|f fs1 IH]; intros buf o b fs2 H; cbn [advance app results] in *; [discriminate|].
  destruct (step buf f) as [[o1|] b1].
  - injection H as -> -> ->. reflexivity.
  - apply IH. exact H.
Qed.
Lemma results_app : forall fs1 buf os b fs2, results buf fs1 = (os, b) ->
  results buf (fs1 ++ fs2) = (let '(l, b2) := results b fs2 in (os ++ l, b2)).
Proof.
  induction fs1 as [|f fs1 IH]; intros buf os b fs2 H; cbn [app results] in *.
  - injection H as <- <-. destruct (results buf fs2). reflexivity.
  - destruct (step buf f) as [[o1|] b1].
    + destruct (results b1 fs1) as [l bb] eqn:E. injection H as <- <-.
      rewrite (IH _ _ _ fs2 E). destruct (results bb fs2). reflexivity.
    + apply IH. exact H.
Qed.

Lemma owned_from_payload : forall fs m, owned_from_dataframes (map df_ops fs) = Ok m ->
  size (payload_of m) = data_total fs /\ typed m.
Proof.
  intros fs m H. destruct fs as [|f fs]; [discriminate|].
  unfold owned_from_dataframes, from_dataframes in H.
  change (map df_ops (f :: fs)) with (df_ops f :: map df_ops fs) in H. cbv beta iota in H.
  change (df_ops f :: map df_ops fs) with (map df_ops (f :: fs)) in H.
  destruct (gather 0 [] (map df_ops (f :: fs))) as [d|e| |] eqn:EG; try discriminate.
  apply gather_first in EG as (Ed & _ & _). cbn [rbind] in H.
  assert (size d = data_total (f :: fs)) as Hd.
  { subst d. clear. generalize (f :: fs). clear. induction l as [|f l IH]; [reflexivity|].
    cbn [map concat]. change (f :: l) with ([f] ++ l). rewrite data_total_app, data_total_1, <- IH.
    unfold size, llen. rewrite app_length. lia. }
  cbn [df_ops df_opcode] in H. rewrite opcode_new_u8 in H.
  destruct (f_opcode f); try discriminate.
  - destruct (utf8_valid d) eqn:EU; [|discriminate].
    cbn [rbind to_owned msg_text m_opcode m_payload] in H. rewrite utf8_lossy_id in H by exact EU.
    injection H as <-. split; [exact Hd|]. apply utf8_valid_iff in EU. exact EU.
  - injection H as <-. split; [exact Hd|exact I].
  - destruct d as [|a [|b r]]; try discriminate.
    + injection H as <-. split; [exact Hd|exact I].
    + destruct (utf8_valid r) eqn:EU; [|discriminate].
      cbn [rbind to_owned msg_close_because m_opcode m_payload m_status] in H.
      rewrite utf8_lossy_id in H by exact EU. injection H as <-. split; [exact Hd|].
      cbn [typed c_status c_reason]. split; [|apply utf8_valid_iff, EU].
      unfold of_be. cbn [fold_left]. pose proof (b2n_lt a). pose proof (b2n_lt b). lia.
  - injection H as <-. split; [exact Hd|exact I].
  - injection H as <-. split; [exact Hd|exact I].
Qed.

(** ** The blocking receiver *)
Definition post (x : result (list dataframe) ws_error * receiver * script)
  : result owned ws_error * receiver * script :=
  match x with
  | (Ok frames, r', s') => (owned_from_dataframes (map df_ops frames), r', s')
  | (Err e, r', s') => (Err e, r', s')
  | (Panic, r', s') => (Panic, r', s')
  | (OutOfFuel, r', s') => (OutOfFuel, r', s')
  end.
Definition rmsg (fuel : nat) (r : receiver) (cur : N) (s : script) := post (recv_loop fuel r cur s).

Lemma rmsg_step : forall fuel r cur s, r_buffer r <> [] ->
  rmsg (S fuel) r cur s =
  match recv_dataframe r s with
  | (Ok f, s') =>
      match step (r_buffer r) f with
      | (Some o, b) => (o, with_buffer r b, s')
      | (None, b) =>
          if over (llen b) then (Err e_count, with_buffer r b, s')
          else if r_max_msg r <=? cur + (llen (f_data f) + PER_DATAFRAME_OVERHEAD)
          then (Err e_size, with_buffer r b, s')
          else rmsg fuel (with_buffer r b) (cur + (llen (f_data f) + PER_DATAFRAME_OVERHEAD)) s'
      end
  | (Err e, s') => (Err e, r, s')
  | (Panic, s') => (Panic, r, s')
  | (OutOfFuel, s') => (OutOfFuel, r, s')
  end.
Proof.
  intros fuel r cur s Hn. unfold rmsg. cbn [recv_loop].
  destruct (recv_dataframe r s) as [[f|e| |] s']; try reflexivity.
  assert (is_nil (r_buffer r) = false) as Hnil by (destruct (r_buffer r); [contradiction|reflexivity]).
  unfold step. rewrite Hnil. cbn [negb]. rewrite andb_false_r, andb_true_r.
  pose proof (op_u8_lt (f_opcode f)) as Hop.
  destruct (N.eqb_spec (op_u8 (f_opcode f)) 0) as [E|E].
  - rewrite E. cbn [N.leb N.compare]. cbn [with_buffer r_buffer r_mask r_max_df r_max_msg].
    destruct (f_finished f); [reflexivity|].
    unfold over. destruct (_ <=? _); [reflexivity|]. destruct (_ <=? _); reflexivity.
  - destruct (N.leb_spec 8 (op_u8 (f_opcode f))).
    + destruct (N.leb_spec (op_u8 (f_opcode f)) 15); [|lia]. cbn [andb post].
      rewrite with_buffer_same. reflexivity.
    + cbn [andb]. destruct (N.leb_spec 1 (op_u8 (f_opcode f))); [|lia].
      rewrite with_buffer_same. reflexivity.
Qed.

Lemma recv_message_eq : forall r s, r_max_df r <= isize_max ->
  recv_message r s =
  match r_buffer r with
  | _ :: _ => rmsg (S (script_bytes s)) r (data_total (r_buffer r)) s
  | [] =>
      match recv_dataframe r s with
      | (Ok f, s') =>
          match step [] f with
          | (Some o, b) => (o, with_buffer r b, s')
          | (None, b) => rmsg (S (script_bytes s')) (with_buffer r b)
                           (llen (f_data f) + PER_DATAFRAME_OVERHEAD) s'
          end
      | (Err e, s') => (Err e, r, s')
      | (Panic, s') => (Panic, r, s')
      | (OutOfFuel, s') => (OutOfFuel, r, s')
      end
  end.
Proof.
  intros r s Hm. unfold recv_message, recv_message_dataframes.
  destruct (r_buffer r) as [|b0 bt] eqn:EB; [|reflexivity].
  pose proof (read_limit_any (r_mask r) (r_max_df r) s Hm) as HA.
  unfold recv_dataframe in *.
  destruct (read_dataframe_with_limit (r_mask r) (r_max_df r) s) as [[f|e| |] s']; try reflexivity.
  destruct HA as (key & _ & _ & Hok & _). unfold step. cbn [is_nil negb].
  rewrite andb_true_r, andb_false_r. cbn [data_total fold_left app].
  cbn [with_buffer r_buffer r_mask r_max_df r_max_msg].
  destruct (N.eqb_spec (op_u8 (f_opcode f)) 0) as [E|E].
  - assert (f_opcode f = Continuation) as -> by (destruct (f_opcode f); try discriminate; reflexivity).
    rewrite <- EB, with_buffer_same. reflexivity.
  - rewrite opcode_not_cont by exact E. rewrite N.add_0_l.
    destruct (N.leb_spec 8 (op_u8 (f_opcode f))) as [H8|H8].
    + destruct (proj2 Hok H8) as [_ ->]. reflexivity.
    + destruct (f_finished f); reflexivity.
Qed.

Lemma recv_dataframe_len : forall r s f s', r_max_df r <= isize_max ->
  recv_dataframe r s = (Ok f, s') -> exists key, flat s = enc f key ++ flat s' /\
    is_some key = r_mask r /\ frame_ok f /\ llen (f_data f) <= r_max_df r /\
    (length (flat s') < length (flat s))%nat.
Proof.
  intros r s f s' Hm H. pose proof (read_limit_any (r_mask r) (r_max_df r) s Hm) as HA.
  unfold recv_dataframe in H. rewrite H in HA. destruct HA as (key & H1 & H2 & H3 & H4).
  exists key. repeat split; auto; try apply H3; auto. rewrite H1, app_length.
  pose proof (enc_len_pos f key) as HP. unfold llen in HP. lia.
Qed.
Lemma recv_dataframe_total : forall r s, r_max_df r <= isize_max ->
  match fst (recv_dataframe r s) with Panic => False | OutOfFuel => False | _ => True end.
Proof.
  intros r s Hm. pose proof (read_limit_any (r_mask r) (r_max_df r) s Hm) as HA.
  unfold recv_dataframe.
  destruct (read_dataframe_with_limit _ _ _) as [[f|e| |] ?]; cbn [fst]; auto.
Qed.

Definition msg_post (r : receiver) (s : script) (x : result owned ws_error * receiver * script) : Prop :=
  match x with
  | (Ok m, r', s') => exists l : list keyed, flat s = encs l ++ flat s' /\
      wire_ok (r_mask r) (r_max_df r) l /\
      advance (r_buffer r) (map fst l) = Some (Ok m, r_buffer r', []) /\
      r' = with_buffer r (r_buffer r')
  | (Err _, r', s') => r' = with_buffer r (r_buffer r')
  | _ => False
  end.

Lemma rmsg_any : forall fuel r cur s, (length (flat s) < fuel)%nat -> r_max_df r <= isize_max ->
  r_buffer r <> [] -> msg_post r s (rmsg fuel r cur s).
Proof.
  induction fuel as [|fuel IH]; intros r cur s Hf Hm Hn; [lia|].
  rewrite rmsg_step by exact Hn. pose proof (recv_dataframe_total r s Hm) as HT.
  destruct (recv_dataframe r s) as [[f|e| |] s'] eqn:E; cbn [fst] in HT; try contradiction.
  - apply recv_dataframe_len in E as (key & E1 & E2 & E3 & E4 & E5); [|exact Hm].
    assert (wire_ok (r_mask r) (r_max_df r) [(f, key)]) as HW by (apply wire_ok_1; auto).
    destruct (step (r_buffer r) f) as [[o|] b] eqn:ES.
    + destruct (step_total _ _ _ _ ES) as [[m ->]|[e ->]].
      * exists [(f, key)]. cbn [msg_post encs map concat fst snd with_buffer r_buffer advance].
        rewrite app_nil_r, ES. auto.
      * cbn. reflexivity.
    + pose proof (step_none _ _ _ ES) as (-> & _ & _).
      destruct (over _); [reflexivity|]. destruct (_ <=? _); [reflexivity|].
      specialize (IH (with_buffer r (r_buffer r ++ [f]))
        (cur + (llen (f_data f) + PER_DATAFRAME_OVERHEAD)) s' ltac:(lia) Hm
        ltac:(cbn; destruct (r_buffer r); discriminate)).
      destruct (rmsg fuel _ _ s') as [[[m|e| |] r'] s2]; try contradiction; [|exact IH].
      destruct IH as (l & I1 & I2 & I3 & I4). exists ((f, key) :: l).
      cbn [map fst advance]. rewrite encs_cons, ES. cbn [fst snd].
      rewrite <- app_assoc, <- I1. repeat split; auto.
      constructor; [inversion HW; assumption|exact I2].
  - cbn. rewrite with_buffer_same. reflexivity.
Qed.
Lemma recv_message_any : forall r s, r_max_df r <= isize_max -> msg_post r s (recv_message r s).
Proof.
  intros r s Hm. rewrite recv_message_eq by exact Hm. destruct (r_buffer r) as [|b0 bt] eqn:EB.
  - pose proof (recv_dataframe_total r s Hm) as HT.
    destruct (recv_dataframe r s) as [[f|e| |] s'] eqn:E; cbn [fst] in HT; try contradiction.
    + apply recv_dataframe_len in E as (key & E1 & E2 & E3 & E4 & E5); [|exact Hm].
      assert (wire_ok (r_mask r) (r_max_df r) [(f, key)]) as HW by (apply wire_ok_1; auto).
      destruct (step [] f) as [[o|] b] eqn:ES.
      * destruct (step_total _ _ _ _ ES) as [[m ->]|[e ->]].
        -- exists [(f, key)]. cbn [msg_post encs map concat fst snd with_buffer r_buffer advance].
           rewrite app_nil_r, EB, ES. auto.
        -- cbn. reflexivity.
      * pose proof (step_none _ _ _ ES) as (-> & _ & _).
        pose proof (rmsg_any (S (script_bytes s')) (with_buffer r ([] ++ [f]))
          (llen (f_data f) + PER_DATAFRAME_OVERHEAD) s' ltac:(rewrite script_bytes_flat; lia) Hm
          ltac:(discriminate)) as IH.
        destruct (rmsg _ _ _ s') as [[[m|e| |] r'] s2]; try contradiction; [|exact IH].
        destruct IH as (l & I1 & I2 & I3 & I4). exists ((f, key) :: l).
        cbn [map fst advance]. rewrite encs_cons, EB, ES. cbn [fst snd].
        rewrite <- app_assoc, <- I1. repeat split; auto.
        constructor; [inversion HW; assumption|exact I2].
    + cbn. rewrite with_buffer_same. reflexivity.
  - rewrite <- EB. apply rmsg_any; auto; [rewrite script_bytes_flat; lia|congruence].
Qed.

(** Histories without errors consume exactly the frames that were delivered. *)
Lemma recv_n_sound : forall n r s ms r' s', r_max_df r <= isize_max ->
  recv_n n r s = (map Ok ms, r', s') ->
  exists l : list keyed, flat s = encs l ++ flat s' /\ wire_ok (r_mask r) (r_max_df r) l /\
    results (r_buffer r) (map fst l) = (map Ok ms, r_buffer r') /\
    r' = with_buffer r (r_buffer r').
Proof.
  induction n as [|n IH]; intros r s ms r' s' Hm H; cbn [recv_n] in H.
  - injection H as H <- <-. destruct ms; [|discriminate]. exists []. repeat split; auto.
    + constructor.
    + rewrite with_buffer_same. reflexivity.
  - pose proof (recv_message_any r s Hm) as HA.
    destruct (recv_message r s) as [[x r1] s1]. destruct (recv_n n r1 s1) as [[xs r2] s2] eqn:E.
    destruct ms as [|m ms]; [discriminate|]. cbn [map] in H. injection H as -> H <- <-. subst xs.
    destruct HA as (l1 & A1 & A2 & A3 & A4).
    assert (r_mask r1 = r_mask r /\ r_max_df r1 = r_max_df r) as [B1 B2] by (rewrite A4; auto).
    apply IH in E as (l2 & I1 & I2 & I3 & I4); [|lia]. rewrite B1, B2 in I2.
    exists (l1 ++ l2). rewrite encs_app, A1, I1, <- app_assoc. split; [reflexivity|].
    split; [apply Forall_app; auto|]. split.
    + pose proof (advance_app_results _ _ _ _ (map fst l2) A3) as Q. rewrite I3 in Q.
      rewrite map_app. exact Q.
    + rewrite I4, A4. reflexivity.
Qed.

(** ** Bounds *)
Definition bound_post (B D : N) (x : result owned ws_error * receiver * script) : Prop :=
  match x with
  | (Ok m, r', _) => data_total (r_buffer r') <= B /\
      llen (r_buffer r') < MAX_DATAFRAMES_IN_ONE_MESSAGE /\ size (payload_of m) <= B + D
  | (_, r', _) => data_total (r_buffer r') <= B + D /\
      llen (r_buffer r') <= MAX_DATAFRAMES_IN_ONE_MESSAGE
  end.
Lemma step_bound : forall buf f o b B D r s, step buf f = (Some o, b) ->
  data_total buf <= B -> llen buf < MAX_DATAFRAMES_IN_ONE_MESSAGE -> llen (f_data f) <= D ->
  r_buffer r = b -> bound_post B D (o, r, s).
Proof.
  intros buf f o b B D r s H H1 H2 H3 Hr.
  assert (data_total b <= B /\ llen b < MAX_DATAFRAMES_IN_ONE_MESSAGE) as [HB1 HB2].
  { apply step_some in H as [[-> _]|[-> _]]; auto. cbn. split; [lia|reflexivity]. }
  assert (forall m, o = Ok m -> size (payload_of m) <= B + D) as HP.
  { intros m ->. apply step_some in H as [[_ [H|[H|[_ H]]]]|[_ H]]; try discriminate; symmetry in H.
    - apply (owned_from_payload [f]) in H as [-> _]. rewrite data_total_1. lia.
    - apply owned_from_payload in H as [-> _]. rewrite data_total_app, data_total_1. lia. }
  unfold bound_post. rewrite Hr.
  destruct o as [m|e| |]; [split; [|split]; auto|split; lia|split; lia|split; lia].
Qed.
Lemma rmsg_bound : forall fuel r cur s B, r_max_df r <= isize_max -> r_buffer r <> [] ->
  r_max_msg r <= B -> data_total (r_buffer r) <= cur -> data_total (r_buffer r) <= B ->
  llen (r_buffer r) < MAX_DATAFRAMES_IN_ONE_MESSAGE ->
  bound_post B (r_max_df r) (rmsg fuel r cur s).
Proof.
  induction fuel as [|fuel IH]; intros r cur s B Hm Hn HB Hcur Hd Hl; [cbn; lia|].
  rewrite rmsg_step by exact Hn. pose proof (recv_dataframe_total r s Hm) as HT.
  destruct (recv_dataframe r s) as [[f|e| |] s'] eqn:E; cbn [fst] in HT; try contradiction; [|cbn; lia].
  apply recv_dataframe_len in E as (key & E1 & E2 & E3 & E4 & E5); [|exact Hm].
  destruct (step (r_buffer r) f) as [[o|] b] eqn:ES.
  - eapply step_bound; eauto.
  - pose proof (step_none _ _ _ ES) as (-> & _ & _).
    assert (data_total (r_buffer r ++ [f]) = data_total (r_buffer r) + llen (f_data f)) as HDT
      by (rewrite data_total_app, data_total_1; reflexivity).
    assert (llen (r_buffer r ++ [f]) = llen (r_buffer r) + 1) as HLL
      by (rewrite llen_app; reflexivity).
    unfold over. destruct (N.leb_spec MAX_DATAFRAMES_IN_ONE_MESSAGE (llen (r_buffer r ++ [f]))).
    { cbn [bound_post with_buffer r_buffer]. rewrite HDT, HLL. lia. }
    destruct (N.leb_spec (r_max_msg r) (cur + (llen (f_data f) + PER_DATAFRAME_OVERHEAD))).
    { cbn [bound_post with_buffer r_buffer]. rewrite HDT, HLL. lia. }
    change (r_max_df r) with (r_max_df (with_buffer r (r_buffer r ++ [f]))).
    apply IH; cbn [with_buffer r_buffer r_max_df r_max_msg]; auto; try lia.
    destruct (r_buffer r); discriminate.
Qed.
Lemma recv_message_bound : forall r s B, r_max_df r <= isize_max ->
  r_max_df r <= B -> r_max_msg r <= B -> data_total (r_buffer r) <= B ->
  llen (r_buffer r) < MAX_DATAFRAMES_IN_ONE_MESSAGE ->
  bound_post B (r_max_df r) (recv_message r s).
Proof.
  intros r s B Hm HD HB Hd Hl. rewrite recv_message_eq by exact Hm.
  destruct (r_buffer r) as [|b0 bt] eqn:EB.
  - pose proof (recv_dataframe_total r s Hm) as HT.
    destruct (recv_dataframe r s) as [[f|e| |] s'] eqn:E; cbn [fst] in HT; try contradiction;
      [|cbn [bound_post]; rewrite EB; cbn; unfold MAX_DATAFRAMES_IN_ONE_MESSAGE; lia].
    apply recv_dataframe_len in E as (key & E1 & E2 & E3 & E4 & E5); [|exact Hm].
    destruct (step [] f) as [[o|] b] eqn:ES.
    + eapply step_bound; eauto.
    + pose proof (step_none _ _ _ ES) as (-> & _ & _).
      change (r_max_df r) with (r_max_df (with_buffer r ([] ++ [f]))).
      apply rmsg_bound; cbn [with_buffer r_buffer r_max_df r_max_msg app]; auto; try lia.
      all: try discriminate; try (rewrite data_total_1; lia); try reflexivity.
  - rewrite <- EB in *. apply rmsg_bound; auto; try lia. rewrite EB. discriminate.
Qed.

Lemma recv_message_limits : forall r s x r' s', r_max_df r <= isize_max ->
  recv_message r s = (x, r', s') -> r' = with_buffer r (r_buffer r').
Proof.
  intros r s x r' s' Hm H. pose proof (recv_message_any r s Hm) as HA. rewrite H in HA.
  destruct x; try contradiction; [destruct HA as (l & _ & _ & _ & HA); exact HA|exact HA].
Qed.
Definition all_ok (os : list (result owned ws_error)) : Prop :=
  Forall (fun o => exists m, o = Ok m) os.
Lemma recv_n_bound : forall n r s B, r_max_df r <= isize_max ->
  r_max_df r <= B -> r_max_msg r <= B -> data_total (r_buffer r) <= B ->
  llen (r_buffer r) < MAX_DATAFRAMES_IN_ONE_MESSAGE ->
  forall os r' s', recv_n n r s = (os, r', s') -> all_ok (removelast os) ->
  data_total (r_buffer r') <= B + r_max_df r /\
  llen (r_buffer r') <= MAX_DATAFRAMES_IN_ONE_MESSAGE /\
  (forall m, In (Ok m) os -> size (payload_of m) <= B + r_max_df r).
Proof.
  induction n as [|n IH]; intros r s B Hm HD HB Hd Hl os r' s' H HO; cbn [recv_n] in H.
  - injection H as <- <- <-. split; [lia|]. split; [lia|]. intros m [].
  - pose proof (recv_message_bound r s B Hm HD HB Hd Hl) as HA.
    destruct (recv_message r s) as [[x r1] s1] eqn:E1.
    pose proof (recv_message_limits _ _ _ _ _ Hm E1) as HL1.
    destruct (recv_n n r1 s1) as [[xs r2] s2] eqn:E. injection H as <- <- <-.
    destruct xs as [|x2 xs].
    + destruct n as [|n]; [|cbn [recv_n] in E; destruct (recv_message r1 s1) as [[y1 y2] y3];
        destruct (recv_n n y2 y3) as [[z1 z2] z3]; discriminate E].
      cbn [recv_n] in E. injection E as <- <-.
      destruct x as [m|e| |]; cbn [bound_post] in HA.
      * split; [lia|]. split; [lia|]. intros m' [HI|[]]. injection HI as <-. lia.
      * split; [lia|]. split; [lia|]. intros m' [HI|[]]. discriminate.
      * split; [lia|]. split; [lia|]. intros m' [HI|[]]. discriminate.
      * split; [lia|]. split; [lia|]. intros m' [HI|[]]. discriminate.
    + cbn [removelast] in HO. inversion HO as [|? ? [m ->] HO']; subst.
      cbn [bound_post] in HA. destruct HA as (A1 & A2 & A3).
      destruct (IH r1 s1 B) with (os := x2 :: xs) (r' := r2) (s' := s2) as (I1 & I2 & I3);
        try (rewrite HL1; cbn [with_buffer r_max_df r_max_msg]; auto; fail); auto.
      rewrite HL1 in I1, I3. cbn [with_buffer r_max_df] in I1, I3.
      split; [exact I1|]. split; [exact I2|]. intros m' [HI|HI]; [injection HI as <-; lia|auto].
Qed.

(** ** Schedules *)
Lemma recv_dataframe_sched : forall r s1 s2, r_max_df r <= isize_max ->
  clean s1 -> clean s2 -> flat s1 = flat s2 ->
  fst (recv_dataframe r s1) = fst (recv_dataframe r s2) /\
  clean (snd (recv_dataframe r s1)) /\ clean (snd (recv_dataframe r s2)) /\
  flat (snd (recv_dataframe r s1)) = flat (snd (recv_dataframe r s2)).
Proof.
  intros r s1 s2 Hm H1 H2 HF. unfold recv_dataframe.
  destruct (read_with_limit_script (r_mask r) (r_max_df r) s1 H1 Hm) as [A1 [A2 A3]].
  destruct (read_with_limit_script (r_mask r) (r_max_df r) s2 H2 Hm) as [B1 [B2 B3]].
  rewrite HF in *. repeat split; congruence.
Qed.
Definition same_after (x y : result owned ws_error * receiver * script) : Prop :=
  fst x = fst y /\ clean (snd x) /\ clean (snd y) /\ flat (snd x) = flat (snd y).
Lemma rmsg_sched : forall fuel r cur s1 s2, r_max_df r <= isize_max -> r_buffer r <> [] ->
  clean s1 -> clean s2 -> flat s1 = flat s2 ->
  same_after (rmsg fuel r cur s1) (rmsg fuel r cur s2).
Proof.
  induction fuel as [|fuel IH]; intros r cur s1 s2 Hm Hn H1 H2 HF.
  - repeat split; auto.
  - rewrite !rmsg_step by exact Hn.
    destruct (recv_dataframe_sched r s1 s2 Hm H1 H2 HF) as (E1 & E2 & E3 & E4).
    destruct (recv_dataframe r s1) as [x1 t1], (recv_dataframe r s2) as [x2 t2].
    cbn [fst snd] in *. subst x2. destruct x1 as [f|e| |]; try (repeat split; auto; fail).
    destruct (step (r_buffer r) f) as [[o|] b] eqn:ES; [repeat split; auto|].
    destruct (over _); [repeat split; auto|]. destruct (_ <=? _); [repeat split; auto|].
    apply IH; auto. apply step_none in ES as (-> & _). cbn. destruct (r_buffer r); discriminate.
Qed.
Lemma recv_message_sched : forall r s1 s2, r_max_df r <= isize_max ->
  clean s1 -> clean s2 -> flat s1 = flat s2 ->
  same_after (recv_message r s1) (recv_message r s2).
Proof.
  intros r s1 s2 Hm H1 H2 HF. rewrite !recv_message_eq by exact Hm.
  destruct (r_buffer r) as [|b0 bt] eqn:EB.
  - destruct (recv_dataframe_sched r s1 s2 Hm H1 H2 HF) as (E1 & E2 & E3 & E4).
    destruct (recv_dataframe r s1) as [x1 t1], (recv_dataframe r s2) as [x2 t2].
    cbn [fst snd] in *. subst x2. destruct x1 as [f|e| |]; try (repeat split; auto; fail).
    destruct (step [] f) as [[o|] b] eqn:ES; [repeat split; auto|].
    rewrite !script_bytes_flat, E4. apply rmsg_sched; auto.
    apply step_none in ES as (-> & _). discriminate.
  - rewrite !script_bytes_flat, HF. rewrite <- EB. apply rmsg_sched; auto. rewrite EB. discriminate.
Qed.
Lemma recv_n_sched : forall n r s1 s2, r_max_df r <= isize_max ->
  clean s1 -> clean s2 -> flat s1 = flat s2 ->
  fst (recv_n n r s1) = fst (recv_n n r s2) /\
  clean (snd (recv_n n r s1)) /\ clean (snd (recv_n n r s2)) /\
  flat (snd (recv_n n r s1)) = flat (snd (recv_n n r s2)).
Proof.
  induction n as [|n IH]; intros r s1 s2 Hm H1 H2 HF; cbn [recv_n]; [repeat split; auto|].
  destruct (recv_message_sched r s1 s2 Hm H1 H2 HF) as (E1 & E2 & E3 & E4).
  destruct (recv_message r s1) as [[x1 r1] t1] eqn:EM, (recv_message r s2) as [[x2 r2] t2].
  cbn [fst snd] in *. injection E1 as <- <-.
  apply recv_message_limits in EM; auto.
  destruct (IH r1 t1 t2) as (I1 & I2 & I3 & I4); auto.
  { rewrite EM. exact Hm. }
  destruct (recv_n n r1 t1) as [[xs1 q1] u1], (recv_n n r1 t2) as [[xs2 q2] u2].
  cbn [fst snd] in *. injection I1 as <- <-. repeat split; auto.
Qed.

(** ** The asynchronous codec *)
Lemma mcl_sound : forall n src c cur, (length src < n)%nat ->
  match mcl c cur src with
  | (Ok (Some m), c', src') => exists l : list keyed, src = encs l ++ src' /\
      wire_ok (dc_is_server (mc_df c)) (dc_max (mc_df c)) l /\
      advance (mc_buffer c) (map fst l) = Some (Ok m, mc_buffer c', []) /\
      c' = mc_with_buffer c (mc_buffer c')
  | (Ok None, c', src') => exists l : list keyed, src = encs l ++ src' /\
      wire_ok (dc_is_server (mc_df c)) (dc_max (mc_df c)) l /\
      results (mc_buffer c) (map fst l) = ([], mc_buffer c') /\
      c' = mc_with_buffer c (mc_buffer c')
  | (Err e, c', src') => c' = mc_with_buffer c (mc_buffer c')
  | _ => False
  end.
Proof.
  induction n as [|n IH]; intros src c cur Hn; [lia|]. rewrite mcl_eq.
  pose proof (df_decode_total (mc_df c) src) as HT.
  destruct (df_decode (mc_df c) src) as [[[f|]|e| |] src'] eqn:E; cbn [fst] in HT; try contradiction.
  - pose proof (df_decode_length _ _ _ _ E) as HL.
    apply df_decode_some in E as (key & E2 & E1 & E3 & E4).
    assert (wire_ok (dc_is_server (mc_df c)) (dc_max (mc_df c)) [(f, key)]) as HW
      by (apply wire_ok_1; auto).
    destruct (step (mc_buffer c) f) as [[o|] b] eqn:ES.
    + destruct (step_total _ _ _ _ ES) as [[m ->]|[e ->]]; cbn [some_owned rbind]; [|reflexivity].
      exists [(f, key)]. cbn [encs map concat fst snd mc_with_buffer mc_buffer advance].
      rewrite app_nil_r, ES. auto.
    + pose proof (step_none _ _ _ ES) as (-> & _ & _).
      destruct (over _); [reflexivity|]. destruct (_ <? _); [reflexivity|].
      specialize (IH src' (mc_with_buffer c (mc_buffer c ++ [f]))
        (cur + (llen (f_data f) + PER_DATAFRAME_OVERHEAD)) ltac:(lia)).
      destruct (mcl _ _ src') as [[[[m|]|e| |] c'] src2]; try contradiction; [| |exact IH].
      * destruct IH as (l & I1 & I2 & I3 & I4). exists ((f, key) :: l).
        cbn [map fst advance]. rewrite encs_cons, ES. cbn [fst snd].
        rewrite <- app_assoc, <- I1. repeat split; auto.
        constructor; [inversion HW; assumption|exact I2].
      * destruct IH as (l & I1 & I2 & I3 & I4). exists ((f, key) :: l).
        cbn [map fst results]. rewrite encs_cons, ES. cbn [fst snd].
        rewrite <- app_assoc, <- I1. repeat split; auto.
        constructor; [inversion HW; assumption|exact I2].
  - pose proof (decode_none_parse _ _ _ E) as [-> _]. exists [].
    rewrite mc_with_buffer_same. repeat split; constructor.
  - rewrite mc_with_buffer_same. reflexivity.
Qed.
Lemma mc_decode_sound : forall c src,
  match mc_decode c src with
  | (Ok (Some m), c', src') => exists l : list keyed, src = encs l ++ src' /\
      wire_ok (dc_is_server (mc_df c)) (dc_max (mc_df c)) l /\
      advance (mc_buffer c) (map fst l) = Some (Ok m, mc_buffer c', []) /\
      c' = mc_with_buffer c (mc_buffer c')
  | (Ok None, c', src') => exists l : list keyed, src = encs l ++ src' /\
      wire_ok (dc_is_server (mc_df c)) (dc_max (mc_df c)) l /\
      results (mc_buffer c) (map fst l) = ([], mc_buffer c') /\
      c' = mc_with_buffer c (mc_buffer c')
  | (Err e, c', src') => c' = mc_with_buffer c (mc_buffer c')
  | _ => False
  end.
Proof.
  intros c src. rewrite mc_decode_mcl. apply (mcl_sound (S (length src))). lia.
Qed.

Lemma cdrain_sound : forall n s c src ms e,
  (length src + length (aev_bytes s) + length s < n)%nat ->
  cdrain mc_decode s c src = (ms, e) ->
  exists (l : list keyed) rest b, src ++ aev_bytes s = encs l ++ rest /\
    wire_ok (dc_is_server (mc_df c)) (dc_max (mc_df c)) l /\
    results (mc_buffer c) (map fst l) = (map Ok ms, b) /\ (e = PEnd -> rest = []).
Proof.
  induction n as [|n IH]; intros s c src ms e Hn H; [lia|].
  pose proof (mc_decode_sound c src) as HS. pose proof (mc_some c src) as HL1.
  pose proof (mc_none c src) as HL2.
  destruct (mc_decode c src) as [[[[m|]|e1| |] c1] s1] eqn:E; try contradiction.
  - rewrite (cdrain_item _ _ _ mc_some _ _ _ _ _ _ E) in H.
    destruct (cdrain mc_decode s c1 s1) as [ms1 e1] eqn:EC. injection H as <- <-.
    specialize (HL1 _ _ _ eq_refl). destruct HS as (l & S1 & S2 & S3 & S4).
    apply IH in EC as (l2 & rest & b & I1 & I2 & I3 & I4); [|lia]. rewrite S4 in I2.
    exists (l ++ l2), rest, b. rewrite S1, encs_app, <- !app_assoc, <- I1. split; [reflexivity|].
    split; [apply Forall_app; auto|].
    pose proof (advance_app_results _ _ _ _ (map fst l2) S3) as Q. rewrite I3 in Q.
    split; [rewrite map_app; exact Q|exact I4].
  - rewrite (cdrain_none _ _ _ mc_some mc_none _ _ _ _ _ E) in H.
    specialize (HL2 _ _ eq_refl) as [HL HQ].
    rewrite (cdrain_quiet _ _ _ mc_some _ _ _ HQ) in H.
    destruct HS as (l & S1 & S2 & S3 & S4).
    assert (forall s' c0 src0, c0 = c1 -> (length src0 + length (aev_bytes s') + length s' < n)%nat ->
      src0 ++ aev_bytes s' = s1 ++ aev_bytes s -> cdrain mc_decode s' c0 src0 = (ms, e) ->
      exists (l : list keyed) rest b, src ++ aev_bytes s = encs l ++ rest /\
        wire_ok (dc_is_server (mc_df c)) (dc_max (mc_df c)) l /\
        results (mc_buffer c) (map fst l) = (map Ok ms, b) /\ (e = PEnd -> rest = [])) as HC.
    { intros s' c0 src0 -> Hlen Hsrc Hd. apply IH in Hd as (l2 & rest & b & I1 & I2 & I3 & I4); [|exact Hlen].
      rewrite S4 in I2. exists (l ++ l2), rest, b.
      rewrite S1, encs_app, <- !app_assoc, <- Hsrc, I1. split; [reflexivity|].
      split; [apply Forall_app; auto|].
      pose proof (results_app _ _ _ _ (map fst l2) S3) as Q. rewrite I3 in Q.
      split; [rewrite map_app; exact Q|exact I4]. }
    destruct s as [|[b bs| |k] s].
    + injection H as <- He. exists l, (s1 ++ []), (mc_buffer c1). cbn [aev_bytes].
      rewrite S1, <- app_assoc. repeat split; auto. intros ->. destruct s1; [reflexivity|discriminate].
    + cbn [aev_bytes length] in *. eapply HC; [| | |exact H]; auto.
      * rewrite ?app_length in *. cbn [length] in *. rewrite ?app_length in *. lia.
      * rewrite <- app_assoc. reflexivity.
    + cbn [aev_bytes length] in *. eapply HC; [| | |exact H]; auto. lia.
    + injection H as <- He. exists l, (s1 ++ aev_bytes (AErr k :: s)), (mc_buffer c1).
      rewrite S1, <- app_assoc. repeat split; auto. intros ->. discriminate.
  - rewrite (cdrain_err _ _ _ mc_some _ _ _ _ _ _ E) in H. injection H as <- He.
    exists [], (src ++ aev_bytes s), (mc_buffer c). repeat split; [constructor|].
    intros ->. discriminate.
Qed.

Definition abound_post (B D : N) (x : result (option owned) ws_error * msg_codec * bytes) : Prop :=
  match x with
  | (Ok o, c', _) => data_total (mc_buffer c') <= B /\
      llen (mc_buffer c') < MAX_DATAFRAMES_IN_ONE_MESSAGE /\
      (forall m, o = Some m -> size (payload_of m) <= B + D)
  | (_, c', _) => data_total (mc_buffer c') <= B + D /\
      llen (mc_buffer c') <= MAX_DATAFRAMES_IN_ONE_MESSAGE
  end.
Lemma mcl_bound : forall n src c cur, (length src < n)%nat ->
  data_total (mc_buffer c) <= cur -> data_total (mc_buffer c) <= mc_max_msg c ->
  llen (mc_buffer c) < MAX_DATAFRAMES_IN_ONE_MESSAGE ->
  abound_post (mc_max_msg c) (dc_max (mc_df c)) (mcl c cur src).
Proof.
  induction n as [|n IH]; intros src c cur Hn Hcur Hd Hl; [lia|]. rewrite mcl_eq.
  pose proof (df_decode_total (mc_df c) src) as HT.
  destruct (df_decode (mc_df c) src) as [[[f|]|e| |] src'] eqn:E; cbn [fst] in HT; try contradiction.
  - pose proof (df_decode_length _ _ _ _ E) as HL.
    apply df_decode_some in E as (key & E2 & E1 & E3 & E4).
    destruct (step (mc_buffer c) f) as [[o|] b] eqn:ES.
    + pose proof (step_bound _ _ _ _ (mc_max_msg c) (dc_max (mc_df c)) (mk_recv b true 0 0) [] ES
        Hd Hl E4 eq_refl) as HB.
      destruct (step_total _ _ _ _ ES) as [[m ->]|[e ->]]; cbn [some_owned rbind abound_post
        bound_post mc_with_buffer mc_buffer r_buffer] in *; [|lia].
      split; [lia|]. split; [lia|]. intros m' Hm'. injection Hm' as <-. lia.
    + pose proof (step_none _ _ _ ES) as (-> & _ & _).
      assert (data_total (mc_buffer c ++ [f]) = data_total (mc_buffer c) + llen (f_data f)) as HDT
        by (rewrite data_total_app, data_total_1; reflexivity).
      assert (llen (mc_buffer c ++ [f]) = llen (mc_buffer c) + 1) as HLL
        by (rewrite llen_app; reflexivity).
      unfold over. destruct (N.leb_spec MAX_DATAFRAMES_IN_ONE_MESSAGE (llen (mc_buffer c ++ [f]))).
      { cbn [abound_post mc_with_buffer mc_buffer]. rewrite HDT, HLL. lia. }
      destruct (N.ltb_spec (mc_max_msg c) (cur + (llen (f_data f) + PER_DATAFRAME_OVERHEAD))).
      { cbn [abound_post mc_with_buffer mc_buffer]. rewrite HDT, HLL. lia. }
      apply IH with (c := mc_with_buffer c (mc_buffer c ++ [f]));
        cbn [mc_with_buffer mc_buffer mc_max_msg]; lia.
  - cbn [abound_post]. split; [lia|]. split; [lia|]. discriminate.
  - cbn [abound_post]. lia.
Qed.
Lemma decode_n_bound : forall n c src,
  data_total (mc_buffer c) <= mc_max_msg c ->
  llen (mc_buffer c) < MAX_DATAFRAMES_IN_ONE_MESSAGE ->
  forall os c' src', decode_n mc_decode n c src = (os, c', src') ->
  Forall (fun o => exists x, o = Ok x) (removelast os) ->
  data_total (mc_buffer c') <= mc_max_msg c + dc_max (mc_df c) /\
  llen (mc_buffer c') <= MAX_DATAFRAMES_IN_ONE_MESSAGE /\
  (forall m, In (Ok (Some m)) os -> size (payload_of m) <= mc_max_msg c + dc_max (mc_df c)).
Proof.
  induction n as [|n IH]; intros c src Hd Hl os c' src' H HO; cbn [decode_n] in H.
  - injection H as <- <- <-. split; [lia|]. split; [lia|]. intros m [].
  - pose proof (mcl_bound (S (length src)) src c (data_total (mc_buffer c)) ltac:(lia) ltac:(lia) Hd Hl) as HA.
    rewrite <- mc_decode_mcl in HA. pose proof (mc_decode_sound c src) as HS.
    destruct (mc_decode c src) as [[x c1] s1] eqn:E1.
    assert (c1 = mc_with_buffer c (mc_buffer c1)) as HC1.
    { destruct x as [[m|]|e| |]; try contradiction; auto.
      - destruct HS as (l & _ & _ & _ & HS). exact HS.
      - destruct HS as (l & _ & _ & _ & HS). exact HS. }
    destruct (decode_n mc_decode n c1 s1) as [[xs c2] s2] eqn:E. injection H as <- <- <-.
    destruct xs as [|x2 xs].
    + destruct n as [|n]; [|cbn [decode_n] in E; destruct (mc_decode c1 s1) as [[y1 y2] y3];
        destruct (decode_n mc_decode n y2 y3) as [[z1 z2] z3]; discriminate E].
      cbn [decode_n] in E. injection E as <- <-.
      destruct x as [o|e| |]; cbn [abound_post] in HA.
      * destruct HA as (A1 & A2 & A3). split; [lia|]. split; [lia|].
        intros m' [HI|[]]. injection HI as ->. auto.
      * split; [lia|]. split; [lia|]. intros m' [HI|[]]. discriminate.
      * split; [lia|]. split; [lia|]. intros m' [HI|[]]. discriminate.
      * split; [lia|]. split; [lia|]. intros m' [HI|[]]. discriminate.
    + cbn [removelast] in HO. inversion HO as [|? ? [o ->] HO']; subst.
      cbn [abound_post] in HA. destruct HA as (A1 & A2 & A3).
      destruct (IH c1 s1) with (os := x2 :: xs) (c' := c2) (src' := s2) as (I1 & I2 & I3);
        try (rewrite HC1; cbn [mc_with_buffer mc_max_msg mc_df mc_buffer]; auto; fail); auto.
      rewrite HC1 in I1, I3. cbn [mc_with_buffer mc_max_msg mc_df] in I1, I3.
      split; [exact I1|]. split; [exact I2|]. intros m' [HI|HI]; [injection HI as ->; auto|auto].
Qed.
