(** Reading through a buffer: C24, C43. *)
From Coq Require Import NArith ZArith String Bool List Lia.
From Coq Require Import ZifyBool ZifyNat ZifyN.
From Coq.Strings Require Import Byte.
From Verif.Model Require Import Base Io Header Mask Dataframe Utf8 Text Base64 WsKey Headers
  Handshake Message Receiver Codec Framed Http BufReader.
From Verif.Spec Require Import Fields HttpHead.
From Verif.Proofs Require Import BaseFacts HeaderFacts Machine HttpFacts ThmHttp SpreadFacts.
Import ListNotations.
Local Open Scope string_scope.
Local Open Scope list_scope.
Local Open Scope N_scope.

Definition fine (l : shown) : Prop := ~ In (inr (RErr Interrupted)) l.
Lemma fine_spread : forall s, proper s -> fine (spread s).
Proof.
  intros s H Hin. apply H. clear H. induction s as [|e s IH]; [contradiction|].
  destruct e as [b bs| | |k].
  - rewrite spread_data in Hin. apply in_app_or in Hin as [Hin|Hin]; [|right; auto].
    apply in_map_iff in Hin as (x & Hx & _). discriminate Hx.
  - cbn [spread] in Hin. destruct Hin as [Hin|Hin]; [discriminate Hin|right; auto].
  - cbn [spread] in Hin. destruct Hin as [Hin|Hin]; [discriminate Hin|right; auto].
  - cbn [spread] in Hin. destruct Hin as [Hin|Hin]; [injection Hin as ->; left; reflexivity|right; auto].
Qed.
Lemma fine_app : forall p l, fine (p ++ l) -> fine l.
Proof. intros p l H Hin. apply H. apply in_or_app. auto. Qed.
Lemma fine_cons : forall x l, fine (x :: l) -> fine l.
Proof. intros x l. apply (fine_app [x]). Qed.

Section Generic.
  Variable R : Type.
  Variable read : N -> R -> result bytes io_kind * R.
  Variable view : R -> shown.
  Hypothesis faithful : forall n r, 0 < n ->
    match read n r with
    | (Ok [], r') => (view r = [] /\ view r' = []) \/ view r = inr REof :: view r'
    | (Ok d, r') => llen d <= n /\ view r = map inl d ++ view r'
    | (Err k, r') => (k = Interrupted /\ view r = inr RIntr :: view r') \/
                     view r = inr (RErr k) :: view r'
    | _ => False
    end.
  Definition seenR {A E : Type} (x : result A E * R) : result A E * shown := (fst x, view (snd x)).

  Lemma std_exact_seen : forall fuel n r, (length (view r) < fuel)%nat -> fine (view r) ->
    seenR (std_exact read fuel n r) = sp_exact n (view r).
  Proof.
    induction fuel as [|fuel IH]; intros n r Hf Hp; [lia|].
    cbn [std_exact]. destruct (N.eqb_spec n 0) as [->|Hn].
    { destruct (view r) as [|x l] eqn:E; cbn [sp_exact]; unfold seenR; cbn [fst snd]; rewrite ?E; reflexivity. }
    assert (H0 : 0 < n) by lia. pose proof (faithful n r H0) as HF.
    destruct (read n r) as [[[|d0 d]|k| |] r']; try contradiction.
    - destruct HF as [[E1 E2]|E1]; rewrite E1; cbn [sp_exact]; replace (n =? 0) with false by lia;
        unfold seenR; cbn [fst snd]; rewrite ?E2; reflexivity.
    - remember (d0 :: d) as dd eqn:Ed. destruct HF as [HL HV]. rewrite HV, sp_exact_data.
      assert (Hlen : (length (view r') < fuel)%nat).
      { rewrite HV, app_length, map_length, Ed in Hf. cbn [length] in Hf. lia. }
      assert (Hp' : fine (view r')) by (rewrite HV in Hp; apply fine_app in Hp; exact Hp).
      specialize (IH (n - llen dd) r' Hlen Hp').
      destruct (N.leb_spec n (llen dd)) as [Hle|Hgt].
      + assert (n - llen dd = 0) as E0 by lia. rewrite E0 in *.
        destruct fuel as [|fuel]; [lia|]. cbn [std_exact N.eqb]. unfold seenR. cbn [fst snd].
        rewrite take_all, drop_all by lia. rewrite app_nil_r. reflexivity.
      + rewrite <- IH. unfold seenR, glue.
        destruct (std_exact read fuel (n - llen dd) r') as [[x|k| |] r2]; reflexivity.
    - destruct HF as [[-> HV]|HV]; rewrite HV; cbn [sp_exact]; replace (n =? 0) with false by lia.
      + apply IH; [rewrite HV in Hf; cbn [length] in Hf; lia|].
        rewrite HV in Hp. apply fine_cons in Hp. exact Hp.
      + rewrite HV in Hp. destruct k; try reflexivity. exfalso. apply Hp. left. reflexivity.
  Qed.
  Lemma std_take_seen : forall want, (forall n, 0 < n -> 0 < want n) ->
    forall fuel n r, (length (view r) < fuel)%nat -> fine (view r) ->
    seenR (std_take read want fuel n r) = sp_take n (view r).
  Proof.
    intros want Hw. induction fuel as [|fuel IH]; intros n r Hf Hp; [lia|].
    cbn [std_take]. destruct (N.eqb_spec n 0) as [->|Hn].
    { destruct (view r) as [|x l] eqn:E; cbn [sp_take]; unfold seenR; cbn [fst snd]; rewrite ?E; reflexivity. }
    assert (H0 : 0 < N.min n (want n)) by (specialize (Hw n ltac:(lia)); lia).
    pose proof (faithful _ r H0) as HF.
    destruct (read (N.min n (want n)) r) as [[[|d0 d]|k| |] r']; try contradiction.
    - destruct HF as [[E1 E2]|E1]; rewrite E1; cbn [sp_take]; replace (n =? 0) with false by lia;
        unfold seenR; cbn [fst snd]; rewrite ?E2; reflexivity.
    - remember (d0 :: d) as dd eqn:Ed. destruct HF as [HL HV]. rewrite HV, sp_take_data.
      assert (Hlen : (length (view r') < fuel)%nat).
      { rewrite HV, app_length, map_length, Ed in Hf. cbn [length] in Hf. lia. }
      assert (Hp' : fine (view r')) by (rewrite HV in Hp; apply fine_app in Hp; exact Hp).
      specialize (IH (n - llen dd) r' Hlen Hp').
      destruct (N.leb_spec n (llen dd)) as [Hle|Hgt].
      + assert (n - llen dd = 0) as E0 by lia. rewrite E0 in *.
        destruct fuel as [|fuel]; [lia|]. cbn [std_take N.eqb]. unfold seenR. cbn [fst snd].
        rewrite take_all, drop_all by lia. rewrite app_nil_r. reflexivity.
      + rewrite <- IH. unfold seenR, glue.
        destruct (std_take read want fuel (n - llen dd) r') as [[x|k| |] r2]; reflexivity.
    - destruct HF as [[-> HV]|HV]; rewrite HV; cbn [sp_take]; replace (n =? 0) with false by lia.
      + apply IH; [rewrite HV in Hf; cbn [length] in Hf; lia|].
        rewrite HV in Hp. apply fine_cons in Hp. exact Hp.
      + rewrite HV in Hp. destruct k; try reflexivity. exfalso. apply Hp. left. reflexivity.
  Qed.
End Generic.

Lemma rd_read_faithful : forall n s, 0 < n ->
  match rd_read n s with
  | (Ok [], s') => (spread s = [] /\ spread s' = []) \/ spread s = inr REof :: spread s'
  | (Ok d, s') => llen d <= n /\ spread s = map inl d ++ spread s'
  | (Err k, s') => (k = Interrupted /\ spread s = inr RIntr :: spread s') \/
                   spread s = inr (RErr k) :: spread s'
  | _ => False
  end.
Proof.
  intros n s Hn. unfold rd_read. replace (n =? 0) with false by lia.
  destruct s as [|[b bs| | |k] s]; auto.
  destruct (take n (b :: bs)) as [|x d] eqn:E.
  - exfalso. apply (f_equal llen) in E. rewrite llen_take, llen_cons, llen_nil in E. lia.
  - rewrite <- E. split; [rewrite llen_take; lia|].
    rewrite spread_push_back, app_assoc, <- map_app, take_drop. reflexivity.
Qed.
Definition bview (r : bufreader) : shown := map inl (br_buf r) ++ spread (br_in r).
Lemma br_read_faithful : forall size n r, 0 < n ->
  match br_read size n r with
  | (Ok [], r') => (bview r = [] /\ bview r' = []) \/ bview r = inr REof :: bview r'
  | (Ok d, r') => llen d <= n /\ bview r = map inl d ++ bview r'
  | (Err k, r') => (k = Interrupted /\ bview r = inr RIntr :: bview r') \/
                   bview r = inr (RErr k) :: bview r'
  | _ => False
  end.
Proof.
  intros size n [[|b buf] s] Hn; unfold br_read, bview; cbn [br_buf br_in map app].
  - destruct (N.leb_spec size n) as [Hs|Hs].
    + pose proof (rd_read_faithful n s Hn) as H. destruct (rd_read n s) as [[[|d0 d]|k| |] s']; exact H.
    + assert (H1 : 0 < size) by lia. pose proof (rd_read_faithful size s H1) as H.
      destruct (rd_read size s) as [[[|d0 d]|k| |] s']; try exact H.
      remember (d0 :: d) as dd eqn:Ed. destruct H as [H2 H3].
      destruct (take n dd) as [|x t] eqn:E.
      * exfalso. apply (f_equal llen) in E. rewrite llen_take, Ed, llen_cons, llen_nil in E. lia.
      * rewrite <- E. split; [rewrite llen_take; lia|]. cbn [br_buf br_in].
        rewrite app_assoc, <- map_app, take_drop. exact H3.
  - destruct (take n (b :: buf)) as [|x t] eqn:E.
    + exfalso. apply (f_equal llen) in E. rewrite llen_take, llen_cons, llen_nil in E. lia.
    + rewrite <- E. split; [rewrite llen_take; lia|].
      rewrite app_assoc, <- map_app, take_drop. reflexivity.
Qed.
Lemma spread_length : forall s, (length (spread s) <= script_bytes s + length s)%nat.
Proof.
  induction s as [|[b bs| | |k] s IH]; cbn [spread script_bytes length]; try lia.
  rewrite app_length, map_length. lia.
Qed.

(** [C24] The closed forms the model uses for [read_exact] and [take().read_to_end()] are the
    loops of the standard library: same result, and the stream shows the same afterwards. *)
Lemma std_loops_proof : forall s n want, proper s -> (forall m, 0 < m -> 0 < want m) ->
  (fst (std_exact rd_read (S (script_bytes s + length s)) n s) = fst (rd_exact n s) /\
   same_stream (snd (std_exact rd_read (S (script_bytes s + length s)) n s)) (snd (rd_exact n s))) /\
  (fst (std_take rd_read want (S (script_bytes s + length s)) n s) = fst (rd_take_to_end n s) /\
   same_stream (snd (std_take rd_read want (S (script_bytes s + length s)) n s))
     (snd (rd_take_to_end n s))).
Proof.
  intros s n want Hp Hw. pose proof (spread_length s) as HL. split.
  - pose proof (std_exact_seen _ rd_read spread rd_read_faithful (S (script_bytes s + length s)) n s
      ltac:(lia) (fine_spread s Hp)) as H.
    rewrite <- rd_exact_seen in H. unfold seenR, seen in H. injection H as H1 H2. split; assumption.
  - pose proof (std_take_seen _ rd_read spread rd_read_faithful want Hw (S (script_bytes s + length s)) n s
      ltac:(lia) (fine_spread s Hp)) as H.
    rewrite <- rd_take_seen in H. unfold seenR, seen in H. injection H as H1 H2. split; assumption.
Qed.
(*EX Example std_loops_ex :
  let s := [RData x01 [x02]; RIntr; RData x03 [x04; x05]; REof] in
  proper s /\ rd_exact 4 s = (Ok [x01; x02; x03; x04], [RData x05 []; REof]) /\
  std_exact rd_read 10 4 s = (Ok [x01; x02; x03; x04], [RData x05 []; REof]).
Proof. split; [|split; reflexivity]. intros [H|[H|[H|[H|[]]]]]; discriminate H. Qed. EX*)

(** ** Connections *)
Definition brel (r : bufreader) (s : script) : Prop := bview r = spread s /\ fine (spread s).
Lemma sp_exact_suffix : forall l n, exists p, l = p ++ snd (sp_exact n l).
Proof.
  induction l as [|x l IH]; intros n; cbn [sp_exact]; destruct (n =? 0); try (exists []; reflexivity).
  destruct x as [b|[b bs| | |k]]; try (eexists [_]; reflexivity).
  - destruct (IH (n - 1)) as (p & Hp). destruct (sp_exact (n - 1) l) as [[d|k| |] l'];
      exists (inl b :: p); cbn [snd app] in *; rewrite Hp at 1; reflexivity.
  - destruct (IH n) as (p & Hp). exists (inr RIntr :: p). cbn [app]. rewrite <- Hp. reflexivity.
Qed.
Lemma sp_take_suffix : forall l n, exists p, l = p ++ snd (sp_take n l).
Proof.
  induction l as [|x l IH]; intros n; cbn [sp_take]; destruct (n =? 0); try (exists []; reflexivity).
  destruct x as [b|[b bs| | |k]]; try (eexists [_]; reflexivity).
  - destruct (IH (n - 1)) as (p & Hp). destruct (sp_take (n - 1) l) as [[d|k| |] l'];
      exists (inl b :: p); cbn [snd app] in *; rewrite Hp at 1; reflexivity.
  - destruct (IH n) as (p & Hp). exists (inr RIntr :: p). cbn [app]. rewrite <- Hp. reflexivity.
Qed.
Lemma br_fuel_enough : forall r, (length (bview r) < br_fuel r)%nat.
Proof.
  intros r. unfold bview, br_fuel. rewrite app_length, map_length.
  pose proof (spread_length (br_in r)). lia.
Qed.
Lemma br_exact_rel : forall size n r s, brel r s -> sim brel (br_exact size n r) (rd_exact n s).
Proof.
  intros size n r s [H1 H2].
  pose proof (std_exact_seen _ (br_read size) bview (br_read_faithful size) (br_fuel r) n r
    (br_fuel_enough r) ltac:(rewrite H1; exact H2)) as H.
  rewrite H1, <- rd_exact_seen in H. unfold seenR, seen in H. fold (br_exact size n r) in H.
  injection H as H3 H4. split; [exact H3|]. split; [exact H4|].
  destruct (sp_exact_suffix (spread s) n) as (p & Hp). rewrite <- rd_exact_seen in Hp.
  cbn [seen snd] in Hp. rewrite Hp in H2. apply fine_app in H2. exact H2.
Qed.
Lemma br_take_rel : forall size want n r s, (forall m, 0 < m -> 0 < want m) -> brel r s ->
  sim brel (br_take size want n r) (rd_take_to_end n s).
Proof.
  intros size want n r s Hw [H1 H2].
  pose proof (std_take_seen _ (br_read size) bview (br_read_faithful size) want Hw (br_fuel r) n r
    (br_fuel_enough r) ltac:(rewrite H1; exact H2)) as H.
  rewrite H1, <- rd_take_seen in H. unfold seenR, seen in H. fold (br_take size want n r) in H.
  injection H as H3 H4. split; [exact H3|]. split; [exact H4|].
  destruct (sp_take_suffix (spread s) n) as (p & Hp). rewrite <- rd_take_seen in Hp.
  cbn [seen snd] in Hp. rewrite Hp in H2. apply fine_app in H2. exact H2.
Qed.
Lemma br_frame_rel : forall size want rc r s, (forall m, 0 < m -> 0 < want m) -> brel r s ->
  sim brel (br_recv_frame size want rc r) (recv_dataframe rc s).
Proof.
  intros size want rc r s Hw H. unfold br_recv_frame, recv_dataframe, read_dataframe_with_limit.
  apply sim_bind; [apply read_header_sim; [intros; apply br_exact_rel; assumption|exact H]|].
  intros h t1 t2 Ht. destruct (_ <? _); [apply sim_ret; exact Ht|]. unfold read_payload.
  destruct (_ <? _); [apply sim_ret; exact Ht|].
  destruct (br_take_rel size want (h_len h) t1 t2 Hw Ht) as [H1 H2].
  destruct (br_take size want (h_len h) t1) as [x q], (rd_take_to_end (h_len h) t2) as [y q'].
  cbn [fst snd] in *. subst y. destruct x as [d|k| |]; try (apply sim_ret; exact H2).
  destruct (_ <? _); apply sim_ret; exact H2.
Qed.
Definition bsame {A : Type} (x : A * bufreader) (y : A * script) : Prop :=
  fst x = fst y /\ brel (snd x) (snd y).
Lemma bsame_ret : forall A (x : A) r s, brel r s -> bsame (x, r) (x, s).
Proof. split; auto. Qed.
Lemma br_loop_rel : forall size want, (forall m, 0 < m -> 0 < want m) ->
  forall fuel rc cur r s, brel r s ->
  bsame (br_recv_loop size want fuel rc cur r) (recv_loop fuel rc cur s).
Proof.
  intros size want Hw. induction fuel as [|fuel IH]; intros rc cur r s H; cbn [br_recv_loop recv_loop];
    [apply bsame_ret; exact H|].
  destruct (br_frame_rel size want rc r s Hw H) as [H1 H2].
  destruct (br_recv_frame size want rc r) as [x r'], (recv_dataframe rc s) as [y s'].
  cbn [fst snd] in *. subst y. destruct x as [f|e| |]; try (apply bsame_ret; exact H2).
  destruct (op_u8 (f_opcode f) =? 0); [|destruct (_ && _); apply bsame_ret; exact H2].
  destruct (f_finished f); [apply bsame_ret; exact H2|].
  destruct (_ <=? _); [apply bsame_ret; exact H2|].
  destruct (_ <=? _); [apply bsame_ret; exact H2|]. apply IH. exact H2.
Qed.
Lemma br_bytes_rel : forall r s, brel r s -> br_bytes r = script_bytes s.
Proof.
  intros r s [H _]. unfold br_bytes.
  assert (A : alike (push_back (br_buf r) (br_in r)) s).
  { unfold alike. rewrite spread_push_back. exact H. }
  apply alike_bytes in A. rewrite <- A, !script_bytes_flat, flat_push_back, app_length. reflexivity.
Qed.
Lemma br_message_rel : forall size want, (forall m, 0 < m -> 0 < want m) ->
  forall rc r s, brel r s -> bsame (br_recv_message size want rc r) (recv_message rc s).
Proof.
  intros size want Hw rc r s H. unfold br_recv_message, recv_message.
  assert (G : bsame
    (match r_buffer rc with
     | [] =>
        match br_recv_frame size want rc r with
        | (Ok first, s') =>
            match f_opcode first with
            | Continuation =>
                (Err (ProtocolError "Unexpected continuation data frame opcode"), rc, s')
            | _ =>
                let cur' := data_total (r_buffer rc) + (llen (f_data first) + PER_DATAFRAME_OVERHEAD) in
                let r' := with_buffer rc [first] in
                if f_finished first then (Ok [first], with_buffer r' [], s')
                else br_recv_loop size want (S (br_bytes s')) r' cur' s'
            end
        | (Err e, s') => (Err e, rc, s')
        | (Panic, s') => (Panic, rc, s')
        | (OutOfFuel, s') => (OutOfFuel, rc, s')
        end
     | _ :: _ => br_recv_loop size want (S (br_bytes r)) rc (data_total (r_buffer rc)) r
     end) (recv_message_dataframes rc s)).
  { unfold recv_message_dataframes. destruct (r_buffer rc) as [|f0 fs].
    - destruct (br_frame_rel size want rc r s Hw H) as [H1 H2].
      destruct (br_recv_frame size want rc r) as [x r'], (recv_dataframe rc s) as [y s'].
      cbn [fst snd] in *. subst y. destruct x as [f|e| |]; try (apply bsame_ret; exact H2).
      rewrite (br_bytes_rel _ _ H2).
      destruct (f_opcode f), (f_finished f); try (apply bsame_ret; exact H2);
        apply br_loop_rel; assumption.
    - rewrite (br_bytes_rel _ _ H). apply br_loop_rel; assumption. }
  destruct G as [G1 G2]. cbv zeta in *.
  destruct (match r_buffer rc with [] => _ | _ :: _ => _ end) as [[x r1] q1].
  destruct (recv_message_dataframes rc s) as [[y r2] q2]. cbn [fst snd] in *.
  injection G1 as <- <-. destruct x; apply bsame_ret; exact G2.
Qed.
Lemma br_n_rel : forall size want, (forall m, 0 < m -> 0 < want m) ->
  forall n rc r s, brel r s -> bsame (br_recv_n size want n rc r) (recv_n n rc s).
Proof.
  intros size want Hw. induction n as [|n IH]; intros rc r s H; cbn [br_recv_n recv_n];
    [apply bsame_ret; exact H|].
  destruct (br_message_rel size want Hw rc r s H) as [H1 H2].
  destruct (br_recv_message size want rc r) as [[x r1] q1], (recv_message rc s) as [[y r2] q2].
  cbn [fst snd] in *. injection H1 as <- <-. destruct (IH r1 q1 q2 H2) as [H3 H4].
  destruct (br_recv_n size want n r1 q1) as [[xs u1] t1], (recv_n n r1 q2) as [[ys u2] t2].
  cbn [fst snd] in *. injection H3 as <- <-. apply bsame_ret. exact H4.
Qed.

(** [C43] A connection reads through a buffer that may already hold bytes (those that came
    with the HTTP head) and that reads ahead.  It receives exactly what it would receive from
    a stream showing the buffered bytes and then the stream's: every message, every error,
    the same receiver state; and at any point buffer and stream together, which is what
    [into_stream] and [split] hand over, show exactly the bytes not yet used. *)
Lemma buffered_recv_proof : forall size want n rc buf s, proper s ->
  (forall m, 0 < m -> 0 < want m) ->
  let '(got, rc', r) := br_recv_n size want n rc (mk_br buf s) in
  let '(got0, rc0, s0) := recv_n n rc (push_back buf s) in
  got = got0 /\ rc' = rc0 /\ same_stream (push_back (br_buf r) (br_in r)) s0.
Proof.
  intros size want n rc buf s Hp Hw.
  assert (H : brel (mk_br buf s) (push_back buf s)).
  { split.
    - unfold bview. cbn [br_buf br_in]. rewrite spread_push_back. reflexivity.
    - rewrite spread_push_back. intros Hin. apply in_app_or in Hin as [Hin|Hin].
      + apply in_map_iff in Hin as (x & Hx & _). discriminate Hx.
      + apply (fine_spread s Hp Hin). }
  destruct (br_n_rel size want Hw n rc _ _ H) as [H1 H2].
  destruct (br_recv_n size want n rc (mk_br buf s)) as [[got rc'] r].
  destruct (recv_n n rc (push_back buf s)) as [[got0 rc0] s0]. cbn [fst snd] in *.
  injection H1 as <- <-. split; [reflexivity|]. split; [reflexivity|].
  unfold same_stream. rewrite spread_push_back. exact (proj1 H2).
Qed.
(*EX Example buffered_recv_ex :
  let s := [RData x82 [x01; x07; x82; x02; x08]; RIntr; RData x09 [x81]; RErr WouldBlock] in
  br_recv_n 4096 (fun n => n) 2 (receiver_new false) (mk_br [x89; x00] s)
  = ([Ok (OPing []); Ok (OBinary [x07])], receiver_new false,
     mk_br [x82; x02; x08] [RIntr; RData x09 [x81]; RErr WouldBlock]).
Proof. vm_compute. reflexivity. Qed. EX*)
(** [C43] The same for single frames. *)
Lemma buffered_frames_proof : forall size want rc buf s, proper s ->
  (forall m, 0 < m -> 0 < want m) ->
  let '(x, r) := br_recv_frame size want rc (mk_br buf s) in
  let '(x0, s0) := recv_dataframe rc (push_back buf s) in
  x = x0 /\ same_stream (push_back (br_buf r) (br_in r)) s0.
Proof.
  intros size want rc buf s Hp Hw.
  assert (H : brel (mk_br buf s) (push_back buf s)).
  { split.
    - unfold bview. cbn [br_buf br_in]. rewrite spread_push_back. reflexivity.
    - rewrite spread_push_back. intros Hin. apply in_app_or in Hin as [Hin|Hin].
      + apply in_map_iff in Hin as (x & Hx & _). discriminate Hx.
      + apply (fine_spread s Hp Hin). }
  destruct (br_frame_rel size want rc _ _ Hw H) as [H1 H2].
  destruct (br_recv_frame size want rc (mk_br buf s)) as [x r].
  destruct (recv_dataframe rc (push_back buf s)) as [x0 s0]. cbn [fst snd] in *.
  split; [exact H1|]. unfold same_stream. rewrite spread_push_back. exact (proj1 H2).
Qed.

(*EX
Example buffered_frames_ex :
  let s := [RData x82 [x01; x07; x82]; RErr WouldBlock] in
  br_recv_frame 4096 (fun n => n) (receiver_new false) (mk_br [x89] (RData x00 [] :: s))
  = (Ok (mk_df true (false, false, false) Ping []), mk_br [] s).
Proof. vm_compute. reflexivity. Qed.
EX*)

