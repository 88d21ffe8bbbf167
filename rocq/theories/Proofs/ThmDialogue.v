(** Two programs that say and hear by their plans: C94. *)
From Coq Require Import NArith ZArith String Bool List Lia.
From Coq Require Import ZifyBool ZifyNat ZifyN.
From Coq.Strings Require Import Byte.
From Verif.Model Require Import Base Io Header Mask Dataframe Utf8 Text Headers
  Message Receiver Codec Framed Connect Examples ChatClient Talk Narrow Errand Dialogue.
From Verif.Spec Require Import RfcFrame FrameSpec Schedule Unicode Drive Session Connection Polled Fields Echo Chat Talking AsyncChat Errands Dialogues.
From Verif.Proofs Require Import BaseFacts MaskFacts HeaderFacts FrameFacts CodecFacts ScriptFacts
  Machine Utf8Facts ThmFrames ThmStream SessionFacts RecvFacts MessageFacts
  TextFacts ExTac ThmMessages ThmFlow ThmLimits ThmInterop ThmEcho ThmChat ThmTalk ThmNarrow AsyncTalkFacts ThmCrossed ThmErrand.
Import ListNotations.
Local Open Scope string_scope.
Local Open Scope list_scope.
Local Open Scope nat_scope.

(** ** How much is said *)
Definition szc (c : bool) (ms : list owned) : nat := if c then up_bytes ms else down_bytes ms.
Lemma szc_app : forall c a b, szc c (a ++ b) = szc c a + szc c b.
Proof. intros [] a b; [apply up_app|apply down_app]. Qed.
Lemma szc_len : forall c l, length (encs (masked_frames c l)) = szc c (map fst l).
Proof. intros [] l; [apply (up_frames l)|apply (down_frames l)]. Qed.
Lemma one_length : forall c m k, length (payload_of m) + 2 <= length (encs (masked_frames c [(m, k)])) <= length (payload_of m) + 14.
Proof.
  intros c m k. pose proof (AsyncTalkFacts.frame_length (negb c) m k) as H. cbv zeta in H. unfold frames in H. rewrite negb_involutive in H. destruct c; cbn [negb] in H; lia.
Qed.

(** ** Plans that meet *)
Lemma meets_swap : forall s1 s2 cap u d p q, meets s1 s2 cap u d p q -> meets s2 s1 cap d u q p.
Proof. intros s1 s2 cap u d p q H. induction H; econstructor; eassumption. Qed.
Lemma meets_said : forall s1 s2 cap u d m p q, meets s1 s2 cap u d (Say m :: p) q -> meets s1 s2 cap (u ++ [m]) d p q.
Proof.
  intros s1 s2 cap u d m p q H. remember (Say m :: p) as x eqn:E. revert m p E. induction H; intros m0 p0 E; try discriminate E.
  - injection E as -> ->. assumption.
  - subst p. apply meets_say2; auto.
  - subst p. cbn [app]. apply meets_hear2; auto.
  - injection E as -> ->. cbn [app]. apply meets_hear2. assumption.
Qed.
Lemma meets_heard : forall s1 c cap u d m p q, meets s1 (szc c) cap u (m :: d) (Hear :: p) q -> meets s1 (szc c) cap u d p q.
Proof.
  intros s1 c cap u d m p q H. remember (Hear :: p) as x eqn:E. remember (m :: d) as y eqn:E'. revert m d p E E'. induction H; intros m0 d0 p0 E E'; try discriminate E; try discriminate E'.
  - subst p on2. apply meets_say2; [|eapply IHmeets; reflexivity]. rewrite szc_app in *. change (m0 :: d0) with ([m0] ++ d0) in H. rewrite szc_app in H. lia.
  - injection E as ->. injection E' as -> ->. assumption.
  - subst p on2. apply meets_hear2. eapply IHmeets; reflexivity.
Qed.

(** ** The whole *)
Definition flight (x : party) (sent : list owned) (on : list owned) (p : list deed) : Prop :=
  match p_write x with None => on = sent /\ p = p_todo x | Some _ => exists m, sent = on ++ [m] /\ p = Say m :: p_todo x end.
Definition lane (cap : nat) (c : bool) (planx plany : list deed) (x y : party) (net : bytes) (got ungot : list (owned * mkey)) : Prop :=
  exists w,
  map fst (got ++ ungot) ++ said_in (p_todo x) = said_in planx /\
  p_heard y = map fst got /\
  length (p_heard y) + heard_in (p_todo y) = heard_in plany /\
  pipe c (p_reader y) (net ++ rest1 (p_write x)) ungot /\
  (writer1 (p_write x) (p_writer x) = mk_writer (mk_sender c) w /\ never_fails w) /\
  (p_write x <> None -> rest1 (p_write x) <> []) /\
  p_failed x = false /\ length net <= cap /\ Forall (sendable big) (said_in planx).
Definition dinv (cap : nat) (c : bool) (planx plany : list deed) (x y : party) (out inn : bytes) : Prop :=
  exists gx ux gy uy,
  lane cap c planx plany x y out gx ux /\ lane cap (negb c) plany planx y x inn gy uy /\
  (meets (szc c) (szc (negb c)) cap [] [] planx plany ->
   exists u d p q, flight x (map fst ux) u p /\ flight y (map fst uy) d q /\ meets (szc c) (szc (negb c)) cap u d p q).
Definition dwork (x y : party) (out inn : bytes) : nat :=
  (toil (p_todo x) + 11 * length (rest1 (p_write x)) + 10 * length out + 9 * arrived_at (p_reader y)) +
  (toil (p_todo y) + 11 * length (rest1 (p_write y)) + 10 * length inn + 9 * arrived_at (p_reader x)).
Lemma dinv_swap : forall cap c px py x y out inn, dinv cap c px py x y out inn -> dinv cap (negb c) py px y x inn out.
Proof.
  intros cap c px py x y out inn (gx & ux & gy & uy & H1 & H2 & H3). exists gy, uy, gx, ux. split; [exact H2|]. rewrite negb_involutive. split; [exact H1|].
  intros HM. apply meets_swap in HM. destruct (H3 HM) as (u & d & p & q & F1 & F2 & F3). exists d, u, q, p. split; [exact F2|]. split; [exact F1|]. apply meets_swap. exact F3.
Qed.
Lemma dwork_swap : forall x y out inn, dwork x y out inn = dwork y x inn out.
Proof. intros. unfold dwork. lia. Qed.

Ltac pcbn := cbn [p_todo p_heard p_failed p_reader p_writer p_write rest1 writer1].
Ltac pcbn_in := cbn [p_todo p_heard p_failed p_reader p_writer p_write rest1 writer1] in *.
Ltac lane_open H w :=
  destruct H as (w & HSn & HHd & HHn & HPi & [HW HN] & HWr & HFa & HB & HFit).

Lemma p_turn_step : forall cap c px py k x y out inn x' o, dinv cap c px py x y out inn -> party_turn k inn x = Some (x', o) ->
  o = [] /\ dinv cap c px py x' y out inn /\ dwork x' y out inn < dwork x y out inn.
Proof.
  intros cap c px py k x y out inn x' o (gx & ux & gy & uy & H1 & H2 & H3) H.
  destruct x as [todo heard failed rd wr wt]. unfold party_turn in H. pcbn_in.
  destruct failed; [discriminate H|]. destruct wt as [a|]; [discriminate H|]. destruct todo as [|[m|] l]; [discriminate H| |].
  - lane_open H1 w. pcbn_in. change (said_in (Say m :: l)) with (m :: said_in l) in HSn.
    assert (sendable big m) as Hm.
    { rewrite <- HSn in HFit. apply Forall_app in HFit as [_ HFit]. inversion HFit; assumption. }
    destruct (sends c m k w HN (big_sendable m Hm)) as (w' & W1 & W2 & W3). rewrite HW, W1 in H. injection H as <- <-.
    rewrite (written_eq _ _ _ _ _ W2). pose proof (one_length c m k) as HL. set (e := encs (masked_frames c [(m, k)])) in *.
    split; [reflexivity|]. split.
    + exists gx, (ux ++ [(m, k)]), gy, uy. split; [|split].
      * exists w'. pcbn. split; [rewrite app_assoc, map_app; cbn [map fst]; rewrite <- app_assoc; exact HSn|]. split; [exact HHd|]. split; [exact HHn|]. split.
        { rewrite app_nil_r in HPi. apply (pipe_write c _ _ _ (m, k)); [exact HPi|exact Hm]. }
        split; [split; [reflexivity|exact W3]|]. split; [intros _ E; rewrite E in HL; cbn [length] in HL; lia|]. auto.
      * exact H2.
      * intros HM. destruct (H3 HM) as (u & d & p & q & F1 & F2 & F3). exists u, d, p, q. split; [|auto]. unfold flight in *. pcbn_in. destruct F1 as [-> ->].
        exists m. rewrite map_app. auto.
    + unfold dwork. pcbn. cbn [toil fold_right]. fold (toil l). cbn [length]. lia.
  - lane_open H2 w. pcbn_in. destruct (pipe_read _ _ _ _ HPi) as [(m & k0 & l' & r' & E1 & E2 & E3 & E4)|(E1 & E2)].
    + rewrite E2 in H. cbn [must_wait] in H. injection H as <- <-. split; [reflexivity|]. split.
      * exists gx, ux, (gy ++ [(m, k0)]), l'. split; [|split].
        -- exact H1.
        -- exists w. pcbn. split; [rewrite <- app_assoc; cbn [app]; rewrite <- E1; exact HSn|]. split; [rewrite HHd, map_app; reflexivity|].
           split; [rewrite app_length; cbn [length]; cbn [heard_in filter length] in HHn; unfold heard_in in *; lia|]. split; [exact E3|]. auto.
        -- intros HM. destruct (H3 HM) as (u & d & p & q & F1 & F2 & F3). unfold flight in *. pcbn_in. destruct F1 as [-> ->]. subst uy. cbn [map fst] in F2.
           assert (exists d', d = m :: d' /\ match p_write y with None => d' = map fst l' /\ q = p_todo y | Some _ => exists m0, map fst l' = d' ++ [m0] /\ q = Say m0 :: p_todo y end) as (d' & -> & F).
           { destruct (p_write y) as [[w0 o]|].
             - destruct F2 as (m0 & F2 & ->). destruct d as [|x d]; [|cbn [app] in F2; injection F2 as <- F2; exists d; eauto]. exfalso. cbn [app] in F2. injection F2 as F2 F4.
               assert (l' = []) as -> by (destruct l'; [reflexivity|discriminate F4]). apply encs_nil in E3. pcbn_in. specialize (HWr ltac:(discriminate)).
               apply app_eq_nil in E3 as [_ E3]. contradiction.
             - destruct F2 as [-> ->]. eauto. }
           exists (map fst ux), d', l, q. split; [auto|]. split; [exact F|]. eapply meets_heard. exact F3.
      * unfold dwork. pcbn. cbn [toil fold_right]. fold (toil l). unfold arrived_at in *. lia.
    + exfalso. destruct (reader_recv rd) as [a r']. cbn [fst] in E1. subst a. discriminate H.
Qed.

Lemma p_send_step : forall cap c px py n x y out inn x' q', dinv cap c px py x y out inn -> party_send cap n out x = Some (x', q') ->
  dinv cap c px py x' y q' inn /\ dwork x' y q' inn < dwork x y out inn.
Proof.
  intros cap c px py n x y out inn x' q' (gx & ux & gy & uy & H1 & H2 & H3) H.
  destruct x as [todo heard failed rd wr wt]. unfold party_send in H. pcbn_in.
  destruct wt as [[w' o]|]; [|discriminate H]. pose proof (firstn_skipn (Nat.min n (cap - length out)) o) as HO.
  assert (length (firstn (Nat.min n (cap - length out)) o) <= cap - length out) as HF by (rewrite firstn_length; lia).
  destruct (firstn (Nat.min n (cap - length out)) o) as [|b now]; [discriminate H|]. injection H as <- <-.
  set (later := skipn _ o) in *. clearbody later. subst o.
  assert (rest1 (match later with [] => None | y :: l => Some (w', y :: l) end) = later) as HL by (destruct later; reflexivity).
  split.
  - exists gx, ux, gy, uy. split; [|split].
    + lane_open H1 w. pcbn_in. exists w. pcbn. repeat (split; [assumption|]).
      split; [rewrite HL; rewrite <- app_assoc; exact HPi|]. split; [split; [destruct later; exact HW|exact HN]|].
      split; [rewrite HL; destruct later; [intros X; contradiction X; reflexivity|discriminate]|]. split; [assumption|]. split; [rewrite app_length; lia|assumption].
    + exact H2.
    + intros HM. destruct (H3 HM) as (u & d & p & q & F1 & F2 & F3). unfold flight in F1. pcbn_in. destruct F1 as (m & F1 & ->).
      destruct later as [|z later].
      * exists (map fst ux), d, todo, q. split; [split; reflexivity|]. split; [exact F2|]. rewrite F1. apply meets_said. exact F3.
      * exists u, d, (Say m :: todo), q. split; [exists m; auto|]. auto.
  - unfold dwork. pcbn. rewrite HL, !app_length. cbn [length]. lia.
Qed.

Lemma p_read_step : forall cap c px py n x y out inn x' q', dinv cap c px py x y out inn -> party_read n inn x = Some (x', q') ->
  dinv cap c px py x' y out q' /\ dwork x' y out q' < dwork x y out inn.
Proof.
  intros cap c px py n x y out inn x' q' (gx & ux & gy & uy & H1 & H2 & H3) H.
  destruct x as [todo heard failed rd wr wt]. unfold party_read in H. pcbn_in.
  destruct failed; [discriminate H|]. destruct wt as [a|]; [discriminate H|]. destruct todo as [|[m|] l]; try discriminate H.
  destruct (lacks rd); [|discriminate H]. destruct (arrive n inn rd) as [[r' q0]|] eqn:EA; [|discriminate H]. injection H as <- <-.
  lane_open H2 w. pcbn_in.
  assert (pipe (negb c) r' (q0 ++ rest1 (p_write y)) uy /\ length q0 < length inn /\ arrived_at r' + length q0 = arrived_at rd + length inn) as (A1 & A2 & A3).
  { unfold arrive in EA. pose proof (firstn_skipn n inn) as HQ. destruct (firstn n inn) as [|b bs]; [discriminate EA|]. injection EA as <- <-.
    destruct HPi as (P1 & P2 & P3 & P4). assert (length inn = S (length bs) + length (skipn n inn)) as HL by (rewrite <- HQ at 1; rewrite app_length; reflexivity).
    unfold arrived_at. split; [split; [exact P1|]|]; cbn [rd_receiver rd_buf rd_in]; rewrite flat_app; cbn [flat]; rewrite app_nil_r.
    - split; [apply Forall_app; split; [exact P2|constructor; [exact I|constructor]]|]. split; [|exact P4].
      rewrite <- P3. rewrite <- HQ at 2. rewrite <- !app_assoc. reflexivity.
    - rewrite !app_length. cbn [length]. lia. }
  split.
  - exists gx, ux, gy, uy. split; [exact H1|]. split.
    + exists w. pcbn. split; [exact HSn|]. split; [exact HHd|]. split; [exact HHn|]. split; [exact A1|]. split; [split; assumption|]. split; [exact HWr|]. split; [exact HFa|]. split; [lia|assumption].
    + intros HM. destruct (H3 HM) as (u & d & p & q & F1 & F2 & F3). exists u, d, p, q. auto.
  - unfold dwork. pcbn. lia.
Qed.

Definition dial_inv (cap : nat) (p1 p2 : list deed) (t : dialogue) : Prop := dinv cap true p1 p2 (d_client t) (d_server t) (d_up t) (d_down t).
Definition dial_work (t : dialogue) : nat := dwork (d_client t) (d_server t) (d_up t) (d_down t).
Lemma d_any_step : forall cap p1 p2 a t t', dial_inv cap p1 p2 t -> dialogue_step cap a t = Some t' -> dial_inv cap p1 p2 t' /\ dial_work t' < dial_work t.
Proof.
  intros cap p1 p2 a [c s u d] t' HI E. unfold dial_inv, dial_work in *. cbn [d_client d_server d_up d_down] in *.
  destruct a as [[] k|[] n|[] n]; cbn [dialogue_step] in E.
  - destruct (party_turn k d c) as [[c' o]|] eqn:EP; [|discriminate E]. injection E as <-. destruct (p_turn_step _ _ _ _ _ _ _ _ _ _ _ HI EP) as (-> & A & B). rewrite app_nil_r. auto.
  - apply dinv_swap in HI. destruct (party_turn k u s) as [[c' o]|] eqn:EP; [|discriminate E]. injection E as <-. destruct (p_turn_step _ _ _ _ _ _ _ _ _ _ _ HI EP) as (-> & A & B).
    cbn [d_client d_server d_up d_down]. rewrite app_nil_r. apply dinv_swap in A. rewrite (dwork_swap c c'), (dwork_swap c s). auto.
  - destruct (party_send cap n u c) as [[c' o]|] eqn:EP; [|discriminate E]. injection E as <-. exact (p_send_step _ _ _ _ _ _ _ _ _ _ _ HI EP).
  - apply dinv_swap in HI. destruct (party_send cap n d s) as [[c' o]|] eqn:EP; [|discriminate E]. injection E as <-. destruct (p_send_step _ _ _ _ _ _ _ _ _ _ _ HI EP) as (A & B).
    cbn [d_client d_server d_up d_down]. apply dinv_swap in A. rewrite (dwork_swap c c'), (dwork_swap c s). auto.
  - destruct (party_read n d c) as [[c' o]|] eqn:EP; [|discriminate E]. injection E as <-. exact (p_read_step _ _ _ _ _ _ _ _ _ _ _ HI EP).
  - apply dinv_swap in HI. destruct (party_read n u s) as [[c' o]|] eqn:EP; [|discriminate E]. injection E as <-. destruct (p_read_step _ _ _ _ _ _ _ _ _ _ _ HI EP) as (A & B).
    cbn [d_client d_server d_up d_down]. apply dinv_swap in A. rewrite (dwork_swap c c'), (dwork_swap c s). auto.
Qed.
Lemma d_new_inv : forall cap p1 p2 w1 w2, never_fails w1 -> never_fails w2 -> Forall (sendable big) (said_in p1) -> Forall (sendable big) (said_in p2) ->
  dial_inv cap p1 p2 (dialogue_new p1 p2 w1 w2).
Proof.
  intros cap p1 p2 w1 w2 H1 H2 F1 F2. exists [], [], [], []. unfold dialogue_new, party_new. cbn [d_client d_server d_up d_down]. split; [|split].
  - exists w1. pcbn. split; [reflexivity|]. split; [reflexivity|]. split; [reflexivity|]. split; [repeat split; constructor|]. split; [auto|]. split; [intros X; contradiction X; reflexivity|].
    split; [reflexivity|]. split; [apply Nat.le_0_l|exact F1].
  - exists w2. pcbn. split; [reflexivity|]. split; [reflexivity|]. split; [reflexivity|]. split; [repeat split; constructor|]. split; [auto|]. split; [intros X; contradiction X; reflexivity|].
    split; [reflexivity|]. split; [apply Nat.le_0_l|exact F2].
  - intros HM. exists [], [], p1, p2. split; [split; reflexivity|]. split; [split; reflexivity|]. exact HM.
Qed.
Lemma d_run_inv : forall cap p1 p2 acts t, dial_inv cap p1 p2 t -> dial_inv cap p1 p2 (dialogue_run cap acts t).
Proof.
  intros cap p1 p2. induction acts as [|a acts IH]; intros t H; [exact H|]. cbn [dialogue_run]. apply IH.
  destruct (dialogue_step cap a t) as [t'|] eqn:E; [|exact H]. apply (d_any_step _ _ _ _ _ _ H E).
Qed.
Lemma d_run_app : forall cap a b t, dialogue_run cap (a ++ b) t = dialogue_run cap b (dialogue_run cap a t).
Proof. intros cap. induction a as [|x a IH]; intros b t; [reflexivity|]. cbn [app dialogue_run]. apply IH. Qed.

(** ** It goes on *)
Lemma d_round_step : forall cap p1 p2 acts t, dial_inv cap p1 p2 t ->
  dial_work (dialogue_run cap acts t) < dial_work t \/ dialogue_run cap acts t = t /\ forall a, In a acts -> dialogue_step cap a t = None.
Proof.
  intros cap p1 p2. induction acts as [|a acts IH]; intros t HI; cbn [dialogue_run].
  - right. split; [reflexivity|intros a []].
  - destruct (dialogue_step cap a t) as [t'|] eqn:E.
    + left. destruct (d_any_step _ _ _ _ _ _ HI E) as [HI' HW]. destruct (IH _ HI') as [H|[-> _]]; lia.
    + destruct (IH _ HI) as [H|[H1 H2]]; [left; exact H|right]. split; [exact H1|]. intros b [<-|Hb]; auto.
Qed.

(** A program that can do nothing: it is done, or the network is full, or it has nothing to read. *)
Lemma p_stuck : forall cap k n1 n2 x out inn, p_failed x = false -> (p_write x <> None -> rest1 (p_write x) <> []) -> length out <= cap ->
  party_turn k inn x = None -> party_send cap (S n1) out x = None -> party_read (S n2) inn x = None ->
  p_write x <> None /\ length out = cap \/
  p_write x = None /\ p_todo x = [] \/
  p_write x = None /\ (exists l, p_todo x = Hear :: l) /\ fst (reader_recv (p_reader x)) = Err NoDataAvailable /\ inn = [].
Proof.
  intros cap k n1 n2 [todo heard failed rd wr wt] out inn F1 F2 F3 S1 S2 S3. unfold party_turn in S1. unfold party_send in S2. unfold party_read in S3. pcbn_in. subst failed.
  destruct wt as [[w o]|].
  - left. split; [discriminate|]. pcbn_in. specialize (F2 ltac:(discriminate)). destruct (Nat.eq_dec (length out) cap) as [E|E]; [exact E|exfalso].
    destruct (firstn (Nat.min (S n1) (cap - length out)) o) eqn:EF; [|discriminate S2]. revert EF. apply push_stuck; [lia|exact F2].
  - right. destruct todo as [|[m|] l]; [left; auto| |right].
    + exfalso. destruct (writer_send m k wr) as [[x|e| |] w']; discriminate S1.
    + split; [reflexivity|]. split; [eauto|]. destruct (reader_recv rd) as [a r'] eqn:ER. cbn [fst].
      assert (lacks rd = true /\ a = Err NoDataAvailable) as [HL HA].
      { unfold lacks. rewrite ER. cbn [fst]. destruct a as [x|[]| |]; try discriminate S1. auto. }
      split; [exact HA|]. rewrite HL in S3. destruct inn; [reflexivity|discriminate S3].
Qed.

(** Not both can be stuck if the plans meet. *)
Lemma d_one_moves : forall cap c px py x y out inn, dinv cap c px py x y out inn -> 1 <= cap ->
  forall u d p q ux uy gx gy,
  lane cap c px py x y out gx ux -> lane cap (negb c) py px y x inn gy uy -> flight x (map fst ux) u p -> flight y (map fst uy) d q ->
  (p_write x <> None /\ length out = cap \/ p_write x = None /\ p_todo x = [] \/
   p_write x = None /\ (exists l, p_todo x = Hear :: l) /\ fst (reader_recv (p_reader x)) = Err NoDataAvailable /\ inn = []) ->
  (p_write y <> None /\ length inn = cap \/ p_write y = None /\ p_todo y = [] \/
   p_write y = None /\ (exists l, p_todo y = Hear :: l) /\ fst (reader_recv (p_reader y)) = Err NoDataAvailable /\ out = []) ->
  (forall m p', p = Say m :: p' -> szc c (u ++ [m]) <= cap -> False) /\
  (forall m d' p', p = Hear :: p' -> d = m :: d' -> False) /\
  (forall m p' q', p = Say m :: p' -> q = Hear :: q' -> False).
Proof.
  intros cap c px py x y out inn _ Hcap u d p q ux uy gx gy H1 H2 F1 F2 SX SY. split; [|split].
  - intros m p' -> HS. lane_open H1 w. unfold flight in F1. destruct (p_write x) as [[w' o]|].
    + destruct F1 as (m' & E & F1). injection F1 as <- _. destruct SX as [[_ SX]|[[X _]|[X _]]]; [|discriminate X|discriminate X]. pcbn_in. specialize (HWr ltac:(discriminate)).
      destruct HPi as (_ & _ & P3 & _). apply (f_equal (@length byte)) in P3. rewrite szc_len, E, !app_length in P3. destruct o; [contradiction HWr; reflexivity|]. cbn [length] in P3. lia.
    + destruct F1 as [_ F1]. destruct SX as [[X _]|[[_ X]|(_ & (l & X) & _)]]; [contradiction X; reflexivity|congruence|congruence].
  - intros m d' p' -> ->. lane_open H2 w. unfold flight in F1, F2. destruct (p_write x) as [[w' o]|]; [destruct F1 as (m' & _ & F1); discriminate F1|]. destruct F1 as [_ F1].
    destruct SX as [[X _]|[[_ X]|(_ & _ & ER & EI)]]; [contradiction X; reflexivity|congruence|]. subst inn. destruct (p_write y) as [[w' o]|].
    + destruct SY as [[_ X]|[[X _]|[X _]]]; [cbn [length] in X; lia|discriminate X|discriminate X].
    + destruct F2 as [F2 _]. cbn [rest1 app] in HPi. destruct (pipe_read _ _ _ _ HPi) as [(m1 & k0 & l' & r' & E1 & E2 & _)|(_ & [E2|E2])].
      * rewrite E2 in ER. discriminate ER.
      * subst uy. discriminate F2.
      * contradiction E2. reflexivity.
  - intros m p' q' -> ->. unfold flight in F1, F2. destruct (p_write x) as [[w' o]|].
    + destruct SX as [[_ SX]|[[X _]|[X _]]]; [|discriminate X|discriminate X]. destruct (p_write y) as [[w'' o']|]; [destruct F2 as (m' & _ & F2); discriminate F2|]. destruct F2 as [_ F2].
      destruct SY as [[X _]|[[_ X]|(_ & _ & _ & EO)]]; [contradiction X; reflexivity|congruence|]. subst out. cbn [length] in SX. lia.
    + destruct F1 as [_ F1]. destruct SX as [[X _]|[[_ X]|(_ & (l & X) & _)]]; [contradiction X; reflexivity|congruence|congruence].
Qed.

Lemma d_not_stuck : forall cap p1 p2 t k k' n1 n2 n3 n4, dial_inv cap p1 p2 t -> 1 <= cap -> meets up_bytes down_bytes cap [] [] p1 p2 ->
  dialogue_step cap (DTurn true k) t = None -> dialogue_step cap (DSend true (S n1)) t = None -> dialogue_step cap (DRead true (S n2)) t = None ->
  dialogue_step cap (DTurn false k') t = None -> dialogue_step cap (DSend false (S n3)) t = None -> dialogue_step cap (DRead false (S n4)) t = None ->
  dialogue_done t.
Proof.
  intros cap p1 p2 [x y out inn] k k' n1 n2 n3 n4 HI Hcap HM S1 S2 S3 S4 S5 S6. unfold dial_inv in HI. cbn [d_client d_server d_up d_down dialogue_step] in *.
  assert (party_turn k inn x = None) as T1 by (destruct (party_turn k inn x) as [[? ?]|]; [discriminate S1|reflexivity]).
  assert (party_send cap (S n1) out x = None) as T2 by (destruct (party_send cap (S n1) out x) as [[? ?]|]; [discriminate S2|reflexivity]).
  assert (party_read (S n2) inn x = None) as T3 by (destruct (party_read (S n2) inn x) as [[? ?]|]; [discriminate S3|reflexivity]).
  assert (party_turn k' out y = None) as T4 by (destruct (party_turn k' out y) as [[? ?]|]; [discriminate S4|reflexivity]).
  assert (party_send cap (S n3) inn y = None) as T5 by (destruct (party_send cap (S n3) inn y) as [[? ?]|]; [discriminate S5|reflexivity]).
  assert (party_read (S n4) out y = None) as T6 by (destruct (party_read (S n4) out y) as [[? ?]|]; [discriminate S6|reflexivity]).
  clear S1 S2 S3 S4 S5 S6. pose proof HI as (gx & ux & gy & uy & H1 & H2 & H3). destruct (H3 HM) as (u & d & p & q & F1 & F2 & F3).
  assert (p_failed x = false /\ p_failed y = false) as [FX FY] by (destruct H1 as (? & _ & _ & _ & _ & _ & _ & ? & _), H2 as (? & _ & _ & _ & _ & _ & _ & ? & _); auto).
  pose proof (p_stuck cap k n1 n2 x out inn) as SX. pose proof (p_stuck cap k' n3 n4 y inn out) as SY.
  assert (length out <= cap) as BX by (lane_open H1 w; assumption). assert (length inn <= cap) as BY by (lane_open H2 w; assumption).
  assert (p_write x <> None -> rest1 (p_write x) <> []) as RX by (lane_open H1 w; assumption). assert (p_write y <> None -> rest1 (p_write y) <> []) as RY by (lane_open H2 w; assumption).
  specialize (SX FX RX BX T1 T2 T3). specialize (SY FY RY BY T4 T5 T6).
  destruct (d_one_moves _ _ _ _ _ _ _ _ HI Hcap _ _ _ _ _ _ _ _ H1 H2 F1 F2 SX SY) as (A1 & A2 & A3).
  pose proof (dinv_swap _ _ _ _ _ _ _ _ HI) as HI'. cbn [negb] in *.
  destruct (d_one_moves _ _ _ _ _ _ _ _ HI' Hcap _ _ _ _ _ _ _ _ H2 H1 F2 F1 SY SX) as (B1 & B2 & B3).
  unfold dialogue_done, party_done. cbn [d_client d_server]. inversion F3; subst.
  - split; split.
    + unfold flight in F1. destruct (p_write x); [destruct F1 as (? & _ & X); discriminate X|]. destruct F1 as [_ F1]. symmetry. exact F1.
    + split; [|exact FX]. unfold flight in F1. destruct (p_write x); [destruct F1 as (? & _ & X); discriminate X|reflexivity].
    + unfold flight in F2. destruct (p_write y); [destruct F2 as (? & _ & X); discriminate X|]. destruct F2 as [_ F2]. symmetry. exact F2.
    + split; [|exact FY]. unfold flight in F2. destruct (p_write y); [destruct F2 as (? & _ & X); discriminate X|reflexivity].
  - exfalso. eapply A1; [reflexivity|eassumption].
  - exfalso. eapply B1; [reflexivity|eassumption].
  - exfalso. eapply A2; reflexivity.
  - exfalso. eapply B2; reflexivity.
  - exfalso. eapply A3; reflexivity.
  - exfalso. eapply B3; reflexivity.
Qed.

Lemma d_done_still : forall cap acts t, dialogue_done t -> dialogue_run cap acts t = t.
Proof.
  intros cap acts [x y out inn] [(A1 & A2 & A3) (B1 & B2 & B3)]. cbn [d_client d_server] in *. induction acts as [|a acts IH]; [reflexivity|]. cbn [dialogue_run].
  replace (dialogue_step cap a (mk_dialogue x y out inn)) with (@None dialogue); [exact IH|]. symmetry.
  destruct a as [[] k|[] n|[] n]; cbn [dialogue_step]; unfold party_turn, party_send, party_read; rewrite ?A1, ?A2, ?A3, ?B1, ?B2, ?B3; reflexivity.
Qed.
Lemma d_run_ends : forall cap p1 p2 rounds t, dial_inv cap p1 p2 t -> 1 <= cap -> meets up_bytes down_bytes cap [] [] p1 p2 ->
  Forall dialogue_round rounds -> dial_work t < length rounds -> dialogue_done (dialogue_run cap (concat rounds) t).
Proof.
  intros cap p1 p2. induction rounds as [|acts rounds IH]; intros t HI Hcap HP HR HW; [cbn [length] in HW; lia|].
  inversion HR as [|? ? R1 R2]; subst. cbn [concat]. rewrite d_run_app.
  destruct (d_round_step cap p1 p2 acts t HI) as [HX|[HC HX]].
  - apply IH; auto; [apply d_run_inv; exact HI|]. cbn [length] in HW. lia.
  - rewrite HC. assert (dialogue_done t) as HD.
    { destruct R1 as ((k & A1) & (n1 & A2) & (n2 & A3) & (k' & A4) & (n3 & A5) & (n4 & A6)).
      apply (d_not_stuck cap p1 p2 t k k' n1 n2 n3 n4); auto. }
    rewrite d_done_still; exact HD.
Qed.

(** ** Plans *)
Lemma script_meets : forall cap script, meets up_bytes down_bytes cap [] [] (part_of true script) (part_of false script).
Proof.
  intros cap. induction script as [|[[] m] script IH]; cbn [part_of map fst snd Bool.eqb]; [constructor|apply meets_pass1|apply meets_pass2]; exact IH.
Qed.
Lemma part_said : forall c script, said_in (part_of c script) = lines_of c script.
Proof.
  intros c. induction script as [|[b m] script IH]; [reflexivity|]. unfold part_of, lines_of in *. cbn [map filter fst snd]. destruct (Bool.eqb b c); cbn [said_in flat_map app map snd]; [f_equal|]; exact IH.
Qed.
Lemma part_heard : forall c script, heard_in (part_of c script) = length (lines_of (negb c) script).
Proof.
  intros c. induction script as [|[b m] script IH]; [reflexivity|]. unfold part_of, lines_of, heard_in in *. cbn [map filter fst snd].
  destruct b, c; cbn [Bool.eqb negb filter map snd length]; rewrite ?IH; reflexivity.
Qed.
Lemma says_ahead : forall c s2 cap ms on1 on2 p q, szc c (on1 ++ ms) <= cap -> meets (szc c) s2 cap (on1 ++ ms) on2 p q -> meets (szc c) s2 cap on1 on2 (map Say ms ++ p) q.
Proof.
  intros c s2 cap. induction ms as [|m ms IH]; intros on1 on2 p q HS HM; cbn [map app].
  - rewrite app_nil_r in HM. exact HM.
  - change (m :: ms) with ([m] ++ ms) in *. rewrite app_assoc in HS, HM. apply meets_say1; [rewrite szc_app in HS; lia|]. apply IH; assumption.
Qed.
Lemma hears_all : forall s1 s2 cap ms, meets s1 s2 cap ms [] [] (repeat Hear (length ms)).
Proof. intros s1 s2 cap. induction ms as [|m ms IH]; cbn [length repeat]; constructor. exact IH. Qed.
Lemma hears_then : forall s1 s2 cap ms ms', meets s1 s2 cap ms [] (repeat Hear (length ms')) (map Say ms' ++ repeat Hear (length ms)).
Proof. intros s1 s2 cap ms. induction ms' as [|m ms' IH]; cbn [length repeat map app]; [apply hears_all|]. apply meets_pass2. exact IH. Qed.
Lemma ahead_meets : forall c cap ms ms', szc c ms <= cap ->
  meets (szc c) (szc (negb c)) cap [] [] (map Say ms ++ repeat Hear (length ms')) (map Say ms' ++ repeat Hear (length ms)).
Proof. intros c cap ms ms' H. apply says_ahead; [exact H|]. apply hears_then. Qed.
Lemma map_say_said : forall ms p, said_in (map Say ms ++ p) = ms ++ said_in p.
Proof. induction ms as [|m ms IH]; intros p; [reflexivity|]. cbn [map app said_in flat_map]. f_equal. apply IH. Qed.
Lemma map_say_heard : forall ms p, heard_in (map Say ms ++ p) = heard_in p.
Proof. induction ms as [|m ms IH]; intros p; [reflexivity|]. apply IH. Qed.
Lemma hears_heard : forall n, heard_in (repeat Hear n) = n.
Proof. unfold heard_in. induction n as [|n IH]; [reflexivity|]. cbn [repeat filter length]. f_equal. exact IH. Qed.

(** ** Two programs that both say too much first *)
Definition talking (px : list deed) (x : party) : Prop :=
  (exists later, p_todo x = map Say later ++ px) /\ p_heard x = [] /\ arrived_at (p_reader x) = 0.
Lemma talking_on : forall cap c ms px plany x y out gx ux, lane cap c (map Say ms ++ px) plany x y out gx ux -> talking px x ->
  p_heard y = [] -> arrived_at (p_reader y) = 0 -> cap < szc c ms ->
  p_write x <> None \/ exists m later, p_todo x = Say m :: map Say later ++ px.
Proof.
  intros cap c ms px plany x y out gx ux H1 ([later HT] & _) HY HA HC. lane_open H1 w. destruct (p_write x) as [a|]; [left; discriminate|right].
  destruct later as [|m later]; [exfalso|exists m, later; exact HT]. rewrite HT in HSn. cbn [map app] in HSn. rewrite map_say_said in HSn. apply app_inv_tail in HSn.
  rewrite HY in HHd. destruct gx; [|discriminate HHd]. cbn [app] in HSn. subst ms. destruct HPi as (_ & _ & P3 & _). apply (f_equal (@length byte)) in P3.
  cbn [rest1] in P3. rewrite szc_len, !app_nil_r, app_length in P3. unfold arrived_at in HA. lia.
Qed.
Lemma talking_turn : forall px k inn x x' o, talking px x -> p_write x <> None \/ (exists m later, p_todo x = Say m :: map Say later ++ px) ->
  party_turn k inn x = Some (x', o) -> talking px x'.
Proof.
  intros px k inn [todo heard failed rd wr wt] x' o (T1 & T2 & T3) HT H. unfold party_turn in H. unfold talking. pcbn_in.
  destruct failed; [discriminate H|]. destruct wt as [a|]; [discriminate H|]. destruct HT as [HT|(m & later & ->)]; [contradiction HT; reflexivity|].
  destruct (writer_send m k wr) as [[x|e| |] w']; injection H as <- <-; pcbn; eauto.
Qed.
Lemma talking_send : forall px cap n out x x' o, talking px x -> party_send cap n out x = Some (x', o) -> talking px x'.
Proof.
  intros px cap n out [todo heard failed rd wr wt] x' o HT H. unfold party_send in H. unfold talking in *. pcbn_in. destruct wt as [[w b]|]; [|discriminate H].
  cbv zeta in H. destruct (firstn _ b); [discriminate H|]. injection H as <- <-. pcbn. exact HT.
Qed.
Lemma talking_read : forall px n inn x, p_write x <> None \/ (exists m later, p_todo x = Say m :: map Say later ++ px) -> party_read n inn x = None.
Proof.
  intros px n inn [todo heard failed rd wr wt] HT. unfold party_read. pcbn_in. destruct failed; [reflexivity|]. destruct wt as [a|]; [reflexivity|].
  destruct HT as [HT|(m & later & ->)]; [contradiction HT; reflexivity|reflexivity].
Qed.
Lemma both_talk_on : forall cap ms1 ms2 q1 q2 t, dial_inv cap (map Say ms1 ++ q1) (map Say ms2 ++ q2) t -> cap < up_bytes ms1 -> cap < down_bytes ms2 ->
  talking q1 (d_client t) -> talking q2 (d_server t) ->
  (p_write (d_client t) <> None \/ exists m later, p_todo (d_client t) = Say m :: map Say later ++ q1) /\
  (p_write (d_server t) <> None \/ exists m later, p_todo (d_server t) = Say m :: map Say later ++ q2).
Proof.
  intros cap ms1 ms2 q1 q2 t (gx & ux & gy & uy & H1 & H2 & _) C1 C2 T1 T2. cbn [negb] in H2.
  split; [eapply (talking_on cap true ms1)|eapply (talking_on cap false ms2)]; eauto; first [apply T1|apply T2].
Qed.
Lemma both_talk_step : forall cap ms1 ms2 q1 q2 a t t', dial_inv cap (map Say ms1 ++ q1) (map Say ms2 ++ q2) t -> cap < up_bytes ms1 -> cap < down_bytes ms2 ->
  talking q1 (d_client t) -> talking q2 (d_server t) -> dialogue_step cap a t = Some t' -> talking q1 (d_client t') /\ talking q2 (d_server t').
Proof.
  intros cap ms1 ms2 q1 q2 a t t' HI C1 C2 T1 T2 E. destruct (both_talk_on _ _ _ _ _ _ HI C1 C2 T1 T2) as [A B]. destruct t as [x y out inn]. cbn [d_client d_server] in *.
  destruct a as [[] k|[] n|[] n]; cbn [dialogue_step] in E.
  - destruct (party_turn k inn x) as [[c' o]|] eqn:EP; [|discriminate E]. injection E as <-. split; [eapply talking_turn; eassumption|exact T2].
  - destruct (party_turn k out y) as [[c' o]|] eqn:EP; [|discriminate E]. injection E as <-. split; [exact T1|eapply talking_turn; eassumption].
  - destruct (party_send cap n out x) as [[c' o]|] eqn:EP; [|discriminate E]. injection E as <-. split; [eapply talking_send; eassumption|exact T2].
  - destruct (party_send cap n inn y) as [[c' o]|] eqn:EP; [|discriminate E]. injection E as <-. split; [exact T1|eapply talking_send; eassumption].
  - rewrite (talking_read _ _ _ _ A) in E. discriminate E.
  - rewrite (talking_read _ _ _ _ B) in E. discriminate E.
Qed.
Lemma both_talk_run : forall cap ms1 ms2 q1 q2 acts t, dial_inv cap (map Say ms1 ++ q1) (map Say ms2 ++ q2) t -> cap < up_bytes ms1 -> cap < down_bytes ms2 ->
  talking q1 (d_client t) -> talking q2 (d_server t) -> let t' := dialogue_run cap acts t in talking q1 (d_client t') /\ talking q2 (d_server t').
Proof.
  intros cap ms1 ms2 q1 q2. induction acts as [|a acts IH]; intros t HI C1 C2 T1 T2; [split; assumption|]. cbn [dialogue_run].
  destruct (dialogue_step cap a t) as [t'|] eqn:E; [|apply IH; assumption].
  destruct (both_talk_step _ _ _ _ _ _ _ _ HI C1 C2 T1 T2 E) as [T1' T2']. apply IH; auto. apply (d_any_step _ _ _ _ _ _ HI E).
Qed.

(** ** The theorems *)
(** [C94] Two programs that use the library the plain way, each by a plan of its own; whatever the
    plans, the room of the network, its delays and the scheduling: no [unwrap] fails; what a program
    has received is an initial part of what the other has begun to send, each message once and in
    order; and the network never holds more than its room. *)
Lemma dialogue_sound_proof : forall cap p1 p2 w1 w2 acts, never_fails w1 -> never_fails w2 ->
  Forall (sendable 104857600) (said_in p1) -> Forall (sendable 104857600) (said_in p2) ->
  let t := dialogue_run cap acts (dialogue_new p1 p2 w1 w2) in
  p_failed (d_client t) = false /\ p_failed (d_server t) = false /\
  (exists said, said ++ said_in (p_todo (d_client t)) = said_in p1 /\ prefix (p_heard (d_server t)) said) /\
  (exists said, said ++ said_in (p_todo (d_server t)) = said_in p2 /\ prefix (p_heard (d_client t)) said) /\
  (List.length (d_up t) <= cap)%nat /\ (List.length (d_down t) <= cap)%nat.
Proof.
  intros cap p1 p2 w1 w2 acts H1 H2 F1 F2 t. pose proof (d_run_inv cap p1 p2 acts _ (d_new_inv cap p1 p2 w1 w2 H1 H2 F1 F2)) as HI. fold t in HI.
  destruct HI as (gx & ux & gy & uy & (wx & A1 & A2 & A3 & A4 & A5 & A6 & A7 & A8 & A9) & (wy & B1 & B2 & B3 & B4 & B5 & B6 & B7 & B8 & B9) & _).
  split; [exact A7|]. split; [exact B7|]. split; [|split; [|split; assumption]].
  - exists (map fst (gx ++ ux)). split; [exact A1|]. rewrite A2, map_app. eexists. reflexivity.
  - exists (map fst (gy ++ uy)). split; [exact B1|]. rewrite B2, map_app. eexists. reflexivity.
Qed.
(*EX
(** The client asks twice and hears twice, the server waits for both questions; the network holds
    five bytes either way. *)
Definition dialogue_turns : list dact :=
  [DTurn true (mk_key x01 x02 x03 x04); DSend true 3; DRead true 2; DTurn false (mk_key x00 x00 x00 x00); DSend false 4; DRead false 3].
Definition dialogue_asks : list deed := [Say (OText (str "one")); Say (OText (str "two")); Hear; Hear].
Definition dialogue_tells : list deed := [Hear; Hear; Say (OText (str "1")); Say (OBinary (str "2"))].
Example dialogue_sound_ex :
  let t := dialogue_run 5 (concat (repeat dialogue_turns 11)) (dialogue_new dialogue_asks dialogue_tells (mk_w [] []) (mk_w [] [])) in
  p_heard (d_server t) = [OText (str "one"); OText (str "two")] /\ p_heard (d_client t) = [OText (str "1")] /\ p_todo (d_client t) = [Hear].
Proof. vm_compute. repeat split; reflexivity. Qed.
EX*)

(** [C94] A program that came to its end has received just what its plan says: as many messages as
    it asked for, the first ones of the other's plan. *)
Lemma dialogue_complete_proof : forall cap p1 p2 w1 w2 acts, never_fails w1 -> never_fails w2 ->
  Forall (sendable 104857600) (said_in p1) -> Forall (sendable 104857600) (said_in p2) ->
  let t := dialogue_run cap acts (dialogue_new p1 p2 w1 w2) in
  (p_todo (d_client t) = [] -> p_heard (d_client t) = firstn (heard_in p1) (said_in p2) /\ (heard_in p1 <= List.length (said_in p2))%nat) /\
  (p_todo (d_server t) = [] -> p_heard (d_server t) = firstn (heard_in p2) (said_in p1) /\ (heard_in p2 <= List.length (said_in p1))%nat).
Proof.
  intros cap p1 p2 w1 w2 acts H1 H2 F1 F2 t. pose proof (d_run_inv cap p1 p2 acts _ (d_new_inv cap p1 p2 w1 w2 H1 H2 F1 F2)) as HI. fold t in HI.
  destruct HI as (gx & ux & gy & uy & (wx & A1 & A2 & A3 & _) & (wy & B1 & B2 & B3 & _) & _).
  split; intros E; [rewrite E in B3; rewrite <- B1, <- B3, B2|rewrite E in A3; rewrite <- A1, <- A3, A2]; change (heard_in []) with 0; rewrite Nat.add_0_r, !map_app, <- app_assoc;
    (split; [rewrite firstn_app, firstn_all, Nat.sub_diag, firstn_O, app_nil_r; reflexivity|rewrite !app_length; lia]).
Qed.
(*EX
Example dialogue_complete_ex :
  let t := dialogue_run 5 (concat (repeat dialogue_turns 12)) (dialogue_new dialogue_asks dialogue_tells (mk_w [] []) (mk_w [] [])) in
  dialogue_done t /\ p_heard (d_client t) = [OText (str "1"); OBinary (str "2")].
Proof. vm_compute. repeat split; reflexivity. Qed.
EX*)

(** [C94] If the plans fit together (see Spec/Dialogues.v: there is one order of the deeds in which
    everything that is said has room, or is waited for), both programs come to their ends, however
    they are scheduled and however the network cuts what it carries, once everyone has had enough
    turns. *)
Lemma dialogue_live_proof : forall cap p1 p2 w1 w2 rounds, never_fails w1 -> never_fails w2 ->
  Forall (sendable 104857600) (said_in p1) -> Forall (sendable 104857600) (said_in p2) -> (1 <= cap)%nat ->
  meets up_bytes down_bytes cap [] [] p1 p2 ->
  Forall dialogue_round rounds -> (toil p1 + toil p2 < List.length rounds)%nat ->
  dialogue_done (dialogue_run cap (concat rounds) (dialogue_new p1 p2 w1 w2)).
Proof.
  intros cap p1 p2 w1 w2 rounds H1 H2 F1 F2 Hcap HM HR HL. apply (d_run_ends cap p1 p2); auto; [apply d_new_inv; auto|].
  unfold dial_work, dwork, dialogue_new, party_new. cbn [d_client d_server d_up d_down]. pcbn. cbn [length].
  change (arrived_at {| rd_receiver := default_receiver true; rd_buf := []; rd_in := [] |}) with 0.
  change (arrived_at {| rd_receiver := default_receiver false; rd_buf := []; rd_in := [] |}) with 0. lia.
Qed.
(*EX
(** The second question is too much for the network, the first is not. *)
Example dialogue_live_ex : dialogue_round dialogue_turns /\ meets up_bytes down_bytes 9 [] [] dialogue_asks dialogue_tells /\ (9 < up_bytes [OText (str "one"); OText (str "two")])%nat.
Proof.
  split; [unfold dialogue_round, dialogue_turns; repeat split; eexists; repeat ((left; reflexivity) || right)|]. split; [|apply PeanoNat.Nat.ltb_lt; vm_compute; reflexivity].
  apply meets_say1; [apply PeanoNat.Nat.leb_le; vm_compute; reflexivity|]. apply (meets_hear2 _ _ _ []). apply meets_pass1. apply meets_pass2. apply meets_pass2. apply meets_done.
Qed.
EX*)

(** [C94] Talking in turn always works: whatever the script, however long its lines and however
    little the network holds, both programs end, with all the lines of the other. *)
Lemma dialogue_in_turn_proof : forall cap script w1 w2 rounds, never_fails w1 -> never_fails w2 ->
  Forall (sendable 104857600) (map snd script) -> (1 <= cap)%nat ->
  Forall dialogue_round rounds -> (toil (part_of true script) + toil (part_of false script) < List.length rounds)%nat ->
  let t := dialogue_run cap (concat rounds) (dialogue_new (part_of true script) (part_of false script) w1 w2) in
  dialogue_done t /\ p_heard (d_client t) = lines_of false script /\ p_heard (d_server t) = lines_of true script.
Proof.
  intros cap script w1 w2 rounds H1 H2 HF Hcap HR HL t.
  assert (forall c, Forall (sendable 104857600) (said_in (part_of c script))) as HS.
  { intros c. rewrite part_said. apply Forall_forall. intros m Hm. unfold lines_of in Hm. apply in_map_iff in Hm as (p & <- & Hp). apply filter_In in Hp as [Hp _].
    rewrite Forall_forall in HF. apply HF. apply in_map. exact Hp. }
  assert (dialogue_done t) as HD by (apply dialogue_live_proof; auto; apply script_meets).
  split; [exact HD|]. destruct (dialogue_complete_proof cap _ _ w1 w2 (concat rounds) H1 H2 (HS true) (HS false)) as [A B]. fold t in A, B. destruct HD as [[D1 _] [D2 _]].
  destruct (A D1) as [-> _]. destruct (B D2) as [-> _]. rewrite !part_said, !part_heard. cbn [negb]. rewrite !firstn_all. auto.
Qed.
(*EX
Definition dialogue_script : list (bool * owned) :=
  [(true, OText (str "who's there?")); (false, OText (str "it is I")); (false, OPing (str "x")); (true, OPong (str "x")); (true, OClose None); (false, OClose None)].
Example dialogue_in_turn_ex :
  let t := dialogue_run 1 (concat (repeat dialogue_turns 1200)) (dialogue_new (part_of true dialogue_script) (part_of false dialogue_script) (mk_w [] []) (mk_w [] [])) in
  dialogue_done t /\ p_heard (d_client t) = [OText (str "it is I"); OPing (str "x"); OClose None] /\ p_heard (d_server t) = [OText (str "who's there?"); OPong (str "x"); OClose None].
Proof.
  apply (dialogue_in_turn 1 dialogue_script).
  - constructor.
  - constructor.
  - repeat constructor; try (apply ExTac.good_text; reflexivity); vm_compute; discriminate.
  - constructor.
  - apply Forall_forall. intros r HR. apply repeat_spec in HR. subst r. unfold dialogue_round, dialogue_turns. repeat split; eexists; repeat ((left; reflexivity) || right).
  - apply PeanoNat.Nat.ltb_lt. vm_compute. reflexivity.
Qed.
EX*)

(** [C94] Two programs that both send everything first and receive only then: they come to their ends
    if what either of them sends has room in the network. *)
Lemma dialogue_crossing_proof : forall cap ms1 ms2 w1 w2 rounds, never_fails w1 -> never_fails w2 ->
  Forall (sendable 104857600) ms1 -> Forall (sendable 104857600) ms2 -> (1 <= cap)%nat ->
  (up_bytes ms1 <= cap \/ down_bytes ms2 <= cap)%nat ->
  let p1 := map Say ms1 ++ repeat Hear (List.length ms2) in
  let p2 := map Say ms2 ++ repeat Hear (List.length ms1) in
  Forall dialogue_round rounds -> (toil p1 + toil p2 < List.length rounds)%nat ->
  let t := dialogue_run cap (concat rounds) (dialogue_new p1 p2 w1 w2) in
  dialogue_done t /\ p_heard (d_client t) = ms2 /\ p_heard (d_server t) = ms1.
Proof.
  intros cap ms1 ms2 w1 w2 rounds H1 H2 F1 F2 Hcap HB p1 p2 HR HL t.
  assert (said_in p1 = ms1 /\ said_in p2 = ms2 /\ heard_in p1 = length ms2 /\ heard_in p2 = length ms1) as (S1 & S2 & S3 & S4).
  { unfold p1, p2. rewrite !map_say_said, !map_say_heard, !hears_heard, !hears_said, !app_nil_r. auto. }
  assert (Forall (sendable 104857600) (said_in p1) /\ Forall (sendable 104857600) (said_in p2)) as [G1 G2] by (rewrite S1, S2; auto).
  assert (dialogue_done t) as HD.
  { apply dialogue_live_proof; auto. destruct HB as [HB|HB]; [exact (ahead_meets true cap ms1 ms2 HB)|apply meets_swap; exact (ahead_meets false cap ms2 ms1 HB)]. }
  split; [exact HD|]. destruct (dialogue_complete_proof cap _ _ w1 w2 (concat rounds) H1 H2 G1 G2) as [A B]. fold t in A, B. destruct HD as [[D1 _] [D2 _]].
  destruct (A D1) as [-> _]. destruct (B D2) as [-> _]. rewrite S1, S2, S3, S4, !firstn_all. auto.
Qed.
(*EX
(** The network has room for what the server sends only. *)
Example dialogue_crossing_ex : let ms1 := [OText (str "hello"); OText (str "world")] in let ms2 := [OText (str "hi")] in
  (4 < up_bytes ms1)%nat /\ (down_bytes ms2 = 4)%nat /\
  let t := dialogue_run 4 (concat (repeat dialogue_turns 30)) (dialogue_new (map Say ms1 ++ [Hear]) (map Say ms2 ++ [Hear; Hear]) (mk_w [] []) (mk_w [] [])) in
  dialogue_done t /\ p_heard (d_client t) = ms2 /\ p_heard (d_server t) = ms1.
Proof. cbv zeta. split; [apply PeanoNat.Nat.ltb_lt; vm_compute; reflexivity|]. vm_compute. repeat split; reflexivity. Qed.
EX*)

(** [C94] And only then: if both begin by sending more than the network has room for, whatever they
    would do after it, they hang for good under every schedule; neither receives anything. *)
Lemma dialogue_hangs_proof : forall cap ms1 ms2 q1 q2 w1 w2 acts, never_fails w1 -> never_fails w2 ->
  let p1 := map Say ms1 ++ q1 in let p2 := map Say ms2 ++ q2 in
  Forall (sendable 104857600) (said_in p1) -> Forall (sendable 104857600) (said_in p2) ->
  (cap < up_bytes ms1)%nat -> (cap < down_bytes ms2)%nat ->
  let t := dialogue_run cap acts (dialogue_new p1 p2 w1 w2) in
  ~ party_done (d_client t) /\ ~ party_done (d_server t) /\ p_heard (d_client t) = [] /\ p_heard (d_server t) = [].
Proof.
  intros cap ms1 ms2 q1 q2 w1 w2 acts H1 H2 p1 p2 F1 F2 C1 C2 t.
  pose proof (d_new_inv cap p1 p2 w1 w2 H1 H2 F1 F2) as HN.
  assert (talking q1 (d_client t) /\ talking q2 (d_server t)) as [T1 T2].
  { apply (both_talk_run cap ms1 ms2 q1 q2 acts); auto; (split; [eexists; reflexivity|split; reflexivity]). }
  pose proof (d_run_inv cap p1 p2 acts _ HN) as HI. fold t in HI. destruct (both_talk_on _ _ _ _ _ _ HI C1 C2 T1 T2) as [A B].
  split; [|split; [|split; [apply T1|apply T2]]].
  - intros (X & Y & _). destruct A as [A|(m & later & A)]; [contradiction|]. rewrite A in X. discriminate X.
  - intros (X & Y & _). destruct B as [B|(m & later & B)]; [contradiction|]. rewrite B in X. discriminate X.
Qed.
(*EX
(** With five bytes of room, two messages of four letters are enough to hang. *)
Example dialogue_hangs_ex : (5 < up_bytes [OText (str "ping")])%nat /\ (5 < down_bytes [OText (str "pong")])%nat /\
  let t := dialogue_run 5 (concat (repeat dialogue_turns 300)) (dialogue_new [Say (OText (str "ping")); Hear] [Say (OText (str "pong")); Hear] (mk_w [] []) (mk_w [] [])) in
  p_todo (d_client t) = [Hear] /\ p_todo (d_server t) = [Hear] /\ List.length (d_up t) = 5%nat /\ p_heard (d_client t) = [].
Proof. split; [apply PeanoNat.Nat.ltb_lt; vm_compute; reflexivity|]. split; [apply PeanoNat.Nat.ltb_lt; vm_compute; reflexivity|]. vm_compute. repeat split; reflexivity. Qed.
EX*)
