(** A program that says and hears by a plan, and the server of examples/async-server.rs: C92. *)
From Coq Require Import NArith ZArith String Bool List Lia.
From Coq Require Import ZifyBool ZifyNat ZifyN.
From Coq.Strings Require Import Byte.
From Verif.Model Require Import Base Io Header Mask Dataframe Utf8 Text Base64 WsKey Headers
  Handshake Message Receiver Codec Framed Http Connect Examples AsyncExamples ChatClient Talk Narrow Suite AsyncChat AsyncTalk Mixture Errand AsyncErrand.
From Verif.Spec Require Import RfcFrame FrameSpec Schedule Unicode Drive Session Connection Polled Fields Upgrade Builder HttpHead Wire Endpoint Echo Polls Chat Talking Suite AsyncChat AsyncTalking Mixing Errands AsyncErrands.
From Verif.Proofs Require Import BaseFacts MaskFacts HeaderFacts FrameFacts CodecFacts ScriptFacts
  Machine FramedFacts AsyncFacts Utf8Facts ThmFrames ThmStream SessionFacts RecvFacts MessageFacts
  TextFacts MapFacts ExTac ThmMessages ThmFlow ThmLimits ThmServer ThmHttp ThmConnect ThmInterop ThmSession
  ThmEcho ThmWake ThmAsyncEcho ThmChat ThmSuite ThmTalk ThmNarrow ThmAsyncChat AsyncTalkFacts ThmAsyncTalk ThmMixture ThmCrossed ThmErrand.
From Verif.Spec Require Import Errands AsyncErrands.
Import ListNotations.
Local Open Scope string_scope.
Local Open Scope list_scope.
Local Open Scope nat_scope.

(** ** What the server has said *)
Lemma awhole_app : forall a b, whole_atalk (a ++ b) = whole_atalk a ++ flat_map answer b.
Proof. intros a b. unfold whole_atalk. rewrite flat_map_app. reflexivity. Qed.
Lemma asaid_talk : forall a t read said, sstate a t read said ->
  exists rest, map fst said ++ held t ++ rest = whole_atalk (map fst read) /\ (et_closing t = false -> et_done t = false -> rest = []).
Proof.
  intros a t read said H. change (whole_atalk (map fst read)) with (agreeting :: flat_map answer (map fst read)).
  assert (sphase t read said -> exists rest, map fst said ++ held t ++ rest = agreeting :: flat_map answer (map fst read) /\
    (et_closing t = false -> et_done t = false -> rest = [])) as HP.
  { intros HP. unfold sphase in HP. destruct (et_closing t); [|destruct (et_done t)].
    - destruct HP as (rd & p & -> & P2 & P3 & P4). exists []. rewrite app_nil_r, P4. split; [|discriminate].
      rewrite map_app, flat_map_app, (answers_open _ P2). cbn [map flat_map]. destruct (fst p); try destruct P3. reflexivity.
    - destruct HP as (P0 & rd & p & -> & P2 & P3 & P4). exists [OClose None]. rewrite P0, P4. split; [|discriminate].
      rewrite map_app, flat_map_app, (answers_open _ P2). cbn [map flat_map]. destruct (fst p); try destruct P3. reflexivity.
    - destruct HP as (P2 & P4). exists []. rewrite app_nil_r, P4, (answers_open _ P2). auto. }
  destruct a; cbn [sstate] in H; [|apply HP, H|apply HP, H].
  destruct H as (_ & _ & -> & H). exists []. rewrite app_nil_r. auto.
Qed.
Lemma read_closed : forall a t read said, sstate a t read said -> a <> AGreeting -> et_closing t = true \/ et_done t = true ->
  exists rd q, read = rd ++ [q] /\ closing (fst q).
Proof.
  intros a t read said H Ha HC.
  assert (sphase t read said -> exists rd q, read = rd ++ [q] /\ closing (fst q)) as HP.
  { intros HP. unfold sphase in HP. destruct (et_closing t); [|destruct (et_done t)].
    - destruct HP as (rd & p & P1 & _ & P3 & _). eauto.
    - destruct HP as (_ & rd & p & P1 & _ & P3 & _). eauto.
    - destruct HC; discriminate. }
  destruct a; cbn [sstate] in H; [contradiction|apply HP, H|apply HP, H].
Qed.
Lemma all_read : forall a t read unread said later all, sstate a t read said -> a <> AGreeting -> et_closing t = true \/ et_done t = true ->
  map fst (read ++ unread) ++ later = all -> close_is_last all -> unread = [] /\ later = [].
Proof.
  intros a t read unread said later all H Ha HC E HL. destruct (read_closed _ _ _ _ H Ha HC) as (rd & q & -> & HQ).
  rewrite !map_app, <- !app_assoc in E. cbn [map app] in E. symmetry in E. pose proof (HL _ _ _ E HQ) as HX.
  apply app_eq_nil in HX as [HX ->]. destruct unread; [auto|discriminate HX].
Qed.

(** ** The whole *)
Definition in_aplan (cap : nat) (t : aerrand) (sent got : list owned) : Prop :=
  y_failed t = false -> exists owed, got ++ owed = whole_atalk sent /\ fair_plan cap sent owed (y_todo t) /\
    (y_write t <> None -> exists s m owed0, sent = s ++ [m] /\ owed = owed0 ++ answer m /\ roomy cap sent owed0).
Definition fit_plan (plan : list deed) : Prop :=
  Forall (sendable big) (said_in plan) /\ close_is_last (said_in plan) /\ Forall (fun m => is_pong m = false) (said_in plan).
Definition yinv (cap : nat) (plan : list deed) (t : aerrand) : Prop :=
  exists got ungot read unread said w1,
  map fst (read ++ unread) ++ said_in (y_todo t) = said_in plan /\
  (length (y_heard t) + (if y_failed t then 1 else 0) + heard_in (y_todo t) = heard_in plan) /\
  y_heard t = map fst got /\ said = got ++ ungot /\
  sstate (y_at t) (y_task t) read said /\ sabs (y_task t) (y_up t ++ rest1 (y_write t)) unread said /\
  pipe false (y_reader t) (y_down t ++ pend (et_out (y_task t))) ungot /\
  (writer1 (y_write t) (y_writer t) = mk_writer (mk_sender true) w1 /\ never_fails w1) /\
  (y_write t <> None -> rest1 (y_write t) <> []) /\
  (y_failed t = true -> ungot = [] /\ served (y_at t) = true) /\
  (length (y_up t) + length (aev_bytes (et_in (y_task t))) <= cap /\ length (y_down t) <= cap) /\
  (all_data (et_in (y_task t)) /\ asleep (et_out (y_task t))) /\ fit_plan plan /\
  (fair_plan cap [] [agreeting] plan -> in_aplan cap t (map fst (read ++ unread)) (map fst got)).
Definition ywork (t : aerrand) : nat :=
  toil (y_todo t) + 11 * length (rest1 (y_write t)) + 10 * length (y_up t) +
  (swork (y_task t) - 3 * length (fw_out (et_out (y_task t)))) + at_work (y_at t) + 3 * length (y_down t) + 2 * arrived_at (y_reader t).
Definition ycore (t : aerrand) :=
  (y_todo t, y_heard t, y_failed t, y_reader t, y_writer t, y_write t, y_up t, y_at t, score (y_task t), y_down t).
Definition ystuck (cap : nat) (a : yact) (t : aerrand) : Prop :=
  match a with
  | YTurn k => y_turn k t = None
  | YSend n => n = O \/ y_write t = None \/ cap <= length (y_up t) + length (aev_bytes (et_in (y_task t)))
  | YRead n => n = O \/ y_failed t = true \/ y_write t <> None \/ (forall l, y_todo t <> Hear :: l) \/ lacks (y_reader t) = false \/ y_down t = []
  | YArrive n => n = O \/ y_up t = []
  | YPoll _ _ => (exists r, y_at t = AServed r) \/ spost (cap - length (y_down t)) TNotReady (y_task t)
  end.
Definition ystep (cap : nat) (plan : list deed) (a : yact) (t t' : aerrand) : Prop :=
  yinv cap plan t' /\ (ywork t' < ywork t \/ ycore t' = ycore t /\ ystuck cap a t').
Lemma ystep_stay : forall cap plan a t, yinv cap plan t -> ystuck cap a t -> ystep cap plan a t t.
Proof. intros cap plan a t H1 H2. split; [exact H1|]. right. auto. Qed.

Ltac yinv_open H :=
  destruct H as (got & ungot & read & unread & said & w1 & HSn & HHn & HHd & HS & HSt & HSa & HR & [HW1 HN1] & HWr & HFl & [HB1 HB2] & [HD HA] & HFit & HG).
Ltac ycbn := cbn [y_todo y_heard y_failed y_reader y_writer y_write y_up y_at y_task y_down rest1 writer1].
Ltac ycbn_in := cbn [y_todo y_heard y_failed y_reader y_writer y_write y_up y_at y_task y_down rest1 writer1] in *.

Lemma y_turn_goes : forall cap plan k t, yinv cap plan t -> ystep cap plan (YTurn k) t (aerrand_step cap (YTurn k) t).
Proof.
  intros cap plan k t HInv. cbn [aerrand_step]. destruct (y_turn k t) as [t'|] eqn:H; cbn [y_stay]; [|apply ystep_stay; assumption].
  enough (yinv cap plan t' /\ ywork t' < ywork t) as [X Y] by (split; [exact X|left; exact Y]).
  pose proof HInv as HI. yinv_open HI.
  destruct t as [todo heard failed rd wr wt up a e down]. unfold y_turn in H. ycbn_in.
  destruct failed; [discriminate H|]. destruct wt as [x|]; [discriminate H|]. destruct todo as [|[m|] l]; [discriminate H| |].
  - change (said_in (Say m :: l)) with (m :: said_in l) in HSn.
    assert (sendable big m) as Hm.
    { destruct HFit as [HF _]. rewrite <- HSn in HF. apply Forall_app in HF as [_ HF]. inversion HF; assumption. }
    ycbn_in. destruct (sends true m k w1 HN1 (big_sendable m Hm)) as (w' & W1 & W2 & W3). rewrite HW1, W1 in H. injection H as <-.
    rewrite (written_eq _ _ _ _ _ W2). set (o := encs (masked_frames true [(m, k)])) in *.
    pose proof (AsyncTalkFacts.frame_length false m k) as HL. cbv zeta iota in HL. change (frames false [(m, k)]) with o in HL.
    split.
    + exists got, ungot, read, (unread ++ [(m, k)]), said, w'. ycbn.
      split; [rewrite app_assoc, map_app; cbn [map fst]; rewrite <- app_assoc; exact HSn|]. split; [exact HHn|]. split; [exact HHd|]. split; [exact HS|]. split; [exact HSt|]. split.
      { rewrite app_nil_r in HSa. destruct HSa as (B1 & B2 & B3). split; [exact B1|]. split; [exact B2|]. apply (apipe_write _ _ _ _ m k); assumption. }
      split; [exact HR|]. split; [split; [reflexivity|exact W3]|].
      split; [intros _ E; rewrite E in HL; cbn [length] in HL; lia|]. split; [discriminate|]. split; [split; assumption|]. split; [split; assumption|]. split; [exact HFit|].
      intros HP _. destruct (HG HP eq_refl) as (owed & O1 & O2 & _). ycbn_in. inversion O2 as [| |? ? ? ? P1 P2 P3|]; subst.
      rewrite app_assoc, map_app. cbn [map fst]. exists (owed ++ answer m). split; [rewrite awhole_app, app_assoc, O1; cbn [flat_map]; rewrite app_nil_r; reflexivity|].
      split; [exact P3|]. intros _. exists (map fst (read ++ unread)), m, owed. auto.
    + unfold ywork. ycbn. cbn [toil fold_right]. fold (toil l). cbn [length]. lia.
  - destruct (pipe_read _ _ _ _ HR) as [(m & k0 & l' & r' & E1 & E2 & E3 & E4)|(E1 & E2)].
    + rewrite E2 in H. cbn [must_wait] in H. injection H as <-.
      split.
      * exists (got ++ [(m, k0)]), l', read, unread, said, w1. ycbn.
        split; [exact HSn|]. split; [rewrite app_length; cbn [length]; cbn [heard_in filter length] in HHn; unfold heard_in in *; lia|].
        split; [rewrite HHd, map_app; reflexivity|]. split; [rewrite HS, E1, <- app_assoc; reflexivity|]. split; [exact HSt|]. split; [exact HSa|].
        split; [exact E3|]. split; [split; assumption|].
        split; [intros X; contradiction X; reflexivity|]. split; [discriminate|]. split; [split; assumption|]. split; [split; assumption|]. split; [exact HFit|].
        intros HP _. destruct (HG HP eq_refl) as (owed & O1 & O2 & _). ycbn_in. subst said ungot.
        destruct (asaid_talk _ _ _ _ HSt) as (rest & HT & _).
        rewrite !map_app in O1, HT |- *. cbn [map fst] in HT |- *. rewrite awhole_app, <- HT, <- !app_assoc in O1. apply app_inv_head in O1. cbn [app] in O1. subst owed.
        inversion O2 as [|? m' owed' ? P1| |]; subst.
        eexists. split; [|split; [exact P1|intros X; contradiction X; reflexivity]].
        rewrite map_app, awhole_app, <- HT, <- !app_assoc. reflexivity.
      * unfold ywork. ycbn. cbn [toil fold_right]. fold (toil l). pose proof (enc_length m k0 false) as HL. cbv zeta iota in HL. unfold arrived_at in *. lia.
    + destruct (reader_recv rd) as [x r']. cbn [fst] in E1. subst x. cbn [must_wait] in H.
      match goal with H : (if ?b then _ else _) = _ |- _ => destruct b eqn:EB; [discriminate H|] end. injection H as <-.
      apply negb_false_iff, andb_true_iff in EB as [EG ED]. destruct down; [|discriminate ED].
      destruct a as [| |r]; try discriminate EG. pose proof HSt as (_ & _ & _ & _ & EP). rewrite EP in E2.
      assert (ungot = []) as EU by (destruct E2 as [E2|E2]; [exact E2|contradiction E2; reflexivity]).
      split.
      * exists got, ungot, read, unread, said, w1. ycbn.
        split; [exact HSn|]. split; [cbn [heard_in filter length] in HHn; unfold heard_in in *; lia|]. repeat (split; [first [assumption|split; assumption]|]).
        intros _ X. discriminate X.
      * unfold ywork. ycbn. cbn [toil fold_right]. fold (toil l). lia.
Qed.

Lemma y_send_goes : forall cap plan n t, yinv cap plan t -> ystep cap plan (YSend n) t (aerrand_step cap (YSend n) t).
Proof.
  intros cap plan n t HInv. cbn [aerrand_step]. destruct (y_send cap n t) as [t'|] eqn:H; cbn [y_stay].
  2:{ apply ystep_stay; [exact HInv|]. cbn [ystuck]. yinv_open HInv. unfold y_send in H. destruct (y_write t) as [[w o]|] eqn:EW; [|auto].
      specialize (HWr ltac:(discriminate)). cbn [rest1] in HWr. cbv zeta in H.
      destruct n as [|n]; [auto|]. right. right.
      destruct (firstn _ o) as [|y now] eqn:EF in H; [|discriminate H].
      destruct o as [|y o]; [contradiction HWr; reflexivity|].
      destruct (cap - (length (y_up t) + length (aev_bytes (et_in (y_task t))))) eqn:EJ; [lia|]. discriminate EF. }
  enough (yinv cap plan t' /\ ywork t' < ywork t) as [X Y] by (split; [exact X|left; exact Y]).
  yinv_open HInv. destruct t as [todo heard failed rd wr wt up a e down]. unfold y_send in H. ycbn_in.
  destruct wt as [[w' o]|]; [|discriminate H]. set (j := Nat.min n _) in H. pose proof (firstn_skipn j o) as HO.
  assert (length (firstn j o) <= cap - (length up + length (aev_bytes (et_in e)))) as HF by (rewrite firstn_length; unfold j; lia).
  destruct (firstn j o) as [|x now]; [discriminate H|]. injection H as <-.
  set (later := skipn j o) in *. clearbody later. subst o.
  assert (length (up ++ x :: now) + length (aev_bytes (et_in e)) <= cap) as HB by (rewrite app_length; lia).
  assert (rest1 (match later with [] => None | y :: l => Some (w', y :: l) end) = later) as HL by (destruct later; reflexivity).
  split.
  - exists got, ungot, read, unread, said, w1. ycbn. repeat (split; [assumption|]).
    split; [rewrite HL; rewrite <- app_assoc; exact HSa|]. split; [exact HR|].
    split; [split; [destruct later; exact HW1|exact HN1]|].
    split; [rewrite HL; destruct later; [intros X; contradiction X; reflexivity|discriminate]|]. split; [assumption|]. split; [split; assumption|]. split; [split; assumption|]. split; [exact HFit|].
    intros HP HX. destruct (HG HP HX) as (owed & O1 & O2 & O3). ycbn_in. exists owed. split; [exact O1|]. split; [exact O2|]. intros _. apply O3. discriminate.
  - unfold ywork. ycbn. rewrite HL, !app_length. cbn [length]. lia.
Qed.

Lemma y_read_goes : forall cap plan n t, yinv cap plan t -> ystep cap plan (YRead n) t (aerrand_step cap (YRead n) t).
Proof.
  intros cap plan n t HInv. cbn [aerrand_step]. destruct (y_read n t) as [t'|] eqn:H; cbn [y_stay].
  2:{ apply ystep_stay; [exact HInv|]. cbn [ystuck]. unfold y_read in H. destruct n as [|n]; [auto|right].
      destruct (y_failed t); [auto|right]. destruct (y_write t); [left; discriminate|right].
      destruct (y_todo t) as [|[m|] l]; [left; discriminate|left; discriminate|right].
      destruct (lacks (y_reader t)); [right|auto]. destruct (arrive (S n) (y_down t) (y_reader t)) as [[r q]|] eqn:EA; [discriminate H|]. apply arrive_none in EA. exact EA. }
  enough (yinv cap plan t' /\ ywork t' < ywork t) as [X Y] by (split; [exact X|left; exact Y]).
  yinv_open HInv. destruct t as [todo heard failed rd wr wt up a e down]. unfold y_read in H. ycbn_in.
  destruct failed; [discriminate H|]. destruct wt as [x|]; [discriminate H|]. destruct todo as [|[m|] l]; try discriminate H.
  destruct (lacks rd); [|discriminate H]. destruct (arrive n down rd) as [[r' q]|] eqn:EA; [|discriminate H]. injection H as <-. ycbn_in.
  destruct (pipe_arrive _ _ _ _ _ _ _ HR (arrive_more n down (pend (et_out e)) _ _ _ EA)) as (P1 & P2 & P3).
  rewrite !app_length in P2. repeat rewrite app_length in P3. pose proof (arrive_shrinks _ _ _ _ _ EA) as HSh.
  split.
  - exists got, ungot, read, unread, said, w1. ycbn. repeat (split; [first [assumption|split; assumption]|]). split; [split; [assumption|lia]|]. split; [split; assumption|]. split; [exact HFit|].
    intros HP HX. destruct (HG HP HX) as (owed & O1 & O2 & O3). exists owed. auto.
  - unfold ywork, arrived_at. ycbn. rewrite !app_length. lia.
Qed.

Lemma y_arrive_goes : forall cap plan n t, yinv cap plan t -> ystep cap plan (YArrive n) t (aerrand_step cap (YArrive n) t).
Proof.
  intros cap plan n t HInv. cbn [aerrand_step]. yinv_open HInv.
  destruct t as [todo heard failed rd wr wt up a e down]. unfold y_arrive. ycbn_in.
  pose proof (firstn_skipn n up) as HN. assert (length (firstn n up) + length (skipn n up) = length up) as HN2 by (rewrite <- app_length, HN; reflexivity).
  set (e' := mk_task (et_read e) (et_in e ++ apiece n up) (et_done e) (et_hold e) (et_closing e) (et_out e)).
  split.
  - exists got, ungot, read, unread, said, w1. ycbn. repeat (split; [assumption|]).
    split. { destruct HSa as (A1 & A2 & A3). split; [exact A1|]. split; [exact A2|]. eapply apipe_bytes; [|exact A3]. unfold e'. cbn [et_in].
      rewrite aev_app, apiece_bytes, <- app_assoc. f_equal. rewrite app_assoc, HN. reflexivity. }
    split; [exact HR|]. split; [split; assumption|]. split; [exact HWr|]. split; [exact HFl|].
    split; [split; [unfold e'; cbn [et_in]; rewrite aev_app, apiece_bytes, app_length; lia|exact HB2]|].
    split; [split; [apply Forall_app; split; [exact HD|apply apiece_data]|exact HA]|]. split; [exact HFit|exact HG].
  - destruct (firstn n up) as [|b bs] eqn:EF.
    + right. assert (skipn n up = up) as -> by exact HN.
      assert (apiece n up = []) as E by (unfold apiece; rewrite EF; reflexivity). split.
      * unfold ycore, e'. ycbn. rewrite E, app_nil_r. destruct e. reflexivity.
      * cbn [ystuck y_up]. destruct n; [left; reflexivity|]. destruct up; [right; reflexivity|discriminate EF].
    + left. unfold ywork. ycbn.
      assert (swork e' + 10 * length (skipn n up) < swork e + 10 * length up) as HX.
      { unfold swork, e'. cbn [et_hold et_done et_closing et_out et_in et_read]. rewrite aev_app, apiece_bytes, EF, app_length. cbn [length] in *. lia. }
      pose proof (swork_out e) as W1. pose proof (swork_out e') as W2. change (fw_out (et_out e')) with (fw_out (et_out e)) in *. lia.
Qed.

Lemma y_poll_goes : forall cap plan key extra t, yinv cap plan t -> ystep cap plan (YPoll key extra) t (aerrand_step cap (YPoll key extra) t).
Proof.
  intros cap plan key extra t HInv. pose proof HInv as HI. yinv_open HI. cbn [aerrand_step].
  destruct t as [todo heard failed rdr wr wt up a e down]. ycbn_in.
  assert ((exists r, a = AServed r) \/ match a with AServed _ => False | _ => True end) as [[r EA]|Ha] by (destruct a; eauto).
  { unfold y_poll. cbn [y_at]. rewrite EA in *. apply ystep_stay; [exact HInv|]. left. exists r. reflexivity. }
  assert (y_poll cap key extra (mk_aerrand todo heard failed rdr wr wt up a e down) =
    let n := S (S (task_fuel e)) in
    let '(_, a', e') := aserver_poll a key extra
        (mk_task (et_read e) (can_read false n (et_in e)) (et_done e) (et_hold e) (et_closing e)
           (with_room (cap - length down) (n + n + n) (et_out e))) in
      mk_aerrand todo heard failed rdr wr wt up a'
        (mk_task (et_read e') (filter is_adata (et_in e')) (et_done e') (et_hold e') (et_closing e') (no_room (et_out e')))
        (down ++ awritten (et_out e) (et_out e'))) as ->.
  { unfold y_poll. ycbn. destruct a; try reflexivity. contradiction. }
  cbv zeta. set (n := S (S (task_fuel e))). set (room := cap - length down).
  set (e1 := mk_task (et_read e) (can_read false n (et_in e)) (et_done e) (et_hold e) (et_closing e) (with_room room (n + n + n) (et_out e))).
  destruct HFit as (HF1 & HF2 & HF3). set (sent := read ++ unread) in *.
  assert (Forall (sendable big) (map fst sent)) as HSd by (rewrite <- HSn in HF1; apply Forall_app in HF1; apply HF1).
  assert (Forall no_pong sent) as HSn0.
  { rewrite <- HSn in HF3. apply Forall_app in HF3 as [HF3 _]. apply Forall_map in HF3. eapply Forall_impl; [|exact HF3]. intros p Hp. exact Hp. }
  assert (sstate a e1 read said) as HSt1 by exact HSt.
  assert (sabs e1 (up ++ rest1 wt) unread said) as HSa1.
  { destruct HSa as (A1 & A2 & A3). split; [exact A1|]. split; [exact A2|]. eapply apipe_bytes; [|exact A3]. unfold e1. cbn [et_in]. rewrite waits_bytes. reflexivity. }
  assert (task_fuel e1 + 5 <= n + n + n) as Hk.
  { assert (task_fuel e1 = task_fuel e + n) as ->.
    { unfold task_fuel, e1. cbn [et_read et_in]. rewrite waits_bytes. unfold can_read. rewrite app_length, repeat_length. lia. }
    assert (2 <= task_fuel e) by (unfold task_fuel; lia). lia. }
  pose proof (aserver_pipe (up ++ rest1 wt) (room + length (fw_out (et_out e))) key extra a e1 sent read unread said room (n + n + n) n
    eq_refl HSt1 HSa1 Ha ltac:(split; reflexivity) eq_refl ltac:(exists (et_in e); split; [exact HD|reflexivity]) ltac:(discriminate) HSn0 Hk) as HPp.
  pose proof (aserver_grows a key extra e1) as HGr. pose proof (aserver_reads a key extra e1) as HRd.
  destruct (aserver_poll a key extra e1) as [[y a'] e'] eqn:EP. cbn [snd] in HGr, HRd.
  destruct HPp as (read' & unread' & said' & r & k & P1 & P2 & P3 & P4 & P5 & P6 & P7).
  destruct HGr as [d HGr]. change (fw_out (et_out e1)) with (fw_out (et_out e)) in HGr.
  assert (awritten (et_out e) (et_out e') = d) as -> by (unfold awritten; rewrite HGr, skipn_app, skipn_all, Nat.sub_diag; reflexivity).
  set (e2 := mk_task (et_read e') (filter is_adata (et_in e')) (et_done e') (et_hold e') (et_closing e') (no_room (et_out e'))).
  assert (score e2 = score e') as K2.
  { unfold score, e2. cbn [et_hold et_done et_closing et_out et_in et_read no_room]. rewrite filter_twice. reflexivity. }
  assert (score e1 = score e) as K1.
  { unfold score, e1. cbn [et_hold et_done et_closing et_out et_in et_read with_room]. rewrite waits_filter. reflexivity. }
  assert (Forall (sendable big) (map fst said')) as HSs.
  { apply (said_sendable a' e' read' said' P2). rewrite P1, map_app in HSd. apply Forall_app in HSd. apply HSd. }
  assert (exists got' ungot', said' = got' ++ ungot' /\ map fst got' = map fst got /\
    pipe false rdr ((down ++ d) ++ pend (et_out e2)) ungot') as (got' & ungot' & Q1 & Q2 & Q3).
  { destruct HR as (A1 & A2 & A3 & A4). destruct HSa as (B1 & _). destruct P3 as (B1' & _).
    rewrite HS, frames_app in B1. change (encs (masked_frames false ungot)) with (frames true ungot) in A3. rewrite <- A3 in B1.
    assert (frames true got ++ rd_buf rdr ++ flat (rd_in rdr) ++ down = fw_out (et_out e)) as E1.
    { apply (app_inv_tail (pend (et_out e))). rewrite <- !app_assoc. rewrite B1, <- ?app_assoc. reflexivity. }
    assert (Forall (sendable big) (map fst got)) as S1.
    { assert (Forall (sendable big) (map fst said)) as HX.
      { apply (said_sendable a e read said HSt). unfold sent in HSd. rewrite map_app in HSd. apply Forall_app in HSd. apply HSd. }
      rewrite HS, map_app in HX. apply Forall_app in HX. apply HX. }
    destruct (frames_prefix false got said' (rd_buf rdr ++ flat (rd_in rdr) ++ (down ++ d) ++ pend (et_out e2)) S1 HSs) as (l1 & l2 & F1 & F2 & F3).
    - cbn [negb]. rewrite <- B1', HGr, <- E1, <- !app_assoc. reflexivity.
    - exists l1, l2. split; [exact F1|]. split; [exact F2|]. split; [exact A1|]. split; [exact A2|]. split; [rewrite <- app_assoc; exact F3|].
      rewrite F1, map_app in HSs. apply Forall_app in HSs. apply HSs. }
  assert (length (fw_out (et_out e')) = length (fw_out (et_out e)) + length d) as HLd by (rewrite HGr, app_length; reflexivity).
  assert (room + length down = cap) as HRoom by (unfold room; lia).
  assert (failed = false) as EFl.
  { destruct failed; [|reflexivity]. destruct (HFl eq_refl) as [_ X]. destruct a; try discriminate X. contradiction. }
  assert (yinv cap plan (mk_aerrand todo heard failed rdr wr wt up a' e2 (down ++ d))) as HInv'.
  { exists got', ungot', read', unread', said', w1. ycbn.
    split; [rewrite <- P1; exact HSn|]. split; [exact HHn|]. split; [rewrite Q2; exact HHd|]. split; [exact Q1|]. split; [exact P2|]. split.
    { destruct P3 as (A1 & A2 & A3). split; [exact A1|]. split; [exact A2|]. eapply apipe_bytes; [|exact A3]. unfold e2. cbn [et_in]. rewrite aev_filter. reflexivity. }
    split; [exact Q3|]. split; [split; assumption|]. split; [exact HWr|]. split; [rewrite EFl; discriminate|]. split.
    { split; [|rewrite app_length; lia].
      apply reads_length in HRd. unfold e1 in HRd. cbn [et_in] in HRd. rewrite waits_bytes in HRd. unfold e2. cbn [et_in]. rewrite aev_filter. lia. }
    split; [split; [apply filter_data|split; reflexivity]|]. split; [repeat split; assumption|]. rewrite <- P1, Q2. exact HG. }
  split; [exact HInv'|].
  pose proof (swork_out e) as W1. pose proof (swork_out e2) as W2. change (fw_out (et_out e2)) with (fw_out (et_out e')) in W2.
  rewrite <- (score_work _ _ K2), (score_work _ _ K1) in P6.
  destruct P6 as [P6|[P6 ->]].
  { left. unfold ywork. ycbn. change (fw_out (et_out e2)) with (fw_out (et_out e')). rewrite app_length. lia. }
  rewrite K1, <- K2 in P6.
  assert (d = []) as ->.
  { pose proof P6 as HSh2. unfold score in HSh2. injection HSh2 as _ _ _ _ E _ _. change (fw_out (et_out e2)) with (fw_out (et_out e')) in E. rewrite HGr in E.
    rewrite <- (app_nil_r (fw_out (et_out e))) in E at 2. apply app_inv_head in E. exact E. }
  rewrite app_nil_r in *. right. split; [unfold ycore; ycbn; rewrite P6; reflexivity|]. right.
  assert (r = room) as -> by (rewrite HGr in P5; lia).
  cbn [y_task y_down]. fold room.
  assert (spost room TNotReady e') as P8 by (destruct a; [exact P7|exact P7|contradiction]).
  cbn [spost] in *. unfold e2. cbn [et_hold et_done et_closing et_out et_in et_read no_room]. rewrite filter_twice. exact P8.
Qed.

(** ** Every run *)
Lemma y_goes : forall cap plan a t, yinv cap plan t -> ystep cap plan a t (aerrand_step cap a t).
Proof.
  intros cap plan [k|n|n|n|k e] t H; [apply y_turn_goes|apply y_send_goes|apply y_read_goes|apply y_arrive_goes|apply y_poll_goes]; exact H.
Qed.
Lemma y_run_inv : forall cap plan acts t, yinv cap plan t -> yinv cap plan (aerrand_run cap acts t).
Proof. intros cap plan. induction acts as [|a acts IH]; intros t H; [exact H|]. cbn [aerrand_run]. apply IH. apply y_goes. exact H. Qed.
Lemma y_starts : forall cap plan w b, never_fails w -> fit_plan plan -> yinv cap plan (aerrand_new plan w b).
Proof.
  intros cap plan w b H1 HF. exists [], [], [], [], [], w. unfold aerrand_new, atalk_new. ycbn. cbn [map app length tk_task et_in et_out].
  split; [reflexivity|]. split; [reflexivity|]. split; [reflexivity|]. split; [reflexivity|]. split; [repeat split|]. split.
  { split; [reflexivity|]. split; [constructor; [exact agreeting_sendable|constructor]|].
    split; [reflexivity|]. split; [split; [reflexivity|intros _; reflexivity]|]. split; [reflexivity|constructor]. }
  split. { split; [reflexivity|]. split; [constructor|]. split; [reflexivity|constructor]. }
  split; [auto|]. split; [intros X; contradiction X; reflexivity|]. split; [discriminate|]. split; [cbn; lia|].
  split; [split; [constructor|split; reflexivity]|]. split; [exact HF|].
  intros HP _. exists [agreeting]. split; [reflexivity|]. split; [exact HP|]. intros X; contradiction X; reflexivity.
Qed.
Lemma y_run_app : forall cap a b t, aerrand_run cap (a ++ b) t = aerrand_run cap b (aerrand_run cap a t).
Proof. intros cap. induction a as [|x a IH]; intros b t; [reflexivity|]. cbn [app aerrand_run]. apply IH. Qed.

(** ** It goes on *)
Lemma ystuck_core : forall cap a t t', ycore t' = ycore t -> ystuck cap a t -> ystuck cap a t'.
Proof.
  intros cap a t t' H HS. unfold ycore, score in H. destruct t as [todo heard failed rd wr wt up at1 e down], t' as [todo' heard' failed' rd' wr' wt' up' at1' e' down'].
  ycbn_in. injection H as -> -> -> -> -> -> -> -> H1 H2 H3 H4 H5 H6 H7 ->.
  assert (aev_bytes (et_in e') = aev_bytes (et_in e)) as EB by (rewrite <- (aev_filter (et_in e')), H6, aev_filter; reflexivity).
  destruct a as [k|n|n|n|k ex]; cbn [ystuck] in *; ycbn_in.
  - unfold y_turn in *. ycbn_in. destruct failed; [reflexivity|]. destruct wt; [reflexivity|]. destruct todo as [|[m|] l]; [reflexivity| |].
    + destruct (writer_send m k wr) as [[x|x| |] w']; discriminate HS.
    + destruct (reader_recv rd) as [x r']. destruct (must_wait _ _ _); [reflexivity|]. destruct x; discriminate HS.
  - rewrite EB. exact HS.
  - exact HS.
  - exact HS.
  - destruct HS as [HS|HS]; [left; exact HS|right]. cbn [spost] in *. rewrite H1, H2, H3, H4, H6, H7. exact HS.
Qed.
Lemma ywork_core : forall t t', ycore t' = ycore t -> ywork t' = ywork t.
Proof.
  intros t t' H. unfold ycore in H.
  assert (y_todo t' = y_todo t /\ y_write t' = y_write t /\ y_up t' = y_up t /\ y_at t' = y_at t /\ score (y_task t') = score (y_task t) /\ y_down t' = y_down t /\ y_reader t' = y_reader t)
    as (H1 & H2 & H3 & H4 & H5 & H6 & H7) by (repeat split; congruence).
  unfold ywork. rewrite (score_work _ _ H5), H1, H2, H3, H4, H6, H7. unfold score in H5. injection H5 as _ _ _ _ -> _ _. reflexivity.
Qed.
Lemma y_round_step : forall cap plan acts t, yinv cap plan t ->
  let t' := aerrand_run cap acts t in
  ywork t' < ywork t \/ ycore t' = ycore t /\ forall a, In a acts -> ystuck cap a t'.
Proof.
  intros cap plan. induction acts as [|a acts IH]; intros t HI t'; subst t'; cbn [aerrand_run].
  - right. split; [reflexivity|intros a []].
  - destruct (y_goes cap plan a t HI) as [HI1 H2]. specialize (IH _ HI1) as H3. cbv zeta in H3.
    destruct H2 as [H2|[H2 S1]], H3 as [H3|[H3 S2]].
    + left. lia.
    + left. rewrite (ywork_core _ _ H3). exact H2.
    + left. rewrite <- (ywork_core _ _ H2). exact H3.
    + right. split; [congruence|]. intros b [<-|Hb]; [|apply S2; exact Hb]. eapply ystuck_core; [exact H3|exact S1].
Qed.
Lemma pipe_bytes : forall r q l, pipe false r q l -> length q <= down_bytes (map fst l).
Proof.
  intros r q l (_ & _ & H & _). change (encs (masked_frames false l)) with (frames true l) in H. rewrite <- down_frames, <- H, !app_length. lia.
Qed.
Lemma apipe_count : forall f s q l, apipe true f s q l -> length (aev_bytes s) + length q <= up_bytes (map fst l).
Proof. intros f s q l (_ & _ & H & _). cbn [negb] in H. rewrite <- up_frames, <- H, !app_length. lia. Qed.
Lemma down_some : forall m, 2 <= down_bytes [m].
Proof.
  intros m. pose proof (down_frames [(m, mk_key x00 x00 x00 x00)]) as H. cbn [map fst] in H. rewrite <- H.
  pose proof (AsyncTalkFacts.frame_length true m (mk_key x00 x00 x00 x00)) as HL. cbv zeta iota in HL. lia.
Qed.

(** The server is stuck though there is something to read. *)
Lemma server_full : forall cap plan a e read unread got ungot later rd up down wr said,
  said = got ++ ungot -> sstate a e read said -> sabs e (up ++ wr) unread said -> wr <> [] -> up = [] -> 1 <= cap ->
  pipe false rd (down ++ pend (et_out e)) ungot -> length down <= cap -> cap <= length (aev_bytes (et_in e)) -> all_data (et_in e) ->
  map fst (read ++ unread) ++ later = said_in plan -> close_is_last (said_in plan) ->
  ((exists r, a = AServed r) \/ spost (cap - length down) TNotReady e) ->
  unread <> [] /\ length down = cap /\
  (a = AGreeting /\ map fst ungot = [agreeting] /\ cap < down_bytes (map fst ungot) /\ held e = [] \/
   a = AServing /\ cap + N.to_nat 8192 <= down_bytes (map fst ungot) /\ held e <> []).
Proof.
  intros cap plan a e read unread got ungot later rd up down wr said HS HSt HSa HWr EU Hcap HR HB HIn HD HSn HCl HP. subst up.
  assert (unread <> []) as HU.
  { intros ->. destruct HSa as (_ & _ & HSa). apply apipe_count in HSa. cbn [app map] in HSa. change (up_bytes []) with 0 in HSa. destruct wr; [contradiction HWr; reflexivity|cbn [length] in HSa; lia]. }
  assert (a <> AGreeting -> et_closing e = true \/ et_done e = true -> False) as HF.
  { intros X Y. destruct (all_read _ _ _ _ _ _ _ HSt X Y HSn HCl) as [Z _]. contradiction. }
  split; [exact HU|]. pose proof (pipe_bytes _ _ _ HR) as HL. rewrite app_length in HL.
  assert (forall r, a <> AServed r) as HA.
  { intros r ->. destruct HSt as (_ & _ & X & _). apply HF; [discriminate|auto]. }
  destruct HP as [[r HP]|HP]; [destruct (HA r HP)|]. cbn [spost] in HP.
  destruct HP as [(T1 & T2 & T3)|[(T1 & T2 & T3 & T4 & _)|(T1 & T2 & T3 & T4)]].
  - split; [lia|]. destruct a as [| |r]; [|right|destruct (HA r eq_refl)].
    + exfalso. cbn [sstate] in HSt. destruct HSt as (_ & _ & _ & HSt). unfold held in HSt. destruct (et_hold e) as [m|]; [|contradiction].
      destruct (map fst said) as [|x [|y l]] eqn:EM; try discriminate HSt. destruct said; [|discriminate EM].
      destruct HSa as (HSa & _). change (frames true []) with (@nil byte) in HSa. apply app_eq_nil in HSa as [_ HSa]. rewrite HSa in T2. cbn in T2. lia.
    + split; [reflexivity|]. split; [unfold llen in T2; lia|]. unfold held. destruct (et_hold e); [discriminate|contradiction].
  - exfalso. rewrite (filter_all_data _ HD) in T4. rewrite T4 in HIn. cbn in HIn. lia.
  - split; [lia|]. destruct a as [| |r]; [left|exfalso; apply HF; [discriminate|exact T4]|destruct (HA r eq_refl)].
    split; [reflexivity|]. cbn [sstate] in HSt. destruct HSt as (_ & _ & _ & HSt). unfold held in *. rewrite T1, app_nil_r in HSt.
    assert (0 < length (pend (et_out e))) as HPn by (destruct (pend (et_out e)); [contradiction T2; reflexivity|cbn [length]; lia]).
    assert (ungot <> []) as HN by (intros ->; cbn [map] in HL; change (down_bytes []) with 0 in HL; lia).
    rewrite HS, map_app in HSt. destruct got as [|g got]; [|destruct got, ungot; try discriminate HSt; contradiction HN; reflexivity].
    split; [exact HSt|]. split; [lia|rewrite T1; reflexivity].
Qed.

Lemma y_not_stuck : forall cap plan t k n1 n2 n3 k' ex, yinv cap plan t -> 1 <= cap -> fair_plan cap [] [agreeting] plan ->
  ystuck cap (YTurn k) t -> ystuck cap (YSend (S n1)) t -> ystuck cap (YRead (S n2)) t -> ystuck cap (YArrive (S n3)) t -> ystuck cap (YPoll k' ex) t ->
  aerrand_done t \/ y_failed t = true.
Proof.
  intros cap plan t k n1 n2 n3 k' ex HI Hcap HP S1 S2 S3 S4 S5. yinv_open HI. destruct (y_failed t) eqn:F1; [auto|left]. destruct (HG HP F1) as (owed & O1 & O2 & O3). clear HG HFl HHn.
  destruct HFit as (_ & HCl & _).
  destruct t as [todo heard failed rd wr wt up a e down]. cbn [ystuck] in *. ycbn_in. subst failed.
  destruct S2 as [S2|S2]; [discriminate|]. destruct S4 as [S4|S4]; [discriminate|]. subst up. cbn [length Nat.add app] in *.
  destruct wt as [[w' o]|].
  - exfalso. ycbn_in. destruct S2 as [S2|S2]; [discriminate|]. specialize (HWr ltac:(discriminate)). destruct (O3 ltac:(discriminate)) as (s & m & owed0 & E1 & -> & E3). clear O3.
    destruct (server_full cap plan a e read unread got ungot _ rd [] down o said HS HSt HSa HWr eq_refl Hcap HR HB2 S2 HD HSn HCl S5) as (HU & EDn & HCase).
    destruct (exists_last HU) as (u' & [m' k'0] & ->). rewrite app_assoc, map_app in E1. cbn [map fst] in E1. apply app_inj_tail in E1 as [E1 <-].
    destruct (asaid_talk _ _ _ _ HSt) as (rest & HT & _).
    assert (owed0 = map fst ungot ++ held e ++ rest ++ flat_map answer (map fst u')) as EO.
    { rewrite (app_assoc read u'), (map_app fst (read ++ u')), awhole_app in O1. cbn [map fst flat_map] in O1. rewrite app_nil_r, app_assoc in O1. apply app_inv_tail in O1.
      rewrite map_app, awhole_app, <- HT, HS, map_app, <- !app_assoc in O1. apply app_inv_head in O1. exact O1. }
    assert (cap < up_bytes (map fst (read ++ u' ++ [(m', k'0)]))) as HUp.
    { destruct HSa as (_ & _ & HSa). apply apipe_count in HSa. rewrite map_app, up_app. destruct o; [contradiction HWr; reflexivity|]. cbn [length] in HSa. lia. }
    destruct E3 as [E3|[[E3 E4]|E3]]; [| |lia].
    + rewrite EO, !down_app in E3. destruct HCase as [(_ & _ & X & _)|(_ & X & _)]; lia.
    + destruct HCase as [(_ & X & Y & _)|(_ & X & Y)].
      * rewrite X in Y. change (down_bytes [agreeting]) with (down_bytes [OText (ascii "Hello World!")]) in Y. lia.
      * rewrite EO, !down_app in E4. destruct (held e) as [|h [|h2 hs]] eqn:EH; [contradiction|pose proof (down_some h); lia|].
        exfalso. unfold held in EH. destruct (et_hold e); discriminate EH.
  - destruct todo as [|[m|] l]; [repeat split| |].
    + exfalso. unfold y_turn in S1. ycbn_in. destruct (writer_send m k wr) as [[x|x| |] w']; discriminate S1.
    + exfalso. ycbn_in. unfold y_turn in S1. ycbn_in. destruct (reader_recv rd) as [x r'] eqn:ERd.
      destruct (pipe_read _ _ _ _ HR) as [(m & k0 & l' & r1 & E1 & E2 & _)|(E1 & E2)].
      { rewrite ERd in E2. injection E2 as -> _. discriminate S1. }
      assert (lacks rd = true) as HLk by (unfold lacks; rewrite E1; reflexivity).
      assert (down = []) as ->.
      { destruct S3 as [S3|[S3|[S3|[S3|[S3|S3]]]]]; [discriminate|discriminate|contradiction S3; reflexivity|destruct (S3 l eq_refl)|congruence|exact S3]. }
      cbn [length app] in *. rewrite Nat.sub_0_r in S5. rewrite ERd in E1. cbn [fst] in E1. subst x.
      destruct S5 as [[r ->]|S5].
      { cbn [served must_wait andb negb] in S1. discriminate S1. }
      assert (forall r, a <> AServed r) as HNo by (intros r ->; cbn [served must_wait andb negb] in S1; discriminate S1).
      cbn [spost] in S5. destruct S5 as [(_ & _ & S5)|[(T1 & T2 & T3 & T4 & T5 & T6)|(_ & _ & S5 & _)]]; try lia.
      rewrite (filter_all_data _ HD) in T4.
      assert (unread = []) as -> by (destruct HSa as (_ & _ & HSa); rewrite T4 in HSa; eapply partial_none; [exact HSa|reflexivity|exact T5]).
      assert (pend (et_out e) = []) as EP by (destruct T6 as [T6|T6]; [exact T6|lia]). rewrite EP in E2.
      assert (ungot = []) as -> by (destruct E2 as [E2|E2]; [exact E2|contradiction E2; reflexivity]).
      destruct (asaid_talk _ _ _ _ HSt) as (rest & HT & HRs). rewrite (HRs T2 T3) in HT. unfold held in HT. rewrite T1 in HT. rewrite !app_nil_r in *. subst said.
      inversion O2 as [|? ? ? ? P1| |s m ? P1 P2 P3]; subst.
      * rewrite <- HT in O1. rewrite <- (app_nil_r (map fst got)) in O1 at 2. apply app_inv_head in O1. discriminate O1.
      * assert (Forall open read) as HO.
        { destruct a as [| |r]; [destruct HSt; congruence| |destruct (HNo r eq_refl)]. cbn [sstate] in HSt. unfold sphase in HSt. rewrite T2, T3 in HSt. apply HSt. }
        assert (In m (map fst read)) as HIn by (rewrite <- P3; apply in_or_app; right; left; reflexivity).
        apply in_map_iff in HIn as (p & <- & HIn). rewrite Forall_forall in HO. exact (HO _ HIn P1).
Qed.

Lemma y_settled : forall cap plan acts t, yinv cap plan t -> aerrand_done t \/ y_failed t = true ->
  aerrand_done (aerrand_run cap acts t) \/ y_failed (aerrand_run cap acts t) = true.
Proof.
  intros cap plan. induction acts as [|a acts IH]; intros t HI HD; [exact HD|]. cbn [aerrand_run]. apply IH; [apply y_goes, HI|]. clear IH.
  destruct t as [todo heard failed rd wr wt up at1 e down]. unfold aerrand_done in *. ycbn_in. destruct a as [k|n|n|n|k ex]; cbn [aerrand_step].
  - unfold y_turn. ycbn. destruct HD as [(-> & -> & ->)| ->]; cbn [y_stay]; ycbn; auto.
  - unfold y_send. ycbn. destruct HD as [(-> & -> & ->)| ->]; [cbn [y_stay]; ycbn; auto|].
    destruct wt as [[w o]|]; [|right; reflexivity]. cbv zeta. destruct (firstn _ o); right; reflexivity.
  - unfold y_read. ycbn. destruct HD as [(-> & -> & ->)| ->]; cbn [y_stay]; ycbn; auto.
  - exact HD.
  - unfold y_poll. ycbn. destruct at1; cbv zeta; try exact HD; destruct (aserver_poll _ _ _ _) as [[y a'] e']; exact HD.
Qed.
Lemma y_run_ends : forall cap plan rounds t, yinv cap plan t -> 1 <= cap -> fair_plan cap [] [agreeting] plan ->
  Forall aerrand_round rounds -> ywork t < length rounds ->
  let t' := aerrand_run cap (concat rounds) t in aerrand_done t' \/ y_failed t' = true.
Proof.
  intros cap plan. induction rounds as [|acts rounds IH]; intros t HI Hcap HP HR HW; [cbn [length] in HW; lia|].
  inversion HR as [|? ? R1 R2]; subst. cbn [concat]. rewrite y_run_app. pose proof (y_run_inv cap plan acts t HI) as HI1.
  destruct (y_round_step cap plan acts t HI) as [HX|[HC HX]].
  - apply IH; auto. cbn [length] in HW. lia.
  - apply (y_settled cap plan); [exact HI1|].
    destruct R1 as ((k & A1) & (n1 & A2) & (n2 & A3) & (n3 & A4) & (k' & e & A5)).
    apply (y_not_stuck cap plan _ k n1 n2 n3 k' e); auto.
Qed.

(** ** Plans that are fair *)
Lemma good_fair : forall cap said owed plan, good_plan cap said owed plan -> fair_plan cap said owed plan.
Proof.
  intros cap said owed plan H. induction H as [|said m owed l H IH|said owed m l H1 H2 H3 IH|said m l H1 H2].
  - constructor.
  - constructor. exact IH.
  - constructor; [|exact H2|exact IH]. destruct H1 as [H1|H1]; [left; exact H1|right; right; exact H1].
  - constructor; assumption.
Qed.
Lemma fair_close_last : forall cap plan said owed, fair_plan cap said owed plan -> close_is_last (said_in plan).
Proof.
  intros cap plan said owed H. induction H as [|said m owed l H IH|said owed m l H1 H2 H3 IH|said m l H1 H2].
  - intros [|x a] m b E; discriminate E.
  - exact IH.
  - intros a x b E Hx. change (said_in (Say m :: l)) with (m :: said_in l) in E. destruct a as [|y a].
    + cbn [app] in E. injection E as <- <-. auto.
    + cbn [app] in E. injection E as <- E. eapply IH; eauto.
  - change (said_in (Hear :: l)) with (said_in l). rewrite H2. intros [|x a] y b E; discriminate E.
Qed.
Lemma roomy_less : forall cap s s' o o', roomy cap (s ++ s') (o ++ o') -> roomy cap s o.
Proof. intros cap s s' o o' [H|[[H1 H2]|H]]; rewrite ?down_app, ?up_app in *; [left|right; left|right; right]; lia. Qed.
Lemma fair_says : forall cap ms said owed, Forall (fun m => ~ closing m) ms ->
  roomy cap (said ++ ms ++ [OClose None]) (owed ++ flat_map answer ms) ->
  fair_plan cap said owed (map Say ms ++ Say (OClose None) :: repeat Hear (length owed + length ms + 1)).
Proof.
  intros cap. induction ms as [|m ms IH]; intros said owed HF HB; cbn [map app].
  - constructor; [cbn [flat_map app] in HB; rewrite app_nil_r in HB; exact HB| |].
    + intros _. apply hears_said.
    + apply good_fair, hears_good. rewrite app_length. cbn [answer length]. lia.
  - inversion HF as [|? ? F1 F2]; subst. constructor; [|intros X; contradiction|].
    + cbn [flat_map app] in HB. change (m :: ms ++ [OClose None]) with ([m] ++ (ms ++ [OClose None])) in HB. rewrite app_assoc in HB. eapply roomy_less, HB.
    + destruct (answer_one m) as [x E]. replace (length owed + length (m :: ms) + 1) with (length (owed ++ answer m) + length ms + 1) by (rewrite E, app_length; cbn [length]; lia).
      apply IH; [exact F2|]. cbn [flat_map app] in HB. rewrite <- !app_assoc. exact HB.
Qed.
Lemma fair_at_once : forall cap ms, Forall (fun m => ~ closing m) ms -> roomy cap (ms ++ [OClose None]) (whole_atalk ms) ->
  fair_plan cap [] [agreeting] (at_once ms).
Proof.
  intros cap ms HF HB. unfold at_once. pose proof (fair_says cap ms [] [agreeting] HF HB) as H. cbn [length] in H.
  replace (S (S (List.length ms))) with (1 + List.length ms + 1) by lia. exact H.
Qed.
Lemma atalk_length : forall ms, length (whole_atalk (ms ++ [OClose None])) = S (S (length ms)).
Proof. intros ms. exact (talk_length ms). Qed.
Lemma fit_close : forall ms, Forall (sendable big) ms -> Forall (sendable big) (ms ++ [OClose None]).
Proof.
  intros ms H. apply Forall_app. split; [exact H|]. constructor; [|constructor]. split; [exact I|]. split; [cbn; lia|]. intros _. cbn. lia.
Qed.

(** ** A program that is stuck *)
Definition y_frozen (cap : nat) (t : aerrand) : bool :=
  match y_write t, y_up t, y_at t, et_hold (y_task t) with
  | Some _, [], AServing, Some _ =>
      asleep_b (et_out (y_task t)) && negb (et_closing (y_task t)) && forallb is_adata (et_in (y_task t)) &&
      (cap - length (aev_bytes (et_in (y_task t))) =? 0) && (cap - length (y_down t) =? 0)
  | _, _, _, _ => false
  end.
Lemma y_frozen_stays : forall cap t, y_frozen cap t = true -> ~ aerrand_done t /\ forall a, aerrand_step cap a t = t.
Proof.
  intros cap [todo heard failed rd wr wt up at1 e down] H. unfold y_frozen in H. ycbn_in.
  destruct wt as [[w o]|]; [|discriminate H]. destruct up; [|discriminate H]. destruct at1; try discriminate H. destruct (et_hold e) as [m'|] eqn:EM'; [|discriminate H].
  rewrite !andb_true_iff in H. destruct H as ((((H1 & H3) & H5) & H6) & H7). apply negb_true_iff in H3. apply Nat.eqb_eq in H6, H7.
  unfold asleep_b in H1. apply andb_true_iff in H1 as [H1 B3]. destruct (fw_ws (et_out e)) eqn:B1; [|discriminate H1]. destruct (fw_fs (et_out e)) eqn:B2; [|discriminate H1].
  assert (all_data (et_in e)) as HD by (apply Forall_forall; rewrite forallb_forall in H5; exact H5).
  assert (8192 <= llen (pend (et_out e)))%N as B4 by lia. clear B3 H1.
  split; [intros (_ & X & _); discriminate X|]. intros [k|n|n|n|key extra]; cbn [aerrand_step].
  - unfold y_turn. ycbn. destruct failed; reflexivity.
  - unfold y_send. ycbn. cbn [length Nat.add]. rewrite H6, Nat.min_0_r. reflexivity.
  - unfold y_read. ycbn. destruct failed; reflexivity.
  - unfold y_arrive, apiece. ycbn. rewrite firstn_nil, skipn_nil, app_nil_r. destruct e. reflexivity.
  - unfold y_poll. ycbn. rewrite H7. cbv zeta. set (n := S (S (task_fuel e))).
    destruct (send_full true (owned_ops m') key extra (S (task_fuel e) + n + n) (with_room 0 (n + n + n) (et_out e)) ltac:(split; reflexivity) B4) as (w' & E1 & E2).
    unfold aserver_poll, task_poll. cbn [et_closing et_hold et_out et_read et_in et_done]. rewrite H3, EM', E1. cbn [et_closing et_hold et_out et_read et_in et_done].
    rewrite E2, waits_filter, (filter_all_data _ HD).
    assert (awritten (et_out e) w' = []) as ->.
    { unfold awritten. assert (fw_out w' = fw_out (et_out e)) as -> by (exact (f_equal fw_out E2)). apply skipn_all. }
    rewrite app_nil_r. f_equal. destruct e as [er ei ed eh ec ew]. cbn [et_closing et_hold et_out et_read et_in et_done] in *. subst. f_equal.
    destruct ew as [wb wo wws wfs]. cbn [fw_ws fw_fs] in *. subst. reflexivity.
Qed.
Lemma y_frozen_run : forall cap t acts, y_frozen cap t = true -> aerrand_run cap acts t = t.
Proof. intros cap t acts H. induction acts as [|a acts IH]; [reflexivity|]. cbn [aerrand_run]. rewrite (proj2 (y_frozen_stays _ _ H)). exact IH. Qed.

(** ** The theorems *)
(** [C92] A blocking client used the plain way with the server of examples/async-server.rs.  Whatever
    the plan, the room of the network, its delays and the scheduling: what the program has received is
    always an initial part of the greeting and the answers to what it has sent, each message once and
    in order; the network never holds more than its room, and the server's task does not fail.  (The
    program sends no Pongs: this server does not answer those.) *)
Lemma plain_sound_proof : forall cap plan w b acts, never_fails w ->
  Forall (sendable 104857600) (said_in plan) -> close_is_last (said_in plan) -> Forall (fun m => is_pong m = false) (said_in plan) ->
  let t := aerrand_run cap acts (aerrand_new plan w b) in
  (exists said, said ++ said_in (y_todo t) = said_in plan /\ prefix (y_heard t) (whole_atalk said)) /\
  (List.length (y_up t) + List.length (aev_bytes (et_in (y_task t))) <= cap)%nat /\ (List.length (y_down t) <= cap)%nat /\
  (forall r, y_at t = AServed r -> r = TReady).
Proof.
  intros cap plan w b acts H1 H2 H3 H4 t. pose proof (y_run_inv cap plan acts _ (y_starts cap plan w b H1 (conj H2 (conj H3 H4)))) as HI. fold t in HI. yinv_open HI.
  split; [|split; [exact HB1|split; [exact HB2|]]].
  - exists (map fst (read ++ unread)). split; [exact HSn|]. rewrite HHd. rewrite map_app, awhole_app. destruct (asaid_talk _ _ _ _ HSt) as (rest & HT & _).
    rewrite <- HT, HS, map_app, <- !app_assoc. eexists. reflexivity.
  - intros r E. rewrite E in HSt. apply HSt.
Qed.
(*EX
(** The program sends "hi" and a Ping, receiving in between; the network holds five bytes either
    way. *)
Definition plain_turns : list yact :=
  [YTurn (mk_key x01 x02 x03 x04); YSend 3; YRead 2; YArrive 3; YPoll (mk_key x00 x00 x00 x00) 0].
Definition plain_says : list owned := [OText (str "hi"); OPing (str "x")].
Example plain_sound_ex :
  let t := aerrand_run 5 (concat (repeat plain_turns 16)) (aerrand_new (by_turns plain_says) (mk_w [] []) 0) in
  y_heard t = [OText (str "Hello World!"); OText (str "hi")] /\ said_in (y_todo t) = [OClose None].
Proof. vm_compute. split; reflexivity. Qed.
EX*)

(** [C92] A program that came to its end has received just what its plan says: as many messages as
    it asked for, of the greeting and the answers to all it sent. *)
Lemma plain_complete_proof : forall cap plan w b acts, never_fails w ->
  Forall (sendable 104857600) (said_in plan) -> close_is_last (said_in plan) -> Forall (fun m => is_pong m = false) (said_in plan) ->
  let t := aerrand_run cap acts (aerrand_new plan w b) in
  aerrand_done t ->
  y_heard t = firstn (heard_in plan) (whole_atalk (said_in plan)) /\ (heard_in plan <= List.length (whole_atalk (said_in plan)))%nat.
Proof.
  intros cap plan w b acts H1 H2 H3 H4 t (D1 & D2 & D3).
  destruct (plain_sound_proof cap plan w b acts H1 H2 H3 H4) as ((said & E1 & c & E2) & _). fold t in E1, E2. rewrite D1 in E1. cbn [said_in flat_map] in E1. rewrite app_nil_r in E1. subst said.
  pose proof (y_run_inv cap plan acts _ (y_starts cap plan w b H1 (conj H2 (conj H3 H4)))) as HI. fold t in HI. yinv_open HI. rewrite D1, D3 in HHn. change (heard_in []) with 0 in HHn.
  rewrite !Nat.add_0_r in HHn. rewrite <- HHn, E2. split; [|rewrite app_length; lia]. rewrite firstn_app, firstn_all, Nat.sub_diag, firstn_O, app_nil_r. reflexivity.
Qed.
(*EX
Example plain_complete_ex :
  let t := aerrand_run 5 (concat (repeat plain_turns 30)) (aerrand_new (by_turns plain_says) (mk_w [] []) 0) in
  aerrand_done t /\ y_heard t = [OText (str "Hello World!"); OText (str "hi"); OPong (str "x"); OClose None].
Proof. vm_compute. repeat split; reflexivity. Qed.
EX*)

(** [C92] An [unwrap] fails only when the program asks for more after the server's Close: it has
    received the whole conversation, and the server's task is over. *)
Lemma plain_fails_late_proof : forall cap plan w b acts, never_fails w ->
  Forall (sendable 104857600) (said_in plan) -> close_is_last (said_in plan) -> Forall (fun m => is_pong m = false) (said_in plan) ->
  let t := aerrand_run cap acts (aerrand_new plan w b) in
  y_failed t = true ->
  y_heard t = whole_atalk (said_in plan) /\ y_at t = AServed TReady /\ (List.length (whole_atalk (said_in plan)) < heard_in plan)%nat.
Proof.
  intros cap plan w b acts H1 H2 H3 H4 t HF. pose proof (y_run_inv cap plan acts _ (y_starts cap plan w b H1 (conj H2 (conj H3 H4)))) as HI. fold t in HI. yinv_open HI.
  destruct (HFl HF) as [-> EG]. destruct (y_at t) as [| |r] eqn:EA; [discriminate EG|discriminate EG|].
  pose proof HSt as (HSr & _ & HSc & HSh & _).
  destruct (all_read _ _ _ _ _ _ _ HSt ltac:(discriminate) (or_introl HSc) HSn H3) as [-> HL]. rewrite HL, !app_nil_r in HSn.
  assert (map fst said = whole_atalk (map fst read)) as HT.
  { destruct HSt as (_ & HPh & _). unfold sphase in HPh. rewrite HSc in HPh. destruct HPh as (rd & p & -> & P2 & P3 & P4). unfold held in P4. rewrite HSh, app_nil_r in P4.
    rewrite P4, map_app. change (whole_atalk ?l) with (agreeting :: flat_map answer l). rewrite flat_map_app, (answers_open _ P2). cbn [map flat_map]. destruct (fst p); try destruct P3. reflexivity. }
  rewrite HSn, HS, app_nil_r in HT. rewrite HF, HHd, HT in HHn. split; [rewrite HHd; exact HT|]. split; [rewrite HSr; reflexivity|]. lia.
Qed.
(*EX
Example plain_fails_late_ex :
  let t := aerrand_run 7 (concat (repeat plain_turns 30)) (aerrand_new [Say (OClose None); Hear; Hear; Hear] (mk_w [] []) 0) in
  y_failed t = true /\ y_heard t = [OText (str "Hello World!"); OClose None].
Proof. vm_compute. split; reflexivity. Qed.
EX*)
Lemma y_settles : forall cap plan w b rounds, never_fails w ->
  Forall (sendable 104857600) (said_in plan) -> Forall (fun m => is_pong m = false) (said_in plan) -> 1 <= cap -> fair_plan cap [] [agreeting] plan ->
  Forall aerrand_round rounds -> toil plan + 96 <= length rounds ->
  let t := aerrand_run cap (concat rounds) (aerrand_new plan w b) in aerrand_done t \/ y_failed t = true.
Proof.
  intros cap plan w b rounds H1 H2 H4 Hcap HP HR HL. pose proof (fair_close_last _ _ _ _ HP) as H3.
  apply (y_run_ends cap plan); auto; [apply y_starts; [exact H1|exact (conj H2 (conj H3 H4))]|].
  assert (ywork (aerrand_new plan w b) = toil plan + 95) as EW; [|lia].
  unfold ywork, aerrand_new, atalk_new. ycbn. cbn [tk_task at_work length]. set (y := swork _ - _). vm_compute in y. subst y. unfold arrived_at. cbn. lia.
Qed.

(** [C92] A program that follows a fair plan (see Spec/AsyncErrands.v: it sends a message only if there
    is room in the network for what it is owed, of which the server keeps 8192 bytes itself, or for all
    it has sent) and asks for no more than it is owed comes to its end without failing, however it is
    scheduled, once everyone has had enough turns. *)
Lemma plain_live_proof : forall cap plan w b rounds, never_fails w ->
  Forall (sendable 104857600) (said_in plan) -> Forall (fun m => is_pong m = false) (said_in plan) ->
  (1 <= cap)%nat -> fair_plan cap [] [OText (ascii "Hello World!")] plan ->
  (heard_in plan <= List.length (whole_atalk (said_in plan)))%nat ->
  Forall aerrand_round rounds -> (toil plan + 96 <= List.length rounds)%nat ->
  aerrand_done (aerrand_run cap (concat rounds) (aerrand_new plan w b)).
Proof.
  intros cap plan w b rounds H1 H2 H4 Hcap HP HH HR HL. pose proof (fair_close_last _ _ _ _ HP) as H3.
  destruct (y_settles cap plan w b rounds H1 H2 H4 Hcap HP HR HL) as [H|H]; [exact H|].
  destruct (plain_fails_late_proof cap plan w b (concat rounds) H1 H2 H3 H4 H) as (_ & _ & X). lia.
Qed.
(*EX
(** Three messages of 1000 bytes may be sent ahead although the network holds 20: with
    examples/server.rs this plan is not good (see [plain_roomier_ex]). *)
Definition plain_thousand : owned := OBinary (repeat x61 (N.to_nat 1000)).
Example plain_live_ex : aerrand_round plain_turns /\
  fair_plan 20 [] [OText (ascii "Hello World!")] [Say plain_thousand; Say plain_thousand; Say plain_thousand; Hear; Hear].
Proof.
  split; [unfold aerrand_round, plain_turns; repeat split; repeat eexists; repeat ((left; reflexivity) || right)|].
  apply fair_say; [right; left; split; apply PeanoNat.Nat.leb_le; vm_compute; reflexivity|intros []|].
  apply fair_say; [right; left; split; apply PeanoNat.Nat.leb_le; vm_compute; reflexivity|intros []|].
  apply fair_say; [right; left; split; apply PeanoNat.Nat.leb_le; vm_compute; reflexivity|intros []|].
  apply fair_hear. apply fair_hear. apply fair_done.
Qed.
EX*)

(** [C92] If such a plan asks for more than it is owed (it may when it has sent a Close), the program
    does not hang: it fails, having received everything. *)
Lemma plain_overrun_proof : forall cap plan w b rounds, never_fails w ->
  Forall (sendable 104857600) (said_in plan) -> Forall (fun m => is_pong m = false) (said_in plan) ->
  (1 <= cap)%nat -> fair_plan cap [] [OText (ascii "Hello World!")] plan ->
  (List.length (whole_atalk (said_in plan)) < heard_in plan)%nat ->
  Forall aerrand_round rounds -> (toil plan + 96 <= List.length rounds)%nat ->
  let t := aerrand_run cap (concat rounds) (aerrand_new plan w b) in
  y_failed t = true /\ y_heard t = whole_atalk (said_in plan).
Proof.
  intros cap plan w b rounds H1 H2 H4 Hcap HP HH HR HL t. pose proof (fair_close_last _ _ _ _ HP) as H3.
  destruct (y_settles cap plan w b rounds H1 H2 H4 Hcap HP HR HL) as [H|H].
  - destruct (plain_complete_proof cap plan w b (concat rounds) H1 H2 H3 H4 H) as [_ X]. lia.
  - split; [exact H|]. apply (plain_fails_late_proof cap plan w b (concat rounds) H1 H2 H3 H4 H).
Qed.
(*EX
Example plain_overrun_ex : fair_plan 9 [] [OText (ascii "Hello World!")] [Hear; Say (OClose None); Hear; Hear; Hear] /\
  (List.length (whole_atalk [OClose None]) < 4)%nat /\
  let t := aerrand_run 9 (concat (repeat plain_turns 30)) (aerrand_new [Hear; Say (OClose None); Hear; Hear; Hear] (mk_w [] []) 0) in
  y_failed t = true /\ y_todo t = [Hear] /\ y_heard t = [OText (str "Hello World!"); OClose None].
Proof.
  split; [|split; [apply PeanoNat.Nat.ltb_lt; vm_compute; reflexivity|vm_compute; repeat split; reflexivity]].
  apply fair_hear. apply fair_say; [left; apply PeanoNat.Nat.leb_le; vm_compute; reflexivity|reflexivity|].
  apply fair_hear. apply fair_over; [exact I|reflexivity].
Qed.
EX*)

(** [C92] Sending and receiving by turns, a Close last, always works, whatever the messages and
    however little the network holds: the program ends with all the answers. *)
Lemma plain_by_turns_proof : forall cap ms w b rounds, never_fails w ->
  Forall (sendable 104857600) ms -> Forall (fun m => ~ closing m) ms -> Forall (fun m => is_pong m = false) ms -> (1 <= cap)%nat ->
  Forall aerrand_round rounds -> (toil (by_turns ms) + 96 <= List.length rounds)%nat ->
  let t := aerrand_run cap (concat rounds) (aerrand_new (by_turns ms) w b) in
  aerrand_done t /\ y_heard t = OText (ascii "Hello World!") :: flat_map answer ms ++ [OClose None].
Proof.
  intros cap ms w b rounds H1 H3 H4 H5 Hcap HR HL t.
  assert (Forall (sendable 104857600) (said_in (by_turns ms))) as HS by (rewrite by_turns_said; apply fit_close, H3).
  assert (Forall (fun m => is_pong m = false) (said_in (by_turns ms))) as HN by (rewrite by_turns_said; apply Forall_app; split; [exact H5|repeat constructor]).
  assert (fair_plan cap [] [agreeting] (by_turns ms)) as HP by (apply fair_hear, good_fair, by_turns_from; exact H4).
  assert (aerrand_done t) as HD by (apply plain_live_proof; auto; rewrite by_turns_said, by_turns_heard, atalk_length; lia).
  split; [exact HD|]. destruct (plain_complete_proof cap (by_turns ms) w b (concat rounds) H1 HS (fair_close_last _ _ _ _ HP) HN HD) as [E _]. fold t in E.
  rewrite E, by_turns_said, by_turns_heard, <- atalk_length, firstn_all. unfold whole_atalk. rewrite flat_map_app. reflexivity.
Qed.
(*EX
Example plain_by_turns_ex :
  let t := aerrand_run 1 (concat (repeat plain_turns 777)) (aerrand_new (by_turns plain_says) (mk_w [] []) 0) in
  aerrand_done t /\ y_heard t = OText (ascii "Hello World!") :: flat_map answer plain_says ++ [OClose None].
Proof.
  apply plain_by_turns.
  - constructor.
  - repeat constructor; try (apply ExTac.good_text; reflexivity); vm_compute; discriminate.
  - repeat constructor; intros [].
  - repeat constructor.
  - constructor.
  - apply Forall_forall. intros r HR. apply repeat_spec in HR. subst r. unfold aerrand_round, plain_turns. repeat split; repeat eexists; repeat ((left; reflexivity) || right).
  - apply PeanoNat.Nat.leb_le. vm_compute. reflexivity.
Qed.
EX*)

(** [C92] Sending everything first and receiving only then works if there is room for all the answers,
    or for all that is sent; of the answers the server keeps 8192 bytes, if only its greeting fits into
    the network. *)
Lemma plain_at_once_proof : forall cap ms w b rounds, never_fails w ->
  Forall (sendable 104857600) ms -> Forall (fun m => ~ closing m) ms -> Forall (fun m => is_pong m = false) ms -> (1 <= cap)%nat ->
  (down_bytes (OText (ascii "Hello World!") :: flat_map answer ms) <= cap \/
   14 <= cap /\ down_bytes (OText (ascii "Hello World!") :: flat_map answer ms) <= cap + N.to_nat 8192 \/
   up_bytes (ms ++ [OClose None]) <= cap)%nat ->
  Forall aerrand_round rounds -> (toil (at_once ms) + 96 <= List.length rounds)%nat ->
  let t := aerrand_run cap (concat rounds) (aerrand_new (at_once ms) w b) in
  aerrand_done t /\ y_heard t = OText (ascii "Hello World!") :: flat_map answer ms ++ [OClose None].
Proof.
  intros cap ms w b rounds H1 H3 H4 H5 Hcap HB HR HL t.
  assert (Forall (sendable 104857600) (said_in (at_once ms))) as HS by (rewrite at_once_said; apply fit_close, H3).
  assert (Forall (fun m => is_pong m = false) (said_in (at_once ms))) as HN by (rewrite at_once_said; apply Forall_app; split; [exact H5|repeat constructor]).
  pose proof (fair_at_once cap ms H4 HB) as HP.
  assert (aerrand_done t) as HD by (apply plain_live_proof; auto; rewrite at_once_said, at_once_heard, atalk_length; lia).
  split; [exact HD|]. destruct (plain_complete_proof cap (at_once ms) w b (concat rounds) H1 HS (fair_close_last _ _ _ _ HP) HN HD) as [E _]. fold t in E.
  rewrite E, at_once_said, at_once_heard, <- atalk_length, firstn_all. unfold whole_atalk. rewrite flat_map_app. reflexivity.
Qed.
(*EX
Definition plain_ten : list owned := repeat (OText (str "hello")) 10.
Example plain_at_once_ex :
  let t := aerrand_run 14 (concat (repeat plain_turns 2600)) (aerrand_new (at_once plain_ten) (mk_w [] []) 0) in
  aerrand_done t /\ y_heard t = OText (ascii "Hello World!") :: flat_map answer plain_ten ++ [OClose None].
Proof.
  apply plain_at_once.
  - constructor.
  - repeat constructor; try (apply ExTac.good_text; reflexivity); vm_compute; discriminate.
  - repeat constructor; intros [].
  - repeat constructor.
  - repeat constructor.
  - right. left. split; apply PeanoNat.Nat.leb_le; vm_compute; reflexivity.
  - apply Forall_forall. intros r HR. apply repeat_spec in HR. subst r. unfold aerrand_round, plain_turns. repeat split; repeat eexists; repeat ((left; reflexivity) || right).
  - apply PeanoNat.Nat.leb_le. vm_compute. reflexivity.
Qed.
(** With examples/server.rs and the same network these ten are too many: the program and the server
    wait for each other (see C88). *)
Example plain_roomier_ex :
  ThmErrand.e_frozen 14 (errand_run 14 (concat (repeat [ETurn (mk_key x00 x00 x00 x00); ESend 14; EServe (mk_key x00 x00 x00 x00); ETake 14; EPush 14] 20))
    (errand_new (at_once plain_ten) (mk_w [] []) (mk_w [] []))) = true.
Proof. vm_compute. reflexivity. Qed.
EX*)

(** [C92] Without that condition it may not: the program does not read while it is in a write, the
    server does not read while its buffer is full, and from then on nothing moves, whoever gets a turn. *)
Lemma plain_at_once_refuted_proof : exists cap ms w b acts, never_fails w /\
  Forall (sendable 104857600) ms /\ Forall (fun m => ~ closing m) ms /\ Forall (fun m => is_pong m = false) ms /\ (14 <= cap)%nat /\
  forall more, let t := aerrand_run cap (acts ++ more) (aerrand_new (at_once ms) w b) in
    ~ aerrand_done t /\ t = aerrand_run cap acts (aerrand_new (at_once ms) w b).
Proof.
  set (z := mk_key x00 x00 x00 x00). set (cap := N.to_nat 1000). set (ms := repeat (OBinary (repeat x61 (N.to_nat 3000))) 6).
  set (acts := concat (repeat [YTurn z; YSend cap; YArrive cap; YPoll z 0] 40)).
  exists cap, ms, (mk_w [] []), 0%N, acts. split; [constructor|]. split.
  { unfold ms. apply Forall_forall. intros m HM. apply repeat_spec in HM. subst m. split; [exact I|]. split; [vm_compute; discriminate|]. intros []. }
  split; [unfold ms; apply Forall_forall; intros m HM; apply repeat_spec in HM; subst m; intros []|].
  split; [unfold ms; apply Forall_forall; intros m HM; apply repeat_spec in HM; subst m; reflexivity|]. split; [unfold cap; lia|].
  assert (y_frozen cap (aerrand_run cap acts (aerrand_new (at_once ms) (mk_w [] []) 0)) = true) as HZ by (vm_compute; reflexivity).
  intros more. rewrite y_run_app. rewrite (y_frozen_run _ _ more HZ). split; [apply (y_frozen_stays _ _ HZ)|reflexivity].
Qed.

(** [C92] Nor may the greeting be too much for the network: then a single message may be enough. *)
Lemma plain_greeting_refuted_proof : exists cap m w b acts, never_fails w /\
  sendable 104857600 m /\ ~ closing m /\ is_pong m = false /\ (1 <= cap)%nat /\
  (down_bytes (OText (ascii "Hello World!") :: answer m) <= cap + N.to_nat 8192)%nat /\
  forall more, ~ aerrand_done (aerrand_run cap (acts ++ more) (aerrand_new (at_once [m]) w b)).
Proof.
  set (z := mk_key x00 x00 x00 x00). set (m := OText (str "hello")).
  set (acts := concat (repeat [YTurn z; YSend 9; YArrive 9; YPoll z 0] 4)).
  exists 9, m, (mk_w [] []), 0%N, acts. split; [constructor|]. split; [split; [apply ExTac.good_text; reflexivity|split; [vm_compute; discriminate|intros []]]|].
  split; [intros []|]. split; [reflexivity|]. split; [lia|]. split; [apply Nat.leb_le; vm_compute; reflexivity|].
  intros more. rewrite y_run_app.
  let v := eval vm_compute in (aerrand_run 9 acts (aerrand_new (at_once [m]) (mk_w [] []) 0)) in
    assert (aerrand_run 9 acts (aerrand_new (at_once [m]) (mk_w [] []) 0) = v) as -> by (vm_compute; reflexivity); remember v as t eqn:ET.
  assert (forall a, aerrand_step 9 a t = t) as HZ.
  { subst t. intros [k|n|n|n|k e]; try reflexivity; cbn [aerrand_step].
    - unfold y_send. ycbn. cbn [length Nat.add aev_bytes flat_map app]. rewrite Nat.min_0_r. reflexivity.
    - unfold y_arrive, apiece. ycbn. rewrite firstn_nil, skipn_nil. reflexivity. }
  assert (aerrand_run 9 more t = t) as ->.
  { induction more as [|a more IH]; [reflexivity|]. cbn [aerrand_run]. rewrite HZ. exact IH. }
  subst t. intros (X & _). discriminate X.
Qed.

(** [C92] A plan that asks for more than the answers to what it sends never comes to its end. *)
Lemma plain_too_much_proof : forall cap plan w b acts, never_fails w ->
  Forall (sendable 104857600) (said_in plan) -> close_is_last (said_in plan) -> Forall (fun m => is_pong m = false) (said_in plan) ->
  (List.length (whole_atalk (said_in plan)) < heard_in plan)%nat ->
  ~ aerrand_done (aerrand_run cap acts (aerrand_new plan w b)).
Proof.
  intros cap plan w b acts H1 H2 H3 H4 HL HD. destruct (plain_complete_proof cap plan w b acts H1 H2 H3 H4 HD) as [_ X]. lia.
Qed.
(*EX
(** It waits for a second message, where only the greeting is owed. *)
Example plain_too_much_ex : (List.length (whole_atalk (said_in [Hear; Hear])) < heard_in [Hear; Hear])%nat /\
  let t := aerrand_run 5 (concat (repeat plain_turns 30)) (aerrand_new [Hear; Hear] (mk_w [] []) 0) in
  y_todo t = [Hear] /\ y_failed t = false /\ y_heard t = [OText (str "Hello World!")].
Proof. split; [apply PeanoNat.Nat.ltb_lt; vm_compute; reflexivity|]. vm_compute. repeat split; reflexivity. Qed.
EX*)
