(** A program that says and hears by a plan, and the server of the examples: C88. *)
From Coq Require Import NArith ZArith String Bool List Lia.
From Coq Require Import ZifyBool ZifyNat ZifyN.
From Coq.Strings Require Import Byte.
From Verif.Model Require Import Base Io Header Mask Dataframe Utf8 Text Headers
  Message Receiver Codec Framed Connect Examples ChatClient Talk Narrow Errand.
From Verif.Spec Require Import RfcFrame FrameSpec Schedule Unicode Drive Session Connection Polled Fields Echo Chat Talking AsyncChat Errands.
From Verif.Proofs Require Import BaseFacts MaskFacts HeaderFacts FrameFacts CodecFacts ScriptFacts
  Machine Utf8Facts ThmFrames ThmStream SessionFacts RecvFacts MessageFacts
  TextFacts ExTac ThmMessages ThmFlow ThmLimits ThmInterop ThmEcho ThmChat ThmTalk ThmNarrow AsyncTalkFacts ThmCrossed.
Import ListNotations.
Local Open Scope string_scope.
Local Open Scope list_scope.
Local Open Scope nat_scope.

(** ** How much is said *)
Lemma enc_key_length : forall f k k', length (enc f (Some k)) = length (enc f (Some k')).
Proof.
  intros f k k'. unfold enc, header_bytes, ops_header. cbn [h_mask h_len h_flags h_opcode mask_opt]. rewrite !app_length, !length_mask_data. reflexivity.
Qed.
Lemma down_frames : forall l, length (frames true l) = down_bytes (map fst l).
Proof.
  intros l. unfold down_bytes, server_says, frames, masked_frames. cbn [negb]. induction l as [|[m k] l IH]; [reflexivity|].
  cbn [map fst snd concat]. rewrite encs_cons, !app_length, IH. cbn [fst snd]. f_equal. rewrite <- enc_rfc, map_length. reflexivity.
Qed.
Lemma up_frames : forall l, length (frames false l) = up_bytes (map fst l).
Proof.
  intros l. unfold up_bytes, client_says, frames, masked_frames. cbn [negb]. induction l as [|[m k] l IH]; [reflexivity|].
  cbn [map fst snd concat]. rewrite encs_cons, !app_length, IH. cbn [fst snd]. f_equal. rewrite <- enc_rfc, map_length. apply enc_key_length.
Qed.
Lemma down_app : forall a b, down_bytes (a ++ b) = down_bytes a + down_bytes b.
Proof. intros a b. unfold down_bytes, server_says. rewrite map_app, concat_app, app_length. reflexivity. Qed.
Lemma up_app : forall a b, up_bytes (a ++ b) = up_bytes a + up_bytes b.
Proof. intros a b. unfold up_bytes, client_says. rewrite !map_app, concat_app, app_length. reflexivity. Qed.

(** ** What is owed *)
Lemma answers_open : forall l, Forall open l -> flat_map answer (map fst l) = flat_map echo_all (map fst l).
Proof.
  intros l H. induction H as [|[m k] l Hm _ IH]; [reflexivity|]. cbn [map fst flat_map]. rewrite IH. f_equal. destruct m; try reflexivity. contradiction Hm. exact I.
Qed.
Lemma server_said : forall a read said, server_ok a read said ->
  a = Greeting /\ read = [] /\ said = [] \/ a <> Greeting /\ map fst said = whole_talk (map fst read).
Proof.
  intros a read said H. unfold whole_talk. change (OText (ascii "Hello")) with greeting. destruct a; cbn [server_ok] in H.
  - left. destruct H as [-> ->]. auto.
  - right. split; [discriminate|]. destruct H as [H ->]. rewrite (answers_open _ H). reflexivity.
  - right. split; [discriminate|]. destruct H as (_ & l & p & -> & H1 & H2 & ->). rewrite map_app, flat_map_app, (answers_open _ H1). cbn [map flat_map].
    destruct (fst p); try contradiction H2. reflexivity.
Qed.
Lemma whole_app : forall a b, whole_talk (a ++ b) = whole_talk a ++ flat_map answer b.
Proof. intros a b. unfold whole_talk. rewrite flat_map_app. reflexivity. Qed.
Lemma plan_close_last : forall cap plan said owed, good_plan cap said owed plan -> close_is_last (said_in plan).
Proof.
  intros cap plan said owed H. induction H as [|said m owed l H IH|said owed m l H1 H2 H3 IH|said m l H1 H2].
  - intros [|x a] m b E; discriminate E.
  - exact IH.
  - intros a x b E Hx. change (said_in (Say m :: l)) with (m :: said_in l) in E. destruct a as [|y a].
    + cbn [app] in E. injection E as <- <-. auto.
    + cbn [app] in E. injection E as <- E. eapply IH; eauto.
  - change (said_in (Hear :: l)) with (said_in l). rewrite H2. intros [|x a] y b E; discriminate E.
Qed.

(** ** The whole *)
Definition rest1 (x : option (writer * bytes)) : bytes := match x with Some (_, o) => o | None => [] end.
Definition writer1 (x : option (writer * bytes)) (d : writer) : writer := match x with Some (w, _) => w | None => d end.
Definition in_plan (cap : nat) (t : errand) (sent got : list owned) : Prop :=
  e_failed t = false -> exists owed, got ++ owed = whole_talk sent /\ good_plan cap sent owed (e_todo t) /\
    (e_write t <> None -> exists s m owed0, sent = s ++ [m] /\ owed = owed0 ++ answer m /\
       (down_bytes owed0 <= cap \/ up_bytes sent <= cap)).
Definition einv (cap : nat) (plan : list deed) (t : errand) : Prop :=
  exists got ungot read unread w1 w2,
  map fst (read ++ unread) ++ said_in (e_todo t) = said_in plan /\
  (length (e_heard t) + (if e_failed t then 1 else 0) + heard_in (e_todo t) = heard_in plan) /\
  e_heard t = map fst got /\
  pipe true (e_sreader t) (e_up t ++ rest1 (e_write t)) unread /\
  server_ok (then_at (e_swrite t) (e_srv t)) read (got ++ ungot) /\
  pipe false (e_reader t) (e_down t ++ rest_of (e_swrite t)) ungot /\
  (writer1 (e_write t) (e_writer t) = mk_writer (mk_sender true) w1 /\ never_fails w1) /\
  (then_writer (e_swrite t) (e_swriter t) = mk_writer (mk_sender false) w2 /\ never_fails w2) /\
  writing (e_swrite t) (e_srv t) /\ (e_write t <> None -> rest1 (e_write t) <> []) /\
  (e_failed t = true -> ungot = [] /\ e_gone t = true) /\
  (length (e_up t) <= cap /\ length (e_down t) <= cap) /\
  (Forall (sendable big) (said_in plan) /\ close_is_last (said_in plan)) /\
  (good_plan cap [] [greeting] plan -> in_plan cap t (map fst (read ++ unread)) (map fst got)).
Definition ework (t : errand) : nat :=
  toil (e_todo t) + 11 * length (rest1 (e_write t)) + 10 * length (e_up t) + 9 * arrived_at (e_sreader t) +
  srv_fee (then_at (e_swrite t) (e_srv t)) + 4 * length (rest_of (e_swrite t)) + 3 * length (e_down t) + 2 * arrived_at (e_reader t).

Ltac einv_open H :=
  destruct H as (got & ungot & read & unread & w1 & w2 & HSn & HHn & HHd & HSa & HSt & HR & [HW1 HN1] & [HW2 HN2] & HWi & HWr & HFl & [HB1 HB2] & [HFit HCl] & HG).
Ltac ecbn := cbn [e_todo e_heard e_failed e_reader e_writer e_write e_up e_srv e_sreader e_swriter e_swrite e_down then_at then_writer rest_of rest1 writer1 writing].
Ltac ecbn_in := cbn [e_todo e_heard e_failed e_reader e_writer e_write e_up e_srv e_sreader e_swriter e_swrite e_down then_at then_writer rest_of rest1 writer1 writing] in *.

Lemma served_read : forall e read unread said later all, server_ok (Served e) read said -> map fst (read ++ unread) ++ later = all -> close_is_last all ->
  unread = [] /\ later = [] /\ map fst said = whole_talk (map fst read) /\ e = Returned.
Proof.
  intros e read unread said later all HS E HC. destruct (server_said _ _ _ HS) as [[X _]|[_ HS']]; [discriminate X|].
  destruct HS as (-> & a & p & -> & H1 & H2 & H3).
  assert (map fst unread ++ later = []) as HU.
  { rewrite !map_app, <- !app_assoc in E. cbn [map app] in E. eapply HC; [symmetry; exact E|exact H2]. }
  apply app_eq_nil in HU as [HU ->]. destruct unread; [|discriminate HU]. auto.
Qed.
Lemma not_writing : forall x e, writing x (Served e) -> x = None.
Proof. intros [[[a w] o]|] e H; [|reflexivity]. destruct H as [_ [H|H]]; discriminate H. Qed.

Lemma turn_step : forall cap plan k t t', einv cap plan t -> e_turn k t = Some t' -> einv cap plan t' /\ ework t' < ework t.
Proof.
  intros cap plan k t t' HInv H. pose proof HInv as HI. einv_open HI.
  destruct t as [todo heard failed rd wr wt up srv srd swr swt down]. unfold e_turn in H. ecbn_in.
  destruct failed; [discriminate H|]. destruct wt as [x|]; [discriminate H|]. destruct todo as [|[m|] l]; [discriminate H| |].
  - change (said_in (Say m :: l)) with (m :: said_in l) in HSn.
    assert (sendable big m) as Hm.
    { rewrite <- HSn in HFit. apply Forall_app in HFit as [_ HFit]. inversion HFit; assumption. }
    ecbn_in. destruct (sends true m k w1 HN1 (big_sendable m Hm)) as (w' & W1 & W2 & W3). rewrite HW1, W1 in H. injection H as <-.
    rewrite (written_eq _ _ _ _ _ W2). set (o := encs (masked_frames true [(m, k)])) in *.
    pose proof (AsyncTalkFacts.frame_length false m k) as HL. cbv zeta iota in HL. change (frames false [(m, k)]) with o in HL.
    split.
    + exists got, ungot, read, (unread ++ [(m, k)]), w', w2. ecbn.
      split; [rewrite app_assoc, map_app; cbn [map fst]; rewrite <- app_assoc; exact HSn|]. split; [exact HHn|]. split; [exact HHd|]. split.
      { rewrite app_nil_r in HSa. apply (pipe_write true _ _ _ (m, k)); [exact HSa|exact Hm]. }
      split; [exact HSt|]. split; [exact HR|]. split; [split; [reflexivity|exact W3]|]. split; [split; assumption|]. split; [exact HWi|].
      split; [intros _ E; rewrite E in HL; cbn [length] in HL; lia|]. split; [discriminate|]. split; [split; assumption|]. split; [split; assumption|].
      intros HP _. destruct (HG HP eq_refl) as (owed & O1 & O2 & _). ecbn_in. inversion O2 as [| |? ? ? ? P1 P2 P3|]; subst.
      rewrite app_assoc, map_app. cbn [map fst]. exists (owed ++ answer m). split; [rewrite whole_app, app_assoc, O1; cbn [flat_map]; rewrite app_nil_r; reflexivity|].
      split; [exact P3|]. intros _. exists (map fst (read ++ unread)), m, owed. auto.
    + unfold ework. ecbn. cbn [toil fold_right]. fold (toil l). cbn [length]. lia.
  - destruct (pipe_read _ _ _ _ HR) as [(m & k0 & l' & r' & E1 & E2 & E3 & E4)|(E1 & E2)].
    + rewrite E2 in H. cbn [must_wait] in H. injection H as <-.
      assert (sendable big m) as Hm. { destruct HR as (_ & _ & _ & HR). rewrite E1 in HR. inversion HR; assumption. }
      split.
      * exists (got ++ [(m, k0)]), l', read, unread, w1, w2. ecbn.
        split; [exact HSn|]. split; [rewrite app_length; cbn [length]; cbn [heard_in filter length] in HHn; unfold heard_in in *; lia|].
        split; [rewrite HHd, map_app; reflexivity|]. split; [exact HSa|].
        split; [rewrite <- app_assoc; cbn [app]; rewrite <- E1; exact HSt|]. split; [exact E3|]. split; [split; assumption|]. split; [split; assumption|]. split; [exact HWi|].
        split; [intros X; contradiction X; reflexivity|]. split; [discriminate|]. split; [split; assumption|]. split; [split; assumption|].
        intros HP _. destruct (HG HP eq_refl) as (owed & O1 & O2 & _). ecbn_in. subst ungot. destruct (server_said _ _ _ HSt) as [(_ & _ & X)|[_ HS]]; [destruct got; discriminate X|].
        rewrite !map_app in O1, HS |- *. cbn [map fst] in HS |- *. rewrite whole_app, <- HS, <- app_assoc in O1. apply app_inv_head in O1. cbn [app] in O1. subst owed. inversion O2 as [|? m' owed' ? P1| |]; subst.
        eexists. split; [|split; [exact P1|intros X; contradiction X; reflexivity]].
        rewrite map_app, whole_app, <- HS, <- !app_assoc. reflexivity.
      * unfold ework. ecbn. cbn [toil fold_right]. fold (toil l). pose proof (enc_length m k0 false) as HL. cbv zeta iota in HL. unfold arrived_at in *. lia.
    + destruct (reader_recv rd) as [x r']. cbn [fst] in E1. subst x. cbn [must_wait] in H.
      match goal with H : (if ?b then _ else _) = _ |- _ => destruct b eqn:EB; [discriminate H|] end. injection H as <-.
      apply negb_false_iff, andb_true_iff in EB as [EG ED]. destruct down; [|discriminate ED].
      assert (exists e, srv = Served e) as [e ->] by (unfold e_gone in EG; ecbn_in; destruct srv; try discriminate EG; eauto).
      pose proof (not_writing _ _ HWi) as ->.
      ecbn_in. assert (ungot = []) as -> by (destruct E2 as [E2|E2]; [exact E2|contradiction E2; reflexivity]).
      split.
      * exists got, [], read, unread, w1, w2. ecbn.
        split; [exact HSn|]. split; [cbn [heard_in filter length] in HHn; unfold heard_in in *; lia|]. repeat (split; [first [assumption|split; assumption]|]).
        split; [intros _; split; reflexivity|]. split; [split; assumption|]. split; [split; assumption|].
        intros _ X. discriminate X.
      * unfold ework. ecbn. cbn [toil fold_right]. fold (toil l). lia.
Qed.

Lemma e_send_step : forall cap plan n t t', einv cap plan t -> e_send cap n t = Some t' -> einv cap plan t' /\ ework t' < ework t.
Proof.
  intros cap plan n t t' HI H. einv_open HI. destruct t as [todo heard failed rd wr wt up srv srd swr swt down]. unfold e_send in H. ecbn_in.
  destruct wt as [[w' o]|]; [|discriminate H]. pose proof (firstn_skipn (Nat.min n (cap - length up)) o) as HO.
  assert (length (firstn (Nat.min n (cap - length up)) o) <= cap - length up) as HF by (rewrite firstn_length; lia).
  destruct (firstn (Nat.min n (cap - length up)) o) as [|x now]; [discriminate H|]. injection H as <-.
  set (later := skipn _ o) in *. clearbody later. subst o.
  assert (length (up ++ x :: now) <= cap) as HB by (rewrite app_length; lia).
  assert (rest1 (match later with [] => None | y :: l => Some (w', y :: l) end) = later) as HL by (destruct later; reflexivity).
  split.
  - exists got, ungot, read, unread, w1, w2. ecbn. repeat (split; [assumption|]).
    split; [rewrite HL; rewrite <- app_assoc; exact HSa|]. repeat (split; [assumption|]).
    split; [split; [destruct later; exact HW1|exact HN1]|]. split; [split; assumption|]. split; [assumption|].
    split; [rewrite HL; destruct later; [intros X; contradiction X; reflexivity|discriminate]|]. split; [assumption|]. split; [split; assumption|]. split; [split; assumption|].
    intros HP HX. destruct (HG HP HX) as (owed & O1 & O2 & O3). ecbn_in. exists owed. split; [exact O1|]. split; [exact O2|]. intros _. apply O3. discriminate.
  - unfold ework. ecbn. rewrite HL, !app_length. cbn [length]. lia.
Qed.

Lemma e_read_step : forall cap plan n t t', einv cap plan t -> e_read n t = Some t' -> einv cap plan t' /\ ework t' < ework t.
Proof.
  intros cap plan n t t' HI H. einv_open HI. destruct t as [todo heard failed rd wr wt up srv srd swr swt down]. unfold e_read in H. ecbn_in.
  destruct failed; [discriminate H|]. destruct wt as [x|]; [discriminate H|]. destruct todo as [|[m|] l]; try discriminate H.
  destruct (lacks rd); [|discriminate H]. destruct (arrive n down rd) as [[r' q]|] eqn:EA; [|discriminate H]. injection H as <-. ecbn_in.
  assert (pipe false r' (q ++ rest_of swt) ungot /\ length q < length down /\ arrived_at r' + length q = arrived_at rd + length down) as (A1 & A2 & A3).
  { unfold arrive in EA. pose proof (firstn_skipn n down) as HN. destruct (firstn n down) as [|b bs]; [discriminate EA|]. injection EA as <- <-.
    destruct HR as (P1 & P2 & P3 & P4). assert (length down = S (length bs) + length (skipn n down)) as HL by (rewrite <- HN at 1; rewrite app_length; reflexivity).
    unfold arrived_at. split; [split; [exact P1|]|]; cbn [rd_receiver rd_buf rd_in]; rewrite flat_app; cbn [flat]; rewrite app_nil_r.
    - split; [apply Forall_app; split; [exact P2|constructor; [exact I|constructor]]|]. split; [|exact P4].
      rewrite <- P3. rewrite <- HN at 2. rewrite <- !app_assoc. reflexivity.
    - rewrite !app_length. cbn [length]. lia. }
  split.
  - exists got, ungot, read, unread, w1, w2. ecbn. repeat (split; [first [assumption|split; assumption]|]). split; [split; [assumption|lia]|]. split; [split; assumption|].
    intros HP HX. destruct (HG HP HX) as (owed & O1 & O2 & O3). exists owed. auto.
  - unfold ework. ecbn. lia.
Qed.

Lemma e_serve_step : forall cap plan k t t', einv cap plan t -> e_serve k t = Some t' -> einv cap plan t' /\ ework t' < ework t.
Proof.
  intros cap plan k t t' HI H. einv_open HI. destruct t as [todo heard failed rd wr wt up a srd swr swt down]. unfold e_serve in H. ecbn_in.
  destruct swt as [x|]; [discriminate H|]. ecbn_in.
  assert (a = Greeting \/ a = Serving) as HA by (destruct a; auto; discriminate H).
  assert (failed = false) as ->. { destruct failed; [|reflexivity]. destruct (HFl eq_refl) as [_ E]. unfold e_gone in E. ecbn_in. destruct HA as [-> | ->]; discriminate E. }
  rewrite (lacks_waits _ _ _ eq_refl) in H.
  assert ((a = Greeting \/ a = Serving /\ fst (reader_recv srd) <> Err NoDataAvailable) /\ match a with Serving => lacks srd | _ => false end = false) as [HT HLa].
  { destruct HA as [-> | ->]; [auto|]. destruct (lacks srd) eqn:EL; [discriminate H|]. split; [right|reflexivity]. split; [reflexivity|].
    intros E. unfold lacks in EL. rewrite E in EL. discriminate EL. }
  destruct (turn_ok a k srd w2 _ read unread (got ++ ungot) HSt HSa HN2 HT) as (a' & m & r' & w' & read' & unread' & T1 & T2 & T3 & T4 & T5 & T6 & T7 & T8).
  assert (frames true [(m, k)] <> []) as HNe.
  { intros E. pose proof (AsyncTalkFacts.frame_length true m k) as HX. cbv zeta iota in HX. rewrite E in HX. cbn [length] in HX. lia. }
  set (o := frames true [(m, k)]) in *.
  assert (t' = mk_errand todo heard false rd wr wt up a r' swr (Some (a', mk_writer (mk_sender false) w', o)) down) as ->.
  { pose proof (written_eq (mk_sender false) (mk_sender false) _ _ _ T2) as HWe. fold o in HWe.
    destruct HA as [-> | ->]; [|rewrite HLa in H]; rewrite HW2, T1, HWe in H; clearbody o; (destruct o; [contradiction HNe; reflexivity|injection H as <-; rewrite HW2; reflexivity]). }
  split.
  - exists got, (ungot ++ [(m, k)]), read', unread', w1, w'. ecbn.
    split; [rewrite <- T5; exact HSn|]. split; [exact HHn|]. split; [exact HHd|]. split; [exact T6|]. split; [rewrite app_assoc; exact T7|]. split.
    { rewrite app_nil_r in HR. apply (pipe_write false _ _ _ (m, k)); [exact HR|exact T4]. }
    split; [split; assumption|]. split; [split; [reflexivity|exact T3]|]. split; [split; [exact HNe|exact HA]|]. split; [exact HWr|]. split; [discriminate|].
    split; [split; assumption|]. split; [split; assumption|]. rewrite <- T5. exact HG.
  - unfold ework. ecbn. cbn [length]. lia.
Qed.

Lemma e_take_step : forall cap plan n t t', einv cap plan t -> e_take n t = Some t' -> einv cap plan t' /\ ework t' < ework t.
Proof.
  intros cap plan n t t' HI H. einv_open HI. destruct t as [todo heard failed rd wr wt up a srd swr swt down]. unfold e_take in H. ecbn_in.
  destruct swt as [x|]; [discriminate H|]. destruct a; try discriminate H. destruct (lacks srd); [|discriminate H].
  destruct (arrive n up srd) as [[r' q]|] eqn:EA; [|discriminate H]. injection H as <-. ecbn_in.
  assert (pipe true r' (q ++ rest1 wt) unread /\ length q < length up /\ arrived_at r' + length q = arrived_at srd + length up) as (A1 & A2 & A3).
  { unfold arrive in EA. pose proof (firstn_skipn n up) as HN. destruct (firstn n up) as [|b bs]; [discriminate EA|]. injection EA as <- <-.
    destruct HSa as (P1 & P2 & P3 & P4). assert (length up = S (length bs) + length (skipn n up)) as HL by (rewrite <- HN at 1; rewrite app_length; reflexivity).
    unfold arrived_at. split; [split; [exact P1|]|]; cbn [rd_receiver rd_buf rd_in]; rewrite flat_app; cbn [flat]; rewrite app_nil_r.
    - split; [apply Forall_app; split; [exact P2|constructor; [exact I|constructor]]|]. split; [|exact P4].
      rewrite <- P3. rewrite <- HN at 2. rewrite <- !app_assoc. reflexivity.
    - rewrite !app_length. cbn [length]. lia. }
  split.
  - exists got, ungot, read, unread, w1, w2. ecbn. repeat (split; [first [assumption|split; assumption]|]). split; [split; [lia|assumption]|]. split; [split; assumption|]. exact HG.
  - unfold ework. ecbn. lia.
Qed.

Lemma e_push_step : forall cap plan n t t', einv cap plan t -> e_push cap n t = Some t' -> einv cap plan t' /\ ework t' < ework t.
Proof.
  intros cap plan n t t' HI H. einv_open HI. destruct t as [todo heard failed rd wr wt up a srd swr swt down]. unfold e_push in H. ecbn_in.
  destruct swt as [[[a' w'] o]|]; [|discriminate H]. ecbn_in. pose proof (firstn_skipn (Nat.min n (cap - length down)) o) as HO.
  assert (length (firstn (Nat.min n (cap - length down)) o) <= cap - length down) as HF by (rewrite firstn_length; lia).
  destruct (firstn (Nat.min n (cap - length down)) o) as [|x now]; [discriminate H|]. set (later := skipn _ o) in *. clearbody later. subst o. destruct HWi as [_ HA].
  assert (failed = false) as ->. { destruct failed; [|reflexivity]. destruct (HFl eq_refl) as [_ E]. unfold e_gone in E. ecbn_in. destruct HA as [-> | ->]; discriminate E. }
  assert (length (down ++ x :: now) <= cap) as HB by (rewrite app_length; lia).
  assert (pipe false rd ((down ++ x :: now) ++ later) ungot) as HR' by (rewrite <- app_assoc; exact HR).
  destruct later as [|y later]; injection H as <-; (split; [exists got, ungot, read, unread, w1, w2; ecbn|]).
  - repeat (split; [first [assumption|split; assumption]|]). split; [discriminate|]. split; [split; assumption|]. split; [split; assumption|]. exact HG.
  - unfold ework. ecbn. rewrite app_nil_r, app_length. cbn [length]. lia.
  - repeat (split; [first [assumption|split; assumption]|]). split; [split; [discriminate|exact HA]|]. split; [assumption|]. split; [discriminate|]. split; [split; assumption|]. split; [split; assumption|]. exact HG.
  - unfold ework. ecbn. rewrite !app_length. cbn [length]. lia.
Qed.

Lemma e_any_step : forall cap plan a t t', einv cap plan t -> errand_step cap a t = Some t' -> einv cap plan t' /\ ework t' < ework t.
Proof.
  intros cap plan [k|n|n|k|n|n] t t' H E; cbn [errand_step] in E; [eapply turn_step|eapply e_send_step|eapply e_read_step|eapply e_serve_step|eapply e_take_step|eapply e_push_step]; eauto.
Qed.
Lemma e_new_inv : forall cap plan w1 w2, never_fails w1 -> never_fails w2 -> Forall (sendable big) (said_in plan) -> close_is_last (said_in plan) ->
  einv cap plan (errand_new plan w1 w2).
Proof.
  intros cap plan w1 w2 H1 H2 HF HC. exists [], [], [], [], w1, w2. unfold errand_new. ecbn. cbn [map app length].
  split; [reflexivity|]. split; [reflexivity|]. split; [reflexivity|]. split; [repeat split; constructor|]. split; [split; reflexivity|]. split; [repeat split; constructor|].
  split; [auto|]. split; [auto|]. split; [exact I|]. split; [intros X; contradiction X; reflexivity|]. split; [discriminate|]. split; [lia|]. split; [auto|].
  intros HP _. exists [greeting]. split; [reflexivity|]. split; [exact HP|]. intros X; contradiction X; reflexivity.
Qed.
Lemma e_run_inv : forall cap plan acts t, einv cap plan t -> einv cap plan (errand_run cap acts t).
Proof.
  intros cap plan. induction acts as [|a acts IH]; intros t H; [exact H|]. cbn [errand_run]. apply IH.
  destruct (errand_step cap a t) as [t'|] eqn:E; [|exact H]. apply (e_any_step _ _ _ _ _ H E).
Qed.
Lemma e_run_app : forall cap a b t, errand_run cap (a ++ b) t = errand_run cap b (errand_run cap a t).
Proof. intros cap. induction a as [|x a IH]; intros b t; [reflexivity|]. cbn [app errand_run]. apply IH. Qed.

(** ** It goes on *)
Lemma e_round_step : forall cap plan acts t, einv cap plan t ->
  ework (errand_run cap acts t) < ework t \/ errand_run cap acts t = t /\ forall a, In a acts -> errand_step cap a t = None.
Proof.
  intros cap plan. induction acts as [|a acts IH]; intros t HI; cbn [errand_run].
  - right. split; [reflexivity|intros a []].
  - destruct (errand_step cap a t) as [t'|] eqn:E.
    + left. destruct (e_any_step _ _ _ _ _ HI E) as [HI' HW]. destruct (IH _ HI') as [H|[-> _]]; lia.
    + destruct (IH _ HI) as [H|[H1 H2]]; [left; exact H|right]. split; [exact H1|]. intros b [<-|Hb]; auto.
Qed.
Lemma push_stuck : forall cap n (o : bytes), 1 <= cap -> o <> [] -> firstn (Nat.min (S n) cap) o <> [].
Proof. intros cap n o H HO E. destruct o; [contradiction HO; reflexivity|]. destruct cap; [lia|]. discriminate E. Qed.

Lemma e_not_stuck : forall cap plan t k k' n1 n2 n3 n4, einv cap plan t -> 1 <= cap -> good_plan cap [] [greeting] plan ->
  e_turn k t = None -> e_send cap (S n1) t = None -> e_read (S n2) t = None -> e_serve k' t = None -> e_take (S n3) t = None -> e_push cap (S n4) t = None ->
  errand_done t \/ e_failed t = true.
Proof.
  intros cap plan t k k' n1 n2 n3 n4 HI Hcap HP S1 S2 S3 S4 S5 S6. einv_open HI. destruct (e_failed t) eqn:F1; [auto|left]. destruct (HG HP F1) as (owed & O1 & O2 & O3). clear HG HFl HHn.
  destruct t as [todo heard failed rd wr wt up a srd swr swt down]. ecbn_in. subst failed.
  unfold e_turn, e_read in S1, S3. unfold e_send in S2. unfold e_serve in S4. unfold e_take in S5. unfold e_push in S6. ecbn_in.
  assert (swt = None \/ length down = cap) as HD.
  { destruct swt as [[[a' w'] o]|]; [right|left; reflexivity]. destruct HWi as [HO _].
    destruct (Nat.eq_dec (length down) cap) as [E|E]; [exact E|exfalso].
    destruct (firstn (Nat.min (S n4) (cap - length down)) o) eqn:EF; [|destruct (skipn _ o); discriminate S6].
    revert EF. apply push_stuck; [lia|exact HO]. }
  assert (swt = None -> (exists e, a = Served e) \/ a = Serving /\ lacks srd = true /\ up = []) as HSv.
  { intros ->. destruct a as [| |e]; [| |left; eauto].
    - destruct (server_turn _ _ _ _) as [[a' r'] w']. destruct (written _ _); discriminate S4.
    - rewrite (lacks_waits _ _ _ eq_refl) in S4. right. split; [reflexivity|]. destruct (lacks srd).
      + split; [reflexivity|]. destruct up; [reflexivity|]. discriminate S5.
      + destruct (server_turn _ _ _ _) as [[a' r'] w']. destruct (written _ _); discriminate S4. }
  destruct wt as [[w' o]|].
  - exfalso. ecbn_in. specialize (HWr ltac:(discriminate)). specialize (O3 ltac:(discriminate)).
    assert (length up = cap) as EU.
    { destruct (Nat.eq_dec (length up) cap) as [E|E]; [exact E|exfalso].
      destruct (firstn (Nat.min (S n1) (cap - length up)) o) eqn:EF; [|discriminate S2]. revert EF. apply push_stuck; [lia|exact HWr]. }
    assert (unread <> []) as HU. { intros ->. apply encs_nil in HSa. destruct up; [cbn [length] in EU; lia|discriminate HSa]. }
    assert (0 < length o) as HLo by (destruct o; [contradiction HWr; reflexivity|cbn [length]; lia]).
    destruct HD as [->|HD].
    + ecbn_in. destruct (HSv eq_refl) as [[e ->]|(-> & _ & ->)]; [|cbn [length] in EU; lia].
      destruct (served_read _ _ _ _ _ _ HSt HSn HCl) as (-> & _). contradiction HU. reflexivity.
    + destruct (Nat.eq_dec (length (rest_of swt)) 0) as [ER|ER].
      { destruct swt as [[[a' x] o']|]; [destruct HWi as [HO _]; destruct o'; [contradiction HO; reflexivity|discriminate ER]|].
        destruct (HSv eq_refl) as [[e ->]|(-> & _ & ->)]; [|cbn [length] in EU; lia]. cbn [then_at] in HSt.
        destruct (served_read _ _ _ _ _ _ HSt HSn HCl) as (-> & _). contradiction HU. reflexivity. }
      destruct O3 as (s & m & owed0 & E1 & -> & [E3|E3]).
      * destruct (exists_last HU) as (u' & [m' k'0] & ->). rewrite app_assoc, map_app in E1. cbn [map fst] in E1. apply app_inj_tail in E1 as [E1 <-].
        destruct HR as (_ & _ & R3 & _). change (encs (masked_frames false ungot)) with (frames true ungot) in R3.
        apply (f_equal (@length byte)) in R3. rewrite down_frames, !app_length in R3.
        destruct (server_said _ _ _ HSt) as [(_ & _ & X)|[_ HS]].
        { apply app_eq_nil in X as [_ ->]. cbn in R3. lia. }
        assert (owed0 = map fst ungot ++ flat_map answer (map fst u')) as ->.
        { rewrite (app_assoc read u'), (map_app fst (read ++ u')), whole_app in O1. cbn [map fst flat_map] in O1. rewrite app_nil_r, app_assoc in O1. apply app_inv_tail in O1.
          rewrite map_app, whole_app, <- HS, map_app, <- app_assoc in O1. apply app_inv_head in O1. exact O1. }
        rewrite down_app in E3. lia.
      * rewrite <- up_frames, frames_app, app_length in E3. destruct HSa as (_ & _ & R3 & _). change (encs (masked_frames true unread)) with (frames false unread) in R3.
        rewrite <- R3, !app_length in E3. lia.
  - destruct todo as [|[m|] l]; [repeat split| |].
    + exfalso. destruct (writer_send m k wr) as [[x|e| |] w']; discriminate S1.
    + exfalso. ecbn_in. destruct (reader_recv rd) as [x r'] eqn:ERd.
      destruct (pipe_read _ _ _ _ HR) as [(m & k0 & l' & r1 & E1 & E2 & _)|(E1 & E2)].
      { rewrite ERd in E2. injection E2 as -> _. discriminate S1. }
      assert (lacks rd = true) as HLk by (unfold lacks; rewrite E1; reflexivity). rewrite HLk in S3.
      assert (down = []) as -> by (destruct down; [reflexivity|discriminate S3]).
      assert (swt = None) as -> by (destruct HD as [HD|HD]; [exact HD|cbn [length] in HD; lia]). ecbn_in.
      assert (ungot = []) as -> by (destruct E2 as [E2|E2]; [exact E2|contradiction E2; reflexivity]). rewrite app_nil_r in *.
      assert (unread = [] /\ map fst got = whole_talk (map fst read) /\ (a = Serving \/ exists e, a = Served e)) as (-> & HS & HAt).
      { destruct (HSv eq_refl) as [[e ->]|(-> & HLs & ->)].
        - destruct (served_read _ _ _ _ _ _ HSt HSn HCl) as (-> & _ & HS & _). eauto.
        - split; [|destruct (server_said _ _ _ HSt) as [[X _]|[_ HS]]; [discriminate X|auto]].
          destruct (pipe_read _ _ _ _ HSa) as [(m & k0 & l' & r1 & E3 & E4 & _)|(_ & [X|X])]; [|exact X|contradiction X; reflexivity].
          unfold lacks in HLs. rewrite E4 in HLs. discriminate HLs. }
      rewrite app_nil_r in O1, O2. inversion O2 as [|? ? ? ? P1| |s m ? P1 P2 P3]; subst.
      * rewrite <- HS in O1. rewrite <- (app_nil_r (map fst got)) in O1 at 2. apply app_inv_head in O1. discriminate O1.
      * destruct HAt as [->|[e ->]].
        -- destruct HSt as [HX _]. assert (In m (map fst read)) as HIn by (rewrite <- P3; apply in_or_app; right; left; reflexivity).
           apply in_map_iff in HIn as (p & <- & HIn). rewrite Forall_forall in HX. exact (HX _ HIn P1).
        -- rewrite ERd in E1; cbn [fst] in E1. subst x. discriminate S1.
Qed.

Lemma e_run_ends : forall cap plan rounds t, einv cap plan t -> 1 <= cap -> good_plan cap [] [greeting] plan ->
  Forall errand_round rounds -> ework t < length rounds -> let t' := errand_run cap (concat rounds) t in errand_done t' \/ e_failed t' = true.
Proof.
  intros cap plan. induction rounds as [|acts rounds IH]; intros t HI Hcap HP HR HW; [cbn [length] in HW; lia|].
  inversion HR as [|? ? R1 R2]; subst. cbn [concat]. rewrite e_run_app.
  destruct (e_round_step cap plan acts t HI) as [HX|[HC HX]].
  - apply IH; auto; [apply e_run_inv; exact HI|]. cbn [length] in HW. lia.
  - rewrite HC. assert (errand_done t \/ e_failed t = true) as HD.
    { destruct R1 as ((k & A1) & (n1 & A2) & (n2 & A3) & (k' & A4) & (n3 & A5) & (n4 & A6)).
      apply (e_not_stuck cap plan t k k' n1 n2 n3 n4); auto; [exact (HX _ A1)|exact (HX _ A2)|exact (HX _ A3)|exact (HX _ A4)|exact (HX _ A5)|exact (HX _ A6)]. }
    generalize (concat rounds). clear - HI HD. intros l. revert t HI HD. induction l as [|a l IH]; intros t HI HD; [exact HD|]. cbn [errand_run].
    destruct (errand_step cap a t) as [t'|] eqn:E; [|apply IH; assumption]. destruct (e_any_step _ _ _ _ _ HI E) as [HI' _]. apply IH; [exact HI'|].
    destruct t as [todo heard failed rd wr wt up x srd swr swt down]. unfold errand_done in *. ecbn_in.
    destruct a as [k|n|n|k|n|n]; cbn [errand_step] in E.
    + unfold e_turn in E. ecbn_in. destruct HD as [(-> & -> & ->)| ->]; discriminate E.
    + unfold e_send in E. ecbn_in. destruct HD as [(-> & -> & ->)| ->]; [discriminate E|]. destruct wt as [[w o]|]; [|discriminate E]. cbv zeta in E.
      destruct (firstn _ o); [discriminate E|]. injection E as <-. right. reflexivity.
    + unfold e_read in E. ecbn_in. destruct HD as [(-> & -> & ->)| ->]; discriminate E.
    + unfold e_serve in E. ecbn_in. destruct swt; [discriminate E|]. destruct x; [| |discriminate E].
      * destruct (server_turn _ _ _ _) as [[a' r'] w']. destruct (written _ _); injection E as <-; exact HD.
      * destruct (must_wait _ _ _); [discriminate E|]. destruct (server_turn _ _ _ _) as [[a' r'] w']. destruct (written _ _); injection E as <-; exact HD.
    + unfold e_take in E. ecbn_in. destruct swt; [discriminate E|]. destruct x; try discriminate E. destruct (lacks srd); [|discriminate E].
      destruct (arrive n up srd) as [[r' q]|]; [|discriminate E]. injection E as <-. exact HD.
    + unfold e_push in E. ecbn_in. destruct swt as [[[a' w'] o]|]; [|discriminate E]. cbv zeta in E. destruct (firstn _ o); [discriminate E|].
      destruct (skipn _ o); injection E as <-; exact HD.
Qed.

(** ** Plans that are good *)
Lemma hears_good : forall cap said owed n, n <= length owed -> good_plan cap said owed (repeat Hear n).
Proof.
  intros cap said owed n. revert owed. induction n as [|n IH]; intros owed H; [constructor|]. destruct owed as [|m owed]; [cbn [length] in H; lia|].
  cbn [repeat]. constructor. apply IH. cbn [length] in H. lia.
Qed.
Lemma hears_said : forall n, said_in (repeat Hear n) = [].
Proof. induction n as [|n IH]; [reflexivity|exact IH]. Qed.
Lemma answer_one : forall m, exists x, answer m = [x].
Proof. intros [ ]; cbn [answer echo_all]; eauto. Qed.
Lemma by_turns_from : forall cap ms said, Forall (fun m => ~ closing m) ms ->
  good_plan cap said [] (flat_map (fun m => [Say m; Hear]) ms ++ [Say (OClose None); Hear]).
Proof.
  intros cap. induction ms as [|m ms IH]; intros said HF; cbn [flat_map app].
  - constructor; [left; cbn; lia|reflexivity|]. cbn [app answer]. constructor. constructor.
  - inversion HF as [|? ? F1 F2]; subst. constructor; [left; cbn; lia|intros X; contradiction|]. destruct (answer_one m) as [x ->]. cbn [app]. constructor. apply IH. exact F2.
Qed.
Lemma says_from : forall cap ms said owed, Forall (fun m => ~ closing m) ms ->
  (down_bytes (owed ++ flat_map answer ms) <= cap \/ up_bytes (said ++ ms ++ [OClose None]) <= cap) ->
  good_plan cap said owed (map Say ms ++ Say (OClose None) :: repeat Hear (length owed + length ms + 1)).
Proof.
  intros cap. induction ms as [|m ms IH]; intros said owed HF HB; cbn [map app].
  - constructor; [cbn [flat_map app] in HB; rewrite app_nil_r in HB; exact HB| |].
    + intros _. apply hears_said.
    + apply hears_good. rewrite app_length. cbn [answer length]. lia.
  - inversion HF as [|? ? F1 F2]; subst. constructor; [|intros X; contradiction|].
    + cbn [flat_map app] in HB. destruct HB as [HB|HB]; [left; rewrite down_app in HB; lia|right]. rewrite up_app in HB |- *.
      change (m :: ms ++ [OClose None]) with ([m] ++ (ms ++ [OClose None])) in HB. rewrite up_app in HB. lia.
    + destruct (answer_one m) as [x E]. replace (length owed + length (m :: ms) + 1) with (length (owed ++ answer m) + length ms + 1) by (rewrite E, app_length; cbn [length]; lia).
      apply IH; [exact F2|]. cbn [flat_map app] in HB. rewrite <- app_assoc. destruct HB as [HB|HB]; [left; exact HB|right]. rewrite <- app_assoc. exact HB.
Qed.
Lemma at_once_from : forall cap ms, Forall (fun m => ~ closing m) ms ->
  (down_bytes (whole_talk ms) <= cap \/ up_bytes (ms ++ [OClose None]) <= cap) -> good_plan cap [] [greeting] (at_once ms).
Proof.
  intros cap ms HF HB. unfold at_once. pose proof (says_from cap ms [] [greeting] HF HB) as H. cbn [length] in H.
  replace (S (S (List.length ms))) with (1 + List.length ms + 1) by lia. exact H.
Qed.
Lemma at_once_said : forall ms, said_in (at_once ms) = ms ++ [OClose None].
Proof.
  intros ms. unfold at_once, said_in. rewrite flat_map_app. f_equal.
  - induction ms as [|m ms IH]; [reflexivity|]. cbn [map flat_map app]. rewrite IH. reflexivity.
  - cbn [flat_map app]. f_equal. apply hears_said.
Qed.
Lemma by_turns_said : forall ms, said_in (by_turns ms) = ms ++ [OClose None].
Proof.
  intros ms. unfold by_turns, said_in. cbn [flat_map app]. rewrite flat_map_app. f_equal.
  induction ms as [|m ms IH]; [reflexivity|]. cbn [flat_map app]. rewrite IH. reflexivity.
Qed.
Lemma heard_app : forall a b, heard_in (a ++ b) = heard_in a + heard_in b.
Proof. intros a b. unfold heard_in. rewrite filter_app, app_length. reflexivity. Qed.
Lemma at_once_heard : forall ms, heard_in (at_once ms) = S (S (length ms)).
Proof.
  intros ms. unfold at_once. rewrite heard_app. assert (heard_in (map Say ms) = 0) as -> by (induction ms; [reflexivity|assumption]).
  change (heard_in (Say (OClose None) :: ?l)) with (heard_in l). cbn [heard_in filter]. unfold heard_in. cbn [filter].
  induction (S (S (length ms))) as [|n IH]; [reflexivity|]. cbn [repeat filter length]. lia.
Qed.
Lemma by_turns_heard : forall ms, heard_in (by_turns ms) = S (S (length ms)).
Proof.
  intros ms. unfold by_turns. change (heard_in (Hear :: ?l)) with (S (heard_in l)). unfold heard_in at 1. cbn [filter length]. f_equal. fold (heard_in (flat_map (fun m => [Say m; Hear]) ms ++ [Say (OClose None); Hear])).
  rewrite heard_app. cbn [heard_in filter length]. induction ms as [|m ms IH]; [reflexivity|]. cbn [flat_map app]. unfold heard_in in *. cbn [filter length]. lia.
Qed.
Lemma talk_length : forall ms, length (whole_talk (ms ++ [OClose None])) = S (S (length ms)).
Proof.
  intros ms. unfold whole_talk. cbn [length]. f_equal. induction ms as [|m ms IH]; [reflexivity|]. cbn [app flat_map]. rewrite app_length, IH.
  destruct (answer_one m) as [x ->]. reflexivity.
Qed.

(** ** A program that is stuck *)
Definition e_frozen (cap : nat) (t : errand) : bool :=
  match e_write t, e_swrite t with
  | Some _, Some _ => (cap - length (e_up t) =? 0) && (cap - length (e_down t) =? 0)
  | _, _ => false
  end.
Lemma e_frozen_stays : forall cap t, e_frozen cap t = true -> ~ errand_done t /\ forall a, errand_step cap a t = None.
Proof.
  intros cap [todo heard failed rd wr wt up x srd swr swt down] H. unfold e_frozen in H. ecbn_in.
  destruct wt as [[w o]|]; [|discriminate H]. destruct swt as [[[a' w'] o']|]; [|discriminate H]. apply andb_true_iff in H as [H1 H2]. apply Nat.eqb_eq in H1, H2.
  split; [intros (_ & X & _); discriminate X|]. intros [k|n|n|k|n|n]; cbn [errand_step].
  - unfold e_turn. ecbn. destruct failed; reflexivity.
  - unfold e_send. ecbn. rewrite H1, Nat.min_0_r. reflexivity.
  - unfold e_read. ecbn. destruct failed; reflexivity.
  - reflexivity.
  - reflexivity.
  - unfold e_push. ecbn. rewrite H2, Nat.min_0_r. reflexivity.
Qed.
Lemma e_frozen_run : forall cap t acts, e_frozen cap t = true -> errand_run cap acts t = t.
Proof. intros cap t acts H. induction acts as [|a acts IH]; [reflexivity|]. cbn [errand_run]. rewrite (proj2 (e_frozen_stays _ _ H)). exact IH. Qed.

Lemma e_settles : forall cap plan w1 w2 rounds, never_fails w1 -> never_fails w2 ->
  Forall (sendable 104857600) (said_in plan) -> 1 <= cap -> good_plan cap [] [greeting] plan ->
  Forall errand_round rounds -> toil plan + 63 <= length rounds ->
  let t := errand_run cap (concat rounds) (errand_new plan w1 w2) in errand_done t \/ e_failed t = true.
Proof.
  intros cap plan w1 w2 rounds H1 H2 H3 Hcap HP HR HL. pose proof (plan_close_last _ _ _ _ HP) as H4.
  apply (e_run_ends cap plan); auto; [apply e_new_inv; auto|].
  unfold ework, errand_new. ecbn. cbn [length srv_fee]. change (arrived_at {| rd_receiver := default_receiver false; rd_buf := []; rd_in := [] |}) with 0.
  change (arrived_at {| rd_receiver := default_receiver true; rd_buf := []; rd_in := [] |}) with 0. lia.
Qed.

(** ** The theorems *)
(** [C88] Whatever the plan, the room of the network, its delays and the scheduling: what the
    program has received is always an initial part of the greeting and the answers to what it has
    sent, each message once and in order; the network never holds more than its room, and the server
    does not panic. *)
Lemma errand_sound_proof : forall cap plan w1 w2 acts, never_fails w1 -> never_fails w2 ->
  Forall (sendable 104857600) (said_in plan) -> close_is_last (said_in plan) ->
  let t := errand_run cap acts (errand_new plan w1 w2) in
  (exists said, said ++ said_in (e_todo t) = said_in plan /\ prefix (e_heard t) (whole_talk said)) /\
  (List.length (e_up t) <= cap)%nat /\ (List.length (e_down t) <= cap)%nat /\
  (e_srv t = Greeting \/ e_srv t = Serving \/ e_srv t = Served Returned).
Proof.
  intros cap plan w1' w2' acts H1 H2 H3 H4 t. pose proof (e_run_inv cap plan acts _ (e_new_inv cap plan w1' w2' H1 H2 H3 H4)) as HI. fold t in HI. einv_open HI.
  split; [|split; [exact HB1|split; [exact HB2|]]].
  - exists (map fst (read ++ unread)). split; [exact HSn|]. rewrite HHd. rewrite map_app, whole_app. destruct (server_said _ _ _ HSt) as [(_ & _ & X)|[_ HS]].
    + apply app_eq_nil in X as [-> _]. eexists. reflexivity.
    + rewrite <- HS, map_app, <- app_assoc. eexists. reflexivity.
  - destruct (e_srv t) as [| |e] eqn:EA; auto. right. right. pose proof (not_writing _ _ HWi) as EW. rewrite EW in HSt. destruct HSt as [-> _]. reflexivity.
Qed.
(*EX
(** The program sends "hi" and a Ping, receiving in between; the network holds five bytes either
    way. *)
Definition errand_turns : list eact :=
  [ETurn (mk_key x01 x02 x03 x04); ESend 3; ERead 2; EServe (mk_key x00 x00 x00 x00); ETake 3; EPush 4].
Definition errand_says : list owned := [OText (str "hi"); OPing (str "x")].
Example errand_sound_ex :
  let t := errand_run 5 (concat (repeat errand_turns 16)) (errand_new (by_turns errand_says) (mk_w [] []) (mk_w [] [])) in
  e_heard t = [OText (str "Hello"); OText (str "hi")] /\ said_in (e_todo t) = [OClose None].
Proof. vm_compute. split; reflexivity. Qed.
EX*)

(** [C88] A program that came to its end has received just what its plan says: as many messages as
    it asked for, of the greeting and the answers to all it sent. *)
Lemma errand_complete_proof : forall cap plan w1 w2 acts, never_fails w1 -> never_fails w2 ->
  Forall (sendable 104857600) (said_in plan) -> close_is_last (said_in plan) ->
  let t := errand_run cap acts (errand_new plan w1 w2) in
  errand_done t ->
  e_heard t = firstn (heard_in plan) (whole_talk (said_in plan)) /\ (heard_in plan <= List.length (whole_talk (said_in plan)))%nat.
Proof.
  intros cap plan v1 v2 acts H1 H2 H3 H4 t (D1 & D2 & D3).
  destruct (errand_sound_proof cap plan v1 v2 acts H1 H2 H3 H4) as ((said & E1 & b & E2) & _). fold t in E1, E2. rewrite D1 in E1. cbn [said_in flat_map] in E1. rewrite app_nil_r in E1. subst said.
  pose proof (e_run_inv cap plan acts _ (e_new_inv cap plan v1 v2 H1 H2 H3 H4)) as HI. fold t in HI. einv_open HI. rewrite D1, D3 in HHn. change (heard_in []) with 0 in HHn.
  rewrite !Nat.add_0_r in HHn. rewrite <- HHn, E2. split; [|rewrite app_length; lia]. rewrite firstn_app, firstn_all, Nat.sub_diag, firstn_O, app_nil_r. reflexivity.
Qed.
(*EX
Example errand_complete_ex :
  let t := errand_run 5 (concat (repeat errand_turns 30)) (errand_new (by_turns errand_says) (mk_w [] []) (mk_w [] [])) in
  errand_done t /\ e_heard t = [OText (str "Hello"); OText (str "hi"); OPong (str "x"); OClose None].
Proof. vm_compute. repeat split; reflexivity. Qed.
EX*)

(** [C88] An [unwrap] fails only when the program asks for more after the server's Close: it has
    received the whole conversation, and the thread of the server has returned. *)
Lemma errand_fails_late_proof : forall cap plan w1 w2 acts, never_fails w1 -> never_fails w2 ->
  Forall (sendable 104857600) (said_in plan) -> close_is_last (said_in plan) ->
  let t := errand_run cap acts (errand_new plan w1 w2) in
  e_failed t = true ->
  e_heard t = whole_talk (said_in plan) /\ e_srv t = Served Returned /\ (List.length (whole_talk (said_in plan)) < heard_in plan)%nat.
Proof.
  intros cap plan w1' w2' acts H1 H2 H3 H4 t HF. pose proof (e_run_inv cap plan acts _ (e_new_inv cap plan w1' w2' H1 H2 H3 H4)) as HI. fold t in HI. einv_open HI.
  destruct (HFl HF) as [-> EG]. unfold e_gone in EG. destruct (e_srv t) as [| |e] eqn:EA; [discriminate EG|discriminate EG|].
  pose proof (not_writing _ _ HWi) as EW. rewrite EW in HSt. cbn [then_at] in HSt. rewrite app_nil_r in HSt.
  destruct (served_read _ _ _ _ _ _ HSt HSn HCl) as (-> & HL & HS & ->). rewrite HL, !app_nil_r in HSn. rewrite HSn in HS.
  rewrite HF, HHd, HS in HHn. split; [rewrite HHd; exact HS|]. split; [reflexivity|]. lia.
Qed.
(*EX
Example errand_fails_late_ex :
  let t := errand_run 7 (concat (repeat errand_turns 30)) (errand_new [Say (OClose None); Hear; Hear; Hear] (mk_w [] []) (mk_w [] [])) in
  e_failed t = true /\ e_heard t = [OText (str "Hello"); OClose None].
Proof. vm_compute. split; reflexivity. Qed.
EX*)

(** [C88] A program that follows a good plan (see Spec/Errands.v: it sends a message only if what it
    is owed, or all it has sent, has room in the network) and asks for no more than it is owed comes
    to its end without failing, however it is scheduled, once everyone has had enough turns. *)
Lemma errand_live_proof : forall cap plan w1 w2 rounds, never_fails w1 -> never_fails w2 ->
  Forall (sendable 104857600) (said_in plan) -> (1 <= cap)%nat -> good_plan cap [] [OText (ascii "Hello")] plan ->
  (heard_in plan <= List.length (whole_talk (said_in plan)))%nat ->
  Forall errand_round rounds -> (toil plan + 63 <= List.length rounds)%nat ->
  errand_done (errand_run cap (concat rounds) (errand_new plan w1 w2)).
Proof.
  intros cap plan w1 w2 rounds H1 H2 H3 Hcap HP HH HR HL. pose proof (plan_close_last _ _ _ _ HP) as H4.
  destruct (e_settles cap plan w1 w2 rounds H1 H2 H3 Hcap HP HR HL) as [H|H]; [exact H|].
  destruct (errand_fails_late_proof cap plan w1 w2 (concat rounds) H1 H2 H3 H4 H) as (_ & _ & X). lia.
Qed.
(*EX
(** Two messages may be sent ahead here, but not three. *)
Example errand_live_ex : errand_round errand_turns /\
  good_plan 12 [] [OText (ascii "Hello")] [Say (OText (str "a")); Hear; Say (OText (str "b")); Say (OText (str "c")); Hear; Hear; Hear].
Proof.
  split; [unfold errand_round, errand_turns; repeat split; eexists; repeat ((left; reflexivity) || right)|].
  apply plan_say; [left; apply PeanoNat.Nat.leb_le; vm_compute; reflexivity|intros []|]. apply plan_hear.
  apply plan_say; [left; apply PeanoNat.Nat.leb_le; vm_compute; reflexivity|intros []|].
  apply plan_say; [left; apply PeanoNat.Nat.leb_le; vm_compute; reflexivity|intros []|].
  apply plan_hear. apply plan_hear. apply plan_hear. apply plan_done.
Qed.
EX*)

(** [C88] If such a plan asks for more than it is owed (it may when it has sent a Close), the program
    does not hang: it fails, having received everything. *)
Lemma errand_overrun_proof : forall cap plan w1 w2 rounds, never_fails w1 -> never_fails w2 ->
  Forall (sendable 104857600) (said_in plan) -> (1 <= cap)%nat -> good_plan cap [] [OText (ascii "Hello")] plan ->
  (List.length (whole_talk (said_in plan)) < heard_in plan)%nat ->
  Forall errand_round rounds -> (toil plan + 63 <= List.length rounds)%nat ->
  let t := errand_run cap (concat rounds) (errand_new plan w1 w2) in
  e_failed t = true /\ e_heard t = whole_talk (said_in plan).
Proof.
  intros cap plan w1 w2 rounds H1 H2 H3 Hcap HP HH HR HL t. pose proof (plan_close_last _ _ _ _ HP) as H4.
  destruct (e_settles cap plan w1 w2 rounds H1 H2 H3 Hcap HP HR HL) as [H|H].
  - destruct (errand_complete_proof cap plan w1 w2 (concat rounds) H1 H2 H3 H4 H) as [_ X]. lia.
  - split; [exact H|]. apply (errand_fails_late_proof cap plan w1 w2 (concat rounds) H1 H2 H3 H4 H).
Qed.
(*EX
Example errand_overrun_ex : good_plan 9 [] [OText (ascii "Hello")] [Hear; Say (OClose None); Hear; Hear; Hear] /\
  (List.length (whole_talk [OClose None]) < 4)%nat /\
  let t := errand_run 9 (concat (repeat errand_turns 30)) (errand_new [Hear; Say (OClose None); Hear; Hear; Hear] (mk_w [] []) (mk_w [] [])) in
  e_failed t = true /\ e_todo t = [Hear] /\ e_heard t = [OText (str "Hello"); OClose None].
Proof.
  split; [|split; [apply PeanoNat.Nat.ltb_lt; vm_compute; reflexivity|vm_compute; repeat split; reflexivity]].
  apply plan_hear. apply plan_say; [left; apply PeanoNat.Nat.leb_le; vm_compute; reflexivity|reflexivity|].
  apply plan_hear. apply plan_over; [exact I|reflexivity].
Qed.
EX*)

(** [C88] Sending and receiving by turns, a Close last, always works, whatever the messages and
    however little the network holds: the program ends with all the answers. *)
Lemma errand_by_turns_proof : forall cap ms w1 w2 rounds, never_fails w1 -> never_fails w2 ->
  Forall (sendable 104857600) ms -> Forall (fun m => ~ closing m) ms -> (1 <= cap)%nat ->
  Forall errand_round rounds -> (toil (by_turns ms) + 63 <= List.length rounds)%nat ->
  let t := errand_run cap (concat rounds) (errand_new (by_turns ms) w1 w2) in
  errand_done t /\ e_heard t = OText (ascii "Hello") :: flat_map answer ms ++ [OClose None].
Proof.
  intros cap ms w1 w2 rounds H1 H2 H3 H4 Hcap HR HL t.
  assert (Forall (sendable 104857600) (said_in (by_turns ms))) as HS.
  { rewrite by_turns_said. apply Forall_app. split; [exact H3|]. constructor; [|constructor]. split; [exact I|]. split; [cbn; lia|]. intros _. cbn. lia. }
  assert (good_plan cap [] [OText (ascii "Hello")] (by_turns ms)) as HP by (apply plan_hear, by_turns_from; exact H4).
  assert (errand_done t) as HD by (apply errand_live_proof; auto; rewrite by_turns_said, by_turns_heard, talk_length; lia).
  split; [exact HD|]. destruct (errand_complete_proof cap (by_turns ms) w1 w2 (concat rounds) H1 H2 HS (plan_close_last _ _ _ _ HP) HD) as [E _]. fold t in E.
  rewrite E, by_turns_said, by_turns_heard, <- talk_length, firstn_all. unfold whole_talk. rewrite flat_map_app. reflexivity.
Qed.
(*EX
Example errand_by_turns_ex :
  let t := errand_run 1 (concat (repeat errand_turns 777)) (errand_new (by_turns errand_says) (mk_w [] []) (mk_w [] [])) in
  errand_done t /\ e_heard t = OText (ascii "Hello") :: flat_map answer errand_says ++ [OClose None].
Proof.
  apply errand_by_turns.
  - constructor.
  - constructor.
  - repeat constructor; try (apply ExTac.good_text; reflexivity); vm_compute; discriminate.
  - repeat constructor; intros [].
  - constructor.
  - apply Forall_forall. intros r HR. apply repeat_spec in HR. subst r. unfold errand_round, errand_turns. repeat split; eexists; repeat ((left; reflexivity) || right).
  - apply PeanoNat.Nat.leb_le. vm_compute. reflexivity.
Qed.
EX*)

(** [C88] Sending everything first and receiving only then works if the network has room for all the
    answers, or for all that is sent. *)
Lemma errand_at_once_proof : forall cap ms w1 w2 rounds, never_fails w1 -> never_fails w2 ->
  Forall (sendable 104857600) ms -> Forall (fun m => ~ closing m) ms -> (1 <= cap)%nat ->
  (down_bytes (OText (ascii "Hello") :: flat_map answer ms) <= cap \/ up_bytes (ms ++ [OClose None]) <= cap)%nat ->
  Forall errand_round rounds -> (toil (at_once ms) + 63 <= List.length rounds)%nat ->
  let t := errand_run cap (concat rounds) (errand_new (at_once ms) w1 w2) in
  errand_done t /\ e_heard t = OText (ascii "Hello") :: flat_map answer ms ++ [OClose None].
Proof.
  intros cap ms w1 w2 rounds H1 H2 H3 H4 Hcap HB HR HL t.
  assert (Forall (sendable 104857600) (said_in (at_once ms))) as HS.
  { rewrite at_once_said. apply Forall_app. split; [exact H3|]. constructor; [|constructor]. split; [exact I|]. split; [cbn; lia|]. intros _. cbn. lia. }
  pose proof (at_once_from cap ms H4 HB) as HP.
  assert (errand_done t) as HD by (apply errand_live_proof; auto; rewrite at_once_said, at_once_heard, talk_length; lia).
  split; [exact HD|]. destruct (errand_complete_proof cap (at_once ms) w1 w2 (concat rounds) H1 H2 HS (plan_close_last _ _ _ _ HP) HD) as [E _]. fold t in E.
  rewrite E, at_once_said, at_once_heard, <- talk_length, firstn_all. unfold whole_talk. rewrite flat_map_app. reflexivity.
Qed.
(*EX
Example errand_at_once_ex : (down_bytes (OText (ascii "Hello") :: flat_map answer errand_says) = 14)%nat /\
  let t := errand_run 14 (concat (repeat errand_turns 777)) (errand_new (at_once errand_says) (mk_w [] []) (mk_w [] [])) in
  errand_done t /\ e_heard t = OText (ascii "Hello") :: flat_map answer errand_says ++ [OClose None].
Proof.
  split; [vm_compute; reflexivity|]. apply errand_at_once.
  - constructor.
  - constructor.
  - repeat constructor; try (apply ExTac.good_text; reflexivity); vm_compute; discriminate.
  - repeat constructor; intros [].
  - repeat constructor.
  - left. apply PeanoNat.Nat.leb_le. vm_compute. reflexivity.
  - apply Forall_forall. intros r HR. apply repeat_spec in HR. subst r. unfold errand_round, errand_turns. repeat split; eexists; repeat ((left; reflexivity) || right).
  - apply PeanoNat.Nat.leb_le. vm_compute. reflexivity.
Qed.
EX*)

(** [C88] Without that condition it may not: the program does not read while it is in a write, nor
    does the server, and from then on nothing moves, whoever gets a turn.  The messages are harmless
    ones: sent by turns they would all have been answered. *)
Lemma errand_at_once_refuted_proof : exists cap ms w1 w2 acts, never_fails w1 /\ never_fails w2 /\
  Forall (sendable 104857600) ms /\ Forall (fun m => ~ closing m) ms /\ (1 <= cap)%nat /\
  forall more, let t := errand_run cap (acts ++ more) (errand_new (at_once ms) w1 w2) in
    ~ errand_done t /\ t = errand_run cap acts (errand_new (at_once ms) w1 w2).
Proof.
  set (z := mk_key x00 x00 x00 x00). set (ms := [OText (str "hello"); OText (str "hello"); OText (str "hello"); OText (str "hello"); OText (str "hello")]).
  set (acts := concat (repeat [ETurn z; ESend 10; EServe z; ETake 10; EPush 10] 20)).
  exists 10, ms, (mk_w [] []), (mk_w [] []), acts. split; [constructor|]. split; [constructor|]. split.
  { unfold ms. repeat constructor; try (apply good_text; reflexivity); vm_compute; discriminate. }
  split; [unfold ms; repeat constructor; intros []|]. split; [lia|].
  assert (e_frozen 10 (errand_run 10 acts (errand_new (at_once ms) (mk_w [] []) (mk_w [] []))) = true) as HZ by (vm_compute; reflexivity).
  intros more. rewrite e_run_app. rewrite (e_frozen_run _ _ more HZ). split; [apply (e_frozen_stays _ _ HZ)|reflexivity].
Qed.

(** [C88] A plan that asks for more than the answers to what it sends never comes to its end. *)
Lemma errand_too_much_proof : forall cap plan w1 w2 acts, never_fails w1 -> never_fails w2 ->
  Forall (sendable 104857600) (said_in plan) -> close_is_last (said_in plan) ->
  (List.length (whole_talk (said_in plan)) < heard_in plan)%nat ->
  ~ errand_done (errand_run cap acts (errand_new plan w1 w2)).
Proof.
  intros cap plan w1 w2 acts H1 H2 H3 H4 HL HD. destruct (errand_complete_proof cap plan w1 w2 acts H1 H2 H3 H4 HD) as [_ X]. lia.
Qed.
(*EX
(** It waits for a second message, where only the greeting is owed. *)
Example errand_too_much_ex : (List.length (whole_talk (said_in [Hear; Hear])) < heard_in [Hear; Hear])%nat /\
  let t := errand_run 5 (concat (repeat errand_turns 30)) (errand_new [Hear; Hear] (mk_w [] []) (mk_w [] [])) in
  e_todo t = [Hear] /\ e_failed t = false /\ e_heard t = [OText (str "Hello")].
Proof. split; [apply PeanoNat.Nat.ltb_lt; vm_compute; reflexivity|]. vm_compute. repeat split; reflexivity. Qed.
EX*)
