(** A conversation of the asynchronous example client with the asynchronous example server: C80. *)
From Coq Require Import NArith ZArith String Bool List Lia.
From Coq Require Import ZifyBool ZifyNat ZifyN.
From Coq.Strings Require Import Byte.
From Verif.Model Require Import Base Io Header Mask Dataframe Utf8 Text Base64 WsKey Headers
  Handshake Message Receiver Codec Framed Http Connect Examples AsyncExamples Suite AsyncChat AsyncTalk.
From Verif.Spec Require Import RfcFrame FrameSpec Schedule Unicode Drive Session Connection Polled Fields Upgrade Builder HttpHead Wire Endpoint Echo Polls Chat Talking Suite AsyncChat AsyncTalking.
From Verif.Proofs Require Import BaseFacts MaskFacts HeaderFacts FrameFacts CodecFacts ScriptFacts
  Machine FramedFacts AsyncFacts Utf8Facts ThmFrames ThmStream SessionFacts RecvFacts MessageFacts
  TextFacts MapFacts ExTac ThmMessages ThmFlow ThmLimits ThmServer ThmHttp ThmConnect ThmInterop ThmSession
  ThmEcho ThmWake ThmAsyncEcho ThmChat ThmSuite ThmTalk ThmAsyncChat AsyncTalkFacts.
Import ListNotations.
Local Open Scope string_scope.
Local Open Scope list_scope.
Local Open Scope N_scope.
(** ** What is written stays written *)
Definition grows (w w' : fwrite) : Prop := exists d, fw_out w' = fw_out w ++ d.
Lemma grows_refl : forall w, grows w w.
Proof. intros w. exists []. rewrite app_nil_r. reflexivity. Qed.
Lemma grows_trans : forall a b c, grows a b -> grows b c -> grows a c.
Proof. intros a b c [d D] [e E]. exists (d ++ e). rewrite E, D, app_assoc. reflexivity. Qed.
Lemma flush_grows : forall ws data out r data' out' ws', flush_go ws data out = (r, data', out', ws') -> exists d, out' = out ++ d.
Proof.
  induction ws as [|e ws IH]; intros data out r data' out' ws' H; destruct data as [|b data]; cbn [flush_go] in H.
  - injection H as <- <- <- <-. exists []. rewrite app_nil_r. reflexivity.
  - injection H as <- <- <- <-. eexists. reflexivity.
  - injection H as <- <- <- <-. exists []. rewrite app_nil_r. reflexivity.
  - destruct e; try (injection H as <- <- <- <-; exists []; rewrite app_nil_r; reflexivity).
    destruct (IH _ _ _ _ _ _ H) as [d ->]. eexists. rewrite <- app_assoc. reflexivity.
Qed.
Lemma complete_grows : forall w r w', poll_complete w = (r, w') -> grows w w'.
Proof.
  intros w r w' H. unfold poll_complete in H. destruct (flush_go (fw_ws w) (bm_data (fw_buf w)) (fw_out w)) as [[[r0 data] out] ws] eqn:E.
  apply flush_grows in E as [d ->]. exists d. destruct r0; [injection H as <- <-; reflexivity|].
  destruct (fw_fs w) as [|[]]; injection H as <- <-; reflexivity.
Qed.
Lemma send_grows : forall server m key extra w r w', start_send server m key extra w = (r, w') -> grows w w'.
Proof.
  intros server m key extra w r w' H. unfold start_send in H.
  assert (forall v, (match codec_encode server m key extra (fw_buf v) with
    | (Ok _, b) => (SReady, mk_fw b (fw_out v) (fw_ws v) (fw_fs v))
    | (Err e, b) => (SErr e, mk_fw b (fw_out v) (fw_ws v) (fw_fs v))
    | (_, b) => (SErr (OtherError "panic"), mk_fw b (fw_out v) (fw_ws v) (fw_fs v))
    end) = (r, w') -> grows v w') as HE.
  { intros v E. exists []. rewrite app_nil_r. destruct (codec_encode server m key extra (fw_buf v)) as [[u|e| |] b]; injection E as <- <-; reflexivity. }
  destruct (BACKPRESSURE <=? llen (bm_data (fw_buf w))); [|apply HE; exact H].
  destruct (poll_complete w) as [y w1] eqn:EP. apply complete_grows in EP.
  destruct y; [| |injection H as <- <-; exact EP]; (destruct (BACKPRESSURE <=? llen (bm_data (fw_buf w1))); [injection H as <- <-; exact EP|]);
    eapply grows_trans; eauto.
Qed.
Lemma close_grows : forall key extra t, grows (et_out t) (et_out (snd (close_poll key extra t))).
Proof.
  intros key extra t. unfold close_poll. destruct (et_hold t) as [m|].
  - destruct (start_send true (owned_ops m) key extra (et_out t)) as [y w] eqn:EP. apply send_grows in EP. destruct y; [|exact EP|exact EP].
    destruct (poll_complete w) as [y2 w2] eqn:EC. apply complete_grows in EC. destruct y2; cbn [snd et_out]; eapply grows_trans; eauto.
  - destruct (poll_complete (et_out t)) as [y w] eqn:EC. apply complete_grows in EC. destruct y; exact EC.
Qed.
Lemma forward_grows : forall fuel key extra t, grows (et_out t) (et_out (snd (forward_loop fuel key extra t))).
Proof.
  induction fuel as [|fuel IH]; intros key extra t; [apply grows_refl|]. cbn [forward_loop].
  destruct (if et_done t then (PEnd, et_read t, et_in t, true) else passed_poll (S fuel) (et_in t) (et_read t)) as [[[p f] s] d].
  destruct p as [m| | |e| |]; try apply grows_refl.
  - destruct (start_send true (owned_ops m) key extra (et_out t)) as [y w] eqn:EP. apply send_grows in EP. destruct y; [|exact EP|exact EP].
    eapply grows_trans; [exact EP|]. specialize (IH key extra (mk_task f s d None false w)). exact IH.
  - destruct (poll_complete (et_out t)) as [y w] eqn:EC. apply complete_grows in EC. destruct y; [|exact EC|exact EC].
    eapply grows_trans; [exact EC|]. apply (close_grows key extra (mk_task f s d (Some (OClose None)) true w)).
  - destruct (poll_complete (et_out t)) as [y w] eqn:EC. apply complete_grows in EC. destruct y; exact EC.
Qed.
Lemma task_grows : forall fuel key extra t, grows (et_out t) (et_out (snd (task_poll fuel key extra t))).
Proof.
  intros fuel key extra t. unfold task_poll. destruct (et_closing t); [apply close_grows|]. destruct (et_hold t) as [m|]; [|apply forward_grows].
  destruct (start_send true (owned_ops m) key extra (et_out t)) as [y w] eqn:EP. apply send_grows in EP. destruct y; [|exact EP|exact EP].
  eapply grows_trans; [exact EP|]. apply (forward_grows fuel key extra (mk_task (et_read t) (et_in t) (et_done t) None false w)).
Qed.
Lemma aserver_grows : forall a key extra t, grows (et_out t) (et_out (snd (aserver_poll a key extra t))).
Proof.
  intros a key extra t. unfold aserver_poll. destruct a as [| |r]; [| |apply grows_refl].
  - pose proof (close_grows key extra t) as H. destruct (close_poll key extra t) as [x t']. destruct x; try exact H.
    set (t1 := mk_task (et_read t') (et_in t') false None false (et_out t')). pose proof (task_grows (task_fuel t1) key extra t1) as H2.
    destruct (task_poll (task_fuel t1) key extra t1) as [x t2]. pose proof (grows_trans _ _ _ H H2) as H3. destruct x; exact H3.
  - pose proof (task_grows (task_fuel t) key extra t) as H. destruct (task_poll (task_fuel t) key extra t) as [x t2]. destruct x; exact H.
Qed.
Lemma stream_side_out : forall c, at_out (snd (stream_side c)) = at_out c.
Proof. intros c. unfold stream_side. destruct (at_rdone c); [reflexivity|]. destruct (answered_poll _ _ _ _) as [[[p f] s] l]. reflexivity. Qed.
Lemma user_side_out : forall c, at_out (snd (user_side c)) = at_out c.
Proof.
  intros c. unfold user_side. destruct (at_udone c); [reflexivity|]. destruct (at_user c) as [|[t|] us].
  - destruct (at_over c); reflexivity.
  - destruct (at_over c); [reflexivity|]. destruct (line_message t). reflexivity.
  - reflexivity.
Qed.
Lemma select_out : forall c, at_out (snd (select_poll c)) = at_out c.
Proof.
  intros c. unfold select_poll. destruct (at_flag c).
  - pose proof (user_side_out (with_flag (negb true) c)) as H. destruct (user_side (with_flag (negb true) c)) as [p c1]. cbn [snd] in H.
    pose proof (stream_side_out c1) as H2. destruct (stream_side c1) as [p2 c2]. cbn [snd] in H2. change (at_out (with_flag (negb true) c)) with (at_out c) in H.
    destruct p; cbn [snd]; try exact H; [congruence|]. destruct p2; cbn [snd with_flag at_out]; congruence.
  - pose proof (stream_side_out (with_flag (negb false) c)) as H. destruct (stream_side (with_flag (negb false) c)) as [p c1]. cbn [snd] in H.
    pose proof (user_side_out c1) as H2. destruct (user_side c1) as [p2 c2]. cbn [snd] in H2. change (at_out (with_flag (negb false) c)) with (at_out c) in H.
    destruct p; cbn [snd]; try exact H; [congruence|]. destruct p2; cbn [snd with_flag at_out]; congruence.
Qed.
Lemma loop_grows : forall fuel extra c, grows (at_out c) (at_out (snd (achat_loop fuel extra c))).
Proof.
  induction fuel as [|fuel IH]; intros extra c; [apply grows_refl|]. cbn [achat_loop].
  pose proof (select_out c) as H. destruct (select_poll c) as [p c1]. cbn [snd] in H. rewrite <- H.
  destruct p as [m| | |e| |]; try apply grows_refl.
  - destruct (start_send false (owned_ops m) (at_keys c1 O) extra (at_out c1)) as [y w] eqn:EP. apply send_grows in EP. destruct y; [|exact EP|exact EP].
    eapply grows_trans; [exact EP|]. apply (IH extra (sent_out w c1)).
  - destruct (poll_complete (at_out c1)) as [y w] eqn:EC. apply complete_grows in EC. destruct y; exact EC.
  - destruct (poll_complete (at_out c1)) as [y w] eqn:EC. apply complete_grows in EC. destruct y; exact EC.
Qed.
Lemma achat_grows : forall extra c, grows (at_out c) (at_out (snd (achat_poll extra c))).
Proof.
  intros extra c. unfold achat_poll. destruct (at_hold c) as [m|]; [|apply loop_grows].
  destruct (start_send false (owned_ops m) (at_keys c O) extra (at_out c)) as [y w] eqn:EP. apply send_grows in EP. destruct y; [|exact EP|exact EP].
  eapply grows_trans; [exact EP|]. apply (loop_grows (achat_fuel c) extra (sent_out w c)).
Qed.

(** ** What was read is what was said *)
Lemma frames_prefix : forall server got l rest, Forall (sendable big) (map fst got) -> Forall (sendable big) (map fst l) ->
  frames (negb server) got ++ rest = frames (negb server) l ->
  exists l1 l2, l = l1 ++ l2 /\ map fst l1 = map fst got /\ rest = frames (negb server) l2.
Proof.
  intros server. induction got as [|[m k] got IH]; intros l rest HG HL H.
  - exists [], l. auto.
  - cbn [map fst] in HG. inversion HG as [|? ? G1 G2]; subst. rewrite frames_cons, <- app_assoc in H.
    destruct l as [|[m2 k2] l].
    + apply (f_equal (@length byte)) in H. rewrite !app_length in H. pose proof (frame_length (negb server) m k) as HF. cbv zeta in HF.
      change (length (frames (negb server) [])) with O in H. destruct (negb server); cbv iota in HF; lia.
    + rewrite (frames_cons _ m2 k2 l) in H. cbn [map fst] in HL. inversion HL as [|? ? L1 L2]; subst.
      pose proof (decode_whole server m k (frames (negb server) got ++ rest) G1) as D1. rewrite H, (decode_whole server m2 k2 _ L1) in D1.
      assert (m2 = m) as -> by congruence. assert (frames (negb server) l = frames (negb server) got ++ rest) as E by congruence. symmetry in E.
      destruct (IH l rest G2 L2 E) as (l1 & l2 & -> & E1 & E2). exists ((m, k2) :: l1), l2. cbn [app map fst]. rewrite E1. auto.
Qed.
Lemma sphase_keys : forall t a b said, map fst a = map fst b -> sphase t a said -> sphase t b said.
Proof.
  intros t a b said HE H.
  assert (forall l l', map fst l = map fst l' -> Forall open l -> Forall open l') as HO.
  { clear. induction l as [|x l IH]; intros [|y l'] E H; cbn [map] in E; try discriminate E; [constructor|]. injection E as E1 E2.
    inversion H as [|? ? H1 H2]; subst. constructor; [unfold open in *; rewrite <- E1; exact H1|apply IH; assumption]. }
  assert (forall rd p, a = rd ++ [p] -> exists rd' p', b = rd' ++ [p'] /\ map fst rd' = map fst rd /\ fst p' = fst p) as HS.
  { intros rd p ->. rewrite map_app in HE. destruct (exists_last (l := b)) as (rd' & p' & ->).
    - intros ->. cbn [map] in HE. destruct (map fst rd); discriminate HE.
    - rewrite map_app in HE. cbn [map] in HE. apply app_inj_tail in HE as [E1 E2]. exists rd', p'. auto. }
  unfold sphase in *. destruct (et_closing t); [|destruct (et_done t)].
  - destruct H as (rd & p & E1 & E2 & E3 & E4). destruct (HS rd p E1) as (rd' & p' & F1 & F2 & F3). exists rd', p'. rewrite F2, F3. split; [exact F1|]. split; [eapply HO; [symmetry; exact F2|exact E2]|auto].
  - destruct H as (H0 & rd & p & E1 & E2 & E3 & E4). split; [exact H0|]. destruct (HS rd p E1) as (rd' & p' & F1 & F2 & F3). exists rd', p'. rewrite F2, F3. split; [exact F1|]. split; [eapply HO; [symmetry; exact F2|exact E2]|auto].
  - rewrite <- HE. destruct H as [H1 H2]. split; [eapply HO; eauto|exact H2].
Qed.
Lemma sstate_keys : forall a t r1 r2 said, map fst r1 = map fst r2 -> sstate a t r1 said -> sstate a t r2 said.
Proof.
  intros [| |x] t r1 r2 said HE H; cbn [sstate] in *.
  - destruct H as (A & B & -> & D). split; [exact A|]. split; [exact B|]. split; [|exact D]. destruct r2; [reflexivity|discriminate HE].
  - eapply sphase_keys; eauto.
  - destruct H as (A & B & C). split; [exact A|]. split; [eapply sphase_keys; eauto|exact C].
Qed.
Lemma apipe_bytes : forall server f s s' q q' l, aev_bytes s ++ q = aev_bytes s' ++ q' -> apipe server f s q l -> apipe server f s' q' l.
Proof. intros server f s s' q q' l E (A & B & C & D). split; [exact A|]. split; [exact B|]. split; [rewrite <- E; exact C|exact D]. Qed.

Lemma said_quiet : forall a t read said, sstate a t read said -> Forall no_ping said.
Proof.
  intros a t read said H.
  assert (forall l, Forall (fun m => is_ping m = false) (map fst l ++ held t) -> Forall no_ping l) as HM.
  { intros l HL. apply Forall_app in HL as [HL _]. apply Forall_map in HL. exact HL. }
  assert (forall l, Forall (fun m => is_ping m = false) (agreeting :: flat_map echo_all l)) as HE.
  { intros l. constructor; [reflexivity|]. apply Forall_flat_map. apply Forall_forall. intros [d|d|c|d|d] _; repeat constructor. }
  assert (sphase t read said -> Forall no_ping said) as HP.
  { intros HP. unfold sphase in HP. destruct (et_closing t); [|destruct (et_done t)].
    - destruct HP as (rd & p & _ & _ & _ & E). apply HM. rewrite E. change (agreeting :: flat_map echo_all (map fst rd) ++ [OClose None]) with ((agreeting :: flat_map echo_all (map fst rd)) ++ [OClose None]).
      apply Forall_app. split; [apply HE|repeat constructor].
    - destruct HP as (H0 & rd & p & _ & _ & _ & E). apply HM. rewrite H0, app_nil_r, E. apply HE.
    - destruct HP as (_ & E). apply HM. rewrite E. apply HE. }
  destruct a; cbn [sstate] in H.
  - destruct H as (_ & _ & _ & E). apply HM. rewrite E. repeat constructor.
  - apply HP. exact H.
  - apply HP. apply H.
Qed.
Lemma typed_no_pong : forall t, is_pong (typed_as t) = false.
Proof. intros t. unfold typed_as, command. destruct (beqb t (str "/close")); [reflexivity|]. destruct (beqb t (str "/ping")); reflexivity. Qed.
Lemma with_keys_fst : forall l ks, map fst (with_keys ks l) = l.
Proof. induction l as [|m l IH]; intros ks; [reflexivity|]. cbn [with_keys map fst]. rewrite IH. reflexivity. Qed.
Lemma cabs_sent : forall ks c got ts us sent, cabs ks c got ts us sent ->
  Forall no_pong (with_keys ks sent) /\ Forall (sendable big) (map fst (with_keys ks sent)).
Proof.
  intros ks c got ts us sent (C1 & C2 & C3 & C4 & C5 & C6 & C7 & C8 & C9 & C10).
  assert (Forall (fun m => is_pong m = false /\ sendable big m) sent) as H.
  { assert (Forall (fun m => is_pong m = false /\ sendable big m) (map typed_as ts)) as H.
    { apply Forall_map. apply Forall_app in C7 as [C7 _]. eapply Forall_impl; [|exact C7]. intros t Ht. split; [apply typed_no_pong|apply typed_as_sendable; exact Ht]. }
    rewrite C4 in H. apply Forall_app in H. apply H. }
  split.
  - apply Forall_map with (P := fun m => is_pong m = false). rewrite with_keys_fst. eapply Forall_impl; [|exact H]. intros m []. assumption.
  - rewrite with_keys_fst. eapply Forall_impl; [|exact H]. intros m []. assumption.
Qed.

(** ** What is read is gone *)
Definition reads (s s' : list aev) : Prop := exists u, s = u ++ s'.
Lemma reads_refl : forall s, reads s s.
Proof. intros s. exists []. reflexivity. Qed.
Lemma reads_trans : forall a b c, reads a b -> reads b c -> reads a c.
Proof. intros a b c [u ->] [v ->]. exists (u ++ v). apply app_assoc. Qed.
Lemma reads_length : forall s s', reads s s' -> (length (aev_bytes s') <= length (aev_bytes s))%nat.
Proof. intros s s' [u ->]. rewrite aev_app, app_length. lia. Qed.
Lemma poll_reads : forall (f : framed msg_codec) s, reads s (snd (framed_poll mc_decode s f)).
Proof.
  intros f s. revert f. induction s as [|[b bs| |k] s IH]; intros f; cbn [framed_poll]; destruct (framed_decode mc_decode f) as [[r|] f'];
    try apply reads_refl; (destruct (fr_eof f'); [apply reads_refl|]).
  - destruct (framed_decode mc_decode _) as [[r|] f3]; apply reads_refl.
  - eapply reads_trans; [|apply IH]. exists [AData b bs]. reflexivity.
  - exists [ANotReady]. reflexivity.
  - exists [AErr k]. reflexivity.
Qed.
Lemma answered_reads : forall p fuel s f, reads s (snd (fst (answered_poll p fuel s f))).
Proof.
  intros p. induction fuel as [|fuel IH]; intros s f; [apply reads_refl|]. cbn [answered_poll].
  pose proof (poll_reads f s) as H. destruct (framed_poll mc_decode s f) as [[r f'] s']. cbn [snd] in H. destruct r; try exact H.
  destruct (reply p i); [exact H|]. specialize (IH s' f'). destruct (answered_poll p fuel s' f') as [[[r2 f2] s2] l]. eapply reads_trans; [exact H|exact IH].
Qed.
Lemma passed_reads : forall fuel s f, reads s (snd (fst (passed_poll fuel s f))).
Proof.
  induction fuel as [|fuel IH]; intros s f; [apply reads_refl|]. cbn [passed_poll].
  pose proof (poll_reads f s) as H. destruct (framed_poll mc_decode s f) as [[r f'] s']. cbn [snd] in H. destruct r; try exact H.
  destruct (is_close i); [exact H|]. destruct (pass_on i); [exact H|]. specialize (IH s' f'). eapply reads_trans; [exact H|exact IH].
Qed.
Lemma stream_side_reads : forall c, reads (at_in c) (at_in (snd (stream_side c))).
Proof.
  intros c. unfold stream_side. destruct (at_rdone c); [apply reads_refl|].
  pose proof (answered_reads (at_prog c) (S (length (fr_buf (at_read c)) + length (aev_bytes (at_in c)) + length (at_in c))) (at_in c) (at_read c)) as H.
  destruct (answered_poll _ _ _ _) as [[[p f] s] l]. exact H.
Qed.
Lemma user_side_reads : forall c, at_in (snd (user_side c)) = at_in c.
Proof.
  intros c. unfold user_side. destruct (at_udone c); [reflexivity|]. destruct (at_user c) as [|[t|] us].
  - destruct (at_over c); reflexivity.
  - destruct (at_over c); [reflexivity|]. destruct (line_message t). reflexivity.
  - reflexivity.
Qed.
Lemma select_reads : forall c, reads (at_in c) (at_in (snd (select_poll c))).
Proof.
  intros c. unfold select_poll. destruct (at_flag c).
  - pose proof (user_side_reads (with_flag (negb true) c)) as H. destruct (user_side (with_flag (negb true) c)) as [p c1]. cbn [snd] in H.
    pose proof (stream_side_reads c1) as H2. destruct (stream_side c1) as [p2 c2]. cbn [snd] in H2. change (at_in (with_flag (negb true) c)) with (at_in c) in H. rewrite H in H2.
    assert (reads (at_in c) (at_in c1)) as H3 by (rewrite H; apply reads_refl).
    destruct p; cbn [snd]; try exact H3; try exact H2. destruct p2; cbn [snd with_flag at_in]; exact H2.
  - pose proof (stream_side_reads (with_flag (negb false) c)) as H. destruct (stream_side (with_flag (negb false) c)) as [p c1]. cbn [snd] in H.
    pose proof (user_side_reads c1) as H2. destruct (user_side c1) as [p2 c2]. cbn [snd] in H2. change (at_in (with_flag (negb false) c)) with (at_in c) in H.
    destruct p; cbn [snd]; try exact H; [rewrite H2; exact H|]. destruct p2; cbn [snd with_flag at_in]; rewrite H2; exact H.
Qed.
Lemma loop_reads : forall fuel extra c, reads (at_in c) (at_in (snd (achat_loop fuel extra c))).
Proof.
  induction fuel as [|fuel IH]; intros extra c; [apply reads_refl|]. cbn [achat_loop].
  pose proof (select_reads c) as H. destruct (select_poll c) as [p c1]. cbn [snd] in H.
  destruct p as [m| | |e| |]; try exact H.
  - destruct (start_send false (owned_ops m) (at_keys c1 O) extra (at_out c1)) as [y w]. destruct y; [|exact H|exact H].
    eapply reads_trans; [exact H|]. apply (IH extra (sent_out w c1)).
  - destruct (poll_complete (at_out c1)) as [y w]. destruct y; exact H.
  - destruct (poll_complete (at_out c1)) as [y w]. destruct y; exact H.
Qed.
Lemma achat_reads : forall extra c, reads (at_in c) (at_in (snd (achat_poll extra c))).
Proof.
  intros extra c. unfold achat_poll. destruct (at_hold c) as [m|]; [|apply loop_reads].
  destruct (start_send false (owned_ops m) (at_keys c O) extra (at_out c)) as [y w]. destruct y; [|apply reads_refl|apply reads_refl].
  apply (loop_reads (achat_fuel c) extra (sent_out w c)).
Qed.
Lemma close_reads : forall key extra t, et_in (snd (close_poll key extra t)) = et_in t.
Proof.
  intros key extra t. unfold close_poll. destruct (et_hold t) as [m|].
  - destruct (start_send true (owned_ops m) key extra (et_out t)) as [y w]. destruct y; try reflexivity. destruct (poll_complete w) as [[] w2]; reflexivity.
  - destruct (poll_complete (et_out t)) as [[] w]; reflexivity.
Qed.
Lemma forward_reads : forall fuel key extra t, reads (et_in t) (et_in (snd (forward_loop fuel key extra t))).
Proof.
  induction fuel as [|fuel IH]; intros key extra t; [apply reads_refl|]. cbn [forward_loop].
  assert (reads (et_in t) (snd (fst (if et_done t then (PEnd, et_read t, et_in t, true) else passed_poll (S fuel) (et_in t) (et_read t))))) as H.
  { destruct (et_done t); [apply reads_refl|apply passed_reads]. }
  destruct (if et_done t then (PEnd, et_read t, et_in t, true) else passed_poll (S fuel) (et_in t) (et_read t)) as [[[p f] s] d]. cbn [snd fst] in H.
  destruct p as [m| | |e| |]; try exact H.
  - destruct (start_send true (owned_ops m) key extra (et_out t)) as [y w]. destruct y; [|exact H|exact H].
    eapply reads_trans; [exact H|]. apply (IH key extra (mk_task f s d None false w)).
  - destruct (poll_complete (et_out t)) as [y w]. destruct y; [|exact H|exact H].
    rewrite (close_reads key extra (mk_task f s d (Some (OClose None)) true w)). exact H.
  - destruct (poll_complete (et_out t)) as [y w]. destruct y; exact H.
Qed.
Lemma task_reads : forall fuel key extra t, reads (et_in t) (et_in (snd (task_poll fuel key extra t))).
Proof.
  intros fuel key extra t. unfold task_poll. destruct (et_closing t); [rewrite close_reads; apply reads_refl|]. destruct (et_hold t) as [m|]; [|apply forward_reads].
  destruct (start_send true (owned_ops m) key extra (et_out t)) as [y w]. destruct y; [|apply reads_refl|apply reads_refl].
  apply (forward_reads fuel key extra (mk_task (et_read t) (et_in t) (et_done t) None false w)).
Qed.
Lemma aserver_reads : forall a key extra t, reads (et_in t) (et_in (snd (aserver_poll a key extra t))).
Proof.
  intros a key extra t. unfold aserver_poll. destruct a as [| |r]; [| |apply reads_refl].
  - pose proof (close_reads key extra t) as H. destruct (close_poll key extra t) as [x t']. cbn [snd] in H.
    assert (reads (et_in t) (et_in t')) as H1 by (rewrite H; apply reads_refl). destruct x; try exact H1.
    set (t1 := mk_task (et_read t') (et_in t') false None false (et_out t')). pose proof (task_reads (task_fuel t1) key extra t1) as H2.
    destruct (task_poll (task_fuel t1) key extra t1) as [x t2]. pose proof (reads_trans _ _ _ H1 H2) as H3. destruct x; exact H3.
  - pose proof (task_reads (task_fuel t) key extra t) as H. destruct (task_poll (task_fuel t) key extra t) as [x t2]. destruct x; exact H.
Qed.

(** ** The whole *)
Definition asleep (w : fwrite) : Prop := fw_ws w = [] /\ fw_fs w = [].
Definition ended (t : atalk) : Prop :=
  tk_cend t = Some TReady /\ server_gone t = true /\ at_rdone (tk_client t) = true /\ at_over (tk_client t) = true /\
  at_hold (tk_client t) = None /\ at_user (tk_client t) = [] /\ pend (at_out (tk_client t)) = [].
Definition ainv (cap : nat) (lines : list bytes) (ks : nat -> mkey) (t : atalk) : Prop :=
  exists got ungot ts us sent read unread said,
  cabs ks (tk_client t) got ts us sent /\ lines = ts ++ us ++ tk_lines t /\ said = got ++ ungot /\ with_keys ks sent = read ++ unread /\
  (at_rdone (tk_client t) = false /\ apipe false (at_read (tk_client t)) (at_in (tk_client t)) (tk_down t ++ pend (et_out (tk_task t))) ungot \/
   server_gone t = true /\ at_rdone (tk_client t) = true /\ ungot = []) /\
  all_data (at_in (tk_client t)) /\ asleep (at_out (tk_client t)) /\
  sstate (tk_at t) (tk_task t) read said /\ sabs (tk_task t) (tk_up t ++ pend (at_out (tk_client t))) unread said /\
  all_data (et_in (tk_task t)) /\ asleep (et_out (tk_task t)) /\
  (tk_cend t = None \/ ended t) /\
  (length (tk_up t) + length (aev_bytes (et_in (tk_task t))) <= cap)%nat /\
  (length (tk_down t) + length (aev_bytes (at_in (tk_client t))) <= cap)%nat /\
  Forall fit_line lines.

Definition line_work (ls : list bytes) : nat := fold_right (fun t n => (11 * (length t + 14) + 3 + n)%nat) 0%nat ls.
Definition twork (t : atalk) : nat :=
  (line_work (tk_lines t) + (cwork (tk_client t) - 10 * length (fw_out (at_out (tk_client t)))) + 10 * length (tk_up t) +
   (swork (tk_task t) - 3 * length (fw_out (et_out (tk_task t)))) + 3 * length (tk_down t) + at_work (tk_at t) +
   match tk_cend t with None => 1 | _ => 0 end)%nat.
Definition tcore (t : atalk) := (ccore (tk_client t), tk_cend t, tk_lines t, tk_up t, tk_at t, score (tk_task t), tk_down t).
Definition stuck_for (cap : nat) (a : aact) (t : atalk) : Prop :=
  match a with
  | APollClient _ => tk_cend t <> None \/ cpost (server_gone t) (room_up cap t) TNotReady (tk_client t)
  | APollServer _ _ => (exists r, tk_at t = AServed r) \/ spost (room_down cap t) TNotReady (tk_task t)
  | AUp n => n = O \/ tk_up t = []
  | ADown n => n = O \/ tk_down t = []
  | AType => tk_lines t = [] \/ thread_over (tk_client t) = true
  end.
Definition stepped (cap : nat) (lines : list bytes) (ks : nat -> mkey) (a : aact) (t t' : atalk) : Prop :=
  ainv cap lines ks t' /\ ((twork t' < twork t)%nat \/ tcore t' = tcore t /\ stuck_for cap a t').

Lemma cwork_out : forall c, (10 * length (fw_out (at_out c)) <= cwork c)%nat.
Proof. intros c. unfold cwork. lia. Qed.
Lemma swork_out : forall t, (3 * length (fw_out (et_out t)) <= swork t)%nat.
Proof. intros t. unfold swork. lia. Qed.
Lemma filter_twice : forall s, filter is_adata (filter is_adata s) = filter is_adata s.
Proof. intros s. apply filter_all_data. apply filter_data. Qed.
Lemma waits_filter : forall gone n s, filter is_adata (can_read gone n s) = filter is_adata s.
Proof. intros gone n s. unfold can_read. rewrite filter_app. destruct gone; cbn [filter]; rewrite ?filter_waits; apply app_nil_r. Qed.
Lemma waits_bytes : forall gone n s, aev_bytes (can_read gone n s) = aev_bytes s.
Proof. intros gone n s. rewrite <- aev_filter, waits_filter. apply aev_filter. Qed.

Lemma client_step : forall cap lines ks extra t, ainv cap lines ks t -> stepped cap lines ks (APollClient extra) t (client_acts cap extra t).
Proof.
  intros cap lines ks extra t HInv. pose proof HInv as (got & ungot & ts & us & sent & read & unread & said & HC & HL & HSd & HK & HR & HD & HW & HSt & HSa & HD2 & HW2 & HE & HB1 & HB2 & HFit).
  unfold client_acts. destruct (tk_cend t) as [y|] eqn:EE.
  { split; [exact HInv|]. right. split; [reflexivity|]. left. congruence. }
  destruct t as [c cend ls up a e down]. cbn [tk_client tk_cend tk_lines tk_up tk_at tk_task tk_down] in *. subst cend.
  set (t0 := mk_atalk c None ls up a e down) in *. set (n := S (achat_fuel c)). set (gone := server_gone t0) in *. set (room := room_up cap t0).
  set (c1 := with_scripts (can_read gone n (at_in c)) (with_room room n (at_out c)) c).
  assert (cabs ks c1 got ts us sent) as HC1 by exact HC.
  assert (gone = true -> down ++ pend (et_out e) = []) as Hq.
  { intros E. unfold gone, server_gone, t0 in E. cbn [tk_at tk_down] in E. destruct a as [| |x]; try discriminate E. destruct down; [|discriminate E].
    cbn [sstate] in HSt. apply HSt. }
  assert (cread gone c1 (down ++ pend (et_out e)) ungot n) as HR1.
  { split; [exact Hq|]. destruct HR as [[R1 R2]|(R1 & R2 & R3)]; [left|right; auto]. split; [exact R1|]. split.
    - eapply apipe_bytes; [|exact R2]. unfold c1. cbn [with_scripts at_in]. rewrite waits_bytes. reflexivity.
    - exists (at_in c). split; [exact HD|reflexivity]. }
  assert (length us < achat_fuel c)%nat as Hus.
  { unfold achat_fuel. destruct HC as (_ & _ & (HT & _) & _). rewrite HT, map_length. lia. }
  pose proof (cpoll_pipe ks said (ts ++ us) (down ++ pend (et_out e)) gone (room + length (fw_out (at_out c))) extra us c1 got ungot ts sent room n n
    HSd eq_refl HC1 HR1 ltac:(split; reflexivity) eq_refl (said_quiet _ _ _ _ HSt) ltac:(lia) ltac:(lia)) as HP.
  pose proof (achat_grows extra c1) as HG. destruct (achat_poll extra c1) as [x c'] eqn:EP. cbn [snd] in HG.
  destruct HP as (got' & ungot' & ts' & us' & sent' & r & k & n' & P1 & P2 & P3 & P4 & P5 & P6 & P7 & P8).
  destruct HG as [d HG]. change (fw_out (at_out c1)) with (fw_out (at_out c)) in HG.
  assert (awritten (at_out c) (at_out c') = d) as -> by (unfold awritten; rewrite HG, skipn_app, skipn_all, Nat.sub_diag; reflexivity).
  set (c2 := with_scripts (filter is_adata (at_in c')) (no_room (at_out c')) c').
  assert (ccore c2 = ccore c') as K2.
  { unfold ccore, c2. cbn [with_scripts at_user at_over at_udone at_hold at_out at_rdone at_in at_read no_room]. rewrite filter_twice. reflexivity. }
  assert (ccore c1 = ccore c) as K1.
  { unfold ccore, c1. cbn [with_scripts at_user at_over at_udone at_hold at_out at_rdone at_in at_read with_room]. rewrite waits_filter. reflexivity. }
  destruct (cabs_sent _ _ _ _ _ _ P3) as [_ HSn]. destruct (cabs_sent _ _ _ _ _ _ HC) as [_ HSn0].
  assert (exists read' unread', with_keys ks sent' = read' ++ unread' /\ map fst read' = map fst read /\
    apipe true (et_read e) (et_in e) ((up ++ d) ++ pend (at_out c2)) unread') as (read' & unread' & Q1 & Q2 & Q3).
  { destruct HSa as (_ & _ & A1 & A2 & A3 & A4). destruct HC as (_ & _ & _ & _ & _ & C6 & _). destruct P3 as (_ & _ & _ & _ & _ & C6' & _).
    rewrite HK, frames_app in C6. cbn [negb] in A3. rewrite <- A3 in C6.
    assert (frames false read ++ fr_buf (et_read e) ++ aev_bytes (et_in e) ++ up = fw_out (at_out c)) as E1.
    { apply (app_inv_tail (pend (at_out c))). rewrite <- !app_assoc. rewrite C6. reflexivity. }
    rewrite HK, map_app in HSn0. apply Forall_app in HSn0 as [S1 S2].
    destruct (frames_prefix true read (with_keys ks sent') (fr_buf (et_read e) ++ aev_bytes (et_in e) ++ (up ++ d) ++ pend (at_out c2)) S1 HSn) as (l1 & l2 & F1 & F2 & F3).
    - cbn [negb]. rewrite <- C6', HG, <- E1, <- !app_assoc. reflexivity.
    - exists l1, l2. split; [exact F1|]. split; [exact F2|]. split; [exact A1|]. split; [exact A2|]. split; [exact F3|].
      rewrite F1, map_app in HSn. apply Forall_app in HSn. apply HSn. }
  assert (length (fw_out (at_out c')) = length (fw_out (at_out c)) + length d)%nat as HLd by (rewrite HG, app_length; reflexivity).
  assert (room + (length up + length (aev_bytes (et_in e))) = cap)%nat as HRoom.
  { unfold room, room_up, t0. cbn [tk_up tk_task]. lia. }
  assert (ainv cap lines ks (mk_atalk c2 (match x with TNotReady => None | _ => Some x end) ls (up ++ d) a e down)) as HInv'.
  { exists got', ungot', ts', us', sent', read', unread', said. cbn [tk_client tk_cend tk_lines tk_up tk_at tk_task tk_down].
    split; [exact P3|]. split; [rewrite HL, app_assoc, P2, <- app_assoc; reflexivity|]. split; [exact P1|]. split; [exact Q1|]. split.
    { destruct P4 as (_ & [(R1 & R2 & R3)|(R1 & R2 & R3)]); [left|right; auto]. split; [exact R1|].
      eapply apipe_bytes; [|exact R2]. unfold c2. cbn [with_scripts at_in]. rewrite aev_filter. reflexivity. }
    split; [apply filter_data|]. split; [split; reflexivity|]. split; [eapply sstate_keys; [symmetry; exact Q2|exact HSt]|].
    split; [destruct HSa as (A1 & A2 & _); split; [exact A1|split; [exact A2|exact Q3]]|].
    split; [exact HD2|]. split; [exact HW2|]. split.
    { destruct x; cbn [cpost] in P8; try contradiction; [right|left; reflexivity]. destruct P8 as (B1 & B2 & B3 & B4 & B5 & B6).
      split; [reflexivity|]. split; [exact B1|]. auto 10. }
    split; [rewrite app_length; lia|]. split; [|exact HFit].
    assert (length (aev_bytes (at_in c')) <= length (aev_bytes (at_in c)))%nat as HLe.
    { pose proof (achat_reads extra c1) as HX. rewrite EP in HX. apply reads_length in HX. unfold c1 in HX. cbn [snd with_scripts at_in] in HX. rewrite waits_bytes in HX. exact HX. }
    unfold c2. cbn [with_scripts at_in]. rewrite aev_filter. lia. }
  split; [exact HInv'|].
  assert ((cwork c2 < cwork c)%nat \/ ccore c2 = ccore c) as HSh.
  { destruct P7 as [P7|P7]; [left|right; congruence]. rewrite (core_work _ _ K2), <- (core_work _ _ K1). exact P7. }
  pose proof (cwork_out c) as W1. pose proof (cwork_out c2) as W2. change (fw_out (at_out c2)) with (fw_out (at_out c')) in W2.
  destruct HSh as [HSh|HSh].
  { left. unfold twork. cbn [t0 tk_client tk_cend tk_lines tk_up tk_at tk_task tk_down]. change (fw_out (at_out c2)) with (fw_out (at_out c')).
    rewrite app_length. destruct x; lia. }
  assert (d = []) as ->.
  { pose proof HSh as HSh2. unfold ccore in HSh2. injection HSh2 as _ _ _ _ _ E _. change (fw_out (at_out c2)) with (fw_out (at_out c')) in E. rewrite HG in E.
    rewrite <- (app_nil_r (fw_out (at_out c))) in E at 2. apply app_inv_head in E. exact E. }
  rewrite app_nil_r in *. destruct x; cbn [cpost] in P8; try contradiction.
  - left. unfold twork. cbn [t0 tk_client tk_cend tk_lines tk_up tk_at tk_task tk_down]. rewrite (core_work _ _ HSh). change (fw_out (at_out c2)) with (fw_out (at_out c')). rewrite HG. lia.
  - right. split; [unfold tcore; cbn [t0 tk_client tk_cend tk_lines tk_up tk_at tk_task tk_down]; rewrite HSh; reflexivity|]. right.
    assert (r = room) as -> by (rewrite HG in P6; lia).
    change (server_gone _) with gone. change (room_up _ _) with room. cbn [tk_client cpost].
    destruct P8 as [P8|(B1 & B2 & B3 & B4 & B5)]; [left; exact P8|]. right. split; [exact B1|]. split; [exact B2|]. split; [|auto].
    unfold read_out in *. destruct gone; [exact B3|]. unfold c2. cbn [with_scripts at_rdone at_in at_read]. rewrite filter_twice. exact B3.
Qed.

Lemma agreeting_sendable : sendable big agreeting.
Proof. split; [apply good_text; vm_compute; reflexivity|]. split; [vm_compute; discriminate|]. intros []. Qed.
Lemma said_sendable : forall a t read said, sstate a t read said -> Forall (sendable big) (map fst read) -> Forall (sendable big) (map fst said).
Proof.
  intros a t read said H HR.
  assert (forall l, Forall (sendable big) (l ++ held t) -> Forall (sendable big) l) as HM by (intros l HL; apply Forall_app in HL; apply HL).
  pose proof agreeting_sendable as HA.
  assert (forall l, Forall (sendable big) l -> Forall (sendable big) (agreeting :: flat_map echo_all l)) as HE.
  { intros l Hl. constructor; [exact HA|]. apply Forall_flat_map. eapply Forall_impl; [|exact Hl].
    intros [d|d|c|d|d] HS; repeat constructor; try exact HS; apply HS. }
  assert (sphase t read said -> Forall (sendable big) (map fst said)) as HP.
  { intros HP. unfold sphase in HP. destruct (et_closing t); [|destruct (et_done t)].
    - destruct HP as (rd & p & -> & _ & _ & E). apply HM. rewrite E. change (agreeting :: flat_map echo_all (map fst rd) ++ [OClose None]) with ((agreeting :: flat_map echo_all (map fst rd)) ++ [OClose None]).
      rewrite map_app in HR. apply Forall_app in HR as [HR _].
      apply Forall_app. split; [apply HE; exact HR|constructor; [apply close_sendable|constructor]].
    - destruct HP as (H0 & rd & p & -> & _ & _ & E). rewrite E. rewrite map_app in HR. apply Forall_app in HR as [HR _]. apply HE. exact HR.
    - destruct HP as (_ & E). apply HM. rewrite E. apply HE. exact HR. }
  destruct a; cbn [sstate] in H.
  - destruct H as (_ & _ & _ & E). apply HM. rewrite E. constructor; [exact HA|constructor].
  - apply HP. exact H.
  - apply HP. apply H.
Qed.

Lemma server_step : forall cap lines ks key extra t, ainv cap lines ks t -> stepped cap lines ks (APollServer key extra) t (server_acts cap key extra t).
Proof.
  intros cap lines ks key extra t HInv. pose proof HInv as (got & ungot & ts & us & sent & read & unread & said & HC & HL & HSd & HK & HR & HD & HW & HSt & HSa & HD2 & HW2 & HE & HB1 & HB2 & HFit).
  assert (match tk_at t with AServed _ => True | _ => False end \/ (match tk_at t with AServed _ => False | _ => True end /\ server_gone t = false)) as [HA|[HA HG0]].
  { unfold server_gone. destruct (tk_at t); auto. }
  { unfold server_acts. destruct (tk_at t) as [| |y] eqn:EE; try contradiction. split; [exact HInv|]. right. split; [reflexivity|]. left. exists y. exact EE. }
  assert (client_gone t = false) as HG1.
  { unfold client_gone. destruct HE as [->|(_ & E & _)]; [reflexivity|congruence]. }
  assert (at_rdone (tk_client t) = false /\ apipe false (at_read (tk_client t)) (at_in (tk_client t)) (tk_down t ++ pend (et_out (tk_task t))) ungot) as [HR1 HR2].
  { destruct HR as [HR|(E & _)]; [exact HR|congruence]. }
  clear HR. destruct HE as [HE|(_ & E & _)]; [|congruence].
  assert (server_acts cap key extra t = 
    let e := tk_task t in
    let n := S (S (task_fuel e)) in
    let '(_, a', e') := aserver_poll (tk_at t) key extra
        (mk_task (et_read e) (can_read false n (et_in e)) (et_done e) (et_hold e) (et_closing e)
           (with_room (room_down cap t) (n + n + n) (et_out e))) in
      mk_atalk (tk_client t) (tk_cend t) (tk_lines t) (tk_up t) a'
        (mk_task (et_read e') (filter is_adata (et_in e')) (et_done e') (et_hold e') (et_closing e') (no_room (et_out e')))
        (tk_down t ++ awritten (et_out e) (et_out e'))) as ->.
  { unfold server_acts. rewrite HG1. destruct (tk_at t); try reflexivity. contradiction. }
  destruct t as [c cend ls up a e down]. cbn [tk_client tk_cend tk_lines tk_up tk_at tk_task tk_down] in *. subst cend. cbv zeta.
  set (t0 := mk_atalk c None ls up a e down) in *. set (n := S (S (task_fuel e))). set (room := room_down cap t0).
  set (e1 := mk_task (et_read e) (can_read false n (et_in e)) (et_done e) (et_hold e) (et_closing e) (with_room room (n + n + n) (et_out e))).
  destruct (cabs_sent _ _ _ _ _ _ HC) as [HSn0 HSn].
  assert (sstate a e1 read said) as HSt1 by exact HSt.
  assert (sabs e1 (up ++ pend (at_out c)) unread said) as HSa1.
  { destruct HSa as (A1 & A2 & A3). split; [exact A1|]. split; [exact A2|]. eapply apipe_bytes; [|exact A3]. unfold e1. cbn [et_in]. rewrite waits_bytes. reflexivity. }
  assert (task_fuel e1 + 5 <= n + n + n)%nat as Hk.
  { assert (task_fuel e1 = task_fuel e + n)%nat as ->.
    { unfold task_fuel, e1. cbn [et_read et_in]. rewrite waits_bytes. unfold can_read. rewrite app_length, repeat_length. lia. }
    assert (2 <= task_fuel e)%nat by (unfold task_fuel; lia). lia. }
  pose proof (aserver_pipe (up ++ pend (at_out c)) (room + length (fw_out (et_out e))) key extra a e1 (with_keys ks sent) read unread said room (n + n + n) n
    HK HSt1 HSa1 HA ltac:(split; reflexivity) eq_refl ltac:(exists (et_in e); split; [exact HD2|reflexivity]) ltac:(discriminate) HSn0 Hk) as HP.
  pose proof (aserver_grows a key extra e1) as HG. pose proof (aserver_reads a key extra e1) as HRd.
  destruct (aserver_poll a key extra e1) as [[x a'] e'] eqn:EP. cbn [snd] in HG, HRd.
  destruct HP as (read' & unread' & said' & r & k & P1 & P2 & P3 & P4 & P5 & P6 & P7).
  destruct HG as [d HG]. change (fw_out (et_out e1)) with (fw_out (et_out e)) in HG.
  assert (awritten (et_out e) (et_out e') = d) as -> by (unfold awritten; rewrite HG, skipn_app, skipn_all, Nat.sub_diag; reflexivity).
  set (e2 := mk_task (et_read e') (filter is_adata (et_in e')) (et_done e') (et_hold e') (et_closing e') (no_room (et_out e'))).
  assert (score e2 = score e') as K2.
  { unfold score, e2. cbn [et_hold et_done et_closing et_out et_in et_read no_room]. rewrite filter_twice. reflexivity. }
  assert (score e1 = score e) as K1.
  { unfold score, e1. cbn [et_hold et_done et_closing et_out et_in et_read with_room]. rewrite waits_filter. reflexivity. }
  assert (Forall (sendable big) (map fst said')) as HSs.
  { apply (said_sendable a' e' read' said' P2). rewrite P1, map_app in HSn. apply Forall_app in HSn. apply HSn. }
  assert (exists got' ungot', said' = got' ++ ungot' /\ map fst got' = map fst got /\
    apipe false (at_read c) (at_in c) ((down ++ d) ++ pend (et_out e2)) ungot') as (got' & ungot' & Q1 & Q2 & Q3).
  { destruct HR2 as (A1 & A2 & A3 & A4). destruct HSa as (B1 & _). destruct P3 as (B1' & _).
    rewrite HSd, frames_app in B1. cbn [negb] in A3. rewrite <- A3 in B1.
    assert (frames true got ++ fr_buf (at_read c) ++ aev_bytes (at_in c) ++ down = fw_out (et_out e)) as E1.
    { apply (app_inv_tail (pend (et_out e))). rewrite <- !app_assoc. rewrite B1. reflexivity. }
    assert (Forall (sendable big) (map fst got)) as S1.
    { assert (Forall (sendable big) (map fst said)) as HX.
      { apply (said_sendable a e read said HSt). rewrite HK, map_app in HSn. apply Forall_app in HSn. apply HSn. }
      rewrite HSd, map_app in HX. apply Forall_app in HX. apply HX. }
    destruct (frames_prefix false got said' (fr_buf (at_read c) ++ aev_bytes (at_in c) ++ (down ++ d) ++ pend (et_out e2)) S1 HSs) as (l1 & l2 & F1 & F2 & F3).
    - cbn [negb]. rewrite <- B1', HG, <- E1, <- !app_assoc. reflexivity.
    - exists l1, l2. split; [exact F1|]. split; [exact F2|]. split; [exact A1|]. split; [exact A2|]. split; [exact F3|].
      rewrite F1, map_app in HSs. apply Forall_app in HSs. apply HSs. }
  assert (length (fw_out (et_out e')) = length (fw_out (et_out e)) + length d)%nat as HLd by (rewrite HG, app_length; reflexivity).
  assert (room + (length down + length (aev_bytes (at_in c))) = cap)%nat as HRoom.
  { unfold room, room_down, t0. cbn [tk_down tk_client]. lia. }
  assert (ainv cap lines ks (mk_atalk c None ls up a' e2 (down ++ d))) as HInv'.
  { exists got', ungot', ts, us, sent, read', unread', said'. cbn [tk_client tk_cend tk_lines tk_up tk_at tk_task tk_down].
    split. { destruct HC as (C1 & C2 & C3). split; [exact C1|]. split; [rewrite C2; symmetry; exact Q2|exact C3]. }
    split; [exact HL|]. split; [exact Q1|]. split; [exact P1|]. split; [left; split; [exact HR1|exact Q3]|].
    split; [exact HD|]. split; [exact HW|]. split; [exact P2|]. split.
    { destruct P3 as (A1 & A2 & A3). split; [exact A1|]. split; [exact A2|]. eapply apipe_bytes; [|exact A3]. unfold e2. cbn [et_in]. rewrite aev_filter. reflexivity. }
    split; [apply filter_data|]. split; [split; reflexivity|]. split; [left; reflexivity|]. split.
    { apply reads_length in HRd. unfold e1 in HRd. cbn [et_in] in HRd. rewrite waits_bytes in HRd. unfold e2. cbn [et_in]. rewrite aev_filter. lia. }
    split; [rewrite app_length; lia|exact HFit]. }
  split; [exact HInv'|].
  pose proof (swork_out e) as W1. pose proof (swork_out e2) as W2. change (fw_out (et_out e2)) with (fw_out (et_out e')) in W2.
  rewrite <- (score_work _ _ K2), (score_work _ _ K1) in P6.
  destruct P6 as [P6|[P6 ->]].
  { left. unfold twork. cbn [t0 tk_client tk_cend tk_lines tk_up tk_at tk_task tk_down]. change (fw_out (et_out e2)) with (fw_out (et_out e')).
    rewrite app_length. lia. }
  rewrite K1, <- K2 in P6.
  assert (d = []) as ->.
  { pose proof P6 as HSh2. unfold score in HSh2. injection HSh2 as _ _ _ _ E _ _. change (fw_out (et_out e2)) with (fw_out (et_out e')) in E. rewrite HG in E.
    rewrite <- (app_nil_r (fw_out (et_out e))) in E at 2. apply app_inv_head in E. exact E. }
  rewrite app_nil_r in *. right. split; [unfold tcore; cbn [t0 tk_client tk_cend tk_lines tk_up tk_at tk_task tk_down]; rewrite P6; reflexivity|]. right.
  assert (r = room) as -> by (rewrite HG in P5; lia).
  change (room_down _ _) with room. cbn [tk_task].
  assert (spost room TNotReady e') as P8 by (destruct a; [exact P7|exact P7|contradiction]).
  cbn [spost] in *. unfold e2. cbn [et_hold et_done et_closing et_out et_in et_read no_room]. rewrite filter_twice. exact P8.
Qed.

Lemma apiece_bytes : forall n q, aev_bytes (apiece n q) = firstn n q.
Proof. intros n q. unfold apiece. destruct (firstn n q) as [|b bs]; cbn [aev_bytes]; rewrite ?app_nil_r; reflexivity. Qed.
Lemma apiece_data : forall n q, all_data (apiece n q).
Proof. intros n q. unfold apiece. destruct (firstn n q); repeat constructor. Qed.

Lemma up_step : forall cap lines ks n t, ainv cap lines ks t -> stepped cap lines ks (AUp n) t (atalk_step cap (AUp n) t).
Proof.
  intros cap lines ks n t HInv. pose proof HInv as (got & ungot & ts & us & sent & read & unread & said & HC & HL & HSd & HK & HR & HD & HW & HSt & HSa & HD2 & HW2 & HE & HB1 & HB2 & HFit).
  destruct t as [c cend ls up a e down]. cbn [atalk_step tk_client tk_cend tk_lines tk_up tk_at tk_task tk_down] in *.
  pose proof (firstn_skipn n up) as HN. assert (length (firstn n up) + length (skipn n up) = length up)%nat as HN2 by (rewrite <- app_length, HN; reflexivity).
  set (e' := mk_task (et_read e) (et_in e ++ apiece n up) (et_done e) (et_hold e) (et_closing e) (et_out e)).
  split.
  - exists got, ungot, ts, us, sent, read, unread, said. cbn [tk_client tk_cend tk_lines tk_up tk_at tk_task tk_down]. repeat (split; [assumption|]).
    split. { destruct HSa as (A1 & A2 & A3). split; [exact A1|]. split; [exact A2|]. eapply apipe_bytes; [|exact A3]. unfold e'. cbn [et_in].
      rewrite aev_app, apiece_bytes, <- app_assoc. f_equal. rewrite app_assoc, HN. reflexivity. }
    split; [apply Forall_app; split; [exact HD2|apply apiece_data]|]. split; [exact HW2|]. split.
    { destruct HE as [HE|HE]; [left; exact HE|right]. exact HE. }
    split; [unfold e'; cbn [et_in]; rewrite aev_app, apiece_bytes, app_length; lia|]. split; [exact HB2|exact HFit].
  - destruct (firstn n up) as [|b bs] eqn:EF.
    + right. assert (skipn n up = up) as -> by exact HN.
      assert (apiece n up = []) as E by (unfold apiece; rewrite EF; reflexivity). split.
      * unfold tcore, e'. cbn [tk_client tk_cend tk_lines tk_up tk_at tk_task tk_down]. rewrite E, app_nil_r. destruct e. reflexivity.
      * cbn [stuck_for tk_up]. destruct n; [left; reflexivity|]. destruct up; [right; reflexivity|discriminate EF].
    + left. unfold twork. cbn [tk_client tk_cend tk_lines tk_up tk_at tk_task tk_down].
      assert (swork e' + 10 * length (skipn n up) < swork e + 10 * length up)%nat as HX.
      { unfold swork, e'. cbn [et_hold et_done et_closing et_out et_in et_read]. rewrite aev_app, apiece_bytes, EF, app_length. cbn [length] in *. lia. }
      pose proof (swork_out e) as W1. pose proof (swork_out e') as W2. change (fw_out (et_out e')) with (fw_out (et_out e)) in *. lia.
Qed.

Lemma down_step : forall cap lines ks n t, ainv cap lines ks t -> stepped cap lines ks (ADown n) t (atalk_step cap (ADown n) t).
Proof.
  intros cap lines ks n t HInv. pose proof HInv as (got & ungot & ts & us & sent & read & unread & said & HC & HL & HSd & HK & HR & HD & HW & HSt & HSa & HD2 & HW2 & HE & HB1 & HB2 & HFit).
  destruct t as [c cend ls up a e down]. cbn [atalk_step tk_client tk_cend tk_lines tk_up tk_at tk_task tk_down] in *.
  pose proof (firstn_skipn n down) as HN. assert (length (firstn n down) + length (skipn n down) = length down)%nat as HN2 by (rewrite <- app_length, HN; reflexivity).
  set (c' := with_scripts (at_in c ++ apiece n down) (at_out c) c).
  assert (forall c1 c2 ce, server_gone (mk_atalk c1 ce ls up a e down) = true -> server_gone (mk_atalk c2 ce ls up a e (skipn n down)) = true) as HSG.
  { unfold server_gone. cbn [tk_at tk_down]. intros _ _ _. destruct a; auto. destruct down; [rewrite skipn_nil; auto|discriminate]. }
  split.
  - exists got, ungot, ts, us, sent, read, unread, said. cbn [tk_client tk_cend tk_lines tk_up tk_at tk_task tk_down]. repeat (split; [assumption|]).
    split. { destruct HR as [(R1 & R2)|(R1 & R2 & R3)]; [left|right]; (split; [first [exact R1|apply (HSG _ _ _ R1)]|]); [|auto].
      eapply apipe_bytes; [|exact R2]. unfold c'. cbn [with_scripts at_in].
      rewrite aev_app, apiece_bytes, <- app_assoc. f_equal. rewrite app_assoc, HN. reflexivity. }
    split; [apply Forall_app; split; [exact HD|apply apiece_data]|]. repeat (split; [assumption|]). split.
    { destruct HE as [HE|HE]; [left; exact HE|right]. destruct HE as (E1 & E2 & E3). split; [exact E1|]. split; [apply (HSG _ _ _ E2)|exact E3]. }
    split; [exact HB1|]. split; [unfold c'; cbn [with_scripts at_in]; rewrite aev_app, apiece_bytes, app_length; lia|exact HFit].
  - destruct (firstn n down) as [|b bs] eqn:EF.
    + right. assert (skipn n down = down) as -> by exact HN.
      assert (apiece n down = []) as E by (unfold apiece; rewrite EF; reflexivity). split.
      * unfold tcore, c'. cbn [tk_client tk_cend tk_lines tk_up tk_at tk_task tk_down]. rewrite E, app_nil_r. destruct c. reflexivity.
      * cbn [stuck_for tk_down]. destruct n; [left; reflexivity|]. destruct down; [right; reflexivity|discriminate EF].
    + left. unfold twork. cbn [tk_client tk_cend tk_lines tk_up tk_at tk_task tk_down].
      assert (at_rdone c = false) as R1.
      { destruct HR as [[R1 _]|(R1 & _)]; [exact R1|]. unfold server_gone in R1. cbn [tk_at tk_down] in R1. destruct a; try discriminate R1. destruct down; [|discriminate R1].
        rewrite firstn_nil in EF. discriminate EF. }
      assert (cwork c' + 3 * length (skipn n down) < cwork c + 3 * length down)%nat as HX.
      { unfold cwork, read_work, c'. cbn [with_scripts at_user at_over at_udone at_hold at_out at_rdone at_in at_read]. rewrite R1, aev_app, apiece_bytes, EF, app_length. cbn [length] in *. destruct (at_udone c); lia. }
      pose proof (cwork_out c) as W1. pose proof (cwork_out c') as W2. change (fw_out (at_out c')) with (fw_out (at_out c)) in *. lia.
Qed.

Lemma user_work_app : forall a t, user_work (a ++ [Typed t]) = (user_work a + (11 * (length t + 14) + 2))%nat.
Proof. induction a as [|u a IH]; intros t; cbn [app user_work fold_right]; [lia|]. fold (user_work (a ++ [Typed t])) (user_work a). rewrite IH. lia. Qed.
Lemma type_step : forall cap lines ks t, ainv cap lines ks t -> stepped cap lines ks AType t (atalk_step cap AType t).
Proof.
  intros cap lines ks t HInv. pose proof HInv as (got & ungot & ts & us & sent & read & unread & said & HC & HL & HSd & HK & HR & HD & HW & HSt & HSa & HD2 & HW2 & HE & HB1 & HB2 & HFit).
  cbn [atalk_step]. destruct (tk_lines t) as [|l ls] eqn:EL.
  { split; [exact HInv|]. right. split; [reflexivity|left; exact EL]. }
  destruct (thread_over (tk_client t)) eqn:ET.
  { split; [exact HInv|]. right. split; [reflexivity|right; exact ET]. }
  unfold thread_over in ET. apply orb_false_iff in ET as [EO EX].
  destruct t as [c cend ls0 up a e down]. cbn [atalk_step tk_client tk_cend tk_lines tk_up tk_at tk_task tk_down] in *. subst ls0.
  set (c' := mk_achat (at_prog c) (at_read c) (at_in c) (at_rdone c) (at_user c ++ [Typed l]) (at_over c) (at_udone c) (at_flag c) (at_hold c) (at_out c) (at_keys c) (at_shown c)).
  pose proof HC as (C1 & C2 & (T1 & T2 & T3) & C4 & C5 & C6 & C7 & C8 & C9 & C10).
  split.
  - exists got, ungot, ts, (us ++ [l]), sent, read, unread, said. cbn [tk_client tk_cend tk_lines tk_up tk_at tk_task tk_down].
    split.
    { split; [exact C1|]. split; [exact C2|]. split; [split; [unfold c'; cbn [at_user]; rewrite T1, map_app; reflexivity|split; [intros _; exact EO|exact T3]]|].
      split; [exact C4|]. split; [exact C5|]. split; [exact C6|]. split.
      - rewrite HL in HFit. rewrite app_assoc. apply Forall_app. split; [exact C7|]. rewrite !Forall_app in HFit. destruct HFit as (_ & _ & HFit).
        inversion HFit; subst. constructor; [assumption|constructor].
      - split; [exact C8|]. split; [exact C9|]. intros x b E.
        assert (~ In close_line us) as HN.
        { intros HI. rewrite T1 in EX. assert (existsb (fun u => match u with Typed l => beqb l (str "/close") | Idle => false end) (map Typed us) = true) as HB; [|congruence].
          apply existsb_exists. exists (Typed close_line). split; [apply in_map; exact HI|]. apply beqb_eq. reflexivity. }
        destruct (list_eq_dec Byte.byte_eq_dec l close_line) as [->|Hne].
        + assert (length b = O) as HB; [|destruct b; [reflexivity|discriminate HB]].
          destruct (exists_last (l := close_line :: b) ltac:(discriminate)) as (b' & z & EZ). rewrite EZ, app_assoc in E. apply app_inj_tail in E as [E _].
          destruct b' as [|w b'']; [cbn [app] in EZ; injection EZ as _ ->; reflexivity|]. cbn [app] in EZ. injection EZ as <- _.
          contradiction HN. rewrite E. apply in_or_app. right. left. reflexivity.
        + exfalso. assert (In close_line (us ++ [l])) as HI by (rewrite E; apply in_or_app; right; left; reflexivity).
          apply in_app_or in HI as [HI|[HI|[]]]; [exact (HN HI)|congruence]. }
    split; [rewrite HL, <- app_assoc; reflexivity|]. repeat (split; [assumption|]). split.
    { destruct HE as [HE|HE]; [left; exact HE|right]. destruct HE as (_ & _ & _ & E & _). cbn [tk_client] in E. congruence. }
    auto.
  - left. unfold twork. cbn [tk_client tk_cend tk_lines tk_up tk_at tk_task tk_down].
    assert (cwork c' = cwork c + (11 * (length l + 14) + 2))%nat as HX.
    { unfold cwork. change (read_work c') with (read_work c). unfold c'. cbn [at_user at_over at_udone at_hold at_out]. rewrite user_work_app. lia. }
    pose proof (cwork_out c) as W1. pose proof (cwork_out c') as W2. change (fw_out (at_out c')) with (fw_out (at_out c)) in *. cbn [line_work fold_right]. fold (line_work ls). lia.
Qed.

Lemma any_step : forall cap lines ks a t, ainv cap lines ks t -> stepped cap lines ks a t (atalk_step cap a t).
Proof. intros cap lines ks [extra|key extra|n|n|] t H; [apply client_step|apply server_step|apply up_step|apply down_step|apply type_step]; exact H. Qed.

Lemma new_inv : forall cap lines ks b1 b2, Forall fit_line lines -> ainv cap lines ks (atalk_new lines ks b1 b2).
Proof.
  intros cap lines ks b1 b2 HF. exists [], [], [], [], [], [], [], []. cbn [atalk_new tk_client tk_cend tk_lines tk_up tk_at tk_task tk_down achat_new ac_read ac_in ac_out at_rdone at_in at_read at_out et_out et_in].
  split.
  { split; [reflexivity|]. split; [reflexivity|]. split; [split; [reflexivity|split; [intros X; contradiction X; reflexivity|reflexivity]]|].
    split; [reflexivity|]. split; [reflexivity|]. split; [reflexivity|]. split; [constructor|]. split; [constructor|]. split; [discriminate|].
    intros [|x a] b E; discriminate E. }
  split; [reflexivity|]. split; [reflexivity|]. split; [reflexivity|]. split.
  { left. split; [reflexivity|]. split; [reflexivity|]. split; [split; [reflexivity|intros _; reflexivity]|]. split; [reflexivity|constructor]. }
  split; [constructor|]. split; [split; reflexivity|]. split; [repeat split|]. split.
  { split; [reflexivity|]. split; [constructor; [|constructor]|].
    - exact agreeting_sendable.
    - split; [reflexivity|]. split; [split; [reflexivity|intros _; reflexivity]|]. split; [reflexivity|constructor]. }
  split; [constructor|]. split; [split; reflexivity|]. split; [left; reflexivity|]. cbn. repeat split; auto; lia.
Qed.
Lemma run_inv : forall cap lines ks acts t, ainv cap lines ks t -> ainv cap lines ks (atalk_run cap acts t).
Proof. intros cap lines ks. induction acts as [|a acts IH]; intros t H; [exact H|]. cbn [atalk_run]. apply IH. apply any_step. exact H. Qed.

(** ** What follows *)
Lemma unclosed_open : forall ts, unclosed ts -> Forall (fun m => ~ closing m) (map typed_as ts).
Proof. intros ts H. apply Forall_map. eapply Forall_impl; [|exact H]. intros t Ht. apply typed_as_open. exact Ht. Qed.
Lemma close_last : forall a m b l x, a ++ m :: b = l ++ [x] -> closing m -> Forall (fun m => ~ closing m) l -> b = [] /\ a = l.
Proof.
  intros a m b l x H Hm Hl. destruct b as [|y b].
  - apply app_inj_tail in H as [-> _]. auto.
  - exfalso. destruct (exists_last (l := y :: b) ltac:(discriminate)) as (b' & z & EZ). rewrite EZ in H.
    change (a ++ m :: b' ++ [z]) with (a ++ (m :: b') ++ [z]) in H. rewrite app_assoc in H. apply app_inj_tail in H as [<- _].
    rewrite Forall_app in Hl. destruct Hl as [_ Hl]. inversion Hl. contradiction.
Qed.
Lemma read_close : forall ks c got ts us sent rd p unread, cabs ks c got ts us sent -> with_keys ks sent = (rd ++ [p]) ++ unread -> closing (fst p) ->
  unread = [] /\ at_over c = true /\ kept c = [] /\ us = [] /\ exists ts', ts = ts' ++ [close_line] /\ unclosed ts' /\ map fst rd = map typed_as ts'.
Proof.
  intros ks c got ts us sent rd p unread (C1 & C2 & (T1 & T2 & T3) & C4 & C5 & C6 & C7 & C8 & C9 & C10) HK Hp.
  assert (map typed_as ts = map fst rd ++ fst p :: (map fst unread ++ kept c)) as E.
  { rewrite C4, <- (with_keys_fst sent ks), HK, !map_app. cbn [map]. rewrite <- !app_assoc. reflexivity. }
  destruct (at_over c) eqn:EO.
  - destruct (C9 eq_refl) as (ts' & -> & HU). rewrite map_app in E. cbn [map] in E. symmetry in E.
    destruct (close_last _ _ _ _ _ E Hp (unclosed_open _ HU)) as [EB EA]. apply app_eq_nil in EB as [E1 E2].
    destruct unread; [|discriminate E1]. split; [reflexivity|]. split; [reflexivity|]. split; [exact E2|]. split.
    + destruct us as [|u us]; [reflexivity|]. discriminate (T2 ltac:(discriminate)).
    + exists ts'. auto.
  - exfalso. pose proof (unclosed_open _ (C8 eq_refl)) as HX. rewrite E, Forall_app in HX. destruct HX as [_ HX]. inversion HX. contradiction.
Qed.
(** The end of the server's work. *)
Lemma served_all : forall ks c got ts us sent read unread said e r, cabs ks c got ts us sent -> with_keys ks sent = read ++ unread ->
  sstate (AServed r) e read said ->
  unread = [] /\ at_over c = true /\ kept c = [] /\ us = [] /\ exists ts', ts = ts' ++ [close_line] /\ unclosed ts' /\
    map fst said = agreeting :: flat_map echo_all (map typed_as ts') ++ [OClose None].
Proof.
  intros ks c got ts us sent read unread said e r HC HK (_ & HP & EC & EH & _). unfold sphase in HP. rewrite EC in HP.
  destruct HP as (rd & p & -> & _ & Hp & E). unfold held in E. rewrite EH, app_nil_r in E.
  destruct (read_close _ _ _ _ _ _ _ _ _ HC HK Hp) as (A1 & A2 & A3 & A4 & ts' & B1 & B2 & B3). repeat (split; [assumption|]).
  exists ts'. rewrite <- B3. auto.
Qed.

Lemma before_prefix : forall lines us b, before_close lines us b -> forall l1 l2, map typed_as lines = l1 ++ l2 -> Forall (fun m => ~ closing m) l1 ->
  prefix l1 us.
Proof.
  induction 1 as [|ts|t ts us b Ht HB IH]; intros l1 l2 H HF.
  - cbn [map] in H. symmetry in H. apply app_eq_nil in H as [-> _]. exists []. reflexivity.
  - destruct l1 as [|m l1]; [exists []; reflexivity|]. cbn [map app] in H. injection H as <- _. inversion HF as [|? ? F1 _]; subst. contradiction F1. exact I.
  - destruct l1 as [|m l1]; [exists (command t :: us); reflexivity|]. cbn [map app] in H. injection H as <- H. inversion HF as [|? ? F1 F2]; subst.
    destruct (IH _ _ H F2) as [r ->]. exists r. destruct (typed_as_open t Ht) as [_ ->]. reflexivity.
Qed.
Lemma before_closed : forall lines us b, before_close lines us b -> forall ts rest, lines = ts ++ close_line :: rest -> unclosed ts ->
  us = map typed_as ts /\ b = true.
Proof.
  induction 1 as [|ts0|t ts0 us b Ht HB IH]; intros ts rest H HF.
  - destruct ts; discriminate H.
  - destruct ts as [|x ts]; [auto|]. cbn [app] in H. injection H as <- _. inversion HF as [|? ? F1 _]; subst. contradiction F1. reflexivity.
  - destruct ts as [|x ts]; cbn [app] in H; injection H as -> H.
    + contradiction Ht. reflexivity.
    + apply Forall_inv_tail in HF. destruct (IH _ _ H HF) as [-> ->]. cbn [map]. destruct (typed_as_open x Ht) as [_ ->]. auto.
Qed.
Lemma prefix_app : forall (A : Type) (a b l : list A), prefix (a ++ b) l -> prefix a l.
Proof. intros A a b l [r ->]. exists (b ++ r). rewrite app_assoc. reflexivity. Qed.

Lemma inv_sound : forall cap lines ks t us closed, ainv cap lines ks t -> before_close lines us closed ->
  prefix (at_shown (tk_client t)) (aconversation us closed).
Proof.
  intros cap lines ks t us closed (got & ungot & ts & us0 & sent & read & unread & said & HC & HL & HSd & HK & HR & HD & HW & HSt & HSa & HD2 & HW2 & HE & HB1 & HB2 & HFit) HB.
  assert (at_shown (tk_client t) = map fst got) as -> by apply HC. apply prefix_app with (b := map fst ungot). rewrite <- map_app, <- HSd.
  apply prefix_app with (b := held (tk_task t)).
  assert (Forall open read -> prefix (agreeting :: flat_map echo_all (map fst read)) (aconversation us closed)) as HO.
  { intros HO. assert (prefix (map fst read) us) as [r ->].
    - apply (before_prefix _ _ _ HB _ (map fst unread ++ kept (tk_client t) ++ map typed_as (us0 ++ tk_lines t))).
      + destruct HC as (_ & _ & _ & C4 & _). rewrite HL, map_app, C4, <- (with_keys_fst sent ks), HK, map_app, <- !app_assoc. reflexivity.
      + apply Forall_map. exact HO.
    - unfold aconversation. exists (flat_map echo_all r ++ (if closed then [OClose None] else [])). rewrite flat_map_app, <- app_assoc. reflexivity. }
  assert (sphase (tk_task t) read said -> prefix (map fst said ++ held (tk_task t)) (aconversation us closed)) as HP.
  { intros HP. unfold sphase in HP. destruct (et_closing (tk_task t)); [|destruct (et_done (tk_task t))].
    - destruct HP as (rd & p & -> & _ & Hp & E). rewrite E. destruct (read_close _ _ _ _ _ _ _ _ _ HC HK Hp) as (_ & _ & _ & EU & ts' & B1 & B2 & B3).
      subst ts us0. cbn [app] in HL. rewrite <- app_assoc in HL.
      destruct (before_closed _ _ _ HB _ _ HL B2) as [-> ->]. rewrite B3. exists []. rewrite app_nil_r. reflexivity.
    - destruct HP as (HH & rd & p & -> & _ & Hp & E). rewrite HH, app_nil_r, E. destruct (read_close _ _ _ _ _ _ _ _ _ HC HK Hp) as (_ & _ & _ & EU & ts' & B1 & B2 & B3).
      subst ts us0. cbn [app] in HL. rewrite <- app_assoc in HL.
      destruct (before_closed _ _ _ HB _ _ HL B2) as [-> ->]. rewrite B3. exists [OClose None]. reflexivity.
    - destruct HP as (H1 & E). rewrite E. apply HO. exact H1. }
  destruct (tk_at t); cbn [sstate] in HSt.
  - destruct HSt as (_ & _ & _ & E). rewrite E. exists (flat_map echo_all us ++ if closed then [OClose None] else []). reflexivity.
  - apply HP. exact HSt.
  - apply HP. apply HSt.
Qed.

Lemma inv_ends : forall cap lines ks t us closed, ainv cap lines ks t -> before_close lines us closed -> tk_cend t <> None ->
  tk_cend t = Some TReady /\ closed = true /\ at_shown (tk_client t) = aconversation us true /\ tk_at t = AServed TReady /\
  tk_up t = [] /\ tk_down t = [] /\ et_in (tk_task t) = [].
Proof.
  intros cap lines ks t us closed (got & ungot & ts & us0 & sent & read & unread & said & HC & HL & HSd & HK & HR & HD & HW & HSt & HSa & HD2 & HW2 & HE & HB1 & HB2 & HFit) HB HN.
  destruct HE as [HE|(E1 & E2 & E3 & E4 & E5 & E6 & E7)]; [contradiction|]. split; [exact E1|].
  unfold server_gone in E2. destruct (tk_at t) as [| |r] eqn:EA; try discriminate E2.
  destruct (served_all _ _ _ _ _ _ _ _ _ _ _ HC HK HSt) as (-> & _ & _ & -> & ts' & -> & B2 & B3).
  cbn [app] in HL. rewrite <- app_assoc in HL. destruct (before_closed _ _ _ HB _ _ HL B2) as [-> ->]. split; [reflexivity|]. split.
  - assert (at_shown (tk_client t) = map fst got) as -> by apply HC. destruct HR as [[R1 _]|(_ & _ & ->)]; [congruence|].
    rewrite app_nil_r in HSd. subst said. exact B3.
  - split; [f_equal; apply HSt|]. destruct HSa as (_ & _ & _ & _ & A3 & _). change (frames (negb true) []) with (@nil byte) in A3.
    apply app_eq_nil in A3 as [_ A3]. apply app_eq_nil in A3 as [A3 A4]. apply app_eq_nil in A4 as [A4 _]. split; [exact A4|].
    split; [|apply aev_none; [exact HD2|exact A3]]. destruct (tk_down t); [reflexivity|discriminate E2].
Qed.

(** ** It goes on *)
Lemma stuck_core : forall cap lines ks a t t', ainv cap lines ks t' -> ainv cap lines ks t -> tcore t' = tcore t -> stuck_for cap a t -> stuck_for cap a t'.
Proof.
  intros cap lines ks a t t' HI' HI H HS. unfold tcore, ccore, score in H. injection H as H1 H2 H3 H4 H5 H6 H7 H8 H9 H10 H11 H12 H13 H14 H15 H16 H17 H18 H19.
  assert (server_gone t' = server_gone t) as EG by (unfold server_gone; rewrite H11, H19; reflexivity).
  assert (aev_bytes (et_in (tk_task t')) = aev_bytes (et_in (tk_task t))) as EB by (rewrite <- (aev_filter (et_in (tk_task t'))), H17, aev_filter; reflexivity).
  assert (at_rdone (tk_client t') = at_rdone (tk_client t)) as ER.
  { destruct (at_rdone (tk_client t')), (at_rdone (tk_client t)); congruence. }
  destruct a; cbn [stuck_for] in *.
  - rewrite H8. destruct HS as [HS|HS]; [left; exact HS|right].
    assert (room_up cap t' = room_up cap t) as -> by (unfold room_up; rewrite H10, EB; reflexivity). rewrite EG.
    cbn [cpost] in *. rewrite H4, H5, H1, H2. destruct HS as [HS|(B1 & B2 & B3 & B4)]; [left; exact HS|right]. split; [exact B1|]. split; [exact B2|]. split; [|exact B4].
    unfold read_out in *. rewrite ER. destruct (server_gone t); [exact B3|]. destruct B3 as (B3 & B5 & B6). rewrite ER, B3 in H7. injection H7 as E1 E2. rewrite E1, E2. auto.
  - rewrite H11. destruct HS as [HS|HS]; [left; exact HS|]. destruct (tk_at t) as [| |r] eqn:EA; [right|right|left; exists r; reflexivity];
    (assert (room_down cap t' = room_down cap t) as ->;
     [assert (at_rdone (tk_client t) = false) as ED;
      [destruct HI as (got & ungot & ts & us0 & sent & read & unread & said & HC & HL & HSd & HK & [[HR _]|(HR & _)] & _); [exact HR|];
       unfold server_gone in HR; rewrite EA in HR; discriminate HR|];
      rewrite ER, ED in H7; injection H7 as E1 E2; unfold room_down; rewrite H19, <- (aev_filter (at_in (tk_client t'))), E1, aev_filter; reflexivity|]);
    cbn [spost] in *; rewrite H12, H13, H14, H15, H17, H18; exact HS.
  - rewrite H10. exact HS.
  - rewrite H19. exact HS.
  - rewrite H9. destruct HS as [HS|HS]; [left; exact HS|right]. unfold thread_over in *. rewrite H1, H2. exact HS.
Qed.

Lemma round_step : forall cap lines ks acts t, ainv cap lines ks t ->
  let t' := atalk_run cap acts t in
  (twork t' < twork t)%nat \/ tcore t' = tcore t /\ forall a, In a acts -> stuck_for cap a t'.
Proof.
  intros cap lines ks. induction acts as [|a acts IH]; intros t HI t'; subst t'; cbn [atalk_run].
  - right. split; [reflexivity|intros a []].
  - destruct (any_step _ _ _ a _ HI) as [HI1 H1]. specialize (IH _ HI1). cbv zeta in IH.
    assert (forall u v, tcore u = tcore v -> twork u = twork v) as HT.
    { clear. intros u v H. unfold tcore in H.
      assert (ccore (tk_client u) = ccore (tk_client v) /\ tk_cend u = tk_cend v /\ tk_lines u = tk_lines v /\ tk_up u = tk_up v /\ tk_at u = tk_at v /\
        score (tk_task u) = score (tk_task v) /\ tk_down u = tk_down v) as (H1 & H2 & H3 & H4 & H5 & H6 & H7) by (repeat split; congruence). clear H. unfold twork. rewrite (core_work _ _ H1), (score_work _ _ H6), H2, H3, H4, H5, H7.
      unfold ccore in H1. injection H1 as _ _ _ _ _ -> _. unfold score in H6. injection H6 as _ _ _ _ -> _ _. reflexivity. }
    destruct H1 as [H1|[H1 S1]], IH as [IH|[IH S2]].
    + left. lia.
    + left. rewrite (HT _ _ IH). exact H1.
    + left. rewrite <- (HT _ _ H1). exact IH.
    + right. split; [congruence|]. intros b [<-|Hb]; [|apply S2; exact Hb].
      apply (stuck_core cap lines ks a (atalk_step cap a t)); [apply run_inv; exact HI1|exact HI1|exact IH|exact S1].
Qed.

Lemma frames_total : forall ts ks, (length (frames false (with_keys ks (map typed_as ts))) <= letters ts + 14 * length ts)%nat.
Proof.
  induction ts as [|t ts IH]; intros ks; [cbn; lia|]. cbn [map with_keys]. rewrite frames_cons, app_length.
  pose proof (frame_length false (typed_as t) (ks O)) as HL. cbv zeta iota in HL. pose proof (typed_as_length t) as HT. specialize (IH (fun n => ks (S n))).
  cbn [letters fold_right length]. fold (letters ts). lia.
Qed.
Lemma letters_app : forall a b, letters (a ++ b) = (letters a + letters b)%nat.
Proof. induction a as [|t a IH]; intros b; [reflexivity|]. cbn [app letters fold_right]. fold (letters (a ++ b)) (letters a). rewrite IH. lia. Qed.
Lemma frames_sent : forall ks c got ts us sent, cabs ks c got ts us sent -> (length (frames false (with_keys ks sent)) <= letters ts + 14 * length ts)%nat.
Proof.
  intros ks c got ts us sent (_ & _ & _ & C4 & _). apply Nat.le_trans with (length (frames false (with_keys ks (map typed_as ts)))); [|apply frames_total].
  rewrite C4, with_keys_app, frames_app, app_length. lia.
Qed.
Lemma partial_none : forall server f q l, apipe server f [] q l -> q = [] -> partial server (fr_buf f) -> l = [].
Proof.
  intros server f q l (A1 & A2 & A3 & A4) -> HP. cbn [aev_bytes app] in A3. rewrite app_nil_r in A3. destruct l as [|[m k] l]; [reflexivity|].
  exfalso. cbn [map fst] in A4. inversion A4 as [|? ? S1 _]; subst. unfold partial in HP. rewrite A3, frames_cons, (decode_whole server m k _ S1) in HP. discriminate HP.
Qed.

Lemma not_stuck : forall cap lines ks t, ainv cap lines ks t -> (1 <= cap)%nat -> wont_fill cap lines -> In close_line lines ->
  (forall e, stuck_for cap (APollClient e) t) -> (forall k e, stuck_for cap (APollServer k e) t) ->
  tk_up t = [] -> tk_down t = [] -> stuck_for cap AType t -> tk_cend t <> None.
Proof.
  intros cap lines ks t (got & ungot & ts & us0 & sent & read & unread & said & HC & HL & HSd & HK & HR & HD & HW & HSt & HSa & HD2 & HW2 & HE & HB1 & HB2 & HFit)
    Hcap HF HIn S1 S2 EU ED S5. destruct (S1 0) as [S1'|S1']; [exact S1'|]. intros EN. clear S1 HE EN. specialize (S2 (mk_key x00 x00 x00 x00) 0).
  pose proof HC as (C1 & C2 & (T1 & T2 & T3) & C4 & C5 & C6 & C7 & C8 & C9 & C10).
  destruct S1' as [(B1 & B2 & B3)|(B1 & B2 & B3 & B4 & B5)].
  - (* the client's buffer and the network are full *)
    pose proof (frames_sent _ _ _ _ _ _ HC) as HX. rewrite HK, frames_app, app_length in HX. destruct HSa as (_ & _ & _ & _ & A3 & _). cbn [negb] in A3. rewrite <- A3, EU in HX.
    cbn [app] in HX. rewrite !app_length in HX. unfold room_up in B3. rewrite EU in B3. cbn [length] in B3.
    unfold wont_fill in HF. rewrite HL, letters_app, app_length in HF. unfold llen in B2. lia.
  - destruct (tk_at t) as [| |r] eqn:EA.
    + exfalso. destruct S2 as [[r S2]|S2]; [rewrite EA in S2; discriminate S2|]. assert (server_gone t = false) as EG by (unfold server_gone; rewrite EA; reflexivity).
      rewrite EG in B3. destruct B3 as (_ & B6 & _). unfold room_down in S2. rewrite ED, <- (aev_filter (at_in (tk_client t))), B6 in S2. cbn [length aev_bytes] in S2.
      destruct HSt as (G1 & _). cbn [spost] in S2. destruct S2 as [(_ & _ & S2)|[(_ & S2 & _)|(_ & _ & S2)]]; [lia|congruence|lia].
    + destruct S2 as [[r S2]|S2]; [rewrite EA in S2; discriminate S2|]. assert (server_gone t = false) as EG by (unfold server_gone; rewrite EA; reflexivity).
      rewrite EG in B3. destruct B3 as (_ & B6 & _). unfold room_down in S2. rewrite ED, <- (aev_filter (at_in (tk_client t))), B6 in S2. cbn [length aev_bytes] in S2.
      cbn [sstate] in HSt. cbn [spost] in S2. destruct S2 as [(_ & _ & S2)|[(_ & S3 & S4 & S6 & S7 & _)|(_ & _ & S2)]]; [lia| |lia].
      rewrite (filter_all_data _ HD2) in S6. unfold room_up in B4. rewrite EU, S6 in B4. cbn [length aev_bytes] in B4.
      destruct B4 as [B4|B4]; [|lia]. destruct HSa as (_ & _ & HA). rewrite EU, B4, S6 in HA.
      pose proof (partial_none _ _ _ _ HA eq_refl S7) as ->. rewrite app_nil_r in HK.
      unfold sphase in HSt. rewrite S3, S4 in HSt. destruct HSt as [HO _].
      assert (Forall (fun m => ~ closing m) (map typed_as ts)) as HX.
      { rewrite C4. unfold kept. rewrite B1, app_nil_r, <- (with_keys_fst sent ks), HK. apply Forall_map. exact HO. }
      assert (In close_line ts) as HY.
      { rewrite B2 in T1. destruct us0; [|discriminate T1]. destruct S5 as [S5|S5].
        - rewrite HL, S5, !app_nil_r in HIn. exact HIn.
        - unfold thread_over in S5. rewrite B2 in S5. cbn [existsb] in S5. rewrite orb_false_r in S5. destruct (C9 S5) as (ts' & -> & _). apply in_or_app. right. left. reflexivity. }
      rewrite Forall_forall in HX. contradiction (HX (OClose None)).
      * apply in_map_iff. exists close_line. split; [reflexivity|exact HY].
      * exact I.
    + destruct (served_all _ _ _ _ _ _ _ _ _ _ _ HC HK HSt) as (-> & EO & _). assert (server_gone t = true) as EG by (unfold server_gone; rewrite EA, ED; reflexivity).
      contradiction (B5 EG EO). destruct HSa as (_ & _ & _ & _ & A3 & _). change (frames (negb true) []) with (@nil byte) in A3.
      apply app_eq_nil in A3 as [_ A3]. apply app_eq_nil in A3 as [_ A3]. apply app_eq_nil in A3 as [_ A3]. exact A3.
Qed.

Lemma run_app : forall cap a b t, atalk_run cap (a ++ b) t = atalk_run cap b (atalk_run cap a t).
Proof. intros cap. induction a as [|x a IH]; intros b t; [reflexivity|]. cbn [app atalk_run]. apply IH. Qed.
Lemma cend_stays : forall cap lines ks a t, ainv cap lines ks t -> tk_cend t <> None -> tk_cend (atalk_step cap a t) <> None.
Proof.
  intros cap lines ks a t _ HN. destruct a; cbn [atalk_step tk_cend]; try exact HN.
  - unfold client_acts. destruct (tk_cend t) eqn:E; [rewrite E; discriminate|congruence].
  - unfold server_acts. destruct (tk_at t); try exact HN; destruct (aserver_poll _ _ _ _) as [[x a'] e']; exact HN.
  - destruct (tk_lines t); [exact HN|]. destruct (thread_over (tk_client t)); exact HN.
Qed.
Lemma run_ends : forall cap lines ks rounds t, ainv cap lines ks t -> (1 <= cap)%nat -> wont_fill cap lines -> In close_line lines ->
  Forall all_act rounds -> (twork t < length rounds)%nat -> tk_cend (atalk_run cap (concat rounds) t) <> None.
Proof.
  intros cap lines ks. induction rounds as [|acts rounds IH]; intros t HI Hcap HF HIn HR HW; [cbn [length] in HW; lia|].
  inversion HR as [|? ? R1 R2]; subst. cbn [concat]. rewrite run_app.
  pose proof (run_inv cap lines ks acts t HI) as HI1. destruct (round_step cap lines ks acts t HI) as [HX|[HC HX]].
  - apply IH; auto. cbn [length] in HW. lia.
  - assert (tk_cend (atalk_run cap acts t) <> None) as HN.
    { destruct R1 as ((e & A1) & (k & e2 & A2) & (n & A3) & (n2 & A4) & A5).
      apply (not_stuck cap lines ks); auto.
      - intros e'. exact (HX _ A1).
      - intros k' e'. exact (HX _ A2).
      - destruct (HX _ A3) as [E|E]; [discriminate E|exact E].
      - destruct (HX _ A4) as [E|E]; [discriminate E|exact E]. }
    clear - HI1 HN. revert HI1 HN. generalize (atalk_run cap acts t). generalize (concat rounds). clear.
    induction l as [|a l IH]; intros t HI HN; [exact HN|]. cbn [atalk_run]. apply IH; [apply any_step; exact HI|eapply cend_stays; eauto].
Qed.

(** ** A conversation that is stuck *)
Lemma send_full : forall server ops key extra k w, sink 0 (S k) w -> 8192 <= llen (pend w) ->
  exists w', start_send server ops key extra w = (SNotReady, w') /\ no_room w' = no_room w.
Proof.
  intros server ops key extra k w HS HP. unfold start_send. unfold pend in HP. assert (BACKPRESSURE <=? llen (bm_data (fw_buf w)) = true) as -> by (unfold BACKPRESSURE; lia).
  destruct (poll_complete w) as [y w'] eqn:EP. destruct (flush_sink _ _ _ _ _ HS EP) as (d & r' & k' & F1 & F2 & F3 & F4 & F5 & F6 & F7).
  assert (d = []) as -> by (destruct d; [reflexivity|cbn [length] in F5; lia]). specialize (F7 eq_refl). cbn [app] in F4. unfold pend in F4. rewrite app_nil_r in F3.
  assert (no_room w' = no_room w) as HN.
  { unfold no_room. rewrite F3. destruct (fw_buf w') as [d1 c1], (fw_buf w) as [d2 c2]. cbn [bm_data bm_cap] in *. congruence. }
  exists w'. split; [|exact HN]. rewrite F4 in HP.
  assert (BACKPRESSURE <=? llen (bm_data (fw_buf w')) = true) as -> by (unfold BACKPRESSURE; lia). destruct F6 as [[-> _]|[-> _]]; reflexivity.
Qed.
Definition asleep_b (w : fwrite) : bool :=
  match fw_ws w, fw_fs w with [], [] => true | _, _ => false end && (8192 <=? llen (pend w)).
(** Neither side reads before it has got rid of a message, and neither gets rid of it. *)
Definition frozen_b (cap : nat) (t : atalk) : bool :=
  match tk_cend t, tk_lines t, tk_up t, tk_down t, tk_at t, at_hold (tk_client t), et_hold (tk_task t) with
  | None, [], [], [], AServing, Some _, Some _ => 
      asleep_b (at_out (tk_client t)) && asleep_b (et_out (tk_task t)) && negb (et_closing (tk_task t)) &&
      forallb is_adata (at_in (tk_client t)) && forallb is_adata (et_in (tk_task t)) &&
      (room_up cap t =? 0)%nat && (room_down cap t =? 0)%nat
  | _, _, _, _, _, _, _ => false
  end.
Lemma frozen_stays : forall cap t, frozen_b cap t = true -> tk_cend t = None /\ forall a, atalk_step cap a t = t.
Proof.
  intros cap [c cend ls up a e down] H. unfold frozen_b in H. cbn [tk_client tk_cend tk_lines tk_up tk_at tk_task tk_down] in H.
  destruct cend; [discriminate H|]. destruct ls; [|discriminate H]. destruct up; [|discriminate H]. destruct down; [|discriminate H]. destruct a; try discriminate H.
  destruct (at_hold c) as [m|] eqn:EM; [|discriminate H]. destruct (et_hold e) as [m'|] eqn:EM'; [|discriminate H].
  rewrite !andb_true_iff in H. destruct H as ((((((H1 & H2) & H3) & H4) & H5) & H6) & H7). apply negb_true_iff in H3. apply Nat.eqb_eq in H6, H7.
  assert (forall w, asleep_b w = true -> asleep w /\ 8192 <= llen (pend w)) as HA.
  { intros w HX. unfold asleep_b in HX. apply andb_true_iff in HX as [HX HY]. unfold asleep. destruct (fw_ws w); [|discriminate HX]. destruct (fw_fs w); [|discriminate HX]. split; [auto|lia]. }
  apply HA in H1 as [[A1 A2] A3], H2 as [[B1 B2] B3].
  assert (forall s, forallb is_adata s = true -> all_data s) as HD by (intros s HX; apply Forall_forall; rewrite forallb_forall in HX; exact HX).
  apply HD in H4, H5. clear HA HD. split; [reflexivity|]. intros [extra|key extra|n|n|].
  - cbn [atalk_step]. unfold client_acts. cbn [tk_client tk_cend]. rewrite H6. cbv zeta.
    set (n := S (achat_fuel c)). set (g := server_gone _).
    destruct (send_full false (owned_ops m) (at_keys c O) extra (achat_fuel c) (with_room 0 n (at_out c)) ltac:(split; reflexivity) A3) as (w' & E1 & E2).
    unfold achat_poll. cbn [with_scripts at_hold at_keys at_out]. rewrite EM, E1. unfold with_out. cbn [with_scripts at_in at_out at_prog at_read at_rdone at_user at_over at_udone at_flag at_hold at_keys at_shown].
    cbn [tk_lines tk_up tk_at tk_task tk_down app]. unfold with_scripts. cbn [at_in at_out at_prog at_read at_rdone at_user at_over at_udone at_flag at_hold at_keys at_shown].
    rewrite E2, waits_filter, (filter_all_data _ H4).
    assert (awritten (at_out c) w' = []) as ->.
    { unfold awritten. assert (fw_out w' = fw_out (at_out c)) as -> by (exact (f_equal fw_out E2)). apply skipn_all. }
    f_equal. destruct c as [cp cr ci crd cu co cud cf ch cw ck cs]. cbn [at_in at_out at_prog at_read at_rdone at_user at_over at_udone at_flag at_hold at_keys at_shown] in *.
    subst ch. f_equal. destruct cw as [wb wo wws wfs]. cbn [fw_ws fw_fs] in *. subst. reflexivity.
  - cbn [atalk_step]. unfold server_acts. cbn [tk_at tk_task]. rewrite H7. cbv zeta.
    set (n := S (S (task_fuel e))). set (g := client_gone _).
    destruct (send_full true (owned_ops m') key extra (S (task_fuel e) + n + n) (with_room 0 (n + n + n) (et_out e)) ltac:(split; reflexivity) B3) as (w' & E1 & E2).
    unfold aserver_poll, task_poll. cbn [et_closing et_hold et_out et_read et_in et_done]. rewrite H3, EM', E1. cbn [et_closing et_hold et_out et_read et_in et_done tk_client tk_cend tk_lines tk_up tk_down app].
    rewrite E2, waits_filter, (filter_all_data _ H5).
    assert (awritten (et_out e) w' = []) as ->.
    { unfold awritten. assert (fw_out w' = fw_out (et_out e)) as -> by (exact (f_equal fw_out E2)). apply skipn_all. }
    f_equal. destruct e as [er ei ed eh ec ew]. cbn [et_closing et_hold et_out et_read et_in et_done] in *. subst. f_equal.
    destruct ew as [wb wo wws wfs]. cbn [fw_ws fw_fs] in *. subst. reflexivity.
  - cbn [atalk_step tk_client tk_cend tk_lines tk_up tk_at tk_task tk_down]. unfold apiece. rewrite firstn_nil, skipn_nil, app_nil_r. destruct e. reflexivity.
  - cbn [atalk_step tk_client tk_cend tk_lines tk_up tk_at tk_task tk_down]. unfold apiece. rewrite firstn_nil, skipn_nil, app_nil_r. destruct c. reflexivity.
  - reflexivity.
Qed.
Lemma frozen_run : forall cap t acts, frozen_b cap t = true -> atalk_run cap acts t = t.
Proof. intros cap t acts H. induction acts as [|a acts IH]; [reflexivity|]. cbn [atalk_run]. rewrite (proj2 (frozen_stays _ _ H)). exact IH. Qed.

(** [C80] Whatever the network's room and delays and however the two tasks are scheduled: what the
    user of async-client has been shown is always an initial part of the conversation: the
    greeting, an echo of every line typed before "/close" and the answer to every "/ping", in
    order, and last the server's Close.  Neither task fails. *)
Lemma async_talk_sound_proof : forall cap lines us closed ks b1 b2 acts, Forall sayable lines -> before_close lines us closed ->
  let t := atalk_run cap acts (atalk_new lines ks b1 b2) in
  prefix (at_shown (tk_client t)) (aconversation us closed) /\
  (tk_cend t = None \/ tk_cend t = Some TReady) /\
  (tk_at t = AGreeting \/ tk_at t = AServing \/ tk_at t = AServed TReady).
Proof.
  intros cap lines us closed ks b1 b2 acts HF HB t. pose proof (run_inv cap lines ks acts _ (new_inv cap lines ks b1 b2 HF)) as HI. fold t in HI.
  split; [eapply inv_sound; eauto|]. destruct HI as (got & ungot & ts & us0 & sent & read & unread & said & HC & HL & HSd & HK & HR & HD & HW & HSt & HSa & HD2 & HW2 & HE & HB1 & HB2 & HFit).
  split; [destruct HE as [HE|[HE _]]; auto|]. destruct (tk_at t) as [| |r]; auto. right. right. f_equal. apply HSt.
Qed.
(*EX
(** The user says "hi", "/ping" and "/close"; the network holds five bytes either way. *)
Definition atalk_round : list aact := [AType; APollClient 0; AUp 3; APollServer (mk_key x00 x00 x00 x00) 0; ADown 2].
Definition atalk_lines : list bytes := [str "hi"; str "/ping"; str "/close"].
Definition atalk_start : atalk := atalk_new atalk_lines (fun _ => mk_key x01 x02 x03 x04) 0 0.
Example async_talk_sound_ex :
  before_close atalk_lines [OText (str "hi"); OPing (str "PING")] true /\
  at_shown (tk_client (atalk_run 5 (concat (repeat atalk_round 12)) atalk_start)) = [OText (str "Hello World!"); OText (str "hi")].
Proof.
  split; [|vm_compute; reflexivity].
  apply (before_line (str "hi")); [discriminate|]. apply (before_line (str "/ping")); [discriminate|]. constructor.
Qed.
EX*)

(** [C80] When the client ends, the user has been shown the whole conversation, the server's task
    has ended too, and nothing is left under way or unread. *)
Lemma async_talk_ends_proof : forall cap lines us closed ks b1 b2 acts, Forall sayable lines -> before_close lines us closed ->
  let t := atalk_run cap acts (atalk_new lines ks b1 b2) in
  tk_cend t <> None ->
  tk_cend t = Some TReady /\ closed = true /\ at_shown (tk_client t) = aconversation us true /\ tk_at t = AServed TReady /\
  tk_up t = [] /\ tk_down t = [] /\ et_in (tk_task t) = [].
Proof.
  intros cap lines us closed ks b1 b2 acts HF HB t HN. pose proof (run_inv cap lines ks acts _ (new_inv cap lines ks b1 b2 HF)) as HI. fold t in HI.
  eapply inv_ends; eauto.
Qed.
(*EX
Example async_talk_ends_ex :
  let t := atalk_run 5 (concat (repeat atalk_round 24)) atalk_start in
  tk_cend t = Some TReady /\
  at_shown (tk_client t) = [OText (str "Hello World!"); OText (str "hi"); OPong (str "PING"); OClose None].
Proof. vm_compute. split; reflexivity. Qed.
EX*)

(** [C80] The network never holds more than its room. *)
Lemma async_talk_bounded_proof : forall cap lines ks b1 b2 acts, Forall sayable lines ->
  let t := atalk_run cap acts (atalk_new lines ks b1 b2) in
  (List.length (tk_up t) + List.length (aev_bytes (et_in (tk_task t))) <= cap)%nat /\
  (List.length (tk_down t) + List.length (aev_bytes (at_in (tk_client t))) <= cap)%nat.
Proof.
  intros cap lines ks b1 b2 acts HF t. pose proof (run_inv cap lines ks acts _ (new_inv cap lines ks b1 b2 HF)) as HI. fold t in HI.
  destruct HI as (got & ungot & ts & us0 & sent & read & unread & said & HC & HL & HSd & HK & HR & HD & HW & HSt & HSa & HD2 & HW2 & HE & HB1 & HB2 & HFit). auto.
Qed.
(*EX
Example async_talk_bounded_ex :
  let t := atalk_run 5 [AType; APollClient 0; AUp 3; APollServer (mk_key x00 x00 x00 x00) 0; ADown 2] atalk_start in
  (List.length (tk_up t) + List.length (aev_bytes (et_in (tk_task t))) = 5)%nat /\
  (List.length (tk_down t) + List.length (aev_bytes (at_in (tk_client t))) = 5)%nat.
Proof. vm_compute. split; reflexivity. Qed.
EX*)

(** [C80] If what the user will say does not fill the network and the client's buffer, and "/close"
    is among it, the conversation comes to its end, however it is scheduled, once everyone has had
    enough turns. *)
Lemma async_talk_live_proof : forall cap lines ks b1 b2 rounds, Forall sayable lines -> In (ascii "/close") lines ->
  (1 <= cap)%nat -> wont_fill cap lines -> Forall all_act rounds ->
  (11 * letters lines + 157 * List.length lines + 99 <= List.length rounds)%nat ->
  tk_cend (atalk_run cap (concat rounds) (atalk_new lines ks b1 b2)) = Some TReady.
Proof.
  intros cap lines ks b1 b2 rounds HF HIn Hcap HFill HR HLen. pose proof (new_inv cap lines ks b1 b2 HF) as HI0.
  assert (line_work lines = 11 * letters lines + 157 * List.length lines)%nat as HLW.
  { clear. induction lines as [|t lines IH]; [reflexivity|]. cbn [line_work fold_right letters List.length]. fold (line_work lines) (letters lines). rewrite IH. lia. }
  assert (twork (atalk_new lines ks b1 b2) = line_work lines + 98)%nat as HT.
  { unfold twork. cbn [tk_lines tk_up tk_down tk_at tk_cend atalk_new at_work List.length].
    set (x := (cwork _ - _)%nat). vm_compute in x. set (y := (swork _ - _)%nat). vm_compute in y. subst x y. lia. }
  assert (tk_cend (atalk_run cap (concat rounds) (atalk_new lines ks b1 b2)) <> None) as HN.
  { apply (run_ends cap lines ks rounds); auto. lia. }
  pose proof (run_inv cap lines ks (concat rounds) _ HI0) as (got & ungot & ts & us0 & sent & read & unread & said & HC & HL & HSd & HK & HR2 & HD & HW & HSt & HSa & HD2 & HW2 & HE & HB1 & HB2 & HFit).
  destruct HE as [HE|[HE _]]; [contradiction|exact HE].
Qed.
(*EX
Example async_talk_live_ex : all_act atalk_round /\ wont_fill 5 atalk_lines /\
  tk_cend (atalk_run 5 (concat (repeat atalk_round 800)) atalk_start) = Some TReady.
Proof.
  assert (all_act atalk_round) as HF.
  { unfold all_act, atalk_round. repeat split; try (do 2 eexists; repeat ((left; reflexivity) || right)); try (eexists; repeat ((left; reflexivity) || right)); repeat ((left; reflexivity) || right). }
  assert (wont_fill 5 atalk_lines) as HW by (vm_compute; reflexivity).
  split; [exact HF|]. split; [exact HW|].
  apply async_talk_live; [| | |exact HW| |].
  - repeat (constructor; [split; [apply ExTac.good_text; reflexivity|vm_compute; discriminate]|]). constructor.
  - right. right. left. reflexivity.
  - repeat constructor.
  - apply Forall_forall. intros r HR. apply repeat_spec in HR. subst r. exact HF.
  - apply PeanoNat.Nat.leb_le. vm_compute. reflexivity.
Qed.
EX*)

(** [C80] Without that condition it may not: both sides wait for the other to read, and from then on
    nothing moves, whoever gets a turn: a client that says more than the network and its buffer
    hold reads nothing while it cannot write, and the server neither. *)
Lemma async_talk_live_refuted_proof : exists cap lines ks b1 b2 acts, Forall sayable lines /\ In (ascii "/close") lines /\ (1 <= cap)%nat /\
  forall more, let t := atalk_run cap (acts ++ more) (atalk_new lines ks b1 b2) in
    tk_cend t = None /\ t = atalk_run cap acts (atalk_new lines ks b1 b2).
Proof.
  set (cap := N.to_nat 1000). set (bigl := repeat x61 (N.to_nat 9600)). set (z := mk_key x00 x00 x00 x00).
  set (lines := [bigl; str "a"; bigl; str "b"; str "/close"]).
  set (c := APollClient 0). set (s := APollServer z 0). set (u := AUp cap). set (d := ADown cap).
  set (acts := [AType; AType; AType; AType; AType; c; s; d; s] ++ concat (repeat [c; u; s] 14) ++ [d]).
  exists cap, lines, (fun _ => z), 0, 0, acts. split.
  { unfold lines, bigl. repeat constructor; try (apply good_text; vm_compute; reflexivity); vm_compute; discriminate. }
  split; [do 4 right; left; reflexivity|]. split; [unfold cap; lia|].
  assert (frozen_b cap (atalk_run cap acts (atalk_new lines (fun _ => z) 0 0)) = true) as HZ by (vm_compute; reflexivity).
  intros more. rewrite run_app. rewrite (frozen_run _ _ more HZ). split; [apply (frozen_stays _ _ HZ)|reflexivity].
Qed.
(*EX
(** The lines are sent before anything is read: 8192 bytes and more wait in the client, as many in the server. *)
Example async_talk_live_refuted_ex : ~ wont_fill (N.to_nat 1000) [repeat x61 (N.to_nat 9600); str "/close"].
Proof. vm_compute. discriminate. Qed.
EX*)
