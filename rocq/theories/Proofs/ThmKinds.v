(** Two programs with clients of either kind: C98. *)
From Coq Require Import NArith ZArith String Bool List Lia.
From Coq Require Import ZifyBool ZifyNat ZifyN.
From Coq.Strings Require Import Byte.
From Verif.Model Require Import Base Io Header Mask Dataframe Utf8 Text Headers
  Message Receiver Codec Framed Connect Examples AsyncExamples ChatClient Talk Narrow AsyncChat AsyncTalk Errand Dialogue Programs Kinds.
From Verif.Spec Require Import RfcFrame FrameSpec Schedule Unicode Drive Session Connection Polled Fields Echo Chat Talking AsyncChat Errands Dialogues Queues Pairings.
From Verif.Proofs Require Import BaseFacts MaskFacts HeaderFacts FrameFacts CodecFacts ScriptFacts
  Machine Utf8Facts FramedFacts AsyncFacts ThmFrames ThmStream SessionFacts RecvFacts MessageFacts
  TextFacts ExTac ThmMessages ThmFlow ThmLimits ThmInterop ThmEcho ThmChat ThmTalk ThmNarrow AsyncTalkFacts ThmCrossed ThmErrand ThmDialogue ThmPrograms.
Import ListNotations.
Local Open Scope string_scope.
Local Open Scope list_scope.
Local Open Scope nat_scope.

(** ** An end *)
(** What it has still to write. *)
Definition owes (p : peer) : bytes := match p with Blocking u => rest1 (u_write u) | Polling a => pend (au_out a) end.
(** What it will make of what is on its way, [q]; [c]: from the client. *)
Definition takes (c : bool) (p : peer) (q : bytes) (l : list (owned * mkey)) : Prop :=
  match p with Blocking u => pipe c (u_reader u) q l | Polling a => apipe c (au_read a) [] q l end.
Definition says (c : bool) (p : peer) : Prop :=
  match p with
  | Blocking u => exists w, writer1 (u_write u) (u_writer u) = mk_writer (mk_sender c) w /\ never_fails w /\ (u_write u <> None -> rest1 (u_write u) <> [])
  | Polling a => au_busy a = false <-> pend (au_out a) = []
  end.
Definition path (cap : nat) (c : bool) (x y : peer) (net : bytes) (on : list (owned * mkey)) : Prop :=
  takes c y (net ++ owes x) on /\ says c x /\ length net <= cap.
Lemma frames_encs : forall c l, frames (negb c) l = encs (masked_frames c l).
Proof. intros c l. unfold frames. rewrite negb_involutive. reflexivity. Qed.
Lemma takes_more : forall c y q l p, takes c y q l -> sendable big (fst p) -> takes c y (q ++ encs (masked_frames c [p])) (l ++ [p]).
Proof.
  intros c [u|a] q l p H Hp; cbn [takes] in *.
  - apply pipe_write; assumption.
  - destruct H as (P1 & P2 & P3 & P4). split; [exact P1|]. split; [exact P2|]. cbn [aev_bytes app] in *. split.
    + rewrite frames_app, <- P3, <- app_assoc, frames_encs. reflexivity.
    + rewrite map_app. apply Forall_app. split; [exact P4|]. constructor; [exact Hp|constructor].
Qed.
Lemma takes_all : forall c y q l, takes c y q l -> exists b, b ++ q = encs (masked_frames c l).
Proof.
  intros c [u|a] q l H; cbn [takes] in H.
  - destruct H as (_ & _ & H & _). eexists. exact H.
  - destruct H as (_ & _ & H & _). cbn [aev_bytes app] in H. rewrite frames_encs in H. eexists. exact H.
Qed.
Lemma refused : forall server m k extra w, goes m = false -> (llen (pend w) = 0)%N ->
  exists e w', start_send server (owned_ops m) k extra w = (SErr e, w') /\ pend w' = pend w.
Proof.
  intros server m k extra w H HP. unfold start_send. unfold pend in *. rewrite HP. change (BACKPRESSURE <=? 0)%N with false. cbv iota zeta.
  assert (exists e, frame_bytes (owned_ops m) (if negb server then Some k else None) = Err e) as [e E].
  { destruct (not_sent (negb server) m k (mk_w [] []) H) as [e E]. unfold writer_send, writer_send_frame, send_frame in E. cbn [wr_sender wr_out s_mask] in E. unfold write_to in E.
    destruct (frame_bytes (owned_ops m) (if negb server then Some k else None)) as [d|e'| |]; [|eauto|discriminate E|discriminate E].
    exfalso. revert E. unfold write_all. cbn [w_script w_out]. destruct d; cbn [write_all_go io_to_ws]; discriminate. }
  unfold codec_encode. cbv zeta. rewrite E. eexists; eexists. split; [reflexivity|]. cbn [fw_buf].
  destruct (remaining_mut (fw_buf w) <? frame_size (owned_ops m) (negb server))%N; [|reflexivity]. unfold bm_reserve. destruct (_ <=? _)%N; reflexivity.
Qed.

Ltac pcbn := cbn [peer_past owes takes says u_past u_reader u_writer u_write rest1 writer1 au_past au_read au_out au_busy].
Ltac pcbn_in := cbn [peer_past owes takes says u_past u_reader u_writer u_write rest1 writer1 au_past au_read au_out au_busy] in *.
Lemma says_free : forall c p, says c p -> peer_free p -> owes p = [].
Proof. intros c [u|a] H F; cbn [peer_free owes says] in *; [unfold free in F; rewrite F; reflexivity|apply H; exact F]. Qed.
Lemma turned : forall c f k e m a, (au_busy a = false <-> pend (au_out a) = []) -> au_busy a = false -> f (au_past a) = Some (Say m) -> minds f ->
  exists w', pend w' = pend (au_out a) ++ (if goes m then frames (negb c) [(m, k)] else []) /\
    auser_turn (negb c) f k e a = Some (mk_auser (au_past a ++ [if goes m then Said m else NotSaid m]) (au_read a) w' (goes m)).
Proof.
  intros c f k e m [past rd w busy] HB HF EF M. pcbn_in. destruct (M _ _ EF) as [HT HS]. apply HB in HF as HP. unfold auser_turn. pcbn. rewrite HF, EF.
  destruct (goes m) eqn:EG.
  - destruct (start_send (negb c) (owned_ops m) k e (with_room 0 2 w)) as [x w'] eqn:E.
    destruct (send_sink (negb c) m k e 0 1 (with_room 0 2 w) _ _ (goes_sendable m HT HS EG) (conj eq_refl eq_refl) E) as (d & r' & k' & S1 & S2 & S3 & S4 & S5).
    assert (d = []) as -> by (destruct d; [reflexivity|discriminate S4]). destruct S5 as [[-> S5]|(-> & S5 & _ & S6 & _)].
    + exists (no_room w'). split; [symmetry; exact S5|reflexivity].
    + exfalso. cbn [app] in S5. rewrite <- S5 in S6. change (pend (with_room 0 2 w)) with (pend w) in S6. rewrite HP in S6. unfold llen in S6. cbn in S6. lia.
  - destruct (refused (negb c) m k e (with_room 0 2 w) EG) as (er & w' & E1 & E2).
    { change (pend (with_room 0 2 w)) with (pend w). rewrite HP. reflexivity. }
    rewrite E1. exists (no_room w'). split; [rewrite app_nil_r; exact E2|reflexivity].
Qed.

Lemma p_turn_step : forall cap c f k e x y out inn x' o ux uy, minds f -> path cap c x y out ux -> path cap (negb c) y x inn uy ->
  peer_turn c f k e inn x = Some (x', o) ->
  o = [] /\ exists ux' uy', path cap c x' y out ux' /\ path cap (negb c) y x' inn uy' /\
    deed_done f (peer_past x) (map fst ux) (map fst uy) = Some (peer_past x', map fst ux', map fst uy').
Proof.
  intros cap c f k e [[past rd wr wt]|a] y out inn x' o ux uy HF (H1 & W1 & B1) (H2 & W2 & B2) H; unfold path; cbn [peer_turn] in H.
  - destruct (user_turn f k inn (mk_user past rd wr wt)) as [[u' o']|] eqn:EU; [|discriminate H]. injection H as <- <-. rename EU into H. unfold user_turn in H. unfold deed_done. pcbn_in. destruct wt as [b|]; [discriminate H|].
    destruct (f past) as [[m|]|] eqn:EF; [| |discriminate H].
    + destruct (HF _ _ EF) as [HT HS]. destruct W1 as (w & HW & HN & _). pcbn_in. subst wr. destruct (goes m) eqn:EG.
      * pose proof (goes_sendable m HT HS EG) as Hm. destruct (sends c m k w HN (big_sendable m Hm)) as (w' & A1 & A2 & A3). rewrite A1 in H. injection H as <- <-.
        rewrite (written_eq (mk_sender c) (mk_sender c) w w' _ A2). pose proof (one_length c m k) as HL. split; [reflexivity|].
        exists (ux ++ [(m, k)]), uy. pcbn. rewrite app_nil_r in H1. split; [|split; [auto|rewrite map_app; reflexivity]]. split; [apply (takes_more _ _ _ _ (m, k)); assumption|]. split; [|exact B1].
        exists w'. split; [reflexivity|]. split; [exact A3|]. intros _ E. rewrite E in HL. cbn [length] in HL. lia.
      * destruct (not_sent c m k w EG) as [er E]. rewrite E in H. injection H as <- <-. rewrite written_same. split; [reflexivity|]. exists ux, uy. pcbn. split; [|split; [auto|reflexivity]].
        split; [exact H1|]. split; [|exact B1]. exists w. split; [reflexivity|]. split; [exact HN|]. intros X. contradiction X. reflexivity.
    + destruct (pipe_read _ _ _ _ H2) as [(m & k0 & l' & r' & E1 & E2 & E3 & E4)|(E1 & E2)].
      * rewrite E2 in H. cbn [must_wait] in H. injection H as <- <-. split; [reflexivity|]. exists ux, l'. subst uy. pcbn. auto.
      * exfalso. destruct (reader_recv rd) as [b r']. cbn [fst] in E1. subst b. discriminate H.
  - destruct (auser_turn (negb c) f k e a) as [a'|] eqn:E; [|discriminate H]. injection H as <- <-. split; [reflexivity|]. pose proof E as E'. unfold auser_turn in E'.
    destruct (au_busy a) eqn:EB; [discriminate E'|]. destruct (f (au_past a)) as [[m|]|] eqn:EF; try discriminate E'. clear E'.
    cbn [says] in W1. destruct (turned c f k e m a W1 EB EF HF) as (w' & P1 & P2). rewrite P2 in E. injection E as <-. destruct (HF _ _ EF) as [HT HS].
    pose proof (proj1 W1 EB) as HP. rewrite HP in P1. cbn [app] in P1. unfold deed_done. pcbn_in. rewrite EF, HP, app_nil_r in *. destruct (goes m) eqn:EG.
    + exists (ux ++ [(m, k)]), uy. split; [|split; [auto|rewrite map_app; reflexivity]]. rewrite P1, frames_encs.
      split; [apply (takes_more _ _ _ _ (m, k)); [exact H1|apply goes_sendable; assumption]|]. split; [|exact B1].
      pose proof (one_length c m k) as HL. split; [discriminate|]. intros X. rewrite X in HL. cbn [length] in HL. lia.
    + exists ux, uy. split; [|split; [auto|reflexivity]]. rewrite P1, app_nil_r. split; [exact H1|]. split; [|exact B1]. split; reflexivity.
Qed.

Lemma sent : forall cap n q a, (au_busy a = false <-> pend (au_out a) = []) ->
  match auser_send cap n q a with
  | Some (a', q') => exists d w', q' = q ++ d /\ pend (au_out a) = d ++ pend w' /\ length d <= Nat.min n (cap - length q) /\
      exists b, a' = mk_auser (au_past a) (au_read a) w' b /\ (b = false <-> pend w' = [])
  | None => au_busy a = false \/ Nat.min n (cap - length q) = 0
  end.
Proof.
  intros cap n q [past rd w busy] HB. pcbn_in. unfold auser_send. pcbn. destruct busy; [|left; reflexivity]. set (r := Nat.min n (cap - length q)).
  destruct (poll_complete (with_room r 1 w)) as [x w'] eqn:E. destruct (flush_sink r 0 (with_room r 1 w) _ _ (conj eq_refl eq_refl) E) as (d & r' & k' & S1 & S2 & S3 & S4 & S5 & S6 & _).
  assert (awritten w w' = d) as HW.
  { unfold awritten. rewrite S3. cbn [with_room fw_out]. rewrite skipn_app, skipn_all, Nat.sub_diag. reflexivity. }
  change (pend (with_room r 1 w)) with (pend w) in S4. destruct S6 as [[-> S6]|(-> & S6 & S7)].
  - rewrite HW. exists d, (no_room w'). split; [reflexivity|]. split; [exact S4|]. split; [lia|]. eexists. split; [reflexivity|]. split; [intros _; exact S6|reflexivity].
  - rewrite HW. destruct d as [|b d]; [right; cbn [length] in S5; lia|]. exists (b :: d), (no_room w'). split; [reflexivity|]. split; [exact S4|]. split; [lia|]. eexists. split; [reflexivity|].
    split; [discriminate|]. intros X. contradiction (S7 X).
Qed.
Lemma p_send_step : forall cap c n x y out inn x' q' ux uy, path cap c x y out ux -> path cap (negb c) y x inn uy ->
  peer_send cap n out x = Some (x', q') -> path cap c x' y q' ux /\ path cap (negb c) y x' inn uy /\ peer_past x' = peer_past x.
Proof.
  intros cap c n [[past rd wr wt]|a] y out inn x' q' ux uy (H1 & W1 & B1) (H2 & W2 & B2) H; unfold path; cbn [peer_send] in H.
  - destruct (user_send cap n out (mk_user past rd wr wt)) as [[u' o']|] eqn:EU; [|discriminate H]. injection H as <- <-. rename EU into H. unfold user_send in H. pcbn_in. destruct wt as [[w' o]|]; [|discriminate H]. pose proof (firstn_skipn (Nat.min n (cap - length out)) o) as HO.
    assert (length (firstn (Nat.min n (cap - length out)) o) <= cap - length out) as HF by (rewrite firstn_length; lia).
    destruct (firstn (Nat.min n (cap - length out)) o) as [|b now]; [discriminate H|]. injection H as <- <-.
    set (later := skipn _ o) in *. clearbody later. subst o.
    assert (rest1 (match later with [] => None | y :: l => Some (w', y :: l) end) = later) as HL by (destruct later; reflexivity).
    pcbn. split; [|split; [auto|reflexivity]]. destruct W1 as (w & HW & HN & HWr). pcbn_in.
    split; [rewrite HL, <- app_assoc; exact H1|]. split; [|rewrite app_length; lia]. exists w. split; [destruct later; exact HW|]. split; [exact HN|].
    rewrite HL. destruct later; [intros X; contradiction X; reflexivity|discriminate].
  - cbn [says] in W1. pose proof (sent cap n out a W1) as HS. destruct (auser_send cap n out a) as [[a' q]|]; [|discriminate H]. injection H as <- <-.
    destruct HS as (d & w' & -> & P1 & P2 & b & -> & P3). pcbn_in. split; [|auto]. split; [rewrite <- app_assoc, <- P1; exact H1|]. split; [exact P3|]. rewrite app_length. lia.
Qed.

Lemma polled : forall c f n q rest a l, apipe c (au_read a) [] (q ++ rest) l -> au_busy a = false -> f (au_past a) = Some Hear ->
  (exists m k l' q' r', l = (m, k) :: l' /\ auser_read f n q a = Some (mk_auser (au_past a ++ [Heard m]) r' (au_out a) false, q') /\ apipe c r' [] (q' ++ rest) l' /\ length q' <= length q) \/
  (exists r', apipe c r' [] (skipn n q ++ rest) l /\ (l = [] \/ skipn n q ++ rest <> []) /\
    auser_read f n q a = match firstn n q with [] => None | _ => Some (mk_auser (au_past a) r' (au_out a) false, skipn n q) end).
Proof.
  intros c f n q rest [past rd w busy] l (P1 & P2 & P3 & P4) HB HF. pcbn_in. unfold auser_read. pcbn. rewrite HB, HF. set (s := can_read false 1 (apiece n q)).
  assert (aev_bytes s = firstn n q) as HS.
  { unfold s, can_read, apiece. rewrite aev_app. cbn [repeat aev_bytes]. rewrite app_nil_r. destruct (firstn n q) as [|b bs]; cbn [aev_bytes]; rewrite ?app_nil_r; reflexivity. }
  assert (no_error s) as HE.
  { unfold s, can_read. apply no_error_waits. unfold apiece. destruct (firstn n q); repeat constructor. }
  assert (~ all_data s) as HD.
  { unfold s, can_read. intros X. apply Forall_app in X as [_ X]. inversion X. discriminate. }
  assert (apipe c rd s (skipn n q ++ rest) l) as HA.
  { split; [exact P1|]. split; [exact P2|]. split; [|exact P4]. rewrite HS, (app_assoc (firstn n q)), firstn_skipn. exact P3. }
  pose proof (apipe_poll _ _ _ _ _ HA HE) as HP. destruct (framed_poll mc_decode s rd) as [[[m| | |er| |] r'] s']; try contradiction.
  - left. destruct HP as (k & l' & used & -> & _ & (A1 & A2 & A3 & A4) & U1 & U2 & _). exists m, k, l', (aev_bytes s' ++ skipn n q), r'. split; [reflexivity|]. split; [reflexivity|]. split.
    + split; [exact A1|]. split; [exact A2|]. split; [|exact A4]. cbn [aev_bytes app]. rewrite <- app_assoc. exact A3.
    + rewrite U1, aev_app in HS. rewrite <- (firstn_skipn n q) at 2. rewrite <- HS, !app_length. lia.
  - destruct HP as [X _]. contradiction.
  - right. destruct HP as (used & (A1 & A2 & A3 & A4) & U1 & U2 & U3 & U4).
    assert (used = apiece n q /\ s' = []) as [-> ->].
    { unfold s, can_read in U1. destruct (waits_split (apiece n q) 1 used s') as (X & Y & _); [unfold apiece; destruct (firstn n q); repeat constructor|exact U2|exact U1|]. auto. }
    exists r'. cbn [aev_bytes app] in *. split; [exact (conj A1 (conj A2 (conj A3 A4)))|]. split; [|reflexivity].
    destruct (buf_cases c _ _ _ A3 A4) as [(m & k & l' & x & -> & B0 & B1 & B2)|[_ B]]; [|exact B].
    exfalso. unfold partial in U3. rewrite B1, decode_whole in U3 by exact B0. discriminate U3.
  - destruct HP as [X _]. contradiction.
Qed.
Lemma p_read_step : forall cap c f n x y out inn x' q' ux uy, path cap c x y out ux -> path cap (negb c) y x inn uy ->
  peer_read f n inn x = Some (x', q') -> path cap c x' y out ux /\
  (path cap (negb c) y x' q' uy /\ peer_past x' = peer_past x \/
   exists uy', path cap (negb c) y x' q' uy' /\ deed_done f (peer_past x) (map fst ux) (map fst uy) = Some (peer_past x', map fst ux, map fst uy')).
Proof.
  intros cap c f n [[past rd wr wt]|a] y out inn x' q' ux uy (H1 & W1 & B1) (H2 & W2 & B2) H; unfold path; cbn [peer_read] in H.
  - destruct (user_read f n inn (mk_user past rd wr wt)) as [[u' o']|] eqn:EU; [|discriminate H]. injection H as <- <-. rename EU into H. unfold user_read in H. pcbn_in. destruct wt as [b|]; [discriminate H|].
    destruct (f past) as [[m|]|]; try discriminate H. destruct (lacks rd); [|discriminate H]. destruct (arrive n inn rd) as [[r' q0]|] eqn:EA; [|discriminate H]. injection H as <- <-.
    pcbn. split; [auto|]. left. split; [|reflexivity].
    unfold arrive in EA. pose proof (firstn_skipn n inn) as HQ. destruct (firstn n inn) as [|b bs]; [discriminate EA|]. injection EA as <- <-.
    assert (length inn = S (length bs) + length (skipn n inn)) as HL by (rewrite <- HQ at 1; rewrite app_length; reflexivity).
    split; [|split; [exact W2|lia]]. destruct H2 as (P1 & P2 & P3 & P4). split; [exact P1|]. cbn [rd_receiver rd_buf rd_in].
    split; [apply Forall_app; split; [exact P2|constructor; [exact I|constructor]]|]. split; [|exact P4].
    rewrite flat_app. cbn [flat]. rewrite app_nil_r, <- P3. rewrite <- HQ at 2. rewrite <- !app_assoc. reflexivity.
  - destruct (auser_read f n inn a) as [[a' q]|] eqn:E; [|discriminate H]. injection H as <- <-. pose proof E as E'. unfold auser_read in E'. destruct (au_busy a) eqn:EB; [discriminate E'|].
    destruct (f (au_past a)) as [[m|]|] eqn:EF; try discriminate E'. clear E'. cbn [takes] in H2. unfold deed_done. pcbn_in. rewrite EF.
    destruct (polled _ f n _ _ a _ H2 EB EF) as [(m & k & l' & q' & r' & -> & E1 & E2 & E3)|(r' & E1 & _ & E2)].
    + rewrite E1 in E. injection E as <- <-. split; [rewrite EB in W1; auto|]. right. exists l'. pcbn. split; [|reflexivity]. split; [exact E2|]. split; [exact W2|lia].
    + rewrite E2 in E. destruct (firstn n inn) as [|b bs] eqn:EN; [discriminate E|]. injection E as <- <-. split; [rewrite EB in W1; auto|]. left. pcbn. split; [|reflexivity]. split; [exact E1|]. split; [exact W2|].
      rewrite skipn_length. lia.
Qed.

(** ** The whole *)
Definition pairing_inv (cap : nat) (t : pairing) (s : queues) : Prop :=
  q_past1 s = peer_past (p_client t) /\ q_past2 s = peer_past (p_server t) /\
  exists ux uy, path cap true (p_client t) (p_server t) (p_up t) ux /\ path cap false (p_server t) (p_client t) (p_down t) uy /\
    q_up s = map fst ux /\ q_down s = map fst uy.
Lemma pairing_inv_step : forall cap f1 f2 a t t' s, minds f1 -> minds f2 -> pairing_inv cap t s -> pairing_step f1 f2 cap a t = Some t' ->
  exists turns, pairing_inv cap t' (queue_run f1 f2 turns s).
Proof.
  intros cap f1 f2 a [x y out inn] t' [p1 p2 u d] M1 M2 (P1 & P2 & ux & uy & W1 & W2 & Q1 & Q2) E. cbn [p_client p_server p_up p_down q_past1 q_past2 q_up q_down] in *. subst p1 p2 u d.
  destruct a as [[] k e|[] n|[] n]; cbn [pairing_step] in E.
  - destruct (peer_turn true f1 k e inn x) as [[x' o]|] eqn:EP; [|discriminate E]. injection E as <-. destruct (p_turn_step cap true _ _ _ _ _ _ _ _ _ _ _ M1 W1 W2 EP) as (-> & ux' & uy' & A & B & C).
    exists [true]. cbn [queue_run queue_step]. rewrite C. split; [reflexivity|]. split; [reflexivity|]. exists ux', uy'. cbn [p_client p_server p_up p_down q_up q_down]. rewrite app_nil_r. auto.
  - destruct (peer_turn false f2 k e out y) as [[x' o]|] eqn:EP; [|discriminate E]. injection E as <-. destruct (p_turn_step cap false _ _ _ _ _ _ _ _ _ _ _ M2 W2 W1 EP) as (-> & ux' & uy' & A & B & C).
    exists [false]. cbn [queue_run queue_step]. rewrite C. split; [reflexivity|]. split; [reflexivity|]. exists uy', ux'. cbn [p_client p_server p_up p_down q_up q_down]. rewrite app_nil_r. auto.
  - destruct (peer_send cap n out x) as [[x' o]|] eqn:EP; [|discriminate E]. injection E as <-. destruct (p_send_step cap true _ _ _ _ _ _ _ _ _ W1 W2 EP) as (A & B & C).
    exists []. split; [symmetry; exact C|]. split; [reflexivity|]. exists ux, uy. auto.
  - destruct (peer_send cap n inn y) as [[x' o]|] eqn:EP; [|discriminate E]. injection E as <-. destruct (p_send_step cap false _ _ _ _ _ _ _ _ _ W2 W1 EP) as (A & B & C).
    exists []. split; [reflexivity|]. split; [symmetry; exact C|]. exists ux, uy. auto.
  - destruct (peer_read f1 n inn x) as [[x' o]|] eqn:EP; [|discriminate E]. injection E as <-. destruct (p_read_step cap true _ _ _ _ _ _ _ _ _ _ W1 W2 EP) as (A & [[B C]|(uy' & B & C)]).
    + exists []. split; [symmetry; exact C|]. split; [reflexivity|]. exists ux, uy. auto.
    + exists [true]. cbn [queue_run queue_step]. rewrite C. split; [reflexivity|]. split; [reflexivity|]. exists ux, uy'. auto.
  - destruct (peer_read f2 n out y) as [[x' o]|] eqn:EP; [|discriminate E]. injection E as <-. destruct (p_read_step cap false _ _ _ _ _ _ _ _ _ _ W2 W1 EP) as (A & [[B C]|(uy' & B & C)]).
    + exists []. split; [reflexivity|]. split; [symmetry; exact C|]. exists ux, uy. auto.
    + exists [false]. cbn [queue_run queue_step]. rewrite C. split; [reflexivity|]. split; [reflexivity|]. exists uy', uy. auto.
Qed.
Lemma pairing_run_app : forall f1 f2 cap a b t, pairing_run f1 f2 cap (a ++ b) t = pairing_run f1 f2 cap b (pairing_run f1 f2 cap a t).
Proof. intros f1 f2 cap. induction a as [|c a IH]; intros b t; [reflexivity|]. cbn [app pairing_run]. apply IH. Qed.
Lemma pairing_inv_run : forall cap f1 f2 acts t s, minds f1 -> minds f2 -> pairing_inv cap t s -> exists turns, pairing_inv cap (pairing_run f1 f2 cap acts t) (queue_run f1 f2 turns s).
Proof.
  intros cap f1 f2. induction acts as [|a acts IH]; intros t s M1 M2 H; [exists []; exact H|]. cbn [pairing_run]. destruct (pairing_step f1 f2 cap a t) as [t'|] eqn:E; [|auto].
  destruct (pairing_inv_step _ _ _ _ _ _ _ M1 M2 H E) as [turns H']. destruct (IH _ _ M1 M2 H') as [turns' H'']. exists (turns ++ turns'). rewrite queue_run_app. exact H''.
Qed.
Lemma path_new : forall cap c s1 s2, works s1 -> path cap c (peer_new c s1) (peer_new (negb c) s2) [] [].
Proof.
  intros cap c s1 s2 H. split; [|split; [|cbn [length]; lia]].
  - assert (owes (peer_new c s1) = []) as -> by (destruct s1; reflexivity). destruct s2 as [w|b]; cbn [peer_new takes].
    + split; [reflexivity|]. split; [constructor|]. split; [reflexivity|constructor].
    + split; [destruct c; reflexivity|]. split; [apply fr_inv_new_mc|]. split; [reflexivity|constructor].
  - destruct s1 as [w|b]; cbn [peer_new says user_new u_write u_writer].
    + exists w. split; [reflexivity|]. split; [exact H|]. intros X. contradiction X. reflexivity.
    + split; reflexivity.
Qed.
Lemma pairing_inv_new : forall cap s1 s2, works s1 -> works s2 -> pairing_inv cap (pairing_new s1 s2) queues_new.
Proof.
  intros cap s1 s2 H1 H2. split; [destruct s1; reflexivity|]. split; [destruct s2; reflexivity|]. exists [], [].
  split; [apply (path_new cap true); exact H1|]. split; [apply (path_new cap false); exact H2|]. split; reflexivity.
Qed.

(** ** At rest *)
Lemma p_rests : forall cap f x y out inn ux uy c k e n1 n2, 1 <= cap -> minds f -> path cap c x y out ux -> path cap (negb c) y x inn uy ->
  peer_turn c f k e inn x = None -> peer_send cap (S n1) out x = None -> peer_read f (S n2) inn x = None ->
  ~ peer_free x /\ length out = cap \/
  peer_free x /\ f (peer_past x) = None \/
  peer_free x /\ f (peer_past x) = Some Hear /\ inn = [] /\ (peer_free y -> uy = []).
Proof.
  intros cap f [[past rd wr wt]|a] y out inn ux uy c k e n1 n2 Hcap M (H1 & W1 & B1) (H2 & W2 & B2) S1 S2 S3; cbn [peer_turn peer_send peer_read] in S1, S2, S3.
  - assert (user_turn f k inn (mk_user past rd wr wt) = None) as T1 by (destruct (user_turn f k inn (mk_user past rd wr wt)) as [[? ?]|]; [discriminate S1|reflexivity]).
    assert (user_send cap (S n1) out (mk_user past rd wr wt) = None) as T2 by (destruct (user_send cap (S n1) out (mk_user past rd wr wt)) as [[? ?]|]; [discriminate S2|reflexivity]).
    assert (user_read f (S n2) inn (mk_user past rd wr wt) = None) as T3 by (destruct (user_read f (S n2) inn (mk_user past rd wr wt)) as [[? ?]|]; [discriminate S3|reflexivity]).
    clear S1 S2 S3. destruct W1 as (w & HW & HN & HWr). unfold user_turn in T1. unfold user_send in T2. unfold user_read in T3. unfold peer_free at 1 2 3, free. pcbn_in. destruct wt as [[w0 o]|].
    + left. split; [discriminate|]. specialize (HWr ltac:(discriminate)). pcbn_in. destruct (Nat.eq_dec (length out) cap) as [E|E]; [exact E|exfalso].
      destruct (firstn (Nat.min (S n1) (cap - length out)) o) eqn:EF; [|discriminate T2]. revert EF. apply push_stuck; [lia|exact HWr].
    + right. destruct (f past) as [[m|]|]; [|right|left; auto].
      * exfalso. destruct (writer_send m k wr) as [[z|er| |] w1]; discriminate T1.
      * split; [reflexivity|]. split; [reflexivity|]. destruct (pipe_read _ _ _ _ H2) as [(m & k0 & l' & r' & E1 & E2 & _)|(E1 & E2)]; [rewrite E2 in T1; discriminate T1|].
        assert (lacks rd = true) as HL by (unfold lacks; rewrite E1; reflexivity). rewrite HL in T3. destruct inn; [|discriminate T3]. split; [reflexivity|].
        intros EY. rewrite (says_free _ _ W2 EY) in E2. destruct E2 as [E2|E2]; [exact E2|contradiction E2; reflexivity].
  - cbn [says] in W1. unfold peer_free at 1 2 3. pose proof (sent cap (S n1) out a W1) as HS. destruct (auser_send cap (S n1) out a) as [[? ?]|]; [discriminate S2|]. destruct (au_busy a) eqn:EB.
    + left. split; [discriminate|]. destruct HS as [HS|HS]; [discriminate HS|]. lia.
    + right. pcbn_in. destruct (f (au_past a)) as [[m|]|] eqn:EF; [|right|left; auto].
      * exfalso. destruct (turned c f k e m a (conj (fun _ => proj1 W1 eq_refl) (fun _ => EB)) EB EF M) as (w' & _ & E). rewrite E in S1. discriminate S1.
      * split; [reflexivity|]. split; [reflexivity|]. destruct (polled _ f (S n2) _ _ a _ H2 EB EF) as [(m & k0 & l' & q' & r' & _ & E & _)|(r' & _ & E1 & E2)]; [rewrite E in S3; discriminate S3|].
        rewrite E2 in S3. destruct inn as [|b inn]; [|discriminate S3]. split; [reflexivity|]. intros EY. rewrite (says_free _ _ W2 EY) in E1. cbn [skipn app] in E1.
        destruct E1 as [E1|E1]; [exact E1|contradiction E1; reflexivity].
Qed.
Lemma pairing_none : forall f1 f2 cap k e n x y out inn, pairing_rests f1 f2 cap (mk_pairing x y out inn) ->
  peer_turn true f1 k e inn x = None /\ peer_send cap n out x = None /\ peer_read f1 n inn x = None /\
  peer_turn false f2 k e out y = None /\ peer_send cap n inn y = None /\ peer_read f2 n out y = None.
Proof.
  intros f1 f2 cap k e n x y out inn H. pose proof (H (PTurn true k e)) as H1. pose proof (H (PSend true n)) as H2. pose proof (H (PRead true n)) as H3.
  pose proof (H (PTurn false k e)) as H4. pose proof (H (PSend false n)) as H5. pose proof (H (PRead false n)) as H6. cbn [pairing_step] in *.
  repeat match goal with H : match ?X with _ => _ end = None |- _ => destruct X as [[? ?]|]; [discriminate H|] end. repeat split; auto.
Qed.
Lemma pairing_final : forall f1 f2 cap t s, 1 <= cap -> minds f1 -> minds f2 -> pairing_inv cap t s -> pairing_rests f1 f2 cap t -> peer_free (p_client t) -> peer_free (p_server t) ->
  forall c, queue_step f1 f2 c s = None.
Proof.
  intros f1 f2 cap [x y out inn] [p1 p2 u d] Hcap M1 M2 (P1 & P2 & ux & uy & W1 & W2 & Q1 & Q2) HR F1 F2 c. cbn [p_client p_server p_up p_down q_past1 q_past2 q_up q_down] in *. subst p1 p2 u d.
  set (k := mk_key x00 x00 x00 x00). destruct (pairing_none _ _ _ k 0%N 1 _ _ _ _ HR) as (S1 & S2 & S3 & S4 & S5 & S6).
  pose proof (p_rests cap f1 x y out inn ux uy true k 0%N 0 0 Hcap M1 W1 W2 S1 S2 S3) as A. pose proof (p_rests cap f2 y x inn out uy ux false k 0%N 0 0 Hcap M2 W2 W1 S4 S5 S6) as B.
  cbn [queue_step]. unfold deed_done. destruct c.
  - destruct A as [[A _]|[[_ ->]|(_ & -> & _ & A)]]; [contradiction|reflexivity|]. rewrite (A F2). reflexivity.
  - destruct B as [[B _]|[[_ ->]|(_ & -> & _ & B)]]; [contradiction|reflexivity|]. rewrite (B F1). reflexivity.
Qed.

(** ** Whatever queues do, the connection can do *)
Lemma p_real : forall cap c f k x y out inn ux uy past' mine' theirs', minds f -> path cap c x y out ux -> path cap (negb c) y x inn uy -> peer_free x -> peer_free y ->
  deed_done f (peer_past x) (map fst ux) (map fst uy) = Some (past', mine', theirs') -> szc c mine' <= cap ->
  exists x' out' inn' ux' uy', path cap c x' y out' ux' /\ path cap (negb c) y x' inn' uy' /\ peer_free x' /\ peer_past x' = past' /\ map fst ux' = mine' /\ map fst uy' = theirs' /\
    ((exists x1, peer_turn c f k 0 inn x = Some (x1, []) /\ peer_send cap (S cap) out x1 = Some (x', out') /\ inn' = inn) \/
     (peer_turn c f k 0 inn x = Some (x', []) /\ out' = out /\ inn' = inn) \/
     (exists x1, peer_read f (S (length inn)) inn x = Some (x1, inn') /\ peer_turn c f k 0 inn' x1 = Some (x', []) /\ out' = out) \/
     (peer_read f (S (length inn)) inn x = Some (x', inn') /\ out' = out)).
Proof.
  intros cap c f k x y out inn ux uy past' mine' theirs' HF H1 H2 HX HY HD HC.
  assert (forall x' , peer_turn c f k 0 inn x = Some (x', []) -> exists ux' uy', path cap c x' y out ux' /\ path cap (negb c) y x' inn uy' /\ peer_past x' = past' /\ map fst ux' = mine' /\ map fst uy' = theirs') as HT.
  { intros x' E. destruct (p_turn_step _ _ _ _ _ _ _ _ _ _ _ _ _ HF H1 H2 E) as (_ & ux' & uy' & A & B & C). rewrite HD in C. injection C as -> -> ->. exists ux', uy'. auto. }
  pose proof H2 as (K2 & S2 & _). rewrite (says_free _ _ S2 HY), app_nil_r in K2.
  destruct (f (peer_past x)) as [[m|]|] eqn:EF.
  - destruct (HF _ _ EF) as [HTy HS].
    assert (exists x1, peer_turn c f k 0 inn x = Some (x1, []) /\ (goes m = true -> owes x1 <> []) /\ (goes m = false -> peer_free x1)) as (x1 & E1 & E2 & E3).
    { destruct H1 as (_ & W & _). destruct x as [[past rd wr wt]|a]; cbn [peer_turn].
      - destruct W as (w & HW & HN & _). cbn [peer_free] in HX. unfold free in HX. pcbn_in. subst wt. cbn [writer1] in HW. subst wr. unfold user_turn. pcbn. rewrite EF. destruct (goes m) eqn:EG.
        + destruct (sends c m k w HN (big_sendable m (goes_sendable m HTy HS EG))) as (w' & W1 & W2 & _). rewrite W1. eexists. split; [reflexivity|]. split; [|discriminate].
          intros _. pcbn. rewrite (written_eq (mk_sender c) (mk_sender c) w w' _ W2). intros X. pose proof (one_length c m k) as HL. rewrite X in HL. cbn [length] in HL. lia.
        + destruct (not_sent c m k w EG) as [er ->]. rewrite written_same. eexists. split; [reflexivity|]. split; [discriminate|]. reflexivity.
      - cbn [says peer_free peer_past] in *. destruct (turned c f k 0%N m a W HX EF HF) as (w' & P1 & P2). rewrite P2. eexists. split; [reflexivity|]. pcbn. destruct (goes m).
        + split; [|discriminate]. intros _ X. rewrite P1, (proj1 W HX), frames_encs in X. cbn [app] in X. pose proof (one_length c m k) as HL. rewrite X in HL. cbn [length] in HL. lia.
        + split; [discriminate|]. reflexivity. }
    destruct (HT _ E1) as (ux' & uy' & A & B & C1 & C2 & C3). destruct (goes m) eqn:EG.
    + specialize (E2 eq_refl).
      assert (exists x', peer_send cap (S cap) out x1 = Some (x', out ++ owes x1) /\ peer_free x') as (x' & E4 & E5).
      { pose proof A as (K & W & _). destruct (takes_all _ _ _ _ K) as [b E]. apply (f_equal (@length byte)) in E. rewrite szc_len, C2, !app_length in E. clear K.
        destruct x1 as [[past rd wr wt]|a]; cbn [peer_send].
        - unfold user_send. pcbn_in. destruct wt as [[w0 o]|]; [|contradiction E2; reflexivity]. cbn [rest1] in *. cbv zeta. rewrite firstn_all2, skipn_all2 by lia. destruct o as [|b0 o]; [contradiction E2; reflexivity|].
          eexists. split; reflexivity.
        - cbn [says owes] in *. pose proof (sent cap (S cap) out a W) as HSe. assert (length (pend (au_out a)) <> 0) as HL by (destruct (pend (au_out a)); [contradiction E2; reflexivity|discriminate]).
          unfold auser_send in *. destruct (au_busy a) eqn:EB; [|exfalso; apply E2; apply W; reflexivity].
          destruct (poll_complete (with_room (Nat.min (S cap) (cap - length out)) 1 (au_out a))) as [z w'] eqn:EP.
          destruct (flush_sink _ 0 (with_room (Nat.min (S cap) (cap - length out)) 1 (au_out a)) _ _ (conj eq_refl eq_refl) EP) as (d & r' & k' & F1 & F2 & F3 & F4 & F5 & F6 & _).
          change (pend (with_room (Nat.min (S cap) (cap - length out)) 1 (au_out a))) with (pend (au_out a)) in F4.
          destruct F6 as [[-> F6]|(-> & F6 & F7)].
          + rewrite F6, app_nil_r in F4. unfold awritten. rewrite F3. cbn [with_room fw_out]. rewrite skipn_app, skipn_all, Nat.sub_diag. cbn [skipn app]. rewrite <- F4. eexists. split; [reflexivity|reflexivity].
          + exfalso. rewrite F4, app_length in E. destruct (pend w'); [contradiction F7; reflexivity|]. cbn [length] in E. lia. }
      destruct (p_send_step _ _ _ _ _ _ _ _ _ _ _ A B E4) as (A' & B' & C'). exists x', (out ++ owes x1), inn, ux', uy'.
      split; [exact A'|]. split; [exact B'|]. split; [exact E5|]. split; [congruence|]. split; [exact C2|]. split; [exact C3|]. left. eauto.
    + exists x1, out, inn, ux', uy'. split; [exact A|]. split; [exact B|]. split; [apply E3; reflexivity|]. split; [exact C1|]. split; [exact C2|]. split; [exact C3|]. right. left. auto.
  - assert (exists m k0 l, uy = (m, k0) :: l) as (m & k0 & l & Euy).
    { unfold deed_done in HD. rewrite EF in HD. destruct uy as [|[m k0] l]; [discriminate HD|eauto]. }
    destruct x as [[past rd wr wt]|a].
    + cbn [takes peer_free] in *. unfold free in HX. pcbn_in. subst wt. destruct (pipe_read _ _ _ _ K2) as [(m1 & k1 & l' & r' & E1 & E2 & _)|(E1 & E2)].
      * assert (exists x', peer_turn c f k 0 inn (Blocking (mk_user past rd wr None)) = Some (x', []) /\ peer_free x') as (x' & E3 & E4).
        { cbn [peer_turn]. unfold user_turn. pcbn. rewrite EF, E2. cbn [must_wait]. eexists. split; reflexivity. }
        destruct (HT _ E3) as (ux' & uy' & A & B & C1 & C2 & C3). exists x', out, inn, ux', uy'. split; [exact A|]. split; [exact B|]. split; [exact E4|]. split; [exact C1|]. split; [exact C2|]. split; [exact C3|]. right. left. auto.
      * assert (inn <> []) as HI. { intros ->. destruct E2 as [E2|E2]; [subst uy; discriminate E2|contradiction E2; reflexivity]. }
        assert (lacks rd = true) as HL by (unfold lacks; rewrite E1; reflexivity).
        assert (exists r1, peer_read f (S (length inn)) inn (Blocking (mk_user past rd wr None)) = Some (Blocking (mk_user past r1 wr None), [])) as (r1 & R1).
        { cbn [peer_read]. unfold user_read. pcbn. rewrite EF, HL. unfold arrive. rewrite firstn_all2, skipn_all2 by lia. destruct inn as [|b bs]; [contradiction HI; reflexivity|]. eexists. reflexivity. }
        destruct (p_read_step _ _ _ _ _ _ _ _ _ _ _ _ H1 H2 R1) as (A1 & [[B1 _]|(uy1 & _ & X)]).
        2:{ exfalso. cbn [peer_past u_past] in X. unfold deed_done in X. rewrite EF in X. subst uy. cbn [map fst] in X. injection X as X _. apply (f_equal (@length happening)) in X. rewrite app_length in X. cbn in X. lia. }
        assert (exists x', peer_turn c f k 0 [] (Blocking (mk_user past r1 wr None)) = Some (x', []) /\ peer_free x') as (x' & E3 & E4).
        { destruct B1 as (K3 & _). rewrite (says_free _ _ S2 HY), app_nil_r in K3. cbn [takes u_reader] in K3. destruct (pipe_read _ _ _ _ K3) as [(m1 & k1 & l' & r' & _ & E3 & _)|(_ & [E3|E3])].
          - cbn [peer_turn]. unfold user_turn. pcbn. rewrite EF, E3. cbn [must_wait]. eexists. split; reflexivity.
          - subst uy. discriminate E3.
          - contradiction E3. reflexivity. }
        destruct (p_turn_step _ _ _ _ _ _ _ _ _ _ _ _ _ HF A1 B1 E3) as (_ & ux' & uy' & A & B & C). cbn [peer_past u_past] in C. rewrite HD in C. injection C as C1 C2 C3.
        exists x', out, [], ux', uy'. split; [exact A|]. split; [exact B|]. split; [exact E4|]. split; [auto|]. split; [auto|]. split; [auto|]. right. right. left. exists (Blocking (mk_user past r1 wr None)). auto.
    + cbn [takes peer_free peer_past] in *. destruct (polled _ f (S (length inn)) inn [] a _ ltac:(rewrite app_nil_r; exact K2) HX EF) as [(m1 & k1 & l' & q' & r' & E0 & E1 & E2 & E3)|(r' & _ & E1 & _)].
      * assert (peer_read f (S (length inn)) inn (Polling a) = Some (Polling (mk_auser (au_past a ++ [Heard m1]) r' (au_out a) false), q')) as R1 by (cbn [peer_read]; rewrite E1; reflexivity).
        destruct (p_read_step _ _ _ _ _ _ _ _ _ _ _ _ H1 H2 R1) as (A & [[_ X]|(uy' & B & C)]).
        { exfalso. cbn [peer_past au_past] in X. apply (f_equal (@length happening)) in X. rewrite app_length in X. cbn in X. lia. }
        cbn [peer_past] in C. rewrite HD in C. injection C as C1 C2 C3. eexists _, out, q', ux, uy'. split; [exact A|]. split; [exact B|]. split; [reflexivity|]. split; [cbn [peer_past au_past]; auto|]. split; [auto|]. split; [auto|].
        right. right. right. auto.
      * exfalso. rewrite skipn_all2 in E1 by lia. destruct E1 as [E1|E1]; [subst uy; discriminate E1|contradiction E1; reflexivity].
  - unfold deed_done in HD. rewrite EF in HD. discriminate HD.
Qed.
Lemma pairing_real_step : forall cap f1 f2 c t s s', minds f1 -> minds f2 -> pairing_inv cap t s -> peer_free (p_client t) -> peer_free (p_server t) -> queue_step f1 f2 c s = Some s' ->
  up_bytes (q_up s') <= cap -> down_bytes (q_down s') <= cap ->
  exists acts, let t' := pairing_run f1 f2 cap acts t in pairing_inv cap t' s' /\ peer_free (p_client t') /\ peer_free (p_server t').
Proof.
  intros cap f1 f2 c [x y out inn] [p1 p2 u d] s' M1 M2 (P1 & P2 & ux & uy & W1 & W2 & Q1 & Q2) F1 F2 E B1 B2. cbn [p_client p_server p_up p_down q_past1 q_past2 q_up q_down] in *. subst p1 p2 u d.
  set (k := mk_key x00 x00 x00 x00). cbn [queue_step] in E. destruct c.
  - destruct (deed_done f1 (peer_past x) (map fst ux) (map fst uy)) as [[[p' u'] d']|] eqn:ED; [|discriminate E]. injection E as <-. cbn [q_up q_down] in *.
    destruct (p_real cap true f1 k x y out inn ux uy p' u' d' M1 W1 W2 F1 F2 ED B1) as (x' & out' & inn' & ux' & uy' & A & B & C & D1 & D2 & D3 & HA).
    assert (exists acts, pairing_run f1 f2 cap acts (mk_pairing x y out inn) = mk_pairing x' y out' inn') as [acts EA].
    { destruct HA as [(x1 & E1 & E2 & ->)|[(E1 & -> & ->)|[(x1 & E1 & E2 & ->)|(E1 & ->)]]].
      - exists [PTurn true k 0%N; PSend true (S cap)]. cbn [pairing_run pairing_step]. rewrite E1, app_nil_r. cbn [pairing_step]. rewrite E2. reflexivity.
      - exists [PTurn true k 0%N]. cbn [pairing_run pairing_step]. rewrite E1, app_nil_r. reflexivity.
      - exists [PRead true (S (length inn)); PTurn true k 0%N]. cbn [pairing_run pairing_step]. rewrite E1. cbn [pairing_step]. rewrite E2, app_nil_r. reflexivity.
      - exists [PRead true (S (length inn))]. cbn [pairing_run pairing_step]. rewrite E1. reflexivity. }
    exists acts. cbv zeta. rewrite EA. cbn [p_client p_server]. split; [|split; [exact C|exact F2]]. split; [auto|]. split; [reflexivity|]. exists ux', uy'. auto.
  - destruct (deed_done f2 (peer_past y) (map fst uy) (map fst ux)) as [[[p' d'] u']|] eqn:ED; [|discriminate E]. injection E as <-. cbn [q_up q_down] in *.
    destruct (p_real cap false f2 k y x inn out uy ux p' d' u' M2 W2 W1 F2 F1 ED B2) as (x' & out' & inn' & ux' & uy' & A & B & C & D1 & D2 & D3 & HA).
    assert (exists acts, pairing_run f1 f2 cap acts (mk_pairing x y out inn) = mk_pairing x x' inn' out') as [acts EA].
    { destruct HA as [(x1 & E1 & E2 & ->)|[(E1 & -> & ->)|[(x1 & E1 & E2 & ->)|(E1 & ->)]]].
      - exists [PTurn false k 0%N; PSend false (S cap)]. cbn [pairing_run pairing_step]. rewrite E1, app_nil_r. cbn [pairing_step]. rewrite E2. reflexivity.
      - exists [PTurn false k 0%N]. cbn [pairing_run pairing_step]. rewrite E1, app_nil_r. reflexivity.
      - exists [PRead false (S (length out)); PTurn false k 0%N]. cbn [pairing_run pairing_step]. rewrite E1. cbn [pairing_step]. rewrite E2, app_nil_r. reflexivity.
      - exists [PRead false (S (length out))]. cbn [pairing_run pairing_step]. rewrite E1. reflexivity. }
    exists acts. cbv zeta. rewrite EA. cbn [p_client p_server]. split; [|split; [exact F1|exact C]]. split; [reflexivity|]. split; [auto|]. exists uy', ux'. auto.
Qed.
Lemma pairing_real_run : forall cap f1 f2 turns t s, minds f1 -> minds f2 -> pairing_inv cap t s -> peer_free (p_client t) -> peer_free (p_server t) ->
  (forall n, let s' := queue_run f1 f2 (firstn n turns) s in up_bytes (q_up s') <= cap /\ down_bytes (q_down s') <= cap) ->
  exists acts, pairing_inv cap (pairing_run f1 f2 cap acts t) (queue_run f1 f2 turns s).
Proof.
  intros cap f1 f2. induction turns as [|c turns IH]; intros t s M1 M2 HI F1 F2 HB; [exists []; exact HI|]. cbn [queue_run]. destruct (queue_step f1 f2 c s) as [s'|] eqn:E.
  - destruct (HB 1) as [B1 B2]. cbn [firstn queue_run] in B1, B2. rewrite E in B1, B2. destruct (pairing_real_step _ _ _ _ _ _ _ M1 M2 HI F1 F2 E B1 B2) as (acts & A & B & C).
    destruct (IH _ _ M1 M2 A B C) as [acts' D].
    { intros n. specialize (HB (S n)). cbn [firstn queue_run] in HB. rewrite E in HB. exact HB. }
    exists (acts ++ acts'). rewrite pairing_run_app. exact D.
  - apply IH; auto. intros n. specialize (HB (S n)). cbn [firstn queue_run] in HB. rewrite E in HB. exact HB.
Qed.
Lemma short : forall n (d : bytes), (N.of_nat n <= 104857600)%N -> (size (firstn n d) <= 104857600)%N.
Proof. intros n d H. unfold size. pose proof (firstn_le_length n d). lia. Qed.
Lemma peer_new_free : forall c s, peer_free (peer_new c s).
Proof. intros c [w|b]; reflexivity. Qed.

(** ** The theorems *)
(** [C98] Whether a program uses the blocking client or the asynchronous one, and whichever its
    partner uses: to the programs at its ends, a connection is two queues of messages.  Whatever the
    programs, the room of the network, its delays, the masking keys, the scheduling and the polls,
    what happens to them could have happened with queues (Spec/Queues.v). *)
Lemma pairing_is_queues_proof : forall f1 f2 cap s1 s2 acts, minds f1 -> minds f2 -> works s1 -> works s2 ->
  let t := pairing_run f1 f2 cap acts (pairing_new s1 s2) in
  exists turns, let s := queue_run f1 f2 turns queues_new in
    peer_past (p_client t) = q_past1 s /\ peer_past (p_server t) = q_past2 s /\
    (List.length (p_up t) <= cap)%nat /\ (List.length (p_down t) <= cap)%nat.
Proof.
  intros f1 f2 cap s1 s2 acts M1 M2 H1 H2 t. destruct (pairing_inv_run cap f1 f2 acts _ _ M1 M2 (pairing_inv_new cap s1 s2 H1 H2)) as [turns (P1 & P2 & ux & uy & (_ & _ & A) & (_ & _ & B) & _)].
  exists turns. fold t in P1, P2, A, B. auto.
Qed.
(*EX
(** The caller says something that is refused, then a text, and says back what it hears, cut to four
    octets, until it has said three messages; the other answers a text with a longer one and anything
    else with a Pong.  The caller has an asynchronous client, the other a blocking one. *)
Definition caller : program := fun past =>
  match rev past with
  | [] => Some (Say (OPing (repeat x00 126)))
  | NotSaid _ :: _ => Some (Say (OText (str "call")))
  | Said _ :: _ => Some Hear
  | Heard (OText d) :: _ => Some (Say (OBinary (firstn 4 d)))
  | Heard (OPong d) :: before => if (List.length before <? 6)%nat then Some (Say (OBinary (firstn 4 d))) else None
  | _ => None
  end.
Definition callee : program := fun past =>
  match rev past with
  | Heard (OText _) :: _ => Some (Say (OText (str "answer")))
  | Heard (OBinary d) :: _ => Some (Say (OPong (firstn 2 d)))
  | _ => Some Hear
  end.
Example callers_mind : minds caller /\ minds callee.
Proof.
  split; intros past m H; unfold caller, callee in H;
    repeat match type of H with context [match ?x with _ => _ end] => destruct x; try discriminate H end;
    match type of H with Some (Say ?x) = _ => assert (m = x) as -> by congruence end;
    (split; [try exact I; apply ExTac.good_text; reflexivity|]);
    match goal with
    | |- (size (payload_of (_ (firstn ?n ?d))) <= _)%N => apply (ThmKinds.short n d); vm_compute; discriminate
    | _ => vm_compute; discriminate
    end.
Qed.
Definition pairing_turns : list pact :=
  [PTurn true (mk_key x01 x02 x03 x04) 3; PSend true 3; PRead true 2; PTurn false (mk_key x00 x00 x00 x00) 0; PSend false 4; PRead false 3].
Definition polling : start := WithPolling 0.
Definition blocking : start := WithBlocking (mk_w [] []).
Example pairing_is_queues_ex :
  let t := pairing_run caller callee 5 (concat (repeat pairing_turns 40)) (pairing_new polling blocking) in
  peer_past (p_client t) = [NotSaid (OPing (repeat x00 126)); Said (OText (str "call")); Heard (OText (str "answer"));
     Said (OBinary (str "answ")); Heard (OPong (str "an")); Said (OBinary (str "an")); Heard (OPong (str "an"))] /\
  q_past1 (queue_run caller callee (concat (repeat [true; false] 12)) queues_new) = peer_past (p_client t).
Proof. vm_compute. split; reflexivity. Qed.
EX*)

(** [C98] And the other way: whatever could happen with queues that never hold more than the network
    has room for, happens to the programs in some run, with either kind of client at either end. *)
Lemma queues_are_pairing_proof : forall f1 f2 cap s1 s2 turns, minds f1 -> minds f2 -> works s1 -> works s2 ->
  (forall n, let s := queue_run f1 f2 (firstn n turns) queues_new in (up_bytes (q_up s) <= cap)%nat /\ (down_bytes (q_down s) <= cap)%nat) ->
  exists acts, let t := pairing_run f1 f2 cap acts (pairing_new s1 s2) in let s := queue_run f1 f2 turns queues_new in
    peer_past (p_client t) = q_past1 s /\ peer_past (p_server t) = q_past2 s.
Proof.
  intros f1 f2 cap s1 s2 turns M1 M2 H1 H2 HB.
  destruct (pairing_real_run cap f1 f2 turns _ _ M1 M2 (pairing_inv_new cap s1 s2 H1 H2) (peer_new_free true s1) (peer_new_free false s2) HB) as [acts (P1 & P2 & _)]. exists acts. auto.
Qed.
(*EX
Example queues_are_pairing_ex : forall n, let s := queue_run caller callee (firstn n (concat (repeat [true; true; false; false] 3))) queues_new in
  (up_bytes (q_up s) <= 10)%nat /\ (down_bytes (q_down s) <= 8)%nat.
Proof.
  intros n. do 13 (destruct n as [|n]; [split; apply PeanoNat.Nat.leb_le; vm_compute; reflexivity|]). split; apply PeanoNat.Nat.leb_le; cbn [repeat concat app firstn];
    rewrite ?firstn_nil; vm_compute; reflexivity.
Qed.
EX*)

(** [C98] No program can tell which kind of client it has been given, or which kind its partner uses,
    or one timing from another: of any two runs, what happens to a program in the one is an initial
    part of what happens to it in the other. *)
Lemma kind_unseen_proof : forall f1 f2 cap cap' s1 s2 s1' s2' acts acts', minds f1 -> minds f2 -> works s1 -> works s2 -> works s1' -> works s2' ->
  let t := pairing_run f1 f2 cap acts (pairing_new s1 s2) in
  let t' := pairing_run f1 f2 cap' acts' (pairing_new s1' s2') in
  (prefix (peer_past (p_client t)) (peer_past (p_client t')) \/ prefix (peer_past (p_client t')) (peer_past (p_client t))) /\
  (prefix (peer_past (p_server t)) (peer_past (p_server t')) \/ prefix (peer_past (p_server t')) (peer_past (p_server t))).
Proof.
  intros f1 f2 cap cap' s1 s2 s1' s2' acts acts' M1 M2 H1 H2 H1' H2' t t'.
  destruct (pairing_is_queues_proof f1 f2 cap s1 s2 acts M1 M2 H1 H2) as (a & A1 & A2 & _). destruct (pairing_is_queues_proof f1 f2 cap' s1' s2' acts' M1 M2 H1' H2') as (b & B1 & B2 & _).
  fold t in A1, A2. fold t' in B1, B2. rewrite A1, A2, B1, B2. destruct (queue_confluent f1 f2 a b queues_new) as (a' & b' & E). rewrite !queue_run_app in E.
  destruct (queue_extends f1 f2 a' (queue_run f1 f2 a queues_new)) as [X1 X2]. destruct (queue_extends f1 f2 b' (queue_run f1 f2 b queues_new)) as [Y1 Y2]. rewrite E in X1, X2.
  split; eapply prefix_either; eassumption.
Qed.
(*EX
(** Two asynchronous clients with room for one byte in the network, two blocking ones with room for a
    hundred. *)
Example kind_unseen_ex :
  let t := pairing_run caller callee 1 (concat (repeat pairing_turns 24)) (pairing_new polling polling) in
  let t' := pairing_run caller callee 100 (concat (repeat pairing_turns 40)) (pairing_new blocking blocking) in
  List.length (peer_past (p_client t)) = 4%nat /\ List.length (peer_past (p_client t')) = 7%nat /\
  peer_past (p_client t) = firstn 4 (peer_past (p_client t')).
Proof. vm_compute. repeat split; reflexivity. Qed.
EX*)

(** [C98] When nothing can happen any more, each of the two programs is done, or waits for a message
    where nothing is under way to it, or has not finished saying something and the network is full. *)
Lemma pairing_rest_proof : forall f1 f2 cap s1 s2 acts, minds f1 -> minds f2 -> works s1 -> works s2 -> (1 <= cap)%nat ->
  let t := pairing_run f1 f2 cap acts (pairing_new s1 s2) in pairing_rests f1 f2 cap t ->
  (f1 (peer_past (p_client t)) = None \/ f1 (peer_past (p_client t)) = Some Hear /\ p_down t = [] \/ ~ peer_free (p_client t) /\ List.length (p_up t) = cap) /\
  (f2 (peer_past (p_server t)) = None \/ f2 (peer_past (p_server t)) = Some Hear /\ p_up t = [] \/ ~ peer_free (p_server t) /\ List.length (p_down t) = cap).
Proof.
  intros f1 f2 cap s1 s2 acts M1 M2 H1 H2 Hcap t HR. destruct (pairing_inv_run cap f1 f2 acts _ _ M1 M2 (pairing_inv_new cap s1 s2 H1 H2)) as [turns HI]. fold t in HI. destruct t as [x y out inn].
  destruct HI as (P1 & P2 & ux & uy & W1 & W2 & _). cbn [p_client p_server p_up p_down] in *. set (k := mk_key x00 x00 x00 x00).
  destruct (pairing_none _ _ _ k 0%N 1 _ _ _ _ HR) as (S1 & S2 & S3 & S4 & S5 & S6).
  pose proof (p_rests cap f1 x y out inn ux uy true k 0%N 0 0 Hcap M1 W1 W2 S1 S2 S3) as A. pose proof (p_rests cap f2 y x inn out uy ux false k 0%N 0 0 Hcap M2 W2 W1 S4 S5 S6) as B.
  split; [destruct A as [[A1 A2]|[[A1 A2]|(A1 & A2 & A3 & _)]]|destruct B as [[A1 A2]|[[A1 A2]|(A1 & A2 & A3 & _)]]]; auto.
Qed.
(*EX
Example pairing_rest_ex :
  let t := pairing_run caller callee 5 (concat (repeat pairing_turns 40)) (pairing_new polling blocking) in
  pairing_rests caller callee 5 t /\ caller (peer_past (p_client t)) = None /\ callee (peer_past (p_server t)) = Some Hear.
Proof.
  split; [|vm_compute; split; reflexivity]. match goal with |- pairing_rests _ _ _ ?X => let v := eval vm_compute in X in assert (X = v) as -> by (vm_compute; reflexivity) end.
  intros [[] k e|[] [|n]|[] [|n]]; reflexivity.
Qed.
EX*)

(** [C98] A run that ended with neither program in the middle of saying something ended as it had to:
    in every other run, with clients of the same or other kinds, what has happened to either program
    is an initial part of what happened to it in this one; and if the other run ended like that too,
    it is the same.  To exchange one kind of client for the other changes nothing. *)
Lemma pairing_one_end_proof : forall f1 f2 cap cap' s1 s2 s1' s2' acts acts', minds f1 -> minds f2 -> works s1 -> works s2 -> works s1' -> works s2' -> (1 <= cap)%nat ->
  let t := pairing_run f1 f2 cap acts (pairing_new s1 s2) in
  let t' := pairing_run f1 f2 cap' acts' (pairing_new s1' s2') in
  pairing_rests f1 f2 cap t -> peer_free (p_client t) -> peer_free (p_server t) ->
  prefix (peer_past (p_client t')) (peer_past (p_client t)) /\ prefix (peer_past (p_server t')) (peer_past (p_server t)) /\
  ((1 <= cap')%nat -> pairing_rests f1 f2 cap' t' -> peer_free (p_client t') -> peer_free (p_server t') ->
   peer_past (p_client t') = peer_past (p_client t) /\ peer_past (p_server t') = peer_past (p_server t)).
Proof.
  intros f1 f2 cap cap' s1 s2 s1' s2' acts acts' M1 M2 H1 H2 H1' H2' Hcap t t' HR F1 F2.
  destruct (pairing_inv_run cap f1 f2 acts _ _ M1 M2 (pairing_inv_new cap s1 s2 H1 H2)) as [a HI]. fold t in HI.
  destruct (pairing_inv_run cap' f1 f2 acts' _ _ M1 M2 (pairing_inv_new cap' s1' s2' H1' H2')) as [b HI']. fold t' in HI'.
  pose proof (pairing_final f1 f2 cap t _ Hcap M1 M2 HI HR F1 F2) as HF.
  destruct (queue_confluent f1 f2 a b queues_new) as (a' & b' & E). rewrite !queue_run_app in E. rewrite (queue_still _ _ a' _ HF) in E.
  destruct (queue_extends f1 f2 b' (queue_run f1 f2 b queues_new)) as [X1 X2]. rewrite <- E in X1, X2. destruct HI as (A1 & A2 & _). destruct HI' as (B1 & B2 & HI').
  rewrite A1, B1 in X1. rewrite A2, B2 in X2. split; [exact X1|]. split; [exact X2|]. intros Hcap' HR' F1' F2'.
  pose proof (pairing_final f1 f2 cap' t' _ Hcap' M1 M2 (conj B1 (conj B2 HI')) HR' F1' F2') as HF'. rewrite (queue_still _ _ b' _ HF') in E.
  split; congruence.
Qed.
(*EX
Example pairing_one_end_ex :
  let t := pairing_run caller callee 5 (concat (repeat pairing_turns 40)) (pairing_new polling blocking) in
  let t' := pairing_run caller callee 1 (concat (repeat pairing_turns 99)) (pairing_new blocking polling) in
  pairing_rests caller callee 5 t /\ peer_free (p_client t) /\ peer_free (p_server t) /\
  peer_past (p_server t) = peer_past (p_server t') /\ List.length (peer_past (p_server t)) = 6%nat.
Proof.
  split; [exact (proj1 pairing_rest_ex)|]. vm_compute. repeat split; reflexivity.
Qed.
EX*)
