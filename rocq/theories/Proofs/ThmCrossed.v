(** A conversation of the asynchronous example client with the blocking example server: C87. *)
From Coq Require Import NArith ZArith String Bool List Lia.
From Coq Require Import ZifyBool ZifyNat ZifyN.
From Coq.Strings Require Import Byte.
From Verif.Model Require Import Base Io Header Mask Dataframe Utf8 Text Base64 WsKey Headers
  Handshake Message Receiver Codec Framed Http Connect Examples AsyncExamples Suite ChatClient Talk Narrow AsyncChat AsyncTalk Crossed.
From Verif.Spec Require Import RfcFrame FrameSpec Schedule Unicode Drive Session Connection Polled Fields Upgrade Builder HttpHead Wire Endpoint Echo Polls Chat Talking Suite AsyncChat AsyncTalking Crossing.
From Verif.Proofs Require Import BaseFacts MaskFacts HeaderFacts FrameFacts CodecFacts ScriptFacts
  Machine FramedFacts AsyncFacts Utf8Facts ThmFrames ThmStream SessionFacts RecvFacts MessageFacts
  TextFacts MapFacts ExTac ThmMessages ThmFlow ThmLimits ThmServer ThmHttp ThmConnect ThmInterop ThmSession
  ThmEcho ThmWake ThmAsyncEcho ThmChat ThmSuite ThmTalk ThmNarrow ThmAsyncChat AsyncTalkFacts ThmAsyncTalk.
Import ListNotations.
Local Open Scope string_scope.
Local Open Scope list_scope.
Local Open Scope N_scope.

(** ** The whole *)
Definition yended (t : crossed) : Prop :=
  y_cend t = Some TReady /\ y_gone t = true /\ at_rdone (y_client t) = true /\ at_over (y_client t) = true /\
  at_hold (y_client t) = None /\ at_user (y_client t) = [] /\ pend (at_out (y_client t)) = [].
Definition writing (x : option (srv_at * writer * bytes)) (a : srv_at) : Prop :=
  match x with Some (_, _, o) => o <> [] /\ (a = Greeting \/ a = Serving) | None => True end.
Definition yinv (cap : nat) (lines : list bytes) (ks : nat -> mkey) (t : crossed) : Prop :=
  exists got ungot ts us sent read unread said w,
  cabs ks (y_client t) got ts us sent /\ lines = ts ++ us ++ y_lines t /\ said = got ++ ungot /\ with_keys ks sent = read ++ unread /\
  (at_rdone (y_client t) = false /\ apipe false (at_read (y_client t)) (at_in (y_client t)) (y_down t ++ rest_of (y_write t)) ungot \/
   y_gone t = true /\ at_rdone (y_client t) = true /\ ungot = []) /\
  all_data (at_in (y_client t)) /\ asleep (at_out (y_client t)) /\
  server_ok (then_at (y_write t) (y_srv t)) read said /\ pipe true (y_reader t) (y_up t ++ pend (at_out (y_client t))) unread /\
  then_writer (y_write t) (y_writer t) = mk_writer (mk_sender false) w /\ never_fails w /\
  writing (y_write t) (y_srv t) /\
  (y_cend t = None \/ yended t) /\
  (length (y_up t) <= cap)%nat /\
  (length (y_down t) + length (aev_bytes (at_in (y_client t))) <= cap)%nat /\
  Forall fit_line lines.

Definition srv_fee (a : srv_at) : nat := match a with Greeting => 62 | Serving => 1 | Served _ => 0 end.
Definition ywork (t : crossed) : nat :=
  (line_work (y_lines t) + (cwork (y_client t) - 10 * length (fw_out (at_out (y_client t)))) + 10 * length (y_up t) +
   9 * arrived_at (y_reader t) + srv_fee (then_at (y_write t) (y_srv t)) + 4 * length (rest_of (y_write t)) + 3 * length (y_down t) +
   match y_cend t with None => 1 | _ => 0 end)%nat.
Definition ycore (t : crossed) := (ccore (y_client t), y_cend t, y_lines t, y_up t, y_srv t, y_reader t, y_writer t, y_write t, y_down t).
Definition yidle (cap : nat) (a : yact) (t : crossed) : Prop :=
  match a with
  | YPoll _ => y_cend t <> None \/ cpost (y_gone t) (y_room_up cap t) TNotReady (y_client t)
  | YServe _ => y_write t <> None \/ (exists e, y_srv t = Served e) \/ y_srv t = Serving /\ lacks (y_reader t) = true
  | YTake n => n = O \/ y_up t = [] \/ y_write t <> None \/ y_srv t <> Serving \/ lacks (y_reader t) = false
  | YPush n => n = O \/ y_write t = None \/ y_room_down cap t = O
  | YArrive n => n = O \/ y_down t = []
  | YType => y_lines t = [] \/ thread_over (y_client t) = true
  end.
Definition ystepped (cap : nat) (lines : list bytes) (ks : nat -> mkey) (a : yact) (t t' : crossed) : Prop :=
  yinv cap lines ks t' /\ ((ywork t' < ywork t)%nat \/ ycore t' = ycore t /\ yidle cap a t').

Ltac yinv_open H :=
  destruct H as (got & ungot & ts & us & sent & read & unread & said & w & HC & HL & HSd & HK & HR & HD & HW & HSt & HSa & HWr & HNf & HWi & HE & HB1 & HB2 & HFit).
Ltac ycbn := cbn [y_client y_cend y_lines y_up y_srv y_reader y_writer y_write y_down].
Ltac ycbn_in := cbn [y_client y_cend y_lines y_up y_srv y_reader y_writer y_write y_down] in *.

Lemma said_quiet_b : forall a read said, server_ok a read said -> Forall no_ping said.
Proof.
  intros a read said H. apply Forall_forall. intros p Hp. pose proof (said_no_ping _ _ _ p H Hp) as HX. unfold no_ping. destruct (fst p); try reflexivity. exfalso. eapply HX. reflexivity.
Qed.
Lemma server_ok_keys : forall a read read' said, map fst read' = map fst read -> server_ok a read said -> server_ok a read' said.
Proof.
  intros a read read' said E H.
  assert (forall l l' : list (owned * mkey), map fst l' = map fst l -> Forall open l -> Forall open l') as HO.
  { intros l l' El Hl. assert (Forall (fun m => ~ closing m) (map fst l')) as HX by (rewrite El; apply Forall_map; exact Hl). exact (proj1 (Forall_map fst (fun m => ~ closing m) l') HX). }
  destruct a; cbn [server_ok] in *.
  - destruct H as [-> ->]. destruct read'; [auto|discriminate E].
  - destruct H as [H1 H2]. split; [eapply HO; eauto|]. rewrite E. exact H2.
  - destruct H as (-> & a & p & -> & H1 & H2 & H3). split; [reflexivity|]. rewrite map_app in E. cbn [map] in E.
    destruct (exists_last (l := read')) as (a' & p' & ->). { destruct read'; [destruct (map fst a); discriminate E|discriminate]. }
    rewrite map_app in E. cbn [map] in E. apply app_inj_tail in E as [E1 E2]. exists a', p'. split; [reflexivity|]. split; [eapply HO; eauto|].
    split; [rewrite E2; exact H2|]. rewrite E1. exact H3.
Qed.

Lemma poll_step : forall cap lines ks extra t, yinv cap lines ks t -> ystepped cap lines ks (YPoll extra) t (y_poll cap extra t).
Proof.
  intros cap lines ks extra t HInv. pose proof HInv as HI. yinv_open HI.
  unfold y_poll. destruct (y_cend t) as [y|] eqn:EE.
  { split; [exact HInv|]. right. split; [reflexivity|]. left. congruence. }
  destruct t as [c cend ls up a r0 wr x0 down]. ycbn_in. subst cend.
  set (t0 := mk_crossed c None ls up a r0 wr x0 down) in *. set (n := S (achat_fuel c)). set (gone := y_gone t0) in *. set (room := y_room_up cap t0).
  set (c1 := with_scripts (can_read gone n (at_in c)) (with_room room n (at_out c)) c).
  assert (cabs ks c1 got ts us sent) as HC1 by exact HC.
  assert (gone = true -> down ++ rest_of x0 = []) as Hq.
  { intros E. unfold gone, y_gone, t0 in E. cbn [y_srv y_down] in E. destruct a as [| |x]; try discriminate E. destruct down; [|discriminate E].
    destruct x0 as [[[a1 w1] o1]|]; [|reflexivity]. destruct HWi as [_ [X|X]]; discriminate X. }
  assert (cread gone c1 (down ++ rest_of x0) ungot n) as HR1.
  { split; [exact Hq|]. destruct HR as [[R1 R2]|(R1 & R2 & R3)]; [left|right; auto]. split; [exact R1|]. split.
    - eapply apipe_bytes; [|exact R2]. unfold c1. cbn [with_scripts at_in]. rewrite waits_bytes. reflexivity.
    - exists (at_in c). split; [exact HD|reflexivity]. }
  assert (length us < achat_fuel c)%nat as Hus.
  { unfold achat_fuel. destruct HC as (_ & _ & (HT & _) & _). rewrite HT, map_length. lia. }
  pose proof (cpoll_pipe ks said (ts ++ us) (down ++ rest_of x0) gone (room + length (fw_out (at_out c))) extra us c1 got ungot ts sent room n n
    HSd eq_refl HC1 HR1 ltac:(split; reflexivity) eq_refl (said_quiet_b _ _ _ HSt) ltac:(lia) ltac:(lia)) as HP.
  pose proof (achat_grows extra c1) as HG. destruct (achat_poll extra c1) as [x c'] eqn:EP. cbn [snd] in HG.
  destruct HP as (got' & ungot' & ts' & us' & sent' & r & k & n' & P1 & P2 & P3 & P4 & P5 & P6 & P7 & P8).
  destruct HG as [d HG]. change (fw_out (at_out c1)) with (fw_out (at_out c)) in HG.
  assert (awritten (at_out c) (at_out c') = d) as -> by (unfold awritten; rewrite HG, skipn_app, skipn_all, Nat.sub_diag; reflexivity).
  set (c2 := with_scripts (filter is_adata (at_in c')) (no_room (at_out c')) c').
  assert (ccore c2 = ccore c') as K2.
  { unfold ccore, c2. cbn [with_scripts at_user at_over at_udone at_hold at_out at_rdone at_in at_read no_room]. rewrite filter_twice. reflexivity. }
  assert (ccore c1 = ccore c) as K1.
  { unfold ccore, c1. cbn [with_scripts at_user at_over at_udone at_hold at_out at_rdone at_in at_read with_room]. rewrite waits_filter. reflexivity. }
  destruct (cabs_sent _ _ _ _ _ _ P3) as [_ HSn]. destruct (cabs_sent _ _ _ _ _ _ HC) as [_ HSn0].
  assert (exists read' unread', with_keys ks sent' = read' ++ unread' /\ map fst read' = map fst read /\
    pipe true r0 ((up ++ d) ++ pend (at_out c2)) unread') as (read' & unread' & Q1 & Q2 & Q3).
  { destruct HSa as (A1 & A2 & A3 & A4). destruct HC as (_ & _ & _ & _ & _ & C6 & _). destruct P3 as (_ & _ & _ & _ & _ & C6' & _).
    rewrite HK, frames_app in C6. change (encs (masked_frames true unread)) with (frames false unread) in A3. rewrite <- A3 in C6.
    assert (frames false read ++ (rd_buf r0 ++ flat (rd_in r0)) ++ up = fw_out (at_out c)) as E1.
    { apply (app_inv_tail (pend (at_out c))). rewrite <- !app_assoc. rewrite C6, <- !app_assoc. reflexivity. }
    rewrite HK, map_app in HSn0. apply Forall_app in HSn0 as [S1 S2].
    destruct (frames_prefix true read (with_keys ks sent') ((rd_buf r0 ++ flat (rd_in r0)) ++ (up ++ d) ++ pend (at_out c2)) S1 HSn) as (l1 & l2 & F1 & F2 & F3).
    - cbn [negb]. rewrite <- C6', HG, <- E1, <- !app_assoc. reflexivity.
    - exists l1, l2. split; [exact F1|]. split; [exact F2|]. split; [exact A1|]. split; [exact A2|]. split; [exact F3|].
      rewrite F1, map_app in HSn. apply Forall_app in HSn. apply HSn. }
  assert (length (fw_out (at_out c')) = length (fw_out (at_out c)) + length d)%nat as HLd by (rewrite HG, app_length; reflexivity).
  assert (room + length up = cap)%nat as HRoom.
  { unfold room, y_room_up, t0. cbn [y_up]. lia. }
  assert (yinv cap lines ks (mk_crossed c2 (match x with TNotReady => None | _ => Some x end) ls (up ++ d) a r0 wr x0 down)) as HInv'.
  { exists got', ungot', ts', us', sent', read', unread', said, w. ycbn.
    split; [exact P3|]. split; [rewrite HL, app_assoc, P2, <- app_assoc; reflexivity|]. split; [exact P1|]. split; [exact Q1|]. split.
    { destruct P4 as (_ & [(R1 & R2 & R3)|(R1 & R2 & R3)]); [left|right; auto]. split; [exact R1|].
      eapply apipe_bytes; [|exact R2]. unfold c2. cbn [with_scripts at_in]. rewrite aev_filter. reflexivity. }
    split; [apply filter_data|]. split; [split; reflexivity|]. split; [eapply server_ok_keys; [exact Q2|exact HSt]|].
    split; [exact Q3|]. split; [exact HWr|]. split; [exact HNf|]. split; [exact HWi|]. split.
    { destruct x; cbn [cpost] in P8; try contradiction; [right|left; reflexivity]. destruct P8 as (B1 & B2 & B3 & B4 & B5 & B6).
      split; [reflexivity|]. split; [exact B1|]. auto 10. }
    split; [rewrite app_length; lia|]. split; [|exact HFit].
    assert (length (aev_bytes (at_in c')) <= length (aev_bytes (at_in c)))%nat as HLe.
    { pose proof (achat_reads extra c1) as HX. rewrite EP in HX. apply reads_length in HX. unfold c1 in HX. cbn [snd with_scripts at_in] in HX. rewrite waits_bytes in HX. exact HX. }
    unfold c2. cbn [with_scripts at_in]. rewrite aev_filter. lia. }
  split; [exact HInv'|].
  assert ((cwork c2 < cwork c)%nat \/ ccore c2 = ccore c) as HSh.
  { destruct P7 as [P7|P7]; [left|right; congruence]. rewrite (core_work _ _ K2), <- (core_work _ _ K1). exact P7. }
  pose proof (cwork_out c) as W1. pose proof (cwork_out c2) as W2. change (fw_out (at_out c2)) with (fw_out (at_out c')) in W2.
  destruct HSh as [HSh|HSh].
  { left. unfold ywork, t0. ycbn. change (fw_out (at_out c2)) with (fw_out (at_out c')).
    rewrite app_length. destruct x; lia. }
  assert (d = []) as ->.
  { pose proof HSh as HSh2. unfold ccore in HSh2. injection HSh2 as _ _ _ _ _ E _. change (fw_out (at_out c2)) with (fw_out (at_out c')) in E. rewrite HG in E.
    rewrite <- (app_nil_r (fw_out (at_out c))) in E at 2. apply app_inv_head in E. exact E. }
  rewrite app_nil_r in *. destruct x; cbn [cpost] in P8; try contradiction.
  - left. unfold ywork, t0. ycbn. rewrite (core_work _ _ HSh). change (fw_out (at_out c2)) with (fw_out (at_out c')). rewrite HG. lia.
  - right. split; [unfold ycore, t0; ycbn; rewrite HSh; reflexivity|]. right.
    assert (r = room) as -> by (rewrite HG in P6; lia).
    change (y_gone _) with gone. change (y_room_up _ _) with room. cbn [y_client cpost].
    destruct P8 as [P8|(B1 & B2 & B3 & B4 & B5)]; [left; exact P8|]. right. split; [exact B1|]. split; [exact B2|]. split; [|auto].
    unfold read_out in *. destruct gone; [exact B3|]. unfold c2. cbn [with_scripts at_rdone at_in at_read]. rewrite filter_twice. exact B3.
Qed.

(** ** The server *)
(** What a turn of the server does, if it does not have to wait. *)
Lemma turn_ok : forall a k r w q read unread said, server_ok a read said -> pipe true r q unread -> never_fails w ->
  (a = Greeting \/ a = Serving /\ fst (reader_recv r) <> Err NoDataAvailable) ->
  exists a' m r' w' read' unread', server_turn a k r (mk_writer (mk_sender false) w) = (a', r', mk_writer (mk_sender false) w') /\
    w_out w' = w_out w ++ frames true [(m, k)] /\ never_fails w' /\ sendable big m /\
    read ++ unread = read' ++ unread' /\ pipe true r' q unread' /\ server_ok a' read' (said ++ [(m, k)]) /\
    (9 * arrived_at r' + srv_fee a' + 4 * length (frames true [(m, k)]) < 9 * arrived_at r + srv_fee a)%nat.
Proof.
  intros a k r w q read unread said HS HP HN HA. destruct HA as [->|[-> HA]].
  - destruct (sends false greeting k w HN (big_sendable _ greeting_sendable)) as (w' & W1 & W2 & W3).
    exists Serving, greeting, r, w', read, unread. cbn [server_turn]. unfold greeting in W1 at 1. rewrite W1.
    split; [reflexivity|]. split; [exact W2|]. split; [exact W3|]. split; [exact greeting_sendable|]. split; [reflexivity|]. split; [exact HP|].
    destruct HS as [-> ->]. split; [split; [constructor|reflexivity]|].
    pose proof (AsyncTalkFacts.frame_length true greeting k) as HL. cbv zeta iota in HL. change (length (payload_of greeting)) with 5%nat in HL. cbn [srv_fee]. lia.
  - destruct (pipe_read _ _ _ _ HP) as [(m & k0 & l & r' & E1 & E2 & E3 & E4)|(E1 & _)]; [|congruence].
    assert (sendable big m) as Hm.
    { destruct HP as (_ & _ & _ & HP). rewrite E1 in HP. cbn [map fst] in HP. inversion HP; assumption. }
    destruct HS as [KS1 KS2].
    assert (forall a' m' w', writer_send m' k (mk_writer (mk_sender false) w) = (Ok tt, mk_writer (mk_sender false) w') ->
      w_out w' = w_out w ++ frames true [(m', k)] -> never_fails w' -> sendable big m' ->
      server_turn Serving k r (mk_writer (mk_sender false) w) = (a', r', mk_writer (mk_sender false) w') ->
      server_ok a' (read ++ [(m, k0)]) (said ++ [(m', k)]) -> (srv_fee a' <= 1)%nat -> (length (payload_of m') <= length (payload_of m))%nat ->
      exists a' m r' w' read' unread', server_turn Serving k r (mk_writer (mk_sender false) w) = (a', r', mk_writer (mk_sender false) w') /\
        w_out w' = w_out w ++ frames true [(m, k)] /\ never_fails w' /\ sendable big m /\
        read ++ unread = read' ++ unread' /\ pipe true r' q unread' /\ server_ok a' read' (said ++ [(m, k)]) /\
        (9 * arrived_at r' + srv_fee a' + 4 * length (frames true [(m, k)]) < 9 * arrived_at r + srv_fee Serving)%nat) as G.
    { intros a' m' w' W1 W2 W3 W4 W5 W6 W7 W8. exists a', m', r', w', (read ++ [(m, k0)]), l.
      split; [exact W5|]. split; [exact W2|]. split; [exact W3|]. split; [exact W4|]. split; [rewrite E1, <- app_assoc; reflexivity|]. split; [exact E3|]. split; [exact W6|].
      pose proof (AsyncTalkFacts.frame_length true m' k) as HL. pose proof (enc_length m k0 true) as HL0. cbv zeta iota in HL, HL0. unfold arrived_at. rewrite E4. cbn [srv_fee] in *. lia. }
    assert (forall m', echo_all m = [m'] -> (forall w', writer_send m' k (mk_writer (mk_sender false) w) = (Ok tt, mk_writer (mk_sender false) w') ->
        server_turn Serving k r (mk_writer (mk_sender false) w) = (Serving, r', mk_writer (mk_sender false) w')) ->
      (length (payload_of m') <= length (payload_of m))%nat ->
      exists a' m r' w' read' unread', server_turn Serving k r (mk_writer (mk_sender false) w) = (a', r', mk_writer (mk_sender false) w') /\
        w_out w' = w_out w ++ frames true [(m, k)] /\ never_fails w' /\ sendable big m /\
        read ++ unread = read' ++ unread' /\ pipe true r' q unread' /\ server_ok a' read' (said ++ [(m, k)]) /\
        (9 * arrived_at r' + srv_fee a' + 4 * length (frames true [(m, k)]) < 9 * arrived_at r + srv_fee Serving)%nat) as G2.
    { intros m' Em HT HLe. assert (sendable big m') as Hm' by (apply (reply_sendable m); [exact Hm|rewrite Em; left; reflexivity]).
      destruct (sends false m' k w HN (big_sendable _ Hm')) as (w' & W1 & W2 & W3).
      apply (G Serving m' w' W1 W2 W3 Hm' (HT _ W1)); [|cbn; lia|exact HLe]. split.
      - apply Forall_app. split; [exact KS1|]. constructor; [|constructor]. intros HC. cbn [fst] in HC. destruct m; try destruct HC. discriminate Em.
      - rewrite map_app, KS2. cbn [map fst app]. rewrite map_app, flat_map_app. cbn [map flat_map fst]. rewrite Em. reflexivity. }
    destruct m as [d|d|cd|d|d].
    + apply (G2 (OText d)); [reflexivity| |apply le_n]. intros w' W1. cbn [server_turn]. rewrite E2, W1. reflexivity.
    + apply (G2 (OBinary d)); [reflexivity| |apply le_n]. intros w' W1. cbn [server_turn]. rewrite E2, W1. reflexivity.
    + destruct (sends false (OClose None) k w HN (big_sendable _ close_fits)) as (w' & W1 & W2 & W3).
      apply (G (Served Returned) (OClose None) w' W1 W2 W3 close_fits); [cbn [server_turn]; rewrite E2, W1; reflexivity| |cbn; lia|cbn; lia].
      split; [reflexivity|]. exists read, (OClose cd, k0). split; [reflexivity|]. split; [exact KS1|]. split; [exact I|]. rewrite map_app, KS2. reflexivity.
    + apply (G2 (OPong d)); [reflexivity| |apply le_n]. intros w' W1. cbn [server_turn]. rewrite E2, W1. reflexivity.
    + apply (G2 (OPong d)); [reflexivity| |apply le_n]. intros w' W1. cbn [server_turn]. rewrite E2, W1. reflexivity.
Qed.

Lemma lacks_waits : forall r q gone, gone = false -> must_wait (fst (reader_recv r)) gone q = lacks r.
Proof. intros r q gone ->. unfold must_wait, lacks. destruct (fst (reader_recv r)) as [| [] | |]; reflexivity. Qed.
Lemma said_app : forall got ungot p, (got ++ ungot) ++ [p] = got ++ ungot ++ [p] :> list (owned * mkey).
Proof. intros. rewrite <- app_assoc. reflexivity. Qed.

Lemma serve_step : forall cap lines ks k t, yinv cap lines ks t -> ystepped cap lines ks (YServe k) t (or_same t (y_serve k t)).
Proof.
  intros cap lines ks k t HInv. pose proof HInv as HI. yinv_open HI.
  unfold y_serve. destruct (y_write t) as [x|] eqn:EX.
  { cbn [or_same]. split; [exact HInv|]. right. split; [reflexivity|]. left. congruence. }
  destruct t as [c cend ls up a r0 wr x0 down]. ycbn_in. subst x0. cbn [then_at then_writer rest_of] in *.
  set (t0 := mk_crossed c cend ls up a r0 wr None down) in *.
  assert ((exists e, a = Served e) \/ a = Greeting \/ a = Serving) as [[e ->]|HA] by (destruct a; eauto).
  { cbn [or_same]. split; [exact HInv|]. right. split; [reflexivity|]. right. left. exists e. reflexivity. }
  assert (cend = None) as ->.
  { destruct HE as [HE|(_ & E2 & _)]; [exact HE|]. unfold y_gone, t0 in E2. cbn [y_srv] in E2. destruct HA as [-> | ->]; discriminate E2. }
  rewrite (lacks_waits _ _ _ eq_refl).
  assert ((a = Serving /\ lacks r0 = true) \/ (a = Greeting \/ a = Serving /\ fst (reader_recv r0) <> Err NoDataAvailable) /\ match a with Serving => lacks r0 | _ => false end = false) as [[-> HLa]|[HT HLa]].
  { destruct HA as [-> | ->]; [right; auto|]. destruct (lacks r0) eqn:EL; [left; auto|right]. split; [right|reflexivity]. split; [reflexivity|].
    intros E. unfold lacks in EL. rewrite E in EL. discriminate EL. }
  { rewrite HLa. cbn [or_same]. split; [exact HInv|]. right. split; [reflexivity|]. right. right. split; [reflexivity|exact HLa]. }
  destruct (turn_ok a k r0 w _ read unread said HSt HSa HNf HT) as (a' & m & r' & w' & read' & unread' & T1 & T2 & T3 & T4 & T5 & T6 & T7 & T8).
  rewrite HWr.
  assert (frames true [(m, k)] <> []) as HNe.
  { intros E. pose proof (AsyncTalkFacts.frame_length true m k) as HX. cbv zeta iota in HX. rewrite E in HX. cbn [length] in HX. lia. }
  set (o := frames true [(m, k)]) in *.
  match goal with |- ystepped _ _ _ _ _ (or_same _ ?X) => assert (X = Some (mk_crossed c None ls up a r' (mk_writer (mk_sender false) w) (Some (a', mk_writer (mk_sender false) w', o)) down)) as -> end.
  { pose proof (written_eq (mk_sender false) (mk_sender false) _ _ _ T2) as HWe. destruct HA as [-> | ->]; [|rewrite HLa]; rewrite T1, HWe; fold o; clearbody o; (destruct o; [contradiction HNe; reflexivity|reflexivity]). }
  cbn [or_same]. split.
  - exists got, (ungot ++ [(m, k)]), ts, us, sent, read', unread', (said ++ [(m, k)]), w'. ycbn. cbn [then_at then_writer rest_of].
    split; [exact HC|]. split; [exact HL|]. split; [rewrite HSd; apply said_app|]. split; [congruence|]. split.
    { left. destruct HR as [[R1 (R2 & R3 & R4 & R5)]|(R1 & _)].
      - split; [exact R1|]. split; [exact R2|]. split; [exact R3|]. split.
        + rewrite app_nil_r in R4. cbn [negb] in R4 |- *. rewrite frames_app, <- R4. fold o. rewrite <- !app_assoc. reflexivity.
        + rewrite map_app. apply Forall_app. split; [exact R5|]. constructor; [exact T4|constructor].
      - unfold y_gone, t0 in R1. cbn [y_srv] in R1. destruct HA as [-> | ->]; discriminate R1. }
    split; [exact HD|]. split; [exact HW|]. split; [exact T7|]. split; [exact T6|]. split; [reflexivity|]. split; [exact T3|]. split; [split; [exact HNe|exact HA]|].
    split; [left; reflexivity|]. auto.
  - left. unfold ywork, t0. ycbn. cbn [then_at then_writer rest_of]. cbn [length]. lia.
Qed.

Lemma take_step : forall cap lines ks n t, yinv cap lines ks t -> ystepped cap lines ks (YTake n) t (or_same t (y_take n t)).
Proof.
  intros cap lines ks n t HInv. pose proof HInv as HI. yinv_open HI.
  assert (yidle cap (YTake n) t -> ystepped cap lines ks (YTake n) t t) as HSame by (intros HX; split; [exact HInv|right; auto]).
  unfold y_take. destruct (y_write t) as [x|] eqn:EX.
  { apply HSame. cbn [yidle]. right. right. left. congruence. }
  destruct (y_srv t) eqn:ES; try (apply HSame; cbn [yidle]; right; right; right; left; congruence).
  destruct (lacks (y_reader t)) eqn:EL; [|apply HSame; cbn [yidle]; auto].
  destruct (arrive n (y_up t) (y_reader t)) as [[r' q]|] eqn:EA.
  2:{ apply HSame. cbn [yidle]. unfold arrive in EA. destruct n; [left; reflexivity|]. destruct (y_up t); [right; left; reflexivity|discriminate EA]. }
  destruct t as [c cend ls up a r0 wr x0 down]. ycbn_in. subst x0 a. cbn [then_at then_writer rest_of or_same] in *.
  assert (exists b bs, up = (b :: bs) ++ q /\ r' = mk_reader (rd_receiver r0) (rd_buf r0) (rd_in r0 ++ [RData b bs])) as (b & bs & -> & ->).
  { unfold arrive in EA. pose proof (firstn_skipn n up) as HN. destruct (firstn n up) as [|b bs]; [discriminate EA|]. injection EA as <- <-. exists b, bs. rewrite HN. auto. }
  split.
  - exists got, ungot, ts, us, sent, read, unread, said, w. ycbn. cbn [then_at then_writer rest_of].
    repeat (split; [assumption|]). split.
    { destruct HSa as (P1 & P2 & P3 & P4). split; [exact P1|]. cbn [rd_receiver rd_buf rd_in]. split; [apply Forall_app; split; [exact P2|constructor; [exact I|constructor]]|].
      split; [|exact P4]. rewrite flat_app. cbn [flat]. rewrite app_nil_r, <- P3, <- !app_assoc. reflexivity. }
    repeat (split; [assumption|]). rewrite app_length in HB1. cbn [length] in HB1. split; [lia|]. auto.
  - left. unfold ywork. ycbn. cbn [then_at then_writer rest_of]. unfold arrived_at. cbn [rd_buf rd_in]. rewrite flat_app. cbn [flat]. rewrite app_nil_r, !app_length. cbn [length]. lia.
Qed.

Lemma push_step : forall cap lines ks n t, yinv cap lines ks t -> ystepped cap lines ks (YPush n) t (or_same t (y_push cap n t)).
Proof.
  intros cap lines ks n t HInv. pose proof HInv as HI. yinv_open HI.
  assert (yidle cap (YPush n) t -> ystepped cap lines ks (YPush n) t t) as HSame by (intros HX; split; [exact HInv|right; auto]).
  unfold y_push. destruct (y_write t) as [[[a' w'] o]|] eqn:EX.
  2:{ apply HSame. cbn [yidle]. auto. }
  pose proof (firstn_skipn (Nat.min n (y_room_down cap t)) o) as HO.
  pose proof (firstn_le_length (Nat.min n (y_room_down cap t)) o) as HF0.
  assert (length (firstn (Nat.min n (y_room_down cap t)) o) <= y_room_down cap t)%nat as HF by (rewrite firstn_length; lia). clear HF0.
  destruct (firstn (Nat.min n (y_room_down cap t)) o) as [|x now] eqn:EF.
  { apply HSame. cbn [yidle]. destruct HWi as [HWi _]. destruct o; [contradiction HWi; reflexivity|]. destruct n; [left; reflexivity|]. right. right.
    destruct (y_room_down cap t); [reflexivity|discriminate EF]. }
  set (later := skipn _ o) in *. clearbody later. clear EF. destruct t as [c cend ls up a r0 wr x0 down]. ycbn_in. subst x0. cbn [then_at then_writer rest_of writing] in *.
  unfold y_room_down in HF. cbn [y_down y_client] in HF. destruct HWi as [HO1 HA]. subst o.
  assert (at_rdone c = false /\ apipe false (at_read c) (at_in c) ((down ++ x :: now) ++ later) ungot) as HR1.
  { destruct HR as [[R1 R2]|(R1 & _)].
    - split; [exact R1|]. eapply apipe_bytes; [|exact R2]. rewrite <- !app_assoc. reflexivity.
    - unfold y_gone in R1. cbn [y_srv] in R1. destruct HA as [-> | ->]; discriminate R1. }
  assert (cend = None) as ->.
  { destruct HE as [HE|(_ & E2 & _)]; [exact HE|]. unfold y_gone in E2. cbn [y_srv] in E2. destruct HA as [-> | ->]; discriminate E2. }
  assert (length (down ++ x :: now) + length (aev_bytes (at_in c)) <= cap)%nat as HB3 by (rewrite app_length; lia).
  destruct later as [|y later]; cbn [or_same]; (split; [|left]).
  - exists got, ungot, ts, us, sent, read, unread, said, w. ycbn. cbn [then_at then_writer rest_of writing].
    repeat (split; [assumption|]). split; [left; exact HR1|]. repeat (split; [assumption|]). split; [exact I|]. split; [left; reflexivity|]. auto.
  - unfold ywork. ycbn. cbn [then_at then_writer rest_of]. rewrite app_nil_r, app_length. cbn [length]. lia.
  - exists got, ungot, ts, us, sent, read, unread, said, w. ycbn. cbn [then_at then_writer rest_of writing].
    repeat (split; [assumption|]). split; [left; exact HR1|]. repeat (split; [assumption|]). split; [split; [discriminate|exact HA]|]. split; [left; reflexivity|]. auto.
  - unfold ywork. ycbn. cbn [then_at then_writer rest_of]. rewrite !app_length. cbn [length]. lia.
Qed.

Lemma arrive_step : forall cap lines ks n t, yinv cap lines ks t -> ystepped cap lines ks (YArrive n) t (y_arrive n t).
Proof.
  intros cap lines ks n t HInv. pose proof HInv as HI. yinv_open HI.
  destruct t as [c cend ls up a r0 wr x0 down]. unfold y_arrive. ycbn_in.
  pose proof (firstn_skipn n down) as HN. assert (length (firstn n down) + length (skipn n down) = length down)%nat as HN2 by (rewrite <- app_length, HN; reflexivity).
  set (c' := with_scripts (at_in c ++ apiece n down) (at_out c) c).
  assert (forall c1 c2 ce, y_gone (mk_crossed c1 ce ls up a r0 wr x0 down) = true -> y_gone (mk_crossed c2 ce ls up a r0 wr x0 (skipn n down)) = true) as HSG.
  { unfold y_gone. ycbn. intros _ _ _. destruct a; auto. destruct down; [rewrite skipn_nil; auto|discriminate]. }
  split.
  - exists got, ungot, ts, us, sent, read, unread, said, w. ycbn. repeat (split; [assumption|]).
    split. { destruct HR as [(R1 & R2)|(R1 & R2 & R3)]; [left|right]; (split; [first [exact R1|apply (HSG _ _ _ R1)]|]); [|auto].
      eapply apipe_bytes; [|exact R2]. unfold c'. cbn [with_scripts at_in].
      rewrite aev_app, apiece_bytes, <- app_assoc. f_equal. rewrite app_assoc, HN. reflexivity. }
    split; [apply Forall_app; split; [exact HD|apply apiece_data]|]. repeat (split; [assumption|]). split.
    { destruct HE as [HE|HE]; [left; exact HE|right]. destruct HE as (E1 & E2 & E3). split; [exact E1|]. split; [apply (HSG _ _ _ E2)|exact E3]. }
    split; [exact HB1|]. split; [unfold c'; cbn [with_scripts at_in]; rewrite aev_app, apiece_bytes, app_length; lia|exact HFit].
  - destruct (firstn n down) as [|b bs] eqn:EF.
    + right. assert (skipn n down = down) as -> by exact HN.
      assert (apiece n down = []) as E by (unfold apiece; rewrite EF; reflexivity). split.
      * unfold ycore, c'. ycbn. rewrite E, app_nil_r. destruct c. reflexivity.
      * cbn [yidle y_down]. destruct n; [left; reflexivity|]. destruct down; [right; reflexivity|discriminate EF].
    + left. unfold ywork. ycbn.
      assert (at_rdone c = false) as R1.
      { destruct HR as [[R1 _]|(R1 & _)]; [exact R1|]. unfold y_gone in R1. ycbn_in. destruct a; try discriminate R1. destruct down; [|discriminate R1].
        rewrite firstn_nil in EF. discriminate EF. }
      assert (cwork c' + 3 * length (skipn n down) < cwork c + 3 * length down)%nat as HX.
      { unfold cwork, read_work, c'. cbn [with_scripts at_user at_over at_udone at_hold at_out at_rdone at_in at_read]. rewrite R1, aev_app, apiece_bytes, EF, app_length. cbn [length] in *. destruct (at_udone c); lia. }
      pose proof (cwork_out c) as W1. pose proof (cwork_out c') as W2. change (fw_out (at_out c')) with (fw_out (at_out c)) in *. lia.
Qed.

Lemma y_type_step : forall cap lines ks t, yinv cap lines ks t -> ystepped cap lines ks YType t (y_type t).
Proof.
  intros cap lines ks t HInv. pose proof HInv as HI. yinv_open HI.
  unfold y_type. destruct (y_lines t) as [|l ls] eqn:EL.
  { split; [exact HInv|]. right. split; [reflexivity|left; exact EL]. }
  destruct (thread_over (y_client t)) eqn:ET.
  { split; [exact HInv|]. right. split; [reflexivity|right; exact ET]. }
  unfold thread_over in ET. apply orb_false_iff in ET as [EO EX].
  destruct t as [c cend ls0 up a r0 wr x0 down]. ycbn_in. subst ls0.
  set (c' := mk_achat (at_prog c) (at_read c) (at_in c) (at_rdone c) (at_user c ++ [Typed l]) (at_over c) (at_udone c) (at_flag c) (at_hold c) (at_out c) (at_keys c) (at_shown c)).
  pose proof HC as (C1 & C2 & (T1 & T2 & T3) & C4 & C5 & C6 & C7 & C8 & C9 & C10).
  split.
  - exists got, ungot, ts, (us ++ [l]), sent, read, unread, said, w. ycbn.
    split.
    { split; [exact C1|]. split; [exact C2|]. split; [split; [unfold c'; cbn [at_user]; rewrite T1, map_app; reflexivity|split; [intros _; exact EO|exact T3]]|].
      split; [exact C4|]. split; [exact C5|]. split; [exact C6|]. split.
      - rewrite HL in HFit. rewrite app_assoc. apply Forall_app. split; [exact C7|]. rewrite !Forall_app in HFit. destruct HFit as (_ & _ & HFit).
        inversion HFit; subst. constructor; [assumption|constructor].
      - split; [exact C8|]. split; [exact C9|]. intros x b E.
        assert (~ In close_line us) as HN.
        { intros HI. rewrite T1 in EX. assert (existsb (fun u => match u with Typed l => beqb l (str "/close") | Idle => false end) (map Typed us) = true) as HB; [|congruence].
          apply existsb_exists. exists (Typed close_line). split; [apply in_map; exact HI|]. apply beqb_eq. reflexivity. }
        destruct (list_eq_dec Byte.byte_eq_dec l close_line) as [->|Hne].
        + assert (length b = O) as HB; [|destruct b; [reflexivity|discriminate HB]].
          destruct (exists_last (l := close_line :: b) ltac:(discriminate)) as (b' & z & EZ). rewrite EZ, app_assoc in E. apply app_inj_tail in E as [E _].
          destruct b' as [|w0 b'']; [cbn [app] in EZ; injection EZ as _ ->; reflexivity|]. cbn [app] in EZ. injection EZ as <- _.
          contradiction HN. rewrite E. apply in_or_app. right. left. reflexivity.
        + exfalso. assert (In close_line (us ++ [l])) as HI by (rewrite E; apply in_or_app; right; left; reflexivity).
          apply in_app_or in HI as [HI|[HI|[]]]; [exact (HN HI)|congruence]. }
    split; [rewrite HL, <- app_assoc; reflexivity|]. repeat (split; [assumption|]). split.
    { destruct HE as [HE|HE]; [left; exact HE|right]. destruct HE as (_ & _ & _ & E & _). cbn [y_client] in E. congruence. }
    auto.
  - left. unfold ywork. ycbn.
    assert (cwork c' = cwork c + (11 * (length l + 14) + 2))%nat as HX.
    { unfold cwork. change (read_work c') with (read_work c). unfold c'. cbn [at_user at_over at_udone at_hold at_out]. rewrite user_work_app. lia. }
    pose proof (cwork_out c) as W1. pose proof (cwork_out c') as W2. change (fw_out (at_out c')) with (fw_out (at_out c)) in *. cbn [line_work fold_right]. fold (line_work ls). lia.
Qed.

Lemma y_any_step : forall cap lines ks a t, yinv cap lines ks t -> ystepped cap lines ks a t (crossed_step cap a t).
Proof. intros cap lines ks [extra|k|n|n|n|] t H; [apply poll_step|apply serve_step|apply take_step|apply push_step|apply arrive_step|apply y_type_step]; exact H. Qed.

Lemma y_new_inv : forall cap lines ks b w, never_fails w -> Forall fit_line lines -> yinv cap lines ks (crossed_new lines ks b w).
Proof.
  intros cap lines ks b w HN HF. exists [], [], [], [], [], [], [], [], w. unfold crossed_new. ycbn. cbn [then_at then_writer rest_of writing atalk_new tk_client achat_new ac_read ac_in ac_out at_rdone at_in at_read at_out].
  split.
  { split; [reflexivity|]. split; [reflexivity|]. split; [split; [reflexivity|split; [intros X; contradiction X; reflexivity|reflexivity]]|].
    split; [reflexivity|]. split; [reflexivity|]. split; [reflexivity|]. split; [constructor|]. split; [constructor|]. split; [discriminate|].
    intros [|x a] b0 E; discriminate E. }
  split; [reflexivity|]. split; [reflexivity|]. split; [reflexivity|]. split.
  { left. split; [reflexivity|]. split; [reflexivity|]. split; [split; [reflexivity|intros _; reflexivity]|]. split; [reflexivity|constructor]. }
  split; [constructor|]. split; [split; reflexivity|]. split; [split; reflexivity|]. split; [repeat split; constructor|].
  split; [reflexivity|]. split; [exact HN|]. split; [exact I|]. split; [left; reflexivity|]. cbn. repeat split; auto; lia.
Qed.
Lemma y_run_inv : forall cap lines ks acts t, yinv cap lines ks t -> yinv cap lines ks (crossed_run cap acts t).
Proof. intros cap lines ks. induction acts as [|a acts IH]; intros t H; [exact H|]. cbn [crossed_run]. apply IH. apply y_any_step. exact H. Qed.

(** ** What follows *)
Lemma y_served : forall ks c got ts us sent read unread said e, cabs ks c got ts us sent -> with_keys ks sent = read ++ unread ->
  server_ok (Served e) read said ->
  unread = [] /\ at_over c = true /\ kept c = [] /\ us = [] /\ exists ts', ts = ts' ++ [close_line] /\ unclosed ts' /\
    map fst said = greeting :: flat_map echo_all (map typed_as ts') ++ [OClose None].
Proof.
  intros ks c got ts us sent read unread said e HC HK (_ & rd & p & -> & _ & Hp & E).
  destruct (read_close _ _ _ _ _ _ _ _ _ HC HK Hp) as (A1 & A2 & A3 & A4 & ts' & B1 & B2 & B3). repeat (split; [assumption|]).
  exists ts'. rewrite <- B3. auto.
Qed.

Lemma y_inv_sound : forall cap lines ks t us closed, yinv cap lines ks t -> before_close lines us closed ->
  prefix (at_shown (y_client t)) (yconversation us closed).
Proof.
  intros cap lines ks t us0 closed HI HB. yinv_open HI.
  assert (at_shown (y_client t) = map fst got) as -> by apply HC. apply prefix_app with (b := map fst ungot). rewrite <- map_app, <- HSd.
  destruct (then_at (y_write t) (y_srv t)) as [| |e] eqn:EA.
  - destruct HSt as [_ ->]. eexists. reflexivity.
  - destruct HSt as [HO E]. rewrite E. assert (prefix (map fst read) us0) as [r ->].
    + apply (before_prefix _ _ _ HB _ (map fst unread ++ kept (y_client t) ++ map typed_as (us ++ y_lines t))).
      * destruct HC as (_ & _ & _ & C4 & _). rewrite HL, map_app, C4, <- (with_keys_fst sent ks), HK, map_app, <- !app_assoc. reflexivity.
      * apply Forall_map. exact HO.
    + unfold yconversation. exists (flat_map echo_all r ++ (if closed then [OClose None] else [])). rewrite flat_map_app, <- app_assoc. reflexivity.
  - destruct (y_served _ _ _ _ _ _ _ _ _ _ HC HK HSt) as (-> & _ & _ & -> & ts' & -> & B2 & B3). rewrite B3.
    cbn [app] in HL. rewrite <- app_assoc in HL. destruct (before_closed _ _ _ HB _ _ HL B2) as [-> ->]. exists []. rewrite app_nil_r. reflexivity.
Qed.

Lemma y_inv_ends : forall cap lines ks t us closed, yinv cap lines ks t -> before_close lines us closed -> y_cend t <> None ->
  y_cend t = Some TReady /\ closed = true /\ at_shown (y_client t) = yconversation us true /\ y_srv t = Served Returned /\ y_write t = None /\
  y_up t = [] /\ y_down t = [].
Proof.
  intros cap lines ks t us0 closed HI HB HN. yinv_open HI.
  destruct HE as [HE|(E1 & E2 & E3 & E4 & E5 & E6 & E7)]; [contradiction|]. split; [exact E1|].
  unfold y_gone in E2. destruct (y_srv t) as [| |e] eqn:EA; try discriminate E2.
  assert (y_write t = None) as EW. { destruct (y_write t) as [[[a1 w1] o1]|]; [|reflexivity]. destruct HWi as [_ [X|X]]; discriminate X. }
  rewrite EW in *. cbn [then_at then_writer rest_of] in *.
  destruct (y_served _ _ _ _ _ _ _ _ _ _ HC HK HSt) as (-> & _ & _ & -> & ts' & -> & B2 & B3).
  cbn [app] in HL. rewrite <- app_assoc in HL. destruct (before_closed _ _ _ HB _ _ HL B2) as [-> ->]. split; [reflexivity|]. split.
  - assert (at_shown (y_client t) = map fst got) as -> by apply HC. destruct HR as [[R1 _]|(_ & _ & ->)]; [congruence|].
    rewrite app_nil_r in HSd. subst said. exact B3.
  - split; [f_equal; apply HSt|]. split; [reflexivity|]. apply encs_nil in HSa. apply app_eq_nil in HSa as [HSa _]. split; [exact HSa|].
    destruct (y_down t); [reflexivity|discriminate E2].
Qed.

(** ** It goes on *)
Lemma y_idle_core : forall cap lines ks a t t', yinv cap lines ks t' -> yinv cap lines ks t -> ycore t' = ycore t -> yidle cap a t -> yidle cap a t'.
Proof.
  intros cap lines ks a t t' HI' HI H HS. unfold ycore, ccore in H. injection H as H1 H2 H3 H4 H5 H6 H7 H8 H9 H10 H11 H12 H13 H14 H15.
  assert (y_gone t' = y_gone t) as EG by (unfold y_gone; rewrite H11, H15; reflexivity).
  assert (at_rdone (y_client t') = at_rdone (y_client t)) as ER.
  { destruct (at_rdone (y_client t')), (at_rdone (y_client t)); congruence. }
  destruct a; cbn [yidle] in *.
  - rewrite H8. destruct HS as [HS|HS]; [left; exact HS|right].
    assert (y_room_up cap t' = y_room_up cap t) as -> by (unfold y_room_up; rewrite H10; reflexivity). rewrite EG.
    cbn [cpost] in *. rewrite H4, H5, H1, H2. destruct HS as [HS|(B1 & B2 & B3 & B4)]; [left; exact HS|right]. split; [exact B1|]. split; [exact B2|]. split; [|exact B4].
    unfold read_out in *. rewrite ER. destruct (y_gone t); [exact B3|]. destruct B3 as (B3 & B5 & B6). rewrite ER, B3 in H7. injection H7 as E1 E2. rewrite E1, E2. auto.
  - rewrite H11, H12, H14. exact HS.
  - rewrite H10, H11, H12, H14. exact HS.
  - rewrite H14. destruct HS as [HS|[HS|HS]]; [left; exact HS|right; left; exact HS|].
    destruct (y_write t) as [[[a1 w1] o1]|] eqn:EW; [|right; left; reflexivity]. right. right. rewrite <- HS.
    assert (at_rdone (y_client t) = false) as ED.
    { yinv_open HI. destruct HR as [[HR _]|(HR & _)]; [exact HR|]. rewrite EW in HWi. unfold y_gone in HR. destruct HWi as [_ [X|X]]; rewrite X in HR; discriminate HR. }
    rewrite ER, ED in H7. injection H7 as E1 E2. unfold y_room_down. rewrite H15, <- (aev_filter (at_in (y_client t'))), E1, aev_filter. reflexivity.
  - rewrite H15. exact HS.
  - rewrite H9. destruct HS as [HS|HS]; [left; exact HS|right]. unfold thread_over in *. rewrite H1, H2. exact HS.
Qed.

Lemma y_round_step : forall cap lines ks acts t, yinv cap lines ks t ->
  let t' := crossed_run cap acts t in
  (ywork t' < ywork t)%nat \/ ycore t' = ycore t /\ forall a, In a acts -> yidle cap a t'.
Proof.
  intros cap lines ks. induction acts as [|a acts IH]; intros t HI t'; subst t'; cbn [crossed_run].
  - right. split; [reflexivity|intros a []].
  - destruct (y_any_step _ _ _ a _ HI) as [HI1 H1]. specialize (IH _ HI1). cbv zeta in IH.
    assert (forall u v, ycore u = ycore v -> ywork u = ywork v) as HT.
    { clear. intros u v H. unfold ycore in H.
      assert (ccore (y_client u) = ccore (y_client v) /\ y_cend u = y_cend v /\ y_lines u = y_lines v /\ y_up u = y_up v /\ y_srv u = y_srv v /\
        y_reader u = y_reader v /\ y_write u = y_write v /\ y_down u = y_down v) as (H1 & H2 & H3 & H4 & H5 & H6 & H7 & H8) by (repeat split; congruence). clear H. unfold ywork.
      rewrite (core_work _ _ H1), H2, H3, H4, H5, H6, H7, H8.
      unfold ccore in H1. injection H1 as _ _ _ _ _ -> _. reflexivity. }
    destruct H1 as [H1|[H1 S1]], IH as [IH|[IH S2]].
    + left. lia.
    + left. rewrite (HT _ _ IH). exact H1.
    + left. rewrite <- (HT _ _ H1). exact IH.
    + right. split; [congruence|]. intros b [<-|Hb]; [|apply S2; exact Hb].
      apply (y_idle_core cap lines ks a (crossed_step cap a t)); [apply y_run_inv; exact HI1|exact HI1|exact IH|exact S1].
Qed.

Lemma y_not_idle : forall cap lines ks t, yinv cap lines ks t -> (1 <= cap)%nat -> wont_fill cap lines -> In close_line lines ->
  (forall e, yidle cap (YPoll e) t) -> (forall k, yidle cap (YServe k) t) -> yidle cap (YTake 1) t -> yidle cap (YPush 1) t ->
  y_down t = [] -> yidle cap YType t -> y_cend t <> None.
Proof.
  intros cap lines ks t HI Hcap HF HIn S1 S2 S3 S4 ED S6. destruct (S1 0) as [S1'|S1']; [exact S1'|]. intros EN. clear S1. specialize (S2 (mk_key x00 x00 x00 x00)).
  yinv_open HI. clear HE EN. pose proof HC as (C1 & C2 & (T1 & T2 & T3) & C4 & C5 & C6 & C7 & C8 & C9 & C10).
  destruct S1' as [(B1 & B2 & B3)|(B1 & B2 & B3 & B4 & B5)].
  - (* the client's buffer and the network are full *)
    pose proof (frames_sent _ _ _ _ _ _ HC) as HX. rewrite HK, frames_app, app_length in HX. destruct HSa as (_ & _ & A3 & _).
    change (encs (masked_frames true unread)) with (frames false unread) in A3. rewrite <- A3, !app_length in HX. unfold y_room_up in B3.
    unfold wont_fill in HF. rewrite HL, letters_app, app_length in HF. unfold llen in B2. lia.
  - assert ((exists e, y_srv t = Served e) \/ y_srv t = Greeting \/ y_srv t = Serving) as [[e EA]|HA] by (destruct (y_srv t); eauto).
    + assert (y_write t = None) as EW. { rewrite EA in HWi. destruct (y_write t) as [[[a1 w1] o1]|]; [|reflexivity]. destruct HWi as [_ [X|X]]; discriminate X. }
      rewrite EW, EA in *. cbn [then_at then_writer rest_of] in *.
      destruct (y_served _ _ _ _ _ _ _ _ _ _ HC HK HSt) as (-> & EO & _). assert (y_gone t = true) as EG by (unfold y_gone; rewrite EA, ED; reflexivity).
      contradiction (B5 EG EO). apply encs_nil in HSa. apply app_eq_nil in HSa as [_ HSa]. exact HSa.
    + assert (y_gone t = false) as EG by (unfold y_gone; destruct HA as [-> | ->]; reflexivity).
      rewrite EG in B3. destruct B3 as (_ & B6 & _).
      assert (y_room_down cap t = cap) as ER by (unfold y_room_down; rewrite ED, <- (aev_filter (at_in (y_client t))), B6; cbn [length aev_bytes]; lia).
      assert (y_write t = None) as EW by (destruct S4 as [S4|[S4|S4]]; [discriminate S4|exact S4|lia]). rewrite EW in *. cbn [then_at then_writer rest_of] in *.
      destruct S2 as [S2|[[e S2]|[EA S2]]]; [congruence|destruct HA; congruence|]. rewrite EA in *.
      assert (y_up t = []) as EU by (destruct S3 as [S3|[S3|[S3|[S3|S3]]]]; [discriminate S3|exact S3|congruence|congruence|congruence]).
      destruct B4 as [B4|B4]; [|unfold y_room_up in B4; rewrite EU in B4; cbn [length] in B4; lia]. rewrite EU, B4 in HSa. cbn [app] in HSa.
      assert (unread = []) as ->.
      { destruct (pipe_read _ _ _ _ HSa) as [(m & k0 & l & r' & X1 & X2 & _)|(_ & [X|X])]; [|exact X|contradiction].
        unfold lacks in S2. rewrite X2 in S2. discriminate S2. }
      rewrite app_nil_r in HK. destruct HSt as [HO _].
      assert (Forall (fun m => ~ closing m) (map typed_as ts)) as HX.
      { rewrite C4. unfold kept. rewrite B1, app_nil_r, <- (with_keys_fst sent ks), HK. apply Forall_map. exact HO. }
      assert (In close_line ts) as HY.
      { rewrite B2 in T1. destruct us; [|discriminate T1]. destruct S6 as [S6|S6].
        - rewrite HL, S6, !app_nil_r in HIn. exact HIn.
        - unfold thread_over in S6. rewrite B2 in S6. cbn [existsb] in S6. rewrite orb_false_r in S6. destruct (C9 S6) as (ts' & -> & _). apply in_or_app. right. left. reflexivity. }
      rewrite Forall_forall in HX. contradiction (HX (OClose None)).
      * apply in_map_iff. exists close_line. split; [reflexivity|exact HY].
Qed.

Lemma y_run_app : forall cap a b t, crossed_run cap (a ++ b) t = crossed_run cap b (crossed_run cap a t).
Proof. intros cap. induction a as [|x a IH]; intros b t; [reflexivity|]. cbn [app crossed_run]. apply IH. Qed.
Lemma y_cend_stays : forall cap a t, y_cend t <> None -> y_cend (crossed_step cap a t) <> None.
Proof.
  intros cap a t HN. destruct a; cbn [crossed_step].
  - unfold y_poll. destruct (y_cend t) eqn:E; [rewrite E; discriminate|congruence].
  - unfold y_serve. destruct (y_write t); [destruct (y_srv t); exact HN|]. destruct (y_srv t) eqn:ES; [| |exact HN].
    + destruct (server_turn _ _ _ _) as [[a' r'] w']. destruct (written _ _); exact HN.
    + destruct (must_wait _ _ _); [exact HN|]. destruct (server_turn _ _ _ _) as [[a' r'] w']. destruct (written _ _); exact HN.
  - unfold y_take. destruct (y_write t); [exact HN|]. destruct (y_srv t); try exact HN. destruct (lacks _); [|exact HN]. destruct (arrive _ _ _) as [[r' q]|]; exact HN.
  - unfold y_push. destruct (y_write t) as [[[a w] o]|]; [|exact HN]. cbv zeta. destruct (firstn _ o); [exact HN|]. destruct (skipn _ o); exact HN.
  - exact HN.
  - unfold y_type. destruct (y_lines t); [exact HN|]. destruct (thread_over (y_client t)); exact HN.
Qed.
Lemma y_run_ends : forall cap lines ks rounds t, yinv cap lines ks t -> (1 <= cap)%nat -> wont_fill cap lines -> In close_line lines ->
  Forall crossed_round rounds -> (ywork t < length rounds)%nat -> y_cend (crossed_run cap (concat rounds) t) <> None.
Proof.
  intros cap lines ks. induction rounds as [|acts rounds IH]; intros t HI Hcap HF HIn HR HW; [cbn [length] in HW; lia|].
  inversion HR as [|? ? R1 R2]; subst. cbn [concat]. rewrite y_run_app.
  pose proof (y_run_inv cap lines ks acts t HI) as HI1. destruct (y_round_step cap lines ks acts t HI) as [HX|[HC HX]].
  - apply IH; auto. cbn [length] in HW. lia.
  - assert (y_cend (crossed_run cap acts t) <> None) as HN.
    { destruct R1 as ((e & A1) & (k & A2) & (n3 & A3) & (n4 & A4) & (n5 & A5) & A6).
      apply (y_not_idle cap lines ks); auto.
      - intros e'. exact (HX _ A1).
      - intros k'. exact (HX _ A2).
      - destruct (HX _ A3) as [E|E]; [discriminate E|right; exact E].
      - destruct (HX _ A4) as [E|E]; [discriminate E|right; exact E].
      - destruct (HX _ A5) as [E|E]; [discriminate E|exact E]. }
    clear - HN. revert HN. generalize (crossed_run cap acts t). generalize (concat rounds). clear.
    induction l as [|a l IH]; intros t HN; [exact HN|]. cbn [crossed_run]. apply IH. apply y_cend_stays. exact HN.
Qed.

(** ** A conversation that is stuck *)
(** The client does not read before it has got rid of a message, the server does not before it has
    written its own. *)
Definition y_frozen (cap : nat) (t : crossed) : bool :=
  match y_cend t, y_lines t, y_down t, y_write t, at_hold (y_client t) with
  | None, [], [], Some _, Some _ =>
      asleep_b (at_out (y_client t)) && forallb is_adata (at_in (y_client t)) &&
      (y_room_up cap t =? 0)%nat && (y_room_down cap t =? 0)%nat
  | _, _, _, _, _ => false
  end.
Lemma y_frozen_stays : forall cap t, y_frozen cap t = true -> y_cend t = None /\ forall a, crossed_step cap a t = t.
Proof.
  intros cap [c cend ls up a r0 wr x0 down] H. unfold y_frozen in H. ycbn_in.
  destruct cend; [discriminate H|]. destruct ls; [|discriminate H]. destruct down; [|discriminate H]. destruct x0 as [[[a' w'] o]|]; [|discriminate H].
  destruct (at_hold c) as [m|] eqn:EM; [|discriminate H].
  rewrite !andb_true_iff in H. destruct H as (((H1 & H4) & H6) & H7). apply Nat.eqb_eq in H6, H7.
  assert (asleep (at_out c) /\ 8192 <= llen (pend (at_out c))) as [[A1 A2] A3].
  { unfold asleep_b in H1. apply andb_true_iff in H1 as [HX HY]. unfold asleep. destruct (fw_ws (at_out c)); [|discriminate HX]. destruct (fw_fs (at_out c)); [|discriminate HX]. split; [auto|lia]. }
  assert (all_data (at_in c)) as HD by (apply Forall_forall; rewrite forallb_forall in H4; exact H4).
  split; [reflexivity|]. intros [extra|key|n|n|n|]; cbn [crossed_step].
  - unfold y_poll. cbn [y_client y_cend]. rewrite H6. cbv zeta.
    set (n := S (achat_fuel c)). set (g := y_gone _).
    destruct (send_full false (owned_ops m) (at_keys c O) extra (achat_fuel c) (with_room 0 n (at_out c)) ltac:(split; reflexivity) A3) as (w2 & E1 & E2).
    unfold achat_poll. cbn [with_scripts at_hold at_keys at_out]. rewrite EM, E1. unfold with_out. cbn [with_scripts at_in at_out at_prog at_read at_rdone at_user at_over at_udone at_flag at_hold at_keys at_shown].
    ycbn. unfold with_scripts. cbn [at_in at_out at_prog at_read at_rdone at_user at_over at_udone at_flag at_hold at_keys at_shown].
    rewrite E2, waits_filter, (filter_all_data _ HD).
    assert (awritten (at_out c) w2 = []) as ->.
    { unfold awritten. assert (fw_out w2 = fw_out (at_out c)) as -> by (exact (f_equal fw_out E2)). apply skipn_all. }
    rewrite app_nil_r. f_equal. destruct c as [cp cr ci crd cu co cud cf ch cw ck cs]. cbn [at_in at_out at_prog at_read at_rdone at_user at_over at_udone at_flag at_hold at_keys at_shown] in *.
    subst ch. f_equal. destruct cw as [wb wo wws wfs]. cbn [fw_ws fw_fs] in *. subst. reflexivity.
  - unfold y_serve. cbn [y_write y_srv]. destruct a; reflexivity.
  - reflexivity.
  - unfold y_push. cbn [y_write]. rewrite H7, Nat.min_0_r. reflexivity.
  - unfold y_arrive, apiece. ycbn. rewrite firstn_nil, skipn_nil, app_nil_r. destruct c. reflexivity.
  - reflexivity.
Qed.
Lemma y_frozen_run : forall cap t acts, y_frozen cap t = true -> crossed_run cap acts t = t.
Proof. intros cap t acts H. induction acts as [|a acts IH]; [reflexivity|]. cbn [crossed_run]. rewrite (proj2 (y_frozen_stays _ _ H)). exact IH. Qed.

(** [C87] Whatever the network's room and delays and however the client's task and the server's
    thread are scheduled: what the user of async-client has been shown by server.rs is always an
    initial part of the conversation: the greeting, an echo of every line typed before "/close" and
    the answer to every "/ping", in order, and last the server's Close.  The client does not fail
    and the server does not panic. *)
Lemma crossed_sound_proof : forall cap lines us closed ks b w acts, never_fails w -> Forall sayable lines -> before_close lines us closed ->
  let t := crossed_run cap acts (crossed_new lines ks b w) in
  prefix (at_shown (y_client t)) (yconversation us closed) /\
  (y_cend t = None \/ y_cend t = Some TReady) /\
  (y_srv t = Greeting \/ y_srv t = Serving \/ y_srv t = Served Returned).
Proof.
  intros cap lines us0 closed ks b w0 acts HN HF HB t. pose proof (y_run_inv cap lines ks acts _ (y_new_inv cap lines ks b w0 HN HF)) as HI. fold t in HI.
  split; [eapply y_inv_sound; eauto|]. yinv_open HI. 
  split; [destruct HE as [HE|[HE _]]; auto|]. destruct (y_srv t) as [| |e] eqn:EA; auto. right. right.
  assert (y_write t = None) as EW. { destruct (y_write t) as [[[a1 w1] o1]|]; [|reflexivity]. destruct HWi as [_ [X|X]]; discriminate X. }
  rewrite EW in HSt. cbn [then_at] in HSt. destruct HSt as [-> _]. reflexivity.
Qed.
(*EX
(** The user says "hi", "/ping" and "/close"; the network holds five bytes either way. *)
Definition crossed_turns : list yact := [YType; YPoll 0; YTake 3; YServe (mk_key x00 x00 x00 x00); YPush 4; YArrive 2].
Definition crossed_lines : list bytes := [str "hi"; str "/ping"; str "/close"].
Definition crossed_start : crossed := crossed_new crossed_lines (fun _ => mk_key x01 x02 x03 x04) 0 (mk_w [] []).
Example crossed_sound_ex :
  before_close crossed_lines [OText (str "hi"); OPing (str "PING")] true /\
  at_shown (y_client (crossed_run 5 (concat (repeat crossed_turns 9)) crossed_start)) = [OText (str "Hello"); OText (str "hi")].
Proof.
  split; [|vm_compute; reflexivity].
  apply (before_line (str "hi")); [discriminate|]. apply (before_line (str "/ping")); [discriminate|]. constructor.
Qed.
EX*)

(** [C87] When the client ends, the user has been shown the whole conversation, the server's thread
    has returned, and nothing is left under way. *)
Lemma crossed_ends_proof : forall cap lines us closed ks b w acts, never_fails w -> Forall sayable lines -> before_close lines us closed ->
  let t := crossed_run cap acts (crossed_new lines ks b w) in
  y_cend t <> None ->
  y_cend t = Some TReady /\ closed = true /\ at_shown (y_client t) = yconversation us true /\ y_srv t = Served Returned /\
  y_write t = None /\ y_up t = [] /\ y_down t = [].
Proof.
  intros cap lines us closed ks b w acts HN HF HB t HE. pose proof (y_run_inv cap lines ks acts _ (y_new_inv cap lines ks b w HN HF)) as HI. fold t in HI.
  eapply y_inv_ends; eauto.
Qed.
(*EX
Example crossed_ends_ex :
  let t := crossed_run 5 (concat (repeat crossed_turns 24)) crossed_start in
  y_cend t = Some TReady /\
  at_shown (y_client t) = [OText (str "Hello"); OText (str "hi"); OPong (str "PING"); OClose None].
Proof. vm_compute. split; reflexivity. Qed.
EX*)

(** [C87] The network never holds more than its room. *)
Lemma crossed_bounded_proof : forall cap lines ks b w acts, never_fails w -> Forall sayable lines ->
  let t := crossed_run cap acts (crossed_new lines ks b w) in
  (List.length (y_up t) <= cap)%nat /\
  (List.length (y_down t) + List.length (aev_bytes (at_in (y_client t))) <= cap)%nat.
Proof.
  intros cap lines ks b w0 acts HN HF t. pose proof (y_run_inv cap lines ks acts _ (y_new_inv cap lines ks b w0 HN HF)) as HI. fold t in HI.
  yinv_open HI. auto.
Qed.
(*EX
Example crossed_bounded_ex :
  let t := crossed_run 5 [YType; YPoll 0; YServe (mk_key x00 x00 x00 x00); YPush 9; YArrive 2] crossed_start in
  List.length (y_up t) = 5%nat /\
  (List.length (y_down t) + List.length (aev_bytes (at_in (y_client t))) = 5)%nat.
Proof. vm_compute. split; reflexivity. Qed.
EX*)

(** [C87] If what the user will say does not fill the network and the client's buffer, and "/close"
    is among it, the conversation comes to its end, however it is scheduled, once everyone has had
    enough turns. *)
Lemma crossed_live_proof : forall cap lines ks b w rounds, never_fails w -> Forall sayable lines -> In (ascii "/close") lines ->
  (1 <= cap)%nat -> wont_fill cap lines -> Forall crossed_round rounds ->
  (11 * letters lines + 157 * List.length lines + 100 <= List.length rounds)%nat ->
  y_cend (crossed_run cap (concat rounds) (crossed_new lines ks b w)) = Some TReady.
Proof.
  intros cap lines ks b w0 rounds HNf0 HF HIn Hcap HFill HR0 HLen. pose proof (y_new_inv cap lines ks b w0 HNf0 HF) as HI0.
  assert (line_work lines = 11 * letters lines + 157 * List.length lines)%nat as HLW.
  { clear. induction lines as [|t lines IH]; [reflexivity|]. cbn [line_work fold_right letters List.length]. fold (line_work lines) (letters lines). rewrite IH. lia. }
  assert (ywork (crossed_new lines ks b w0) < line_work lines + 100)%nat as HT.
  { unfold ywork, crossed_new. ycbn. cbn [then_at rest_of srv_fee List.length].
    set (x := (cwork _ - _)%nat). vm_compute in x. set (y := arrived_at _). vm_compute in y. subst x y. lia. }
  assert (y_cend (crossed_run cap (concat rounds) (crossed_new lines ks b w0)) <> None) as HN.
  { apply (y_run_ends cap lines ks rounds); auto. lia. }
  pose proof (y_run_inv cap lines ks (concat rounds) _ HI0) as HI. yinv_open HI.
  destruct HE as [HE|[HE _]]; [contradiction|exact HE].
Qed.
(*EX
Example crossed_live_ex : crossed_round crossed_turns /\ wont_fill 5 crossed_lines /\
  y_cend (crossed_run 5 (concat (repeat crossed_turns 800)) crossed_start) = Some TReady.
Proof.
  assert (crossed_round crossed_turns) as HF.
  { unfold crossed_round, crossed_turns. repeat split; try (eexists; repeat ((left; reflexivity) || right)); repeat ((left; reflexivity) || right). }
  assert (wont_fill 5 crossed_lines) as HW by (vm_compute; reflexivity).
  split; [exact HF|]. split; [exact HW|].
  apply crossed_live; [| | | |exact HW| |].
  - constructor.
  - repeat (constructor; [split; [apply ExTac.good_text; reflexivity|vm_compute; discriminate]|]). constructor.
  - right. right. left. reflexivity.
  - repeat constructor.
  - apply Forall_forall. intros r HR. apply repeat_spec in HR. subst r. exact HF.
  - apply PeanoNat.Nat.leb_le. vm_compute. reflexivity.
Qed.
EX*)

(** [C87] Without that condition it may not: the client reads nothing while it cannot write, the
    server reads nothing while it is in a write, and from then on nothing moves, whoever gets a
    turn. *)
Lemma crossed_live_refuted_proof : exists cap lines ks b w acts, never_fails w /\ Forall sayable lines /\ In (ascii "/close") lines /\ (1 <= cap)%nat /\
  forall more, let t := crossed_run cap (acts ++ more) (crossed_new lines ks b w) in
    y_cend t = None /\ t = crossed_run cap acts (crossed_new lines ks b w).
Proof.
  set (cap := N.to_nat 1000). set (bigl := repeat x61 (N.to_nat 9600)). set (z := mk_key x00 x00 x00 x00).
  set (lines := [bigl; str "a"; bigl; str "b"; str "/close"]).
  set (c := YPoll 0). set (s := YServe z). set (u := YTake cap). set (p := YPush cap). set (d := YArrive cap).
  set (acts := [YType; YType; YType; YType; YType; c; s; p; d] ++ concat (repeat [c; u; s; p] 14) ++ [d]).
  exists cap, lines, (fun _ => z), 0, (mk_w [] []), acts. split; [constructor|]. split.
  { unfold lines, bigl. repeat constructor; try (apply good_text; vm_compute; reflexivity); vm_compute; discriminate. }
  split; [do 4 right; left; reflexivity|]. split; [unfold cap; lia|].
  assert (y_frozen cap (crossed_run cap acts (crossed_new lines (fun _ => z) 0 (mk_w [] []))) = true) as HZ by (vm_compute; reflexivity).
  intros more. rewrite y_run_app. rewrite (y_frozen_run _ _ more HZ). split; [apply (y_frozen_stays _ _ HZ)|reflexivity].
Qed.
