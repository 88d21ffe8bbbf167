(** The chat client of examples/client.rs with the server of examples/async-server.rs: C86. *)
From Coq Require Import NArith ZArith String Bool List Lia.
From Coq Require Import ZifyBool ZifyNat ZifyN.
From Coq.Strings Require Import Byte.
From Verif.Model Require Import Base Io Header Mask Dataframe Utf8 Text Base64 WsKey Headers
  Handshake Message Receiver Codec Framed Http Connect Examples AsyncExamples ChatClient Talk Narrow Suite AsyncChat AsyncTalk Mixture.
From Verif.Spec Require Import RfcFrame FrameSpec Schedule Unicode Drive Session Connection Polled Fields Upgrade Builder HttpHead Wire Endpoint Echo Polls Chat Talking Suite AsyncChat AsyncTalking Mixing.
From Verif.Proofs Require Import BaseFacts MaskFacts HeaderFacts FrameFacts CodecFacts ScriptFacts
  Machine FramedFacts AsyncFacts Utf8Facts ThmFrames ThmStream SessionFacts RecvFacts MessageFacts
  TextFacts MapFacts ExTac ThmMessages ThmFlow ThmLimits ThmServer ThmHttp ThmConnect ThmInterop ThmSession
  ThmEcho ThmWake ThmAsyncEcho ThmChat ThmSuite ThmTalk ThmNarrow ThmAsyncChat AsyncTalkFacts ThmAsyncTalk.
Import ListNotations.
Local Open Scope string_scope.
Local Open Scope list_scope.
Local Open Scope N_scope.

(** ** The client by itself *)
Lemma ok_main : forall lines c c' us sent later got w, client_ok lines c us sent later got w -> main_step c = Some c' ->
  exists us' later', client_ok lines c' us' sent later' got w.
Proof.
  intros lines c c' us sent later got w KC EC.
  pose proof (orderly_step Main _ _ ltac:(apply KC) EC) as HO.
  destruct (main_inv _ _ EC) as (A1 & A2 & A3 & A4 & A5).
  destruct KC as (C1 & C2 & C3 & C4 & C5 & C6 & C7 & C8 & C9 & C10).
  destruct A5 as [(B1 & l & B2 & B3 & B4)|B].
  - destruct C1 as [T1 T2]. specialize (T2 B1). specialize (C2 B1).
    assert (ch_send c <> SendOver) as HN.
    { intros E. rewrite E in C4. destruct C4 as (a & p & E1 & E2 & E3). rewrite C3, E1, map_app, <- app_assoc in C2.
      apply Forall_app in C2 as [_ C2]. cbn [map app] in C2. inversion C2; contradiction. }
    assert (fit_line l /\ Forall fit_line (ch_lines c')) as [F1 F2].
    { destruct B2 as [B2|(B2 & B2' & B2'')]; [rewrite B2 in C8; inversion C8; auto|]. subst l. rewrite B2'. split; [apply empty_fit|constructor]. }
    assert (types lines (us ++ [typed_as l]) /\ (l <> str "/close" -> forall us', types (ch_lines c') us' -> types lines ((us ++ [typed_as l]) ++ us'))) as [HT1 HT2].
    { assert (l <> str "/close" -> forall us', types (ch_lines c') us' -> types lines ((us ++ [typed_as l]) ++ us')) as G.
      { intros Hl us' HU. rewrite <- app_assoc. apply T2. rewrite (proj2 (typed_as_open l Hl)).
        destruct B2 as [B2|(B2 & B2' & ->)]; rewrite B2; [constructor; assumption|].
        rewrite B2' in HU. apply types_end. exact HU. }
      split; [|exact G]. destruct B4 as [[B4 _]|[B4 _]].
      - apply T2. subst l. destruct B2 as [B2|(_ & _ & B2)]; [|discriminate]. rewrite B2. constructor.
      - rewrite <- (app_nil_r (us ++ _)). apply G; [exact B4|constructor]. }
    exists (us ++ [typed_as l]), (later ++ [typed_as l]).
    split; [split; [exact HT1|]|].
    { intros E. apply HT2. destruct B4 as [[_ B4]|[B4 _]]; [congruence|exact B4]. }
    split.
    { intros E. apply Forall_app. split; [exact C2|]. constructor; [|constructor].
      destruct B4 as [[_ B4]|[B4 _]]; [congruence|]. apply typed_as_open, B4. }
    split; [rewrite C3, app_assoc; reflexivity|].
    split; [rewrite A1, B3; apply (spoken_put _ _ _ _ (typed_as l)) in C4; exact C4|].
    split; [rewrite A2; exact C5|]. split; [exact C6|].
    split; [apply Forall_app; split; [exact C7|constructor; [apply typed_as_sendable, F1|constructor]]|].
    split; [exact F2|]. split; [exact HO|]. rewrite A3. exact C10.
  - assert (ch_main c <> Typing /\ ch_main c' <> Typing /\ ch_lines c' = ch_lines c /\ ch_queue c' = ch_queue c) as (B1 & B2 & B3 & B4).
    { destruct B as [(-> & -> & B1 & B2)|(-> & -> & B1 & B2)]; repeat split; try discriminate; assumption. }
    exists us, later. split; [split; [apply C1|intros E; contradiction]|]. split; [intros E; contradiction|].
    rewrite A1, A2, A3, B3, B4. repeat (split; [assumption|]). assumption.
Qed.

Lemma ok_send : forall lines ks c c' us sent later got w, client_ok lines c us sent later got w -> send_step ks c = Some c' ->
  ch_writer c' = ch_writer c /\ ch_send c = Waiting /\ (exists m, ch_queue c = m :: ch_queue c' /\ ch_send c' = Holding m /\
    c' = mk_chat (ch_main c) (ch_lines c) (ch_queue c') (Holding m) (ch_writer c) (ch_recv c) (ch_reader c)) /\
    client_ok lines c' us sent later got w \/
  exists m k w' later', ch_send c = Holding m /\ c' = at_send (ch_send c') (set_writer (ch_writer c') c) /\
    (ch_send c' = Waiting \/ ch_send c' = SendOver) /\ sendable big m /\
    written (ch_writer c) (ch_writer c') = frames false [(m, k)] /\
    client_ok lines c' us (sent ++ [(m, k)]) later' got w'.
Proof.
  intros lines [k1 k2] c c' us sent later got w KC EC.
  pose proof (orderly_step (SendLoop (k1, k2)) _ _ ltac:(apply KC) EC) as HO. unfold send_step in EC.
  destruct KC as (C1 & C2 & C3 & C4 & C5 & C6 & C7 & C8 & C9 & C10).
  destruct (ch_send c) as [|m|] eqn:ES; [| |discriminate].
  - left. destruct (ch_queue c) as [|m q] eqn:EQ.
    + destruct (ch_main c) eqn:EM; try discriminate. destruct C9 as [_ C9]. rewrite ES in C9.
      discriminate (C9 (or_intror EM)).
    + injection EC as <-. cbn [ch_writer ch_queue ch_send]. split; [reflexivity|]. split; [reflexivity|].
      split; [exists m; auto|]. unfold client_ok. cbn [ch_main ch_lines ch_queue ch_send ch_writer ch_recv ch_reader].
      repeat (split; [assumption|]). exact C10.
  - right. cbn [spoken] in C4. destruct C4 as [C4 E]. rewrite E in C7. inversion C7 as [|? ? F1 F2]; subst x l.
    destruct (sends true m k1 w C6 (big_sendable m F1)) as (w1' & W1 & W2 & W3). rewrite C5 in EC. cbn [fst snd] in EC. rewrite W1 in EC.
    assert (forall a, (a = SendOver /\ closing m) \/ (a = Waiting /\ ~ closing m) ->
      c' = at_send a (set_writer (mk_writer (mk_sender true) w1') c) ->
      exists m0 k w' later', Holding m = Holding m0 /\ c' = at_send (ch_send c') (set_writer (ch_writer c') c) /\
    (ch_send c' = Waiting \/ ch_send c' = SendOver) /\ sendable big m0 /\
    written (ch_writer c) (ch_writer c') = frames false [(m0, k)] /\
    client_ok lines c' us (sent ++ [(m0, k)]) later' got w') as G.
    { intros a Ha Ec. exists m, k1, w1', (ch_queue c). split; [reflexivity|].
      split; [rewrite Ec; reflexivity|]. split; [rewrite Ec; cbn; destruct Ha as [[-> _]|[-> _]]; auto|]. split; [exact F1|].
      split. { rewrite Ec, C5. unfold at_send, set_writer. cbn [ch_writer]. apply written_eq. exact W2. }
      unfold client_ok. rewrite Ec in HO |- *. unfold at_send, set_writer in HO |- *.
      cbn [ch_main ch_lines ch_queue ch_send ch_writer ch_recv ch_reader] in HO |- *.
      split; [exact C1|]. split; [exact C2|].
      split; [rewrite C3, E, (map_app fst), <- app_assoc; reflexivity|].
      split.
      { destruct Ha as [[-> Hc]|[-> Hc]]; cbn [spoken].
        - exists sent, (m, k1). auto.
        - split; [|reflexivity]. apply Forall_app. auto. }
      repeat (split; [first [assumption|reflexivity]|]). exact C10. }
    destruct m; injection EC as Ec; symmetry in Ec; (eapply G; [|exact Ec]); cbn; auto.
Qed.

Lemma ok_recv : forall lines c c' us sent later got w m k r, client_ok lines c us sent later got w -> recv_step c = Some c' ->
  reader_recv (ch_reader c) = (Ok m, r) -> is_ping m = false -> (closing m -> ch_send c = SendOver) ->
  client_ok lines c' us sent later (got ++ [(m, k)]) w /\ ch_recv c = Listening /\
  (ch_recv c' = Listening /\ ~ closing m \/ ch_recv c' = ReceiveOver /\ closing m) /\
  c' = mk_chat (ch_main c) (ch_lines c) (ch_queue c) (ch_send c) (ch_writer c) (ch_recv c') r.
Proof.
  intros lines c c' us sent later got w m k r KC EC E2 HP HS.
  pose proof (orderly_step ReceiveLoop _ _ ltac:(apply KC) EC) as HO.
  destruct KC as (C1 & C2 & C3 & C4 & C5 & C6 & C7 & C8 & C9 & C10).
  assert (ch_recv c = Listening) as EL by (unfold recv_step in EC; destruct (ch_recv c); [reflexivity|discriminate]).
  rewrite EL in C10. unfold recv_step in EC. rewrite EL, E2 in EC. cbn [set_reader] in EC.
  assert ((ch_recv c' = Listening /\ ~ closing m \/ ch_recv c' = ReceiveOver /\ closing m) /\
    c' = mk_chat (ch_main c) (ch_lines c) (ch_queue c) (ch_send c) (ch_writer c) (ch_recv c') r) as [A7 A8].
  { destruct m as [d|d|cd|d|d]; try (injection EC as <-; unfold set_reader; cbn [ch_main ch_lines ch_queue ch_send ch_writer ch_recv ch_reader]; rewrite EL;
      split; [left; split; [reflexivity|intros []]|reflexivity]).
    - rewrite put_eq in EC. unfold set_reader in EC. cbn [ch_main ch_lines ch_queue ch_send ch_writer ch_recv ch_reader] in EC.
      rewrite (HS I) in EC. injection EC as <-. unfold at_recv. cbn [ch_main ch_lines ch_queue ch_send ch_writer ch_recv ch_reader].
      rewrite (HS I). split; [right; split; [reflexivity|exact I]|reflexivity].
    - discriminate HP. }
  split; [|auto]. rewrite A8 in HO |- *. unfold client_ok. cbn [ch_main ch_lines ch_queue ch_send ch_writer ch_recv ch_reader] in *.
  repeat (split; [assumption|]).
  destruct A7 as [[-> A7]|[-> A7]].
  - apply Forall_app. split; [exact C10|]. constructor; [exact A7|constructor].
  - apply Exists_app. right. constructor. exact A7.
Qed.

(** What the queue holds does not matter once the send loop is over. *)
Lemma ok_queue : forall lines m ls q q' w r rd us sent later got ws,
  client_ok lines (mk_chat m ls q SendOver w r rd) us sent later got ws -> client_ok lines (mk_chat m ls q' SendOver w r rd) us sent later got ws.
Proof.
  intros lines m ls q q' w r rd us sent later got ws (C1 & C2 & C3 & C4 & C5 & C6 & C7 & C8 & C9 & C10).
  unfold client_ok, orderly in *. cbn [ch_main ch_lines ch_queue ch_send ch_writer ch_recv ch_reader spoken] in *.
  repeat (split; [assumption|]). split; [|exact C10]. split; [left; reflexivity|apply C9].
Qed.
Lemma ok_heard : forall lines c us sent later got got' w, client_ok lines c us sent later got w -> map fst got' = map fst got ->
  client_ok lines c us sent later got' w.
Proof.
  intros lines c us sent later got got' w (C1 & C2 & C3 & C4 & C5 & C6 & C7 & C8 & C9 & C10) E.
  unfold client_ok. repeat (split; [assumption|]). destruct (ch_recv c).
  - apply (Forall_map fst (fun m => ~ closing m)). rewrite E. apply (Forall_map fst (fun m => ~ closing m)). exact C10.
  - apply Exists_exists in C10 as (x & X1 & X2). apply (in_map fst) in X1. rewrite <- E in X1.
    apply in_map_iff in X1 as (y & Y1 & Y2). apply Exists_exists. exists y. rewrite Y1. auto.
Qed.

(** ** What the server has said *)
Lemma echo_open : forall l, Forall (fun m => ~ closing m) (agreeting :: flat_map echo_all l).
Proof.
  intros l. constructor; [intros []|]. apply Forall_forall. intros z HZ. apply in_flat_map in HZ as (u & _ & HZ).
  destruct u; cbn in HZ; try (destruct HZ as [<-|[]]; intros []); destruct HZ.
Qed.
Lemma asaid_close : forall a t read said p, sstate a t read said -> In p said -> closing (fst p) ->
  et_closing t = true /\ held t = [] /\ a <> AGreeting /\ exists rd q, read = rd ++ [q] /\ closing (fst q) /\ Forall open rd /\
    map fst said = agreeting :: flat_map echo_all (map fst rd) ++ [OClose None].
Proof.
  intros a t read said p H HI HC. apply (in_map fst) in HI.
  assert (forall l, map fst said = l -> Forall (fun m => ~ closing m) l -> False) as HF.
  { intros l E HL. rewrite E in HI. rewrite Forall_forall in HL. exact (HL _ HI HC). }
  assert (forall l, map fst said ++ held t = l -> Forall (fun m => ~ closing m) l -> False) as HF2.
  { intros l E HL. rewrite <- E in HL. apply Forall_app in HL as [HL _]. eapply HF; [reflexivity|exact HL]. }
  assert (sphase t read said -> et_closing t = true /\ held t = [] /\ exists rd q, read = rd ++ [q] /\ closing (fst q) /\ Forall open rd /\
    map fst said = agreeting :: flat_map echo_all (map fst rd) ++ [OClose None]) as HP.
  { intros HP. unfold sphase in HP. destruct (et_closing t); [|destruct (et_done t)].
    - destruct HP as (rd & q & P1 & P2 & P3 & P4). split; [reflexivity|].
      assert (held t = []) as EH.
      { unfold held in *. destruct (et_hold t) as [h|]; [|reflexivity]. exfalso.
        change (agreeting :: flat_map echo_all (map fst rd) ++ [OClose None]) with ((agreeting :: flat_map echo_all (map fst rd)) ++ [OClose None]) in P4.
        apply app_inj_tail in P4 as [P4 _]. eapply HF; [exact P4|apply echo_open]. }
      split; [exact EH|]. rewrite EH, app_nil_r in P4. exists rd, q. auto.
    - destruct HP as (_ & rd & q & _ & _ & _ & P4). destruct (HF _ P4 (echo_open _)).
    - destruct HP as (_ & P4). destruct (HF2 _ P4 (echo_open _)). }
  destruct a; cbn [sstate] in H.
  - destruct H as (_ & _ & _ & H). exfalso. apply (HF2 _ H). repeat constructor. intros [].
  - destruct (HP H) as (A & B & C). split; [exact A|]. split; [exact B|]. split; [discriminate|exact C].
  - destruct (HP (proj1 (proj2 H))) as (A & B & C). split; [exact A|]. split; [exact B|]. split; [discriminate|exact C].
Qed.
Lemma asaid_last : forall a t read said x p y, sstate a t read said -> said = x ++ p :: y -> closing (fst p) -> y = [].
Proof.
  intros a t read said x p y H E HC.
  destruct (asaid_close a t read said p H) as (_ & _ & _ & rd & q & _ & _ & _ & HM); [rewrite E; apply in_elt|exact HC|].
  rewrite E, map_app in HM. cbn [map] in HM.
  change (agreeting :: flat_map echo_all (map fst rd) ++ [OClose None]) with ((agreeting :: flat_map echo_all (map fst rd)) ++ [OClose None]) in HM.
  pose proof (first_close _ _ _ _ HM HC (echo_open _)) as E1. rewrite E1 in HM. apply app_inv_head in HM. injection HM as _ HM.
  destruct y; [reflexivity|discriminate].
Qed.
Lemma types_no_pong : forall ts us, types ts us -> Forall (fun m => is_pong m = false) us.
Proof.
  induction 1 as [ts|t ts us Ht H IH|ts|us H IH]; [constructor| | |]; constructor; auto.
  unfold command. destruct (beqb _ _); reflexivity.
Qed.
Lemma apipe_write : forall f s q l m k, apipe true f s q l -> sendable big m -> apipe true f s (q ++ frames false [(m, k)]) (l ++ [(m, k)]).
Proof.
  intros f s q l m k (A1 & A2 & A3 & A4) H. split; [exact A1|]. split; [exact A2|]. cbn [negb] in *. split.
  - rewrite frames_app, <- A3, <- !app_assoc. reflexivity.
  - rewrite map_app. apply Forall_app. split; [exact A4|constructor; [exact H|constructor]].
Qed.
Lemma pipe_more : forall r q q' l, q = q' -> pipe false r q l -> pipe false r q' l.
Proof. intros r q q' l <-. auto. Qed.

(** ** The invariant *)
(** The client as it will be when the write it is in is over. *)
Definition future (c : chat) (x : option (send_at * writer * bytes)) : chat :=
  match x with Some (a, w, _) => at_send a (set_writer w c) | None => c end.
Definition in_write (c : chat) (x : option (send_at * writer * bytes)) : Prop :=
  match x with
  | Some (a, w, o) => o <> [] /\ (exists y, ch_send c = Holding y) /\ (a = Waiting \/ a = SendOver) /\ (ch_main c = Typing \/ ch_main c = JoinSend)
  | None => True
  end.
(** A server that has closed and has nothing left to write is over. *)
Definition tidy (a : aserver) (t : echo_task) : Prop :=
  match a with AServing => et_closing t = true -> et_hold t <> None \/ pend (et_out t) <> [] | _ => True end.
Definition leaves (c : chat) : Prop := ch_main c = Exited -> ch_recv c = ReceiveOver.
Lemma leaves_main : forall c c', main_step c = Some c' -> leaves c -> leaves c'.
Proof.
  intros c c' H HL E. destruct (main_inv _ _ H) as (_ & _ & A3 & _ & A5). rewrite A3. unfold main_step in H.
  destruct A5 as [(B1 & l & _ & _ & B4)|[(_ & B & _)|(B & _)]]; [|congruence|rewrite B in H; destruct (ch_recv c); [discriminate|reflexivity]].
  exfalso. rewrite B1 in H. unfold ChatClient.next_line in H.
  destruct (ch_lines c) as [|t ts]; destruct (beqb _ _) in H; rewrite put_eq in H; cbn [ch_send] in H; try (destruct (ch_send c)); injection H as <-;
    unfold at_main in E; cbn [ch_main] in E; congruence.
Qed.
Definition minv (cap : nat) (lines : list bytes) (m : mixed) : Prop :=
  exists us sent later got ungot read unread said w,
  client_ok lines (future (x_chat m) (x_write m)) us sent later got w /\ in_write (x_chat m) (x_write m) /\
  said = got ++ ungot /\ sent = read ++ unread /\ Forall (sendable big) (map fst sent) /\
  sstate (x_at m) (x_task m) read said /\ sabs (x_task m) (x_up m ++ rest_of (x_write m)) unread said /\
  pipe false (ch_reader (x_chat m)) (x_down m ++ pend (et_out (x_task m))) ungot /\
  x_heard m = map Ok (map fst got) /\
  all_data (et_in (x_task m)) /\ asleep (et_out (x_task m)) /\
  (length (x_up m) + length (aev_bytes (et_in (x_task m))) <= cap)%nat /\ (length (x_down m) <= cap)%nat /\ tidy (x_at m) (x_task m) /\ leaves (x_chat m).

Definition xcost (m : owned) : nat := (11 * (length (payload_of m) + 14) + 3)%nat.
Definition xcosts (l : list owned) : nat := fold_right (fun m n => (xcost m + n)%nat) 0%nat l.
Definition xlines (l : list bytes) : nat := fold_right (fun t n => (11 * (length t + 14) + 4 + n)%nat) 0%nat l.
Definition send_work (s : send_at) (x : option (send_at * writer * bytes)) : nat :=
  match x with
  | Some (_, _, o) => (11 * length o + 2)%nat
  | None => match s with Waiting => 1%nat | Holding m => xcost m | SendOver => 0%nat end
  end.
Definition main_work (a : main_at) (ls : list bytes) : nat :=
  match a with Typing => (xlines ls + 3)%nat | JoinSend => 2%nat | JoinReceive => 1%nat | Exited => 0%nat end.
Definition mwork (m : mixed) : nat :=
  (main_work (ch_main (x_chat m)) (ch_lines (x_chat m)) + xcosts (ch_queue (x_chat m)) + send_work (ch_send (x_chat m)) (x_write m) +
   match ch_recv (x_chat m) with Listening => 1 | ReceiveOver => 0 end + 10 * length (x_up m) +
   (swork (x_task m) - 3 * length (fw_out (et_out (x_task m)))) + at_work (x_at m) + 3 * length (x_down m) +
   2 * arrived_at (ch_reader (x_chat m)))%nat.
Definition mcore (m : mixed) := (x_chat m, x_write m, x_up m, x_at m, score (x_task m), x_down m).
Definition mstuck (cap : nat) (a : xact) (m : mixed) : Prop :=
  match a with
  | XClient p => x_client p m = None
  | XPush n => n = O \/ x_write m = None \/ (cap <= length (x_up m) + length (aev_bytes (et_in (x_task m))))%nat
  | XTake n => n = O \/ ch_recv (x_chat m) = ReceiveOver \/ lacks (ch_reader (x_chat m)) = false \/ x_down m = []
  | XArrive n => n = O \/ x_up m = []
  | XPoll _ _ => (exists r, x_at m = AServed r) \/ spost (cap - length (x_down m)) TNotReady (x_task m)
  end.
Definition still_closes (m : mixed) : Prop := ch_main (x_chat m) = Typing -> In (str "/close") (ch_lines (x_chat m)).
Definition mstep (cap : nat) (lines : list bytes) (a : xact) (m m' : mixed) : Prop :=
  minv cap lines m' /\ (still_closes m -> still_closes m' /\ ((mwork m' < mwork m)%nat \/ mcore m' = mcore m /\ mstuck cap a m')).
Lemma mstep_stay : forall cap lines a m, minv cap lines m -> mstuck cap a m -> mstep cap lines a m m.
Proof. intros cap lines a m H1 H2. split; [exact H1|]. intros H3. split; [exact H3|]. right. auto. Qed.
Lemma xcosts_app : forall a b, xcosts (a ++ b) = (xcosts a + xcosts b)%nat.
Proof. induction a as [|x a IH]; intros b; cbn [app xcosts fold_right]; [reflexivity|]. fold (xcosts (a ++ b)) (xcosts a). rewrite IH. lia. Qed.

Lemma main_goes : forall cap lines m, minv cap lines m -> mstep cap lines (XClient Main) m (mixed_step cap (XClient Main) m).
Proof.
  intros cap lines m HI. cbn [mixed_step]. destruct (x_client Main m) as [m'|] eqn:E; [|apply mstep_stay; assumption].
  cbn [or_stay]. cbn [x_client] in E. destruct (main_step (x_chat m)) as [c'|] eqn:EM; [|discriminate]. injection E as <-.
  destruct HI as (us & sent & later & got & ungot & read & unread & said & w & HC & HW & HS & HK & HSn & HSt & HSa & HP & HH & HD & HA & HB1 & HB2 & HTd & HEx).
  destruct m as [c x up a e down hd]. unfold x_set_chat. cbn [x_chat x_write x_up x_at x_task x_down x_heard] in *.
  destruct (main_inv _ _ EM) as (A1 & A2 & A3 & A4 & A5).
  assert (main_step (future c x) = Some (future c' x) /\ in_write c' x) as [EF HW'].
  { destruct x as [[[b wr] o]|]; [|split; [exact EM|exact I]]. destruct HW as (W1 & [y W2] & W3 & W4).
    cbn [future]. destruct c as [mn ls q s wr0 rv rdr]. unfold at_send, set_writer in *. cbn [ch_main ch_lines ch_queue ch_send ch_writer ch_recv ch_reader] in *. subst s.
    destruct W4 as [-> | ->]; [|discriminate EM].
    assert (b <> SendOver) as Hb.
    { intros ->. destruct HC as (_ & C2 & C3 & C4 & _). cbn [ch_main ch_send spoken] in *. specialize (C2 eq_refl).
      destruct C4 as (b & p & E1 & E2 & E3). rewrite C3, E1, map_app, <- app_assoc in C2.
      apply Forall_app in C2 as [_ C2]. cbn [map app] in C2. inversion C2; contradiction. }
    destruct W3 as [-> |W3]; [|contradiction].
    unfold main_step in *. cbn [ch_main] in *. unfold ChatClient.next_line in *. cbn [ch_lines ch_main ch_queue ch_send ch_writer ch_recv ch_reader] in *.
    destruct ls as [|l ls].
    - cbn [beqb] in EM |- *. change (beqb [] (str "/close")) with false in *. change (beqb [] (str "/ping")) with false in *. rewrite put_eq in *.
      cbn [ch_lines ch_main ch_queue ch_send ch_writer ch_recv ch_reader] in *. injection EM as <-.
      cbn [ch_lines ch_main ch_queue ch_send ch_writer ch_recv ch_reader]. split; [reflexivity|].
      split; [exact W1|]. split; [exists y; reflexivity|]. split; [left; reflexivity|left; reflexivity].
    - destruct (beqb l (str "/close")); rewrite put_eq in *; unfold at_main in *;
      cbn [ch_lines ch_main ch_queue ch_send ch_writer ch_recv ch_reader] in *; injection EM as <-;
      cbn [ch_lines ch_main ch_queue ch_send ch_writer ch_recv ch_reader]; (split; [reflexivity|]);
      (split; [exact W1|]); (split; [exists y; reflexivity|]); (split; [left; reflexivity|auto]). }
  destruct (ok_main _ _ _ _ _ _ _ _ HC EF) as (us' & later' & HC').
  split.
  - exists us', sent, later', got, ungot, read, unread, said, w. cbn [x_chat x_write x_up x_at x_task x_down x_heard].
    split; [exact HC'|]. split; [exact HW'|]. repeat (split; [assumption|]). split; [rewrite A4; exact HP|]. pose proof (leaves_main _ _ EM HEx). auto 10.
  - unfold still_closes. cbn [x_chat]. intros HL.
    destruct A5 as [(B1 & l & B2 & B3 & B4)|B].
    + specialize (HL B1). destruct B2 as [B2|(B2 & _)]; [|rewrite B2 in HL; destruct HL]. rewrite B2 in HL. split.
      * intros E. destruct B4 as [[_ B4]|[B4 _]]; [congruence|]. destruct HL as [HL|HL]; [congruence|exact HL].
      * left. unfold mwork. cbn [x_chat x_write x_up x_at x_task x_down x_heard]. rewrite A1, A3, A4, B1, B2. cbn [main_work].
        assert (xcosts (ch_queue c') <= xcosts (ch_queue c) + xcost (typed_as l))%nat as HQ.
        { rewrite B3. destruct (ch_send c); rewrite ?xcosts_app; cbn [xcosts fold_right]; lia. }
        assert (xcost (typed_as l) <= 11 * (length l + 14) + 3)%nat as HX by (unfold xcost; pose proof (typed_as_length l); lia).
        assert (main_work (ch_main c') (ch_lines c') <= xlines (ch_lines c') + 3)%nat as HM by (unfold main_work; destruct (ch_main c'); lia).
        change (xlines (l :: ch_lines c')) with (11 * (length l + 14) + 4 + xlines (ch_lines c'))%nat. lia.
    + split; [intros E; destruct B as [(_ & B & _)|(_ & B & _)]; congruence|].
      left. unfold mwork. cbn [x_chat x_write x_up x_at x_task x_down x_heard]. rewrite A1, A3, A4.
      destruct B as [(-> & -> & _ & ->)|(-> & -> & _ & ->)]; cbn [main_work]; lia.
Qed.

Lemma send_goes : forall cap lines ks m, minv cap lines m -> mstep cap lines (XClient (SendLoop ks)) m (mixed_step cap (XClient (SendLoop ks)) m).
Proof.
  intros cap lines ks m HI. cbn [mixed_step]. destruct (x_client (SendLoop ks) m) as [m'|] eqn:E; [|apply mstep_stay; assumption].
  cbn [or_stay]. unfold x_client in E.
  destruct HI as (us & sent & later & got & ungot & read & unread & said & w & HC & HW & HS & HK & HSn & HSt & HSa & HP & HH & HD & HA & HB1 & HB2 & HTd & HEx).
  destruct m as [c x up a e down hd]. unfold x_set_chat in E. cbn [x_chat x_write x_up x_at x_task x_down x_heard] in *.
  destruct x as [x|]; [discriminate|]. cbn [chat_step] in E. destruct (send_step ks c) as [c'|] eqn:ES; [|discriminate].
  cbn [future in_write rest_of] in *. rewrite app_nil_r in HSa.
  destruct (ok_send _ _ _ _ _ _ _ _ _ HC ES) as [(E1 & E2 & (y & Y1 & Y2 & Y3) & HC')|(y & k & w' & later' & E1 & E2 & E3 & E4 & E5 & HC')].
  - rewrite E1, written_same in E. injection E as <-. split.
    + exists us, sent, later, got, ungot, read, unread, said, w. cbn [x_chat x_write x_up x_at x_task x_down x_heard future in_write rest_of].
      rewrite app_nil_r. split; [exact HC'|]. split; [exact I|]. repeat (split; [assumption|]). split; [rewrite Y3; exact HP|]. rewrite Y3. auto 10.
    + unfold still_closes. cbn [x_chat]. intros HL. split; [rewrite Y3; exact HL|]. left. unfold mwork.
      cbn [x_chat x_write x_up x_at x_task x_down x_heard send_work]. rewrite E2, Y1, Y2. rewrite Y3.
      cbn [ch_main ch_lines ch_queue ch_send ch_writer ch_recv ch_reader].
      change (xcosts (y :: ch_queue c')) with (xcost y + xcosts (ch_queue c'))%nat. lia.
  - pose proof (AsyncTalkFacts.frame_length false y k) as HL. cbv zeta iota in HL.
    rewrite E5 in E. destruct (frames false [(y, k)]) as [|o out] eqn:EO; [cbn [length] in HL; lia|]. injection E as <-.
    assert (ch_main c = Typing \/ ch_main c = JoinSend) as HM.
    { destruct HC as (_ & _ & _ & _ & _ & _ & _ & _ & [_ C9] & _). rewrite E1 in C9. destruct (ch_main c); auto; discriminate C9; auto. }
    split.
    + exists us, (sent ++ [(y, k)]), later', got, ungot, read, (unread ++ [(y, k)]), said, w'.
      cbn [x_chat x_write x_up x_at x_task x_down x_heard future in_write rest_of]. rewrite <- E2.
      split; [exact HC'|]. split; [split; [discriminate|]; split; [exists y; exact E1|]; auto|].
      split; [exact HS|]. split; [rewrite HK, app_assoc; reflexivity|].
      split; [rewrite map_app; apply Forall_app; split; [exact HSn|constructor; [exact E4|constructor]]|].
      split; [exact HSt|]. split. { destruct HSa as (B1 & B2 & B3). split; [exact B1|]. split; [exact B2|]. rewrite <- EO. apply apipe_write; assumption. }
      split; [exact HP|]. auto 10.
    + unfold still_closes. cbn [x_chat]. intros HL2. split; [exact HL2|]. left. unfold mwork.
      cbn [x_chat x_write x_up x_at x_task x_down x_heard send_work]. rewrite E1. unfold xcost. lia.
Qed.

Lemma recv_goes : forall cap lines m, minv cap lines m -> mstep cap lines (XClient ReceiveLoop) m (mixed_step cap (XClient ReceiveLoop) m).
Proof.
  intros cap lines m HI. cbn [mixed_step]. destruct (x_client ReceiveLoop m) as [m'|] eqn:E; [|apply mstep_stay; assumption].
  cbn [or_stay]. unfold x_client in E.
  destruct HI as (us & sent & later & got & ungot & read & unread & said & w & HC & HW & HS & HK & HSn & HSt & HSa & HP & HH & HD & HA & HB1 & HB2 & HTd & HEx).
  destruct m as [c x up a e down hd]. cbn [x_chat x_write x_up x_at x_task x_down x_heard] in *.
  destruct (pipe_read _ _ _ _ HP) as [(m & k & l & r' & E1 & E2 & E3 & E4)|(E1 & E2)].
  - rewrite E2 in E. cbn [fst must_wait] in E. destruct (recv_step c) as [c'|] eqn:EC; [|discriminate]. injection E as <-.
    assert (In (m, k) said) as HIn by (rewrite HS, E1; apply in_elt).
    assert (is_ping m = false) as HPing.
    { pose proof (said_quiet _ _ _ _ HSt) as HQ. rewrite Forall_forall in HQ. exact (HQ _ HIn). }
    assert (closing m -> x = None /\ ch_send c = SendOver) as HCl.
    { intros Hm. destruct (asaid_close _ _ _ _ (m, k) HSt HIn Hm) as (_ & _ & _ & rd & q & R1 & R2 & R3 & R4).
      assert (unread = []) as ->.
      { destruct HC as ([C1 _] & _ & C3 & _).
        assert (us = map fst rd ++ fst q :: (map fst unread ++ later)) as EUs by (rewrite C3, HK, R1, !map_app, <- !app_assoc; reflexivity).
        pose proof (types_close_last _ _ C1 _ _ _ EUs R2) as EL. apply app_eq_nil in EL as [EL _]. destruct unread; [reflexivity|discriminate EL]. }
      assert (x = None) as ->.
      { destruct x as [[[b wr] o]|]; [|reflexivity]. destruct HW as (W1 & _). exfalso. destruct HSa as (_ & _ & _ & _ & A3 & _).
        change (frames (negb true) []) with (@nil byte) in A3. apply app_eq_nil in A3 as [_ A3]. apply app_eq_nil in A3 as [_ A3].
        apply app_eq_nil in A3 as [_ A3]. exact (W1 A3). }
      split; [reflexivity|]. cbn [future] in HC. destruct HC as (_ & _ & _ & C4 & _).
      assert (Forall (fun p => ~ closing (fst p)) sent -> False) as HF.
      { intros HF. rewrite HK, app_nil_r, R1 in HF. apply Forall_app in HF as [_ HF]. inversion HF; contradiction. }
      destruct (ch_send c); cbn [spoken] in C4; [destruct HF; apply C4..|reflexivity]. }
    assert (exists c2, recv_step (future c x) = Some c2 /\ (c2 = future c' x) /\ in_write c' x) as (c2 & F1 & F2 & F3).
    { destruct x as [[[b wr] o]|]; [|eauto].
      assert (~ closing m) as Hm by (intros Hm; destruct (HCl Hm); discriminate).
      unfold recv_step in EC |- *. destruct HW as (W1 & W2 & W3 & W4). cbn [future]. unfold at_send, set_writer.
      cbn [ch_main ch_lines ch_queue ch_send ch_writer ch_recv ch_reader].
      destruct (ch_recv c) eqn:EL; [|discriminate]. rewrite E2 in *. unfold set_reader in *. cbn [ch_main ch_lines ch_queue ch_send ch_writer ch_recv ch_reader] in *.
      destruct m; try discriminate HPing; try (destruct (Hm I)); injection EC as <-; (eexists; split; [reflexivity|]); unfold future, at_send, set_writer, in_write;
      cbn [ch_main ch_lines ch_queue ch_send ch_writer ch_recv ch_reader]; rewrite ?EL; auto 10. }
    assert (reader_recv (ch_reader (future c x)) = (Ok m, r')) as E2' by (destruct x as [[[b wr] o]|]; exact E2).
    assert (closing m -> ch_send (future c x) = SendOver) as HCl' by (intros Hm; destruct (HCl Hm) as [-> X]; exact X).
    subst c2. destruct (ok_recv _ _ _ _ _ _ _ _ _ k _ HC F1 E2' HPing HCl') as (HC' & EL & _ & EC').
    assert (c' = mk_chat (ch_main c) (ch_lines c) (ch_queue c) (ch_send c) (ch_writer c) (ch_recv c') r') as EC2.
    { destruct x as [[[b wr] o]|]; [|exact EC'].
      cbn [future] in EC'. destruct HW as (_ & _ & _ & _). clear - EC' EC E2 HPing HCl.
      assert (~ closing m) as Hm by (intros Hm; destruct (HCl Hm); discriminate).
      unfold recv_step in EC. rewrite E2 in EC. destruct (ch_recv c) eqn:EL; [|discriminate]. unfold set_reader in EC.
      destruct m; try discriminate HPing; try (destruct (Hm I)); injection EC as <-; cbn [ch_main ch_lines ch_queue ch_send ch_writer ch_recv ch_reader]; rewrite EL; reflexivity. }
    assert (ch_recv c = Listening) as EL0 by (destruct x as [[[b wr] o]|]; exact EL).
    split.
    + exists us, sent, later, (got ++ [(m, k)]), l, read, unread, said, w. cbn [x_chat x_write x_up x_at x_task x_down x_heard].
      split; [exact HC'|]. split; [exact F3|]. split; [rewrite HS, E1, <- app_assoc; reflexivity|]. repeat (split; [assumption|]).
      split; [rewrite EC2; exact E3|]. split; [rewrite HH, !map_app; reflexivity|].
      assert (leaves c') as HEx' by (unfold leaves in *; rewrite EC2; cbn [ch_main ch_recv]; intros EX; specialize (HEx EX); congruence). auto 10.
    + unfold still_closes. cbn [x_chat]. intros HL. split; [rewrite EC2; exact HL|]. left. unfold mwork.
      cbn [x_chat x_write x_up x_at x_task x_down x_heard]. rewrite EC2. cbn [ch_main ch_lines ch_queue ch_send ch_writer ch_recv ch_reader].
      unfold arrived_at. rewrite E4, EL0. pose proof (enc_length m k false) as HL2. cbv beta iota zeta in HL2.
      destruct (ch_recv c'); lia.
  - exfalso. rewrite E1 in E. cbn [must_wait] in E.
    destruct (negb _) eqn:EW in E; [discriminate|]. apply negb_false_iff, andb_true_iff in EW as [W1 W2].
    destruct down as [|b q]; [|discriminate]. destruct a as [| |r]; try discriminate.
    destruct HSt as (_ & HPh & EC & EH & EP). rewrite EP in E2. destruct E2 as [->|E2]; [|contradiction].
    unfold sphase in HPh. rewrite EC in HPh. destruct HPh as (rd & p & _ & _ & _ & HG). unfold held in HG. rewrite EH, app_nil_r in HG.
    rewrite app_nil_r in HS. subst said.
    destruct (recv_step c) as [c'|] eqn:ER; [|discriminate]. unfold recv_step in ER.
    destruct HC as (_ & _ & _ & _ & _ & _ & _ & _ & _ & C10).
    assert (ch_recv (future c x) = ch_recv c) as ERv by (destruct x as [[[b wr] o]|]; reflexivity). rewrite ERv in C10.
    destruct (ch_recv c); [|discriminate].
    assert (In (OClose None) (map fst got)) as HIn.
    { rewrite HG. right. apply in_app_iff. right. left. reflexivity. }
    apply in_map_iff in HIn as ([m k] & HI1 & HI2). rewrite Forall_forall in C10. apply (C10 _ HI2). rewrite HI1. exact I.
Qed.

Lemma push_goes : forall cap lines n m, minv cap lines m -> mstep cap lines (XPush n) m (mixed_step cap (XPush n) m).
Proof.
  intros cap lines n m HI. cbn [mixed_step]. destruct (x_push cap n m) as [m'|] eqn:E; cbn [or_stay].
  2:{ apply mstep_stay; [exact HI|]. unfold x_push in E. cbn [mstuck]. destruct (x_write m) as [[[b wr] o]|] eqn:EW; [|auto].
      destruct HI as (us & sent & later & got & ungot & read & unread & said & w & HC & HW & _). rewrite EW in HW. destruct HW as (W1 & _).
      destruct (firstn _ o) as [|y now] eqn:EF in E; [|destruct (skipn _ o) in E; discriminate].
      destruct n as [|n]; [auto|]. right. right. destruct o as [|y o]; [contradiction|].
      destruct (cap - (length (x_up m) + length (aev_bytes (et_in (x_task m)))))%nat eqn:EJ; [lia|]. discriminate EF. }
  destruct HI as (us & sent & later & got & ungot & read & unread & said & w & HC & HW & HS & HK & HSn & HSt & HSa & HP & HH & HD & HA & HB1 & HB2 & HTd & HEx).
  destruct m as [c x up a e down hd]. unfold x_push in E. cbn [x_chat x_write x_up x_at x_task x_down x_heard] in *.
  destruct x as [[[b wr] o]|]; [|discriminate].
  set (j := Nat.min n _) in E. pose proof (firstn_skipn j o) as HO.
  assert (length (firstn j o) <= cap - (length up + length (aev_bytes (et_in e))))%nat as HJ.
  { rewrite firstn_length. unfold j. lia. }
  set (f := firstn j o) in *. set (g := skipn j o) in *. clearbody f g. clear j. subst o.
  cbn [future in_write rest_of] in *. destruct f as [|y now]; [discriminate|]. destruct HW as (W1 & W2 & W3 & W4).
  destruct g as [|z later2]; injection E as <-.
  - split.
    + exists us, sent, later, got, ungot, read, unread, said, w. cbn [x_chat x_write x_up x_at x_task x_down x_heard future in_write rest_of].
      rewrite !app_nil_r in *. split; [exact HC|]. split; [exact I|]. repeat (split; [assumption|]).
      split; [rewrite app_length; lia|auto].
    + unfold still_closes. cbn [x_chat]. intros HL. split; [exact HL|]. left. unfold mwork.
      cbn [x_chat x_write x_up x_at x_task x_down x_heard send_work]. unfold at_send, set_writer.
      cbn [ch_main ch_lines ch_queue ch_send ch_writer ch_recv ch_reader]. rewrite app_nil_r, app_length. cbn [length].
      destruct W3 as [-> | ->]; lia.
  - split.
    + exists us, sent, later, got, ungot, read, unread, said, w. cbn [x_chat x_write x_up x_at x_task x_down x_heard future in_write rest_of].
      split; [exact HC|]. split; [split; [discriminate|auto]|]. repeat (split; [assumption|]).
      split; [rewrite <- app_assoc; exact HSa|]. repeat (split; [assumption|]). split; [rewrite app_length; lia|auto].
    + unfold still_closes. cbn [x_chat]. intros HL. split; [exact HL|]. left. unfold mwork.
      cbn [x_chat x_write x_up x_at x_task x_down x_heard send_work]. rewrite !app_length. cbn [length]. lia.
Qed.

Lemma take_goes : forall cap lines n m, minv cap lines m -> mstep cap lines (XTake n) m (mixed_step cap (XTake n) m).
Proof.
  intros cap lines n m HI. cbn [mixed_step]. destruct (x_take n m) as [m'|] eqn:E; cbn [or_stay].
  2:{ apply mstep_stay; [exact HI|]. unfold x_take in E. cbn [mstuck]. destruct (ch_recv (x_chat m)); [|auto].
      destruct (lacks (ch_reader (x_chat m))); [|auto]. destruct n as [|n]; [auto|].
      destruct (arrive (S n) (x_down m) (ch_reader (x_chat m))) as [[r q]|] eqn:EA; [discriminate|]. apply arrive_none in EA. auto. }
  destruct HI as (us & sent & later & got & ungot & read & unread & said & w & HC & HW & HS & HK & HSn & HSt & HSa & HP & HH & HD & HA & HB1 & HB2 & HTd & HEx).
  destruct m as [c x up a e down hd]. unfold x_take in E. cbn [x_chat x_write x_up x_at x_task x_down x_heard] in *.
  destruct (ch_recv c); [|discriminate]. destruct (lacks (ch_reader c)); [|discriminate].
  destruct (arrive n down (ch_reader c)) as [[r' q']|] eqn:EA; [|discriminate]. injection E as <-.
  assert (future (set_reader r' c) x = set_reader r' (future c x)) as EF by (destruct x as [[[b wr] o]|]; reflexivity).
  destruct (pipe_arrive _ _ _ _ _ _ _ HP (arrive_more n down (pend (et_out e)) _ _ _ EA)) as (P1 & P2 & P3).
  rewrite !app_length in P2. repeat rewrite app_length in P3. split.
  - exists us, sent, later, got, ungot, read, unread, said, w. cbn [x_chat x_write x_up x_at x_task x_down x_heard]. rewrite EF.
    split; [exact HC|]. split; [destruct x as [[[b wr] o]|]; exact HW|]. repeat (split; [assumption|]).
    pose proof (arrive_shrinks _ _ _ _ _ EA). split; [lia|]. split; [exact HTd|exact HEx].
  - unfold still_closes. cbn [x_chat]. intros HL. split; [exact HL|]. left. unfold mwork.
    cbn [x_chat x_write x_up x_at x_task x_down x_heard]. unfold set_reader, arrived_at. cbn [ch_main ch_lines ch_queue ch_send ch_writer ch_recv ch_reader].
    rewrite !app_length. lia.
Qed.

Lemma arrive_goes : forall cap lines n m, minv cap lines m -> mstep cap lines (XArrive n) m (mixed_step cap (XArrive n) m).
Proof.
  intros cap lines n m HI. cbn [mixed_step].
  destruct HI as (us & sent & later & got & ungot & read & unread & said & w & HC & HW & HS & HK & HSn & HSt & HSa & HP & HH & HD & HA & HB1 & HB2 & HTd & HEx).
  destruct m as [c x up a e down hd]. unfold x_arrive. cbn [x_chat x_write x_up x_at x_task x_down x_heard] in *.
  pose proof (firstn_skipn n up) as HN. assert (length (firstn n up) + length (skipn n up) = length up)%nat as HN2 by (rewrite <- app_length, HN; reflexivity).
  set (e' := mk_task (et_read e) (et_in e ++ apiece n up) (et_done e) (et_hold e) (et_closing e) (et_out e)).
  split.
  - exists us, sent, later, got, ungot, read, unread, said, w. cbn [x_chat x_write x_up x_at x_task x_down x_heard]. repeat (split; [assumption|]).
    split. { destruct HSa as (A1 & A2 & A3). split; [exact A1|]. split; [exact A2|]. eapply apipe_bytes; [|exact A3]. unfold e'. cbn [et_in].
      rewrite aev_app, apiece_bytes, <- app_assoc. f_equal. rewrite app_assoc, HN. reflexivity. }
    split; [exact HP|]. split; [exact HH|]. split; [apply Forall_app; split; [exact HD|apply apiece_data]|]. split; [exact HA|].
    split; [unfold e'; cbn [et_in]; rewrite aev_app, apiece_bytes, app_length; lia|auto].
  - unfold still_closes. cbn [x_chat]. intros HL. split; [exact HL|]. destruct (firstn n up) as [|b bs] eqn:EF.
    + right. assert (skipn n up = up) as -> by exact HN.
      assert (apiece n up = []) as E by (unfold apiece; rewrite EF; reflexivity). split.
      * unfold mcore, e'. cbn [x_chat x_write x_up x_at x_task x_down x_heard]. rewrite E, app_nil_r. destruct e. reflexivity.
      * cbn [mstuck x_up]. destruct n; [left; reflexivity|]. destruct up; [right; reflexivity|discriminate EF].
    + left. unfold mwork. cbn [x_chat x_write x_up x_at x_task x_down x_heard].
      assert (swork e' + 10 * length (skipn n up) < swork e + 10 * length up)%nat as HX.
      { unfold swork, e'. cbn [et_hold et_done et_closing et_out et_in et_read]. rewrite aev_app, apiece_bytes, EF, app_length. cbn [length] in *. lia. }
      pose proof (swork_out e) as W1. pose proof (swork_out e') as W2. change (fw_out (et_out e')) with (fw_out (et_out e)) in *. lia.
Qed.

Lemma exits_served : forall lines c us sent later got w a e read said ungot q,
  client_ok lines c us sent later got w -> ch_recv c = ReceiveOver -> said = got ++ ungot -> sstate a e read said -> tidy a e ->
  pipe false (ch_reader c) (q ++ pend (et_out e)) ungot ->
  exists r, a = AServed r.
Proof.
  intros lines c us sent later got w a e read said ungot q HC HR HS HSt HT HP.
  destruct HC as (_ & _ & _ & _ & _ & _ & _ & _ & _ & C10). rewrite HR in C10. apply Exists_exists in C10 as (p & P1 & P2).
  apply in_split in P1 as (g1 & g2 & P1).
  assert (In p said) as HIn by (rewrite HS, P1; apply in_app_iff; left; apply in_elt).
  destruct (asaid_close _ _ _ _ p HSt HIn P2) as (K1 & K2 & K3 & _).
  assert (ungot = []) as ->.
  { assert (g2 ++ ungot = []) as E.
    { eapply (asaid_last a e read said g1 p (g2 ++ ungot) HSt); [rewrite HS, P1, <- app_assoc; reflexivity|exact P2]. }
    apply app_eq_nil in E. apply E. }
  assert (pend (et_out e) = []) as EP.
  { destruct HP as (_ & _ & HP & _). change (frames (negb false) []) with (@nil byte) in HP.
    apply app_eq_nil in HP as [_ HP]. apply app_eq_nil in HP as [_ HP]. exact HP. }
  destruct a as [| |r]; [contradiction| |exists r; reflexivity]. exfalso. destruct (HT K1) as [HX|HX]; [|contradiction].
  unfold held in K2. destruct (et_hold e); [discriminate|]. contradiction.
Qed.

Lemma poll_goes : forall cap lines key extra m, minv cap lines m -> mstep cap lines (XPoll key extra) m (mixed_step cap (XPoll key extra) m).
Proof.
  intros cap lines key extra m HInv. pose proof HInv as (us & sent & later & got & ungot & read & unread & said & w & HC & HW & HS & HK & HSn & HSt & HSa & HP & HH & HD & HA & HB1 & HB2 & HTd & HEx).
  cbn [mixed_step].
  destruct m as [c x up a e down hd]. cbn [x_chat x_write x_up x_at x_task x_down x_heard] in *.
  assert ((exists r, a = AServed r) \/ match a with AServed _ => False | _ => True end) as [[r EA]|Ha] by (destruct a; eauto).
  { unfold x_poll. cbn [x_at]. rewrite EA in *. apply mstep_stay; [exact HInv|]. left. exists r. reflexivity. }
  assert (has_exited c = false) as HG1.
  { unfold has_exited. destruct (ch_main c) eqn:EM; try reflexivity. exfalso.
    assert (ch_main (future c x) = Exited) as EM' by (destruct x as [[[b wr] o]|]; exact EM).
   
    assert (ch_reader (future c x) = ch_reader c) as ER by (destruct x as [[[b wr] o]|]; reflexivity).
    assert (ch_recv (future c x) = ReceiveOver) as EV by (pose proof (HEx EM); destruct x as [[[b wr] o]|]; assumption).
    rewrite <- ER in HP. destruct (exits_served _ _ _ _ _ _ _ _ _ _ _ _ _ HC EV HS HSt HTd HP) as [r ->]. exact Ha. }
  assert (x_poll cap key extra (mk_mixed c x up a e down hd) =
    let n := S (S (task_fuel e)) in
    let '(_, a', e') := aserver_poll a key extra
        (mk_task (et_read e) (can_read false n (et_in e)) (et_done e) (et_hold e) (et_closing e)
           (with_room (cap - length down) (n + n + n) (et_out e))) in
      mk_mixed c x up a'
        (mk_task (et_read e') (filter is_adata (et_in e')) (et_done e') (et_hold e') (et_closing e') (no_room (et_out e')))
        (down ++ awritten (et_out e) (et_out e')) hd) as ->.
  { unfold x_poll. cbn [x_chat x_write x_up x_at x_task x_down x_heard]. rewrite HG1. destruct a; try reflexivity. contradiction. }
  cbv zeta. set (n := S (S (task_fuel e))). set (room := (cap - length down)%nat).
  set (e1 := mk_task (et_read e) (can_read false n (et_in e)) (et_done e) (et_hold e) (et_closing e) (with_room room (n + n + n) (et_out e))).
  assert (Forall no_pong sent) as HSn0.
  { destruct HC as ([C1 _] & _ & C3 & _). apply types_no_pong in C1. rewrite C3 in C1. apply Forall_app in C1 as [C1 _].
    apply Forall_map in C1. eapply Forall_impl; [|exact C1]. intros p Hp. exact Hp. }
  assert (sstate a e1 read said) as HSt1 by exact HSt.
  assert (sabs e1 (up ++ rest_of x) unread said) as HSa1.
  { destruct HSa as (A1 & A2 & A3). split; [exact A1|]. split; [exact A2|]. eapply apipe_bytes; [|exact A3]. unfold e1. cbn [et_in]. rewrite waits_bytes. reflexivity. }
  assert (task_fuel e1 + 5 <= n + n + n)%nat as Hk.
  { assert (task_fuel e1 = task_fuel e + n)%nat as ->.
    { unfold task_fuel, e1. cbn [et_read et_in]. rewrite waits_bytes. unfold can_read. rewrite app_length, repeat_length. lia. }
    assert (2 <= task_fuel e)%nat by (unfold task_fuel; lia). lia. }
  pose proof (aserver_pipe (up ++ rest_of x) (room + length (fw_out (et_out e))) key extra a e1 sent read unread said room (n + n + n) n
    HK HSt1 HSa1 Ha ltac:(split; reflexivity) eq_refl ltac:(exists (et_in e); split; [exact HD|reflexivity]) ltac:(discriminate) HSn0 Hk) as HPp.
  pose proof (aserver_grows a key extra e1) as HG. pose proof (aserver_reads a key extra e1) as HRd.
  destruct (aserver_poll a key extra e1) as [[y a'] e'] eqn:EP. cbn [snd] in HG, HRd.
  destruct HPp as (read' & unread' & said' & r & k & P1 & P2 & P3 & P4 & P5 & P6 & P7).
  destruct HG as [d HG]. change (fw_out (et_out e1)) with (fw_out (et_out e)) in HG.
  assert (awritten (et_out e) (et_out e') = d) as -> by (unfold awritten; rewrite HG, skipn_app, skipn_all, Nat.sub_diag; reflexivity).
  set (e2 := mk_task (et_read e') (filter is_adata (et_in e')) (et_done e') (et_hold e') (et_closing e') (no_room (et_out e'))).
  assert (score e2 = score e') as K2.
  { unfold score, e2. cbn [et_hold et_done et_closing et_out et_in et_read no_room]. rewrite filter_twice. reflexivity. }
  assert (score e1 = score e) as K1.
  { unfold score, e1. cbn [et_hold et_done et_closing et_out et_in et_read with_room]. rewrite waits_filter. reflexivity. }
  assert (Forall (sendable big) (map fst said')) as HSs.
  { apply (said_sendable a' e' read' said' P2). rewrite P1, map_app in HSn. apply Forall_app in HSn. apply HSn. }
  assert (exists got' ungot', said' = got' ++ ungot' /\ map fst got' = map fst got /\
    pipe false (ch_reader c) ((down ++ d) ++ pend (et_out e2)) ungot') as (got' & ungot' & Q1 & Q2 & Q3).
  { destruct HP as (A1 & A2 & A3 & A4). destruct HSa as (B1 & _). destruct P3 as (B1' & _).
    rewrite HS, frames_app in B1. change (encs (masked_frames false ungot)) with (frames true ungot) in A3. rewrite <- A3 in B1.
    assert (frames true got ++ rd_buf (ch_reader c) ++ flat (rd_in (ch_reader c)) ++ down = fw_out (et_out e)) as E1.
    { apply (app_inv_tail (pend (et_out e))). rewrite <- !app_assoc. rewrite B1, <- ?app_assoc. reflexivity. }
    assert (Forall (sendable big) (map fst got)) as S1.
    { assert (Forall (sendable big) (map fst said)) as HX.
      { apply (said_sendable a e read said HSt). rewrite HK, map_app in HSn. apply Forall_app in HSn. apply HSn. }
      rewrite HS, map_app in HX. apply Forall_app in HX. apply HX. }
    destruct (frames_prefix false got said' (rd_buf (ch_reader c) ++ flat (rd_in (ch_reader c)) ++ (down ++ d) ++ pend (et_out e2)) S1 HSs) as (l1 & l2 & F1 & F2 & F3).
    - cbn [negb]. rewrite <- B1', HG, <- E1, <- !app_assoc. reflexivity.
    - exists l1, l2. split; [exact F1|]. split; [exact F2|]. split; [exact A1|]. split; [exact A2|]. split; [rewrite <- app_assoc; exact F3|].
      rewrite F1, map_app in HSs. apply Forall_app in HSs. apply HSs. }
  assert (length (fw_out (et_out e')) = length (fw_out (et_out e)) + length d)%nat as HLd by (rewrite HG, app_length; reflexivity).
  assert (room + length down = cap)%nat as HRoom by (unfold room; lia).
  assert (minv cap lines (mk_mixed c x up a' e2 (down ++ d) hd)) as HInv'.
  { exists us, sent, later, got', ungot', read', unread', said', w. cbn [x_chat x_write x_up x_at x_task x_down x_heard].
    split; [eapply ok_heard; [exact HC|exact Q2]|]. split; [exact HW|]. split; [exact Q1|]. split; [exact P1|]. split; [exact HSn|].
    split; [exact P2|]. split.
    { destruct P3 as (A1 & A2 & A3). split; [exact A1|]. split; [exact A2|]. eapply apipe_bytes; [|exact A3]. unfold e2. cbn [et_in]. rewrite aev_filter. reflexivity. }
    split; [exact Q3|]. split; [rewrite Q2; exact HH|]. split; [apply filter_data|]. split; [split; reflexivity|]. split.
    { apply reads_length in HRd. unfold e1 in HRd. cbn [et_in] in HRd. rewrite waits_bytes in HRd. unfold e2. cbn [et_in]. rewrite aev_filter. lia. }
    split; [rewrite app_length; lia|]. split; [|exact HEx]. unfold tidy. destruct a'; auto. unfold e2. cbn [et_closing et_hold et_out]. intros EC.
    change (pend (no_room (et_out e'))) with (pend (et_out e')).
    cbn [spost] in P7. destruct P7 as [(X & _)|[(_ & X & _)|(_ & X & _)]]; [left; exact X|congruence|right; exact X]. }
  split; [exact HInv'|]. unfold still_closes. cbn [x_chat]. intros HL. split; [exact HL|].
  pose proof (swork_out e) as W1. pose proof (swork_out e2) as W2. change (fw_out (et_out e2)) with (fw_out (et_out e')) in W2.
  rewrite <- (score_work _ _ K2), (score_work _ _ K1) in P6.
  destruct P6 as [P6|[P6 ->]].
  { left. unfold mwork. cbn [x_chat x_write x_up x_at x_task x_down x_heard]. change (fw_out (et_out e2)) with (fw_out (et_out e')).
    rewrite app_length. lia. }
  rewrite K1, <- K2 in P6.
  assert (d = []) as ->.
  { pose proof P6 as HSh2. unfold score in HSh2. injection HSh2 as _ _ _ _ E _ _. change (fw_out (et_out e2)) with (fw_out (et_out e')) in E. rewrite HG in E.
    rewrite <- (app_nil_r (fw_out (et_out e))) in E at 2. apply app_inv_head in E. exact E. }
  rewrite app_nil_r in *. right. split; [unfold mcore; cbn [x_chat x_write x_up x_at x_task x_down x_heard]; rewrite P6; reflexivity|]. right.
  assert (r = room) as -> by (rewrite HG in P5; lia).
  cbn [x_task x_down]. fold room.
  assert (spost room TNotReady e') as P8 by (destruct a; [exact P7|exact P7|contradiction]).
  cbn [spost] in *. unfold e2. cbn [et_hold et_done et_closing et_out et_in et_read no_room]. rewrite filter_twice. exact P8.
Qed.

(** ** Every run *)
Lemma mixed_goes : forall cap lines a m, minv cap lines m -> mstep cap lines a m (mixed_step cap a m).
Proof.
  intros cap lines [[|ks|]|n|n|n|k e] m H; [apply main_goes|apply send_goes|apply recv_goes|apply push_goes|apply take_goes|apply arrive_goes|apply poll_goes]; exact H.
Qed.
Lemma mixed_inv : forall cap lines acts m, minv cap lines m -> minv cap lines (mixed_run cap acts m).
Proof. intros cap lines. induction acts as [|a acts IH]; intros m H; [exact H|]. cbn [mixed_run]. apply IH. apply mixed_goes. exact H. Qed.
Lemma mixed_starts : forall cap lines w b, never_fails w -> Forall fit_line lines -> minv cap lines (mixed_new lines w b).
Proof.
  intros cap lines w b H1 HL. exists [], [], [], [], [], [], [], [], w.
  unfold mixed_new, talk_new, chat_new, atalk_new.
  cbn [x_chat x_write x_up x_at x_task x_down x_heard t_chat tk_task future in_write rest_of et_in et_out ch_reader app].
  split. { split; [split; [constructor|auto]|]. split; [constructor|]. split; [reflexivity|]. split; [split; [constructor|reflexivity]|].
    split; [reflexivity|]. split; [exact H1|]. split; [constructor|]. split; [exact HL|]. split; [|constructor].
    split; cbn; [intros G; contradiction|intros [G|G]; discriminate]. }
  split; [exact I|]. split; [reflexivity|]. split; [reflexivity|]. split; [constructor|]. split; [repeat split|]. split.
  { split; [reflexivity|]. split; [constructor; [exact agreeting_sendable|constructor]|].
    split; [reflexivity|]. split; [split; [reflexivity|intros _; reflexivity]|]. split; [reflexivity|constructor]. }
  split. { split; [reflexivity|]. split; [constructor|]. split; [reflexivity|constructor]. }
  split; [reflexivity|]. split; [constructor|]. split; [split; reflexivity|]. cbn [length aev_bytes Nat.add].
  split; [lia|]. split; [lia|]. split; [exact I|]. intros E. discriminate E.
Qed.

(** ** What follows *)
Lemma mixed_says : forall cap lines m, minv cap lines m ->
  exists us ms rest, types lines us /\ x_heard m = map Ok ms /\ ms ++ rest = xconversation us /\
    (Exists closing ms -> In (OClose None) us) /\ (forall e, x_at m = AServed e -> e = TReady).
Proof.
  intros cap lines m (us & sent & later & got & ungot & read & unread & said & w & HC & HW & HS & HK & HSn & HSt & HSa & HP & HH & HD & HA & HB1 & HB2 & HTd & HEx).
  destruct HC as ([C1 _] & _ & C3 & _).
  assert (us = map fst read ++ map fst unread ++ later) as EU by (rewrite C3, HK, map_app, <- app_assoc; reflexivity).
  assert (forall rd q, read = rd ++ [q] -> closing (fst q) -> us = map fst rd ++ [fst q] /\ flat_map echo_all us = flat_map echo_all (map fst rd)) as HL.
  { intros rd q -> HQ. rewrite map_app, <- app_assoc in EU. cbn [map app] in EU.
    pose proof (types_close_last _ _ C1 _ _ _ EU HQ) as E. rewrite E in EU. split; [exact EU|]. rewrite EU, flat_map_app. cbn [flat_map].
    assert (echo_all (fst q) = []) as -> by (destruct (fst q); try destruct HQ; reflexivity). rewrite !app_nil_r. reflexivity. }
  assert (exists rest, map fst said ++ rest = xconversation us) as [rest HR].
  { unfold xconversation. change (OText (ascii "Hello World!")) with agreeting.
    assert (sphase (x_task m) read said -> exists rest, map fst said ++ rest = agreeting :: flat_map echo_all us ++ [OClose None]) as HPh.
    { intros HPh. unfold sphase in HPh. destruct (et_closing (x_task m)); [|destruct (et_done (x_task m))].
      - destruct HPh as (rd & q & E & _ & HQ & HG). destruct (HL _ _ E HQ) as [_ ->]. exists (held (x_task m)). exact HG.
      - destruct HPh as (_ & rd & q & E & _ & HQ & HG). destruct (HL _ _ E HQ) as [_ ->]. exists [OClose None]. rewrite HG. reflexivity.
      - destruct HPh as (_ & HG). exists (held (x_task m) ++ flat_map echo_all (map fst unread ++ later) ++ [OClose None]).
        rewrite app_assoc, HG, EU, !flat_map_app. cbn [app]. rewrite <- !app_assoc. reflexivity. }
    destruct (x_at m); cbn [sstate] in HSt; [|apply HPh; exact HSt|apply HPh; apply HSt].
    destruct HSt as (_ & _ & _ & HG). exists (held (x_task m) ++ flat_map echo_all us ++ [OClose None]). rewrite app_assoc, HG. reflexivity. }
  exists us, (map fst got), (map fst ungot ++ rest). split; [exact C1|]. split; [exact HH|].
  split; [rewrite app_assoc, <- map_app, <- HS; exact HR|]. split.
  - intros HX. apply Exists_exists in HX as (z & HX1 & HX2). apply in_map_iff in HX1 as (p & <- & HX1).
    destruct (asaid_close _ _ _ _ p HSt) as (_ & _ & _ & rd & q & E & HQ & _); [rewrite HS; apply in_app_iff; left; exact HX1|exact HX2|].
    destruct (HL _ _ E HQ) as [EU2 _].
    assert (forall ts us m, types ts us -> In m us -> closing m -> m = OClose None) as HG.
    { clear. induction 1 as [ts|t ts us Ht H IH|ts|us H IH]; intros HI HC; [destruct HI| | |].
      - destruct HI as [<-|HI]; [|auto]. exfalso. revert HC. unfold command. destruct (beqb _ _); intros [].
      - destruct HI as [<-|[]]. reflexivity.
      - destruct HI as [<-|HI]; [destruct HC|auto]. }
    assert (In (fst q) us) as HI by (rewrite EU2; apply in_elt). rewrite <- (HG _ _ _ C1 HI HQ). exact HI.
  - intros e E. rewrite E in HSt. apply HSt.
Qed.

Lemma main_waits : forall c, main_step c = None ->
  ch_main c = JoinSend /\ ch_send c <> SendOver \/ ch_main c = JoinReceive /\ ch_recv c = Listening \/ ch_main c = Exited.
Proof.
  intros c H. unfold main_step in H. destruct (ch_main c).
  - exfalso. destruct (ChatClient.next_line c) as [t c1]. destruct (beqb _ _); [destruct (put _ c1); discriminate|].
    destruct (put _ c1) as [[] c2]; discriminate.
  - left. split; [reflexivity|]. intros E. rewrite E in H. discriminate.
  - right. left. destruct (ch_recv c); [auto|discriminate].
  - auto.
Qed.

Lemma mixed_whole : forall cap lines m, minv cap lines m -> ch_recv (x_chat m) = ReceiveOver ->
  ch_send (x_chat m) = SendOver /\ x_write m = None /\ x_at m = AServed TReady /\
  exists us, types lines us /\ Exists closing us /\ x_heard m = map Ok (xconversation us).
Proof.
  intros cap lines m (us & sent & later & got & ungot & read & unread & said & w & HC & HW & HS & HK & HSn & HSt & HSa & HP & HH & HD & HA & HB1 & HB2 & HTd & HEx) EL.
  destruct m as [c x up a e down hd]. cbn [x_chat x_write x_up x_at x_task x_down x_heard] in *.
  assert (ch_recv (future c x) = ReceiveOver) as EV by (destruct x as [[[b wr] o]|]; exact EL).
    assert (ch_reader (future c x) = ch_reader c) as ER by (destruct x as [[[b wr] o]|]; reflexivity).
    pose proof HP as HP2. rewrite <- ER in HP2.
    destruct (exits_served _ _ _ _ _ _ _ _ _ _ _ _ _ HC EV HS HSt HTd HP2) as [r ->]. clear HP2.
    pose proof HSt as (Hr & HPh & EC & EH & EP). unfold sphase in HPh. rewrite EC in HPh.
    destruct HPh as (rd & q & E1 & E2 & E3 & HG). unfold held in HG. rewrite EH, app_nil_r in HG.
    pose proof HC as ([C1 _] & _ & C3 & C4 & _ & _ & _ & _ & _ & C10). rewrite EV in C10.
    assert (us = map fst rd ++ fst q :: (map fst unread ++ later)) as EUs by (rewrite C3, HK, E1, !map_app, <- !app_assoc; reflexivity).
    pose proof (types_close_last _ _ C1 _ _ _ EUs E3) as ELt. rewrite ELt in EUs. apply app_eq_nil in ELt as [ELt ->]. destruct unread; [|discriminate ELt].
    assert (x = None) as ->.
    { destruct x as [[[b wr] o]|]; [|reflexivity]. destruct HW as (W1 & _). exfalso. destruct HSa as (_ & _ & _ & _ & A3 & _).
      change (frames (negb true) []) with (@nil byte) in A3. apply app_eq_nil in A3 as [_ A3]. apply app_eq_nil in A3 as [_ A3]. apply app_eq_nil in A3 as [_ A3]. exact (W1 A3). }
    cbn [future rest_of] in *.
    assert (ch_send c = SendOver) as ES.
    { assert (Forall (fun p => ~ closing (fst p)) sent -> False) as HF.
      { intros HF. rewrite HK, app_nil_r, E1 in HF. apply Forall_app in HF as [_ HF]. inversion HF; contradiction. }
      destruct (ch_send c); cbn [spoken] in C4; [destruct HF; apply C4..|reflexivity]. }
    split; [exact ES|].
    split; [reflexivity|]. split; [rewrite Hr; reflexivity|]. exists us. split; [exact C1|].
    split; [rewrite EUs; apply Exists_app; right; constructor; exact E3|]. rewrite HH. f_equal.
    assert (ungot = []) as ->.
    { apply Exists_exists in C10 as (p & P1 & P2). apply in_split in P1 as (g1 & g2 & P1).
      assert (g2 ++ ungot = []) as E.
      { eapply (asaid_last _ e read said g1 p (g2 ++ ungot) HSt); [rewrite HS, P1, <- app_assoc; reflexivity|exact P2]. }
      apply app_eq_nil in E. apply E. }
    rewrite app_nil_r in HS. rewrite <- HS, HG, EUs. unfold xconversation. rewrite flat_map_app. cbn [flat_map].
    assert (echo_all (fst q) = []) as -> by (destruct (fst q); try destruct E3; reflexivity). rewrite !app_nil_r. reflexivity.
Qed.

Lemma mixed_done : forall cap lines m, minv cap lines m -> (1 <= cap)%nat ->
  mstuck cap (XClient Main) m -> (exists ks, mstuck cap (XClient (SendLoop ks)) m) -> mstuck cap (XClient ReceiveLoop) m ->
  (exists n, mstuck cap (XPush (S n)) m) -> (exists n, mstuck cap (XTake (S n)) m) -> (exists n, mstuck cap (XArrive (S n)) m) ->
  (exists k e, mstuck cap (XPoll k e) m) ->
  all_over (x_chat m) /\ x_write m = None /\ x_at m = AServed TReady /\
  exists us, types lines us /\ Exists closing us /\ x_heard m = map Ok (xconversation us).
Proof.
  intros cap lines m HInv Hcap S1 (ks & S2) S3 (n1 & S4) (n2 & S5) (n3 & S6) (k & ex & S7).
  pose proof HInv as (us & sent & later & got & ungot & read & unread & said & w & HC & HW & HS & HK & HSn & HSt & HSa & HP & HH & HD & HA & HB1 & HB2 & HTd & HEx).
  destruct m as [c x up a e down hd]. cbn [mstuck x_client x_chat x_write x_up x_at x_task x_down x_heard] in *.
  destruct (main_step c) eqn:EM; [discriminate|]. clear S1. apply main_waits in EM.
  destruct S6 as [S6|S6]; [discriminate|]. subst up. cbn [length Nat.add app] in *.
  destruct S4 as [S4|S4]; [discriminate|].
  destruct (ch_recv c) eqn:EL.
  2:{ destruct (mixed_whole _ _ _ HInv EL) as (D1 & D2 & D3 & D4). cbn [x_chat x_write x_at x_heard] in *. split; [|auto].
      split; [|auto]. destruct EM as [[_ EM]|[[_ EM]|EM]]; [contradiction|congruence|exact EM]. }
  exfalso.
    assert (down = [] /\ match a with AServed _ => False | _ => True end) as [-> Ha].
    { destruct (pipe_read _ _ _ _ HP) as [(p & kk & l & r' & E1 & E2 & E3 & E4)|(E1 & E2)].
      - exfalso. unfold recv_step in S3. rewrite EL, E2 in S3. cbn [fst must_wait] in S3.
        destruct p as [d|d|cd|d|d]; rewrite ?put_eq in S3; try discriminate S3. destruct (ch_send _) in S3; discriminate S3.
      - destruct S5 as [S5|[S5|[S5|S5]]]; [discriminate|discriminate|unfold lacks in S5; rewrite E1 in S5; discriminate|].
        split; [exact S5|]. destruct a as [| |r]; auto. rewrite E1, S5 in S3. cbn [must_wait served andb negb] in S3.
        unfold recv_step in S3. rewrite EL in S3. destruct (reader_recv (ch_reader c)) as [y r']. cbn [fst] in E1. subst y. rewrite put_eq in S3. discriminate S3. }
    destruct S7 as [[r S7]|S7]; [subst a; exact Ha|].
    cbn [length] in S7. rewrite Nat.sub_0_r in S7. cbn [spost] in S7.
    destruct S7 as [(_ & _ & S7)|[(T1 & T2 & T3 & T4 & T5 & T6)|(_ & _ & S7)]]; try lia.
    rewrite (filter_all_data _ HD) in T4. rewrite T4 in *. cbn [aev_bytes length] in *.
    destruct S4 as [S4|S4]; [|lia]. subst x. cbn [future rest_of] in *.
    assert (unread = []) as -> by (destruct HSa as (_ & _ & HSa); rewrite T4 in HSa; eapply partial_none; [exact HSa|reflexivity|exact T5]).
    rewrite app_nil_r in HK. subst sent.
    assert (Forall open read) as HO.
    { destruct a as [| |r]; [destruct HSt; congruence| |contradiction]. cbn [sstate] in HSt. unfold sphase in HSt. rewrite T2, T3 in HSt. apply HSt. }
    destruct HC as (_ & _ & _ & C4 & _ & _ & _ & _ & [C9 _] & _).
    assert (ch_send c = Waiting /\ ch_queue c = []) as [E1 E2].
    { cbn [chat_step] in S2. destruct (send_step ks c) as [c'|] eqn:E; [destruct (written (ch_writer c) (ch_writer c')); discriminate S2|].
      unfold send_step in E. destruct (ch_send c) as [|y|] eqn:ES.
      - destruct (ch_queue c); [auto|discriminate].
      - exfalso. destruct (writer_send _ _ _) as [z w0]. destruct (writer_send_frame _ _ w0). destruct y; try discriminate; destruct z; discriminate.
      - exfalso. cbn [spoken] in C4. destruct C4 as (b & p & E1 & E2 & E3). rewrite E1 in HO. apply Forall_app in HO as [_ HO]. inversion HO; contradiction. }
    assert (ch_main c <> Typing) as HT by (intros E3; destruct EM as [[E4 _]|[[E4 _]|E4]]; congruence).
    destruct (C9 HT) as [E3|E3]; [congruence|]. rewrite E1, E2 in E3. cbn in E3. inversion E3.
Qed.

Lemma mstuck_core : forall cap a m m', mcore m' = mcore m -> mstuck cap a m -> mstuck cap a m'.
Proof.
  intros cap a m m' H HS. unfold mcore, score in H. destruct m as [c x up at1 e down hd], m' as [c' x' up' at1' e' down' hd'].
  cbn [x_chat x_write x_up x_at x_task x_down x_heard] in H. injection H as -> -> -> -> H1 H2 H3 H4 H5 H6 H7 ->.
  assert (aev_bytes (et_in e') = aev_bytes (et_in e)) as EB by (rewrite <- (aev_filter (et_in e')), H6, aev_filter; reflexivity).
  destruct a as [p|n|n|n|k ex]; cbn [mstuck x_chat x_write x_up x_at x_task x_down x_heard] in *.
  - unfold x_client, x_set_chat in *. cbn [x_chat x_write x_up x_at x_task x_down x_heard] in *. destruct p as [|ks|].
    + destruct (main_step c); [discriminate|reflexivity].
    + destruct x; [reflexivity|]. destruct (chat_step _ c); [|reflexivity]. destruct (written _ _); discriminate.
    + destruct (must_wait _ _ _); [reflexivity|]. destruct (recv_step c); [discriminate|reflexivity].
  - rewrite EB. exact HS.
  - exact HS.
  - exact HS.
  - destruct HS as [HS|HS]; [left; exact HS|right]. cbn [spost] in *. rewrite H1, H2, H3, H4, H6, H7. exact HS.
Qed.
Lemma mwork_core : forall m m', mcore m' = mcore m -> mwork m' = mwork m.
Proof.
  intros m m' H. unfold mcore in H.
  assert (x_chat m' = x_chat m /\ x_write m' = x_write m /\ x_up m' = x_up m /\ x_at m' = x_at m /\ score (x_task m') = score (x_task m) /\ x_down m' = x_down m)
    as (H1 & H2 & H3 & H4 & H5 & H6) by (repeat split; congruence).
  unfold mwork. rewrite (score_work _ _ H5), H1, H2, H3, H4, H6. unfold score in H5. injection H5 as _ _ _ _ -> _ _. reflexivity.
Qed.
Lemma round_goes : forall cap lines acts m, minv cap lines m -> still_closes m ->
  let m' := mixed_run cap acts m in
  still_closes m' /\ ((mwork m' < mwork m)%nat \/ mcore m' = mcore m /\ forall a, In a acts -> mstuck cap a m').
Proof.
  intros cap lines. induction acts as [|a acts IH]; intros m HI HC m'; subst m'; cbn [mixed_run].
  - split; [exact HC|]. right. split; [reflexivity|intros a []].
  - destruct (mixed_goes cap lines a m HI) as [HI1 H1]. destruct (H1 HC) as [HC1 H2]. destruct (IH _ HI1 HC1) as [HC2 H3]. split; [exact HC2|].
    destruct H2 as [H2|[H2 S1]], H3 as [H3|[H3 S2]].
    + left. lia.
    + left. rewrite (mwork_core _ _ H3). exact H2.
    + left. rewrite <- (mwork_core _ _ H2). exact H3.
    + right. split; [congruence|]. intros b [<-|Hb]; [|apply S2; exact Hb]. eapply mstuck_core; [exact H3|exact S1].
Qed.
Definition finished (m : mixed) : Prop := all_over (x_chat m) /\ x_write m = None /\ exists r, x_at m = AServed r.
Lemma finished_stays : forall cap a m, finished m ->
  x_chat (mixed_step cap a m) = x_chat m /\ x_write (mixed_step cap a m) = x_write m /\ x_at (mixed_step cap a m) = x_at m /\ x_heard (mixed_step cap a m) = x_heard m.
Proof.
  intros cap a [c x up at1 e down hd] ((F1 & F2 & F3) & F4 & r & F5). cbn [x_chat x_write x_at] in *. subst x at1.
  destruct a as [[|ks|]|n|n|n|k ex]; cbn [mixed_step].
  - cbn [x_client x_chat]. unfold main_step. rewrite F1. auto.
  - cbn [x_client x_chat x_write chat_step]. unfold send_step. destruct ks. rewrite F2. auto.
  - cbn [x_client x_chat]. destruct (must_wait _ _ _); [auto|]. unfold recv_step. rewrite F3. auto.
  - auto.
  - unfold x_take. cbn [x_chat]. rewrite F3. auto.
  - auto.
  - auto.
Qed.
Lemma finished_run : forall cap acts m, finished m ->
  x_chat (mixed_run cap acts m) = x_chat m /\ x_at (mixed_run cap acts m) = x_at m /\ x_heard (mixed_run cap acts m) = x_heard m.
Proof.
  intros cap. induction acts as [|a acts IH]; intros m H; [auto|]. cbn [mixed_run].
  destruct (finished_stays cap a m H) as (E1 & E2 & E3 & E4).
  destruct (IH (mixed_step cap a m)) as (G1 & G2 & G3); [unfold finished in *; rewrite E1, E2, E3; exact H|].
  rewrite G1, G2, G3, E1, E3, E4. auto.
Qed.
Lemma mixed_run_app : forall cap a b m, mixed_run cap (a ++ b) m = mixed_run cap b (mixed_run cap a m).
Proof. induction a as [|x a IH]; intros b m; [reflexivity|]. apply IH. Qed.
Lemma mixed_gets_there : forall cap lines rounds m, minv cap lines m -> still_closes m -> (1 <= cap)%nat -> Forall mixed_round rounds ->
  (mwork m < length rounds)%nat ->
  let m' := mixed_run cap (concat rounds) m in all_over (x_chat m').
Proof.
  intros cap lines. induction rounds as [|acts rounds IH]; intros m HI HC Hcap HR HW; [cbn [length] in HW; lia|].
  inversion HR as [|? ? R1 R2]; subst. cbn [concat]. rewrite mixed_run_app.
  pose proof (mixed_inv cap lines acts m HI) as HI1. destruct (round_goes cap lines acts m HI HC) as [HC1 [HX|[HCo HX]]].
  - apply IH; auto. cbn [length] in HW. lia.
  - destruct R1 as (A1 & (ks & A2) & A3 & (n1 & A4) & (n2 & A5) & (n3 & A6) & (k & e & A7)).
    destruct (mixed_done cap lines _ HI1 Hcap) as (D1 & D2 & D3 & _); eauto.
    destruct (finished_run cap (concat rounds) (mixed_run cap acts m)) as (G1 & _); [split; [exact D1|]; split; [exact D2|eauto]|].
    cbv zeta. rewrite G1. exact D1.
Qed.

(** [C86] The chat client of examples/client.rs with the server of examples/async-server.rs, with
    room for [cap] bytes each way and whatever the order in which everyone gets a turn: the client
    never gets an error, what it has heard so far is the beginning of the conversation the user's
    lines call for, it hears a close message only if the user typed "/close", and the server's
    task fails in no way. *)
Lemma across_sound_proof : forall lines w b cap acts, never_fails w ->
  Forall (fun t => well_formed (octets t) /\ size t <= 104857600) lines ->
  let m := mixed_run cap acts (mixed_new lines w b) in
  exists us ms rest, types lines us /\ x_heard m = map Ok ms /\ ms ++ rest = xconversation us /\
    (Exists closing ms -> In (OClose None) us) /\ (forall e, x_at m = AServed e -> e = TReady).
Proof.
  intros lines w b cap acts H1 HL m. apply (mixed_says cap). apply mixed_inv. apply mixed_starts; assumption.
Qed.
(*EX
(** The user types a word, "/ping" and "/close"; the network holds a single byte. *)
Definition across_turns : list xact :=
  let k := mk_key x01 x02 x03 x04 in
  [XClient Main; XClient (SendLoop (k, k)); XPush 3; XArrive 2; XPoll k 0; XTake 2; XClient ReceiveLoop].
Definition across_lines : list bytes := [str "hi"; str "/ping"; str "/close"].
Definition across_start : mixed := mixed_new across_lines (mk_w [] []) 0.
Example across_sound_ex :
  (exists a w y z, x_write (mixed_run 1 (concat (repeat across_turns 4)) across_start) = Some (a, w, y :: z)) /\
  x_heard (mixed_run 1 (concat (repeat across_turns 25)) across_start) = [Ok (OText (str "Hello World!")); Ok (OText (str "hi"))].
Proof. split; [do 4 eexists; vm_compute; reflexivity|vm_compute; reflexivity]. Qed.
EX*)

(** [C86] When the receive loop of the client is over, everything has been said: the client has
    heard the whole conversation, the send loop is over too, and so is the server's task. *)
Lemma across_ends_proof : forall lines us w b cap acts, never_fails w ->
  Forall (fun t => well_formed (octets t) /\ size t <= 104857600) lines -> talks lines us ->
  let m := mixed_run cap acts (mixed_new lines w b) in
  ch_recv (x_chat m) = ReceiveOver \/ ch_main (x_chat m) = Exited ->
  x_heard m = map Ok (xconversation us) /\ ch_send (x_chat m) = SendOver /\ x_write m = None /\ x_at m = AServed TReady.
Proof.
  intros lines us w b cap acts H1 HL HT m HE.
  assert (minv cap lines m) as HI by (apply mixed_inv; apply mixed_starts; assumption).
  assert (ch_recv (x_chat m) = ReceiveOver) as HE2.
  { destruct HE as [HE|HE]; [exact HE|]. destruct HI as (us1 & sent & later & got & ungot & read & unread & said & v & HC & HW & HS & HK & HSn & HSt & HSa & HP & HH & HD & HA & HB1 & HB2 & HTd & HEx). auto. }
  destruct (mixed_whole _ _ _ HI HE2) as (D1 & D2 & D3 & us' & D4 & D5 & D6). split; [|auto].
  rewrite D6, (talks_types _ _ _ HT D4 D5). unfold xconversation. rewrite flat_map_app. cbn [flat_map echo_all]. rewrite app_nil_r. reflexivity.
Qed.
(*EX
Example across_ends_ex :
  talks across_lines [OText (str "hi"); OPing (str "PING")] /\
  (let m := mixed_run 1 (concat (repeat across_turns 50)) across_start in
   ch_main (x_chat m) = Exited /\
   x_heard m = [Ok (OText (str "Hello World!")); Ok (OText (str "hi")); Ok (OPong (str "PING")); Ok (OClose None)]).
Proof.
  split; [|vm_compute; split; reflexivity].
  apply (talks_line (str "hi")); [discriminate|]. apply (talks_line (str "/ping")); [discriminate|]. constructor.
Qed.
EX*)

(** [C86] The network never holds more than its room. *)
Lemma across_room_proof : forall lines w b cap acts, never_fails w ->
  Forall (fun t => well_formed (octets t) /\ size t <= 104857600) lines ->
  let m := mixed_run cap acts (mixed_new lines w b) in
  (List.length (x_up m) + List.length (aev_bytes (et_in (x_task m))) <= cap)%nat /\ (List.length (x_down m) <= cap)%nat.
Proof.
  intros lines w b cap acts H1 HL m.
  assert (minv cap lines m) as HI by (apply mixed_inv; apply mixed_starts; assumption).
  destruct HI as (us1 & sent & later & got & ungot & read & unread & said & v & HC & HW & HS & HK & HSn & HSt & HSa & HP & HH & HD & HA & HB1 & HB2 & HTd & HEx). auto.
Qed.
(*EX
Example across_room_ex :
  let m := mixed_run 3 (concat (repeat [XClient Main; XClient (SendLoop (mk_key x01 x02 x03 x04, mk_key x01 x02 x03 x04)); XPush 2; XArrive 1; XPoll (mk_key x01 x02 x03 x04) 0] 2)) across_start in
  (List.length (x_up m) + List.length (aev_bytes (et_in (x_task m))) = 2)%nat /\ (List.length (x_down m) = 3)%nat.
Proof. vm_compute. split; reflexivity. Qed.
EX*)

(** [C86] And it does get there, however little the network holds, as the client reads while it
    writes: if the user types "/close" some time and everyone gets a turn again and again, the
    conversation is complete after that many rounds and both sides are over.  (With
    examples/async-client.rs in its place it may get stuck: C80.) *)
Lemma across_live_proof : forall lines us w b cap rounds, never_fails w ->
  Forall (fun t => well_formed (octets t) /\ size t <= 104857600) lines -> talks lines us -> (0 < cap)%nat ->
  Forall mixed_round rounds -> (11 * letters lines + 158 * List.length lines + 101 <= List.length rounds)%nat ->
  let m := mixed_run cap (concat rounds) (mixed_new lines w b) in
  all_over (x_chat m) /\ x_heard m = map Ok (xconversation us) /\ x_at m = AServed TReady.
Proof.
  intros lines us w b cap rounds H1 HL HT Hcap HR HN m.
  assert (all_over (x_chat m)) as HA.
  { apply (mixed_gets_there cap lines rounds); [apply mixed_starts; assumption|intros _; eapply talks_in, HT|exact Hcap|exact HR|].
    assert (xlines lines = 11 * letters lines + 158 * List.length lines)%nat as EX.
    { clear. induction lines as [|t lines IH]; [reflexivity|]. cbn [xlines fold_right letters List.length]. fold (xlines lines) (letters lines). rewrite IH. lia. }
    assert (mwork (mixed_new lines w b) = xlines lines + 100)%nat as EW; [|lia].
    unfold mwork, mixed_new, talk_new, chat_new, atalk_new. cbn [x_chat x_write x_up x_at x_task x_down t_chat tk_task ch_main ch_lines ch_queue ch_send ch_recv ch_reader main_work xcosts fold_right send_work at_work length].
    set (y := (swork _ - _)%nat). vm_compute in y. subst y. unfold arrived_at. cbn. lia. }
  split; [exact HA|].
  destruct (across_ends_proof lines us w b cap (concat rounds) H1 HL HT) as (D1 & _ & _ & D4); [left; apply HA|]. auto.
Qed.
(*EX
Example across_live_ex : mixed_round across_turns /\
  (11 * letters across_lines + 158 * List.length across_lines + 101 <= List.length (repeat across_turns 800))%nat /\
  all_over (x_chat (mixed_run 1 (concat (repeat across_turns 800)) across_start)).
Proof.
  assert (mixed_round across_turns) as HF.
  { unfold mixed_round, across_turns. repeat split; try (do 2 eexists; repeat ((left; reflexivity) || right)); try (eexists; repeat ((left; reflexivity) || right)); repeat ((left; reflexivity) || right). }
  assert (11 * letters across_lines + 158 * List.length across_lines + 101 <= List.length (repeat across_turns 800))%nat as HN
    by (apply PeanoNat.Nat.leb_le; vm_compute; reflexivity).
  split; [exact HF|]. split; [exact HN|].
  apply (across_live across_lines [OText (str "hi"); OPing (str "PING")]); try exact HN; try (constructor; fail).
  - unfold across_lines. repeat (constructor; [split; [apply ExTac.good_text; reflexivity|vm_compute; discriminate]|]). constructor.
  - apply (talks_line (str "hi")); [discriminate|]. apply (talks_line (str "/ping")); [discriminate|]. constructor.
  - apply Forall_forall. intros r HR. apply repeat_spec in HR. subst r. exact HF.
Qed.
EX*)
