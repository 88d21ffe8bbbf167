(** The chat client of three threads: C72. *)
From Coq Require Import NArith ZArith String Bool List Lia.
From Coq Require Import ZifyBool ZifyNat ZifyN.
From Coq.Strings Require Import Byte.
From Verif.Model Require Import Base Io Header Mask Dataframe Utf8 Text Headers
  Message Receiver Codec Connect Examples ChatClient.
From Verif.Spec Require Import RfcFrame FrameSpec Schedule Unicode Drive Session Connection Polled Echo Chat.
From Verif.Proofs Require Import BaseFacts MaskFacts HeaderFacts FrameFacts CodecFacts ScriptFacts
  Machine Utf8Facts ThmFrames ThmStream SessionFacts RecvFacts MessageFacts
  TextFacts ExTac ThmMessages ThmFlow ThmLimits ThmInterop ThmEcho.
Import ListNotations.
Local Open Scope string_scope.
Local Open Scope list_scope.
Local Open Scope N_scope.

(** ** Lists *)
Lemma merge_snoc_left : forall (A : Type) (a b l : list A) x, merge a b l -> merge (a ++ [x]) b (l ++ [x]).
Proof.
  induction 1; cbn [app].
  - apply merge_left. constructor.
  - apply merge_left. assumption.
  - apply merge_right. assumption.
Qed.
Lemma merge_snoc_right : forall (A : Type) (a b l : list A) x, merge a b l -> merge a (b ++ [x]) (l ++ [x]).
Proof.
  induction 1; cbn [app].
  - apply merge_right. constructor.
  - apply merge_left. assumption.
  - apply merge_right. assumption.
Qed.
Lemma merge_split : forall (A : Type) (l1 l2 a b : list A), merge a b (l1 ++ l2) ->
  exists a1 a2 b1 b2, a = a1 ++ a2 /\ b = b1 ++ b2 /\ merge a1 b1 l1 /\ merge a2 b2 l2.
Proof.
  induction l1 as [|x l1 IH]; intros l2 a b H.
  - exists [], a, [], b. repeat split; auto. constructor.
  - cbn [app] in H. inversion H as [|y a0 b0 l0 H0|y a0 b0 l0 H0]; subst;
      destruct (IH _ _ _ H0) as (a1 & a2 & b1 & b2 & -> & -> & H1 & H2).
    + exists (x :: a1), a2, b1, b2. repeat split; auto. constructor. exact H1.
    + exists a1, a2, (x :: b1), b2. repeat split; auto. constructor. exact H1.
Qed.
Lemma merge_Forall : forall (A : Type) (P : A -> Prop) a b l, merge a b l -> Forall P a -> Forall P b -> Forall P l.
Proof.
  induction 1; intros Ha Hb; [constructor| |].
  - inversion Ha; subst. constructor; auto.
  - inversion Hb; subst. constructor; auto.
Qed.

(** ** Saying and hearing *)
Lemma client_says_app : forall a b, client_says (a ++ b) = client_says a ++ client_says b.
Proof. intros a b. unfold client_says. rewrite map_app. apply concat_app. Qed.
Lemma client_says_one : forall m k w, never_fails w -> sendable (2 ^ 34) m ->
  exists w', writer_send m k (mk_writer (mk_sender true) w) = (Ok tt, mk_writer (mk_sender true) w') /\
    octets (w_out w') = octets (w_out w) ++ client_says [(m, k)] /\ never_fails w'.
Proof.
  intros m k w Hw (Ht & Hs & Hc). pose proof (owned_sendable m Ht Hc) as HO.
  pose proof (proj2 (proj2 library_frames_honest_proof) m) as HH.
  pose proof (frame_bytes_ok (owned_ops m) (Some k) HO (proj2 HH)) as HB.
  set (data := header_bytes _ ++ _) in HB.
  destruct (never_fails_write w data Hw) as (w' & E & Eo & Hw').
  exists w'. split; [|split; [|exact Hw']].
  - unfold writer_send, writer_send_frame, send_frame, write_to. cbn [wr_sender s_mask wr_out].
    rewrite HB, E. reflexivity.
  - rewrite Eo, octets_app. f_equal. unfold client_says. cbn [map concat fst snd]. rewrite app_nil_r.
    rewrite <- owned_rfc by auto. apply frame_bytes_rfc; auto.
    rewrite owned_payload by auto. unfold size in Hs. clear - Hs. lia.
Qed.

Lemma recv_good_any : forall masked df msg r s m r' s',
  let r0 := receiver_with_limits masked df msg in
  receiving r0 r -> pend_ok (r_buffer r) -> recv_message r s = (Ok m, r', s') ->
  sendable (2 ^ 34) m /\ receiving r0 r' /\ pend_ok (r_buffer r').
Proof.
  intros masked df msg r s m r' s' r0 HR HP H.
  destruct (receiving_inv r0 r) as (I1 & _); [apply capped_isize|reflexivity|exact HR|].
  assert (r_max_df r <= isize_max) as Hm by (rewrite I1; apply (capped_isize df)).
  assert (recv_n 1 r s = (map Ok [m], r', s')) as H1 by (cbn [recv_n]; rewrite H; reflexivity).
  apply recv_n_sound in H1; auto. destruct H1 as (l & L1 & L2 & L3 & L4).
  pose proof (wire_ok_fits _ _ _ L2) as HF.
  apply results_delivers in L3; auto.
  2:{ apply Forall_map. eapply Forall_impl; [|exact L2]. intros [f k] [[_ G1] _] H8. apply G1, H8. }
  destruct L3 as [HD HP']. split; [|split; [|exact HP']].
  - pose proof (memory_bounded_blocking_proof _ _ _ _ _ _ _ _ HR H) as (_ & _ & HB).
    specialize (HB m eq_refl). split; [|split].
    + rewrite I1 in H. unfold with_buffer, r0, receiver_with_limits in H.
      cbn [r_mask r_max_df r_max_msg] in H. rewrite capped_eq in H. eapply delivered_well_formed_blocking_proof, H.
    + clear - HB. unfold capped in HB. lia.
    + pose proof (delivers_control _ _ _ _ _ HD HF) as HC. inversion HC; auto.
  - econstructor; eauto.
Qed.

Lemma recv_n_snoc : forall n r s os r1 s1 o r2 s2, recv_n n r s = (os, r1, s1) ->
  recv_message r1 s1 = (o, r2, s2) -> recv_n (S n) r s = (os ++ [o], r2, s2).
Proof.
  induction n as [|n IH]; intros r s os r1 s1 o r2 s2 H1 H2.
  - cbn [recv_n] in *. injection H1 as <- <- <-. rewrite H2. reflexivity.
  - cbn [recv_n] in H1. remember (S n) as n1. cbn [recv_n]. subst n1.
    destruct (recv_message r s) as [[x ra] sa]. destruct (recv_n n ra sa) as [[xs rb] sb] eqn:E.
    injection H1 as <- -> ->. rewrite (IH _ _ _ _ _ _ _ _ E H2). reflexivity.
Qed.

Definition spoken (c : send_at) (sent : list (owned * mkey)) (q later : list owned) : Prop :=
  match c with
  | Waiting => Forall (fun p => ~ closing (fst p)) sent /\ later = q
  | Holding m => Forall (fun p => ~ closing (fst p)) sent /\ later = m :: q
  | SendOver => exists a p, sent = a ++ [p] /\ Forall (fun p => ~ closing (fst p)) a /\ closing (fst p)
  end.
Definition ears (df msg : N) (r0 : reader) (a : recv_at) (r : reader) (ms ans : list owned) : Prop :=
  hears r0 ms ans /\
  (a = Listening -> Forall (fun m => ~ closing m) ms /\ ans = flat_map pong ms /\
     recv_n (length ms) (rd_receiver r0) (push_back (rd_buf r0) (rd_in r0))
       = (map Ok ms, rd_receiver r, push_back (rd_buf r) (rd_in r)) /\
     receiving (receiver_with_limits false df msg) (rd_receiver r) /\ pend_ok (r_buffer (rd_receiver r))).
Definition hands (lines : list bytes) (a : main_at) (left : list bytes) (us : list owned) : Prop :=
  types lines us /\ (a = Typing -> forall us', types left us' -> types lines (us ++ us')).
Definition text_line (t : bytes) : Prop := well_formed (octets t) /\ size t <= 2 ^ 34.

Definition chat_inv (df msg : N) (lines : list bytes) (r0 : reader) (w0 : wstream) (c : chat) : Prop :=
  exists us ms ans sent later w,
    hands lines (ch_main c) (ch_lines c) us /\
    ears df msg r0 (ch_recv c) (ch_reader c) ms ans /\
    merge us ans (map fst sent ++ later) /\
    spoken (ch_send c) sent (ch_queue c) later /\
    ch_writer c = mk_writer (mk_sender true) w /\ never_fails w /\
    octets (w_out w) = octets (w_out w0) ++ client_says sent /\
    Forall (sendable (2 ^ 34)) later /\ Forall text_line (ch_lines c) /\
    (ch_main c = JoinReceive \/ ch_main c = Exited -> ch_send c = SendOver).

Lemma spoken_put : forall a sent q later m, spoken a sent q later ->
  spoken a sent (match a with SendOver => q | _ => q ++ [m] end) (later ++ [m]).
Proof.
  intros [|h|] sent q later m H; cbn [spoken] in *; [|destruct H as [H ->]; split; auto..|exact H].
  destruct H as [H ->]. auto.
Qed.

Lemma put_eq : forall m c, put m c = (match ch_send c with SendOver => false | _ => true end,
  mk_chat (ch_main c) (ch_lines c) (match ch_send c with SendOver => ch_queue c | _ => ch_queue c ++ [m] end)
    (ch_send c) (ch_writer c) (ch_recv c) (ch_reader c)).
Proof. intros m [a l q [| h|] w x r]; reflexivity. Qed.

Lemma short_sendable : forall m, typed m -> size (payload_of m) <= 125 -> sendable (2 ^ 34) m.
Proof. intros m H1 H2. split; [exact H1|]. split; [clear - H2; lia|auto]. Qed.
Lemma command_sendable : forall t, text_line t -> sendable (2 ^ 34) (command t).
Proof.
  intros t [H1 H2]. unfold command. destruct (beqb t (str "/ping")).
  - apply short_sendable; [exact I|]. vm_compute. discriminate.
  - split; [exact H1|]. split; [exact H2|]. intros [].
Qed.

Lemma types_app_line : forall lines us t ts, (forall us', types (t :: ts) us' -> types lines (us ++ us')) ->
  t <> str "/close" -> forall us', types ts us' -> types lines ((us ++ [command t]) ++ us').
Proof. intros lines us t ts H Ht us' H'. rewrite <- app_assoc. apply H. constructor; assumption. Qed.

Lemma main_keeps : forall df msg lines r0 w0 c c', chat_inv df msg lines r0 w0 c -> main_step c = Some c' ->
  chat_inv df msg lines r0 w0 c'.
Proof.
  intros df msg lines r0 w0 c c' (us & ms & ans & sent & later & w & HH & HE & HM & HS & HW & HN & HO & HF & HL & HJ) H.
  unfold main_step in H. destruct (ch_main c) eqn:EM; [| | |discriminate].
  - destruct HH as [HT HC]. specialize (HC eq_refl).
    assert (exists t c1, next_line c = (t, c1) /\ text_line t /\
      (t = str "/close" -> types lines (us ++ [OClose None])) /\
      (t <> str "/close" -> forall us', types (ch_lines c1) us' -> types lines ((us ++ [command t]) ++ us')) /\
      c1 = mk_chat (ch_main c) (ch_lines c1) (ch_queue c) (ch_send c) (ch_writer c) (ch_recv c) (ch_reader c) /\
      Forall text_line (ch_lines c1)) as (t & c1 & E1 & E2 & E3 & E4 & E5 & E6).
    { unfold next_line. destruct (ch_lines c) as [|t ts] eqn:EL.
      - exists [], c. split; [reflexivity|]. split; [split; [apply utf8_valid_iff; reflexivity|vm_compute; discriminate]|].
        split; [discriminate|]. split.
        + rewrite EL. intros _ us' H'. rewrite <- app_assoc. apply HC. apply types_end. exact H'.
        + split; [destruct c; reflexivity|]. rewrite EL. constructor.
      - eexists t, _. split; [reflexivity|]. inversion HL; subst. split; [assumption|].
        split; [intros ->; apply HC; constructor|]. cbn [ch_lines].
        split; [intros Ht; apply (types_app_line lines us t ts); assumption|]. split; [reflexivity|assumption]. }
    rewrite E1 in H.
    assert (ch_recv c1 = ch_recv c /\ ch_reader c1 = ch_reader c /\ ch_send c1 = ch_send c /\ ch_queue c1 = ch_queue c
      /\ ch_writer c1 = ch_writer c /\ ch_main c1 = Typing) as (F1 & F2 & F3 & F4 & F5 & F6).
    { rewrite E5. cbn. auto 10. }
    clear E5.
    destruct (beqb t (str "/close")) eqn:EB.
    + apply beqb_eq in EB. rewrite put_eq in H. injection H as <-.
      exists (us ++ [OClose None]), ms, ans, sent, (later ++ [OClose None]), w.
      unfold at_main. cbn [ch_main ch_lines ch_queue ch_send ch_writer ch_recv ch_reader].
      rewrite F1, F2, F3, F4, F5. split; [split; [auto|discriminate]|].
      split; [exact HE|]. split; [rewrite app_assoc; apply merge_snoc_left; exact HM|].
      split; [apply spoken_put; exact HS|]. split; [exact HW|]. split; [exact HN|]. split; [exact HO|].
      split; [apply Forall_app; split; [exact HF|constructor; [apply close_sendable|constructor]]|].
      split; [exact E6|]. intros [G|G]; discriminate.
    + assert (t <> str "/close") as Ht by (intros ->; rewrite (proj2 (beqb_eq _ _) eq_refl) in EB; discriminate).
      specialize (E4 Ht). rewrite put_eq in H. fold (command t) in H.
      assert (chat_inv df msg lines r0 w0 (mk_chat Typing (ch_lines c1)
        (match ch_send c with SendOver => ch_queue c | _ => ch_queue c ++ [command t] end) (ch_send c) (ch_writer c)
        (ch_recv c) (ch_reader c)) /\
        forall a, ch_send c = SendOver -> chat_inv df msg lines r0 w0 (mk_chat a (ch_lines c1)
        (ch_queue c) (ch_send c) (ch_writer c) (ch_recv c) (ch_reader c))) as [G1 G2].
      { assert (hands lines Typing (ch_lines c1) (us ++ [command t])) as HA.
        { split; [|intros _; exact E4]. rewrite <- (app_nil_r (us ++ _)). apply E4. constructor. }
        assert (Forall (sendable (2 ^ 34)) (later ++ [command t])) as HB.
        { apply Forall_app; split; [exact HF|constructor; [apply command_sendable; exact E2|constructor]]. }
        split.
        - exists (us ++ [command t]), ms, ans, sent, (later ++ [command t]), w.
          cbn [ch_main ch_lines ch_queue ch_send ch_writer ch_recv ch_reader].
          split; [exact HA|]. split; [exact HE|]. split; [rewrite app_assoc; apply merge_snoc_left; exact HM|].
          split; [apply spoken_put; exact HS|]. split; [exact HW|]. split; [exact HN|]. split; [exact HO|].
          split; [exact HB|]. split; [exact E6|]. intros [G|G]; discriminate.
        - intros a EO. exists (us ++ [command t]), ms, ans, sent, (later ++ [command t]), w.
          cbn [ch_main ch_lines ch_queue ch_send ch_writer ch_recv ch_reader].
          split; [split; [apply HA|intros _; apply HA; reflexivity]|].
          split; [exact HE|]. split; [rewrite app_assoc; apply merge_snoc_left; exact HM|].
          split; [rewrite EO in *; exact HS|]. split; [exact HW|]. split; [exact HN|]. split; [exact HO|].
          split; [exact HB|]. split; [exact E6|]. auto. }
      rewrite F1, F2, F3, F4, F5, F6 in H.
      destruct (ch_send c) eqn:ES; injection H as <-; [exact G1|exact G1|]. apply G2. reflexivity.
  - destruct (ch_send c) eqn:ES; try discriminate. injection H as <-.
    exists us, ms, ans, sent, later, w. unfold at_main. cbn [ch_main ch_lines ch_queue ch_send ch_writer ch_recv ch_reader].
    rewrite ES. split; [split; [apply HH|discriminate]|]. repeat (split; [assumption|]). auto.
  - destruct (ch_recv c) eqn:ES; try discriminate. injection H as <-.
    exists us, ms, ans, sent, later, w. unfold at_main. cbn [ch_main ch_lines ch_queue ch_send ch_writer ch_recv ch_reader].
    rewrite ES. split; [split; [apply HH|discriminate]|]. repeat (split; [assumption|]). auto.
Qed.

Lemma send_keeps : forall df msg lines r0 w0 ks c c', chat_inv df msg lines r0 w0 c -> send_step ks c = Some c' ->
  chat_inv df msg lines r0 w0 c'.
Proof.
  intros df msg lines r0 w0 [k1 k2] c c' (us & ms & ans & sent & later & w & HH & HE & HM & HS & HW & HN & HO & HF & HL & HJ) H.
  unfold send_step in H. destruct (ch_send c) as [|m|] eqn:ES; [| |discriminate].
  - destruct (ch_queue c) as [|m q] eqn:EQ.
    + destruct (ch_main c) eqn:EM; try discriminate. discriminate (HJ (or_intror eq_refl)).
    + injection H as <-. exists us, ms, ans, sent, later, w.
      cbn [ch_main ch_lines ch_queue ch_send ch_writer ch_recv ch_reader].
      split; [exact HH|]. split; [exact HE|]. split; [exact HM|]. split; [exact HS|]. split; [exact HW|].
      split; [exact HN|]. split; [exact HO|]. split; [exact HF|]. split; [exact HL|].
      intros G. apply HJ in G. discriminate.
  - cbn [spoken] in HS. destruct HS as [HS ->]. inversion HF as [|? ? F1 F2]; subst.
    destruct (client_says_one m k1 w HN F1) as (w1 & W1 & W2 & W3). rewrite HW in H. cbn [fst snd] in H. rewrite W1 in H.
    assert (forall a, (a = SendOver /\ closing m) \/ (a = Waiting /\ ~ closing m) ->
      chat_inv df msg lines r0 w0 (at_send a (set_writer (mk_writer (mk_sender true) w1) c))) as G.
    { intros a Ha. exists us, ms, ans, (sent ++ [(m, k1)]), (ch_queue c), w1.
      unfold at_send, set_writer. cbn [ch_main ch_lines ch_queue ch_send ch_writer ch_recv ch_reader].
      split; [exact HH|]. split; [exact HE|]. split; [rewrite map_app, <- app_assoc; exact HM|].
      split.
      { destruct Ha as [[-> Hc]|[-> Hc]]; cbn [spoken].
        - exists sent, (m, k1). auto.
        - split; [apply Forall_app; auto|reflexivity]. }
      split; [reflexivity|]. split; [exact W3|].
      split; [rewrite W2, HO, client_says_app, app_assoc; reflexivity|]. split; [exact F2|]. split; [exact HL|].
      intros G. apply HJ in G. discriminate. }
    destruct m; injection H as <-; apply G; cbn; auto.
Qed.

Lemma recv_keeps : forall df msg lines r0 w0 c c', chat_inv df msg lines r0 w0 c -> recv_step c = Some c' ->
  chat_inv df msg lines r0 w0 c'.
Proof.
  intros df msg lines r0 w0 c c' (us & ms & ans & sent & later & w & HH & HE & HM & HS & HW & HN & HO & HF & HL & HJ) H.
  unfold recv_step in H. destruct (ch_recv c) eqn:ER; [|discriminate].
  destruct HE as [_ HE]. destruct (HE eq_refl) as (H1 & -> & H3 & H4 & H5).
  unfold reader_recv in H. set (q := push_back _ _) in H, H3.
  pose proof (fun m => recv_good_any false df msg (rd_receiver (ch_reader c)) q m) as HG.
  pose proof (recv_message_any (rd_receiver (ch_reader c)) q) as HA.
  destruct (receiving_inv (receiver_with_limits false df msg) (rd_receiver (ch_reader c)))
    as (I1 & _); [apply capped_isize|reflexivity|exact H4|].
  assert (r_max_df (rd_receiver (ch_reader c)) <= isize_max) as Hm by (rewrite I1; apply (capped_isize df)).
  specialize (HA Hm).
  destruct (recv_message (rd_receiver (ch_reader c)) q) as [[x r1] s1] eqn:EQ.
  pose proof (recv_n_snoc _ _ _ _ _ _ _ _ _ H3 EQ) as HR.
  (* the three ways to go on *)
  assert (forall m a, x = Ok m -> ~ closing m -> pong m = [] -> a = Listening ->
    chat_inv df msg lines r0 w0 (mk_chat (ch_main c) (ch_lines c) (ch_queue c) (ch_send c) (ch_writer c) a (mk_reader r1 [] s1))) as G1.
  { intros m a -> Hc Hp ->. destruct (HG m r1 s1 H4 H5 eq_refl) as (A1 & A2 & A3).
    assert (flat_map pong (ms ++ [m]) = flat_map pong ms) as EP.
    { rewrite flat_map_app. cbn [flat_map]. rewrite Hp, !app_nil_r. reflexivity. }
    assert (recv_n (length (ms ++ [m])) (rd_receiver r0) (push_back (rd_buf r0) (rd_in r0)) = (map Ok (ms ++ [m]), r1, s1)) as EN.
    { rewrite app_length, Nat.add_1_r, map_app. exact HR. }
    assert (Forall (fun m => ~ closing m) (ms ++ [m])) as EF by (apply Forall_app; auto).
    exists us, (ms ++ [m]), (flat_map pong ms), sent, later, w.
    cbn [ch_main ch_lines ch_queue ch_send ch_writer ch_recv ch_reader].
    split; [exact HH|]. split; [|repeat (split; [assumption|]); assumption].
    split; [rewrite <- EP; apply (hears_on r0 _ r1 s1); assumption|].
    intros _. cbn [rd_receiver rd_buf rd_in push_back]. repeat (split; [assumption|]); auto. }
  assert (forall d a, x = Ok (OPing d) -> a = Listening \/ a = ReceiveOver ->
    chat_inv df msg lines r0 w0 (mk_chat (ch_main c) (ch_lines c)
      (match ch_send c with SendOver => ch_queue c | _ => ch_queue c ++ [OPong d] end)
      (ch_send c) (ch_writer c) a (mk_reader r1 [] s1))) as G2.
  { intros d a -> Ha. destruct (HG (OPing d) r1 s1 H4 H5 eq_refl) as (A1 & A2 & A3).
    assert (flat_map pong (ms ++ [OPing d]) = flat_map pong ms ++ [OPong d]) as EP.
    { rewrite flat_map_app. reflexivity. }
    assert (recv_n (length (ms ++ [OPing d])) (rd_receiver r0) (push_back (rd_buf r0) (rd_in r0)) = (map Ok (ms ++ [OPing d]), r1, s1)) as EN.
    { rewrite app_length, Nat.add_1_r, map_app. exact HR. }
    assert (Forall (fun m => ~ closing m) (ms ++ [OPing d])) as EF by (apply Forall_app; auto).
    exists us, (ms ++ [OPing d]), (flat_map pong ms ++ [OPong d]), sent, (later ++ [OPong d]), w.
    cbn [ch_main ch_lines ch_queue ch_send ch_writer ch_recv ch_reader].
    split; [exact HH|]. split.
    { split; [rewrite <- EP; apply (hears_on r0 _ r1 s1); assumption|].
      intros _. cbn [rd_receiver rd_buf rd_in push_back]. repeat (split; [assumption|]); auto. }
    split; [rewrite app_assoc; apply merge_snoc_right; exact HM|].
    split; [apply spoken_put; exact HS|]. split; [exact HW|]. split; [exact HN|]. split; [exact HO|].
    split; [apply Forall_app; split; [exact HF|constructor; [apply pong_sendable; exact A1|constructor]]|]. auto. }
  assert (match x with Ok m => closing m | Err _ => True | _ => False end ->
    chat_inv df msg lines r0 w0 (mk_chat (ch_main c) (ch_lines c)
      (match ch_send c with SendOver => ch_queue c | _ => ch_queue c ++ [OClose None] end)
      (ch_send c) (ch_writer c) ReceiveOver (mk_reader r1 [] s1))) as G3.
  { intros Hx. exists us, ms, (flat_map pong ms ++ [OClose None]), sent, (later ++ [OClose None]), w.
    cbn [ch_main ch_lines ch_queue ch_send ch_writer ch_recv ch_reader].
    split; [exact HH|]. split; [split; [apply (hears_end r0 ms x r1 s1); assumption|discriminate]|].
    split; [rewrite app_assoc; apply merge_snoc_right; exact HM|].
    split; [apply spoken_put; exact HS|]. split; [exact HW|]. split; [exact HN|]. split; [exact HO|].
    split; [apply Forall_app; split; [exact HF|constructor; [apply close_sendable|constructor]]|]. auto. }
  unfold set_reader in H. destruct x as [m|e| |]; cbn [msg_post] in HA; try contradiction.
  - destruct m as [d|d|cd|d|d]; rewrite ?put_eq in H; cbn [ch_main ch_lines ch_queue ch_send ch_writer ch_recv ch_reader] in H.
    + injection H as <-. rewrite ER. apply (G1 (OText d)); auto.
    + injection H as <-. rewrite ER. apply (G1 (OBinary d)); auto.
    + injection H as <-. apply G3. exact I.
    + rewrite ER in H. specialize (G2 d). destruct (ch_send c); injection H as <-; (apply G2; [reflexivity|auto]).
    + injection H as <-. rewrite ER. apply (G1 (OPong d)); auto.
  - rewrite put_eq in H. cbn [ch_main ch_lines ch_queue ch_send ch_writer ch_recv ch_reader] in H.
    injection H as <-. apply G3. exact I.
Qed.

Lemma chat_keeps : forall df msg lines r0 w0 sched c, chat_inv df msg lines r0 w0 c ->
  chat_inv df msg lines r0 w0 (chat_run sched c).
Proof.
  intros df msg lines r0 w0 sched. induction sched as [|p sched IH]; intros c H; [exact H|]. cbn [chat_run]. apply IH.
  destruct (chat_step p c) as [c'|] eqn:E; [|exact H].
  destruct p; [eapply main_keeps|eapply send_keeps|eapply recv_keeps]; eauto.
Qed.

Lemma chat_starts : forall df msg lines buf s w, never_fails w -> Forall text_line lines ->
  let r := mk_reader (receiver_with_limits false df msg) buf s in
  chat_inv df msg lines r w (chat_new lines r (mk_writer (mk_sender true) w)).
Proof.
  intros df msg lines buf s w HN HL r. exists [], [], [], [], [], w.
  unfold chat_new. cbn [ch_main ch_lines ch_queue ch_send ch_writer ch_recv ch_reader].
  split; [split; [constructor|auto]|]. split.
  { split; [|intros _; repeat split; constructor]. eapply (hears_on r []); [constructor|reflexivity]. }
  split; [constructor|]. split; [split; [constructor|reflexivity]|]. split; [reflexivity|]. split; [exact HN|].
  split; [cbn; rewrite app_nil_r; reflexivity|]. split; [constructor|]. split; [exact HL|]. intros [G|G]; discriminate.
Qed.

Lemma last_close : forall a p, Forall (fun q : owned * mkey => ~ closing (fst q)) a ->
  close_is_last (map fst (a ++ [p])).
Proof.
  induction a as [|q a IH]; intros p H x m b E Hc; cbn [map app] in E.
  - destruct x as [|y x]; cbn [app] in E; [injection E; congruence|]. destruct x; discriminate.
  - inversion H as [|? ? Hq Ha]; subst. destruct x as [|y x]; cbn [app] in E; injection E as E1 E2.
    + subst m. contradiction.
    + eapply IH; eauto.
Qed.
Lemma no_close : forall a, Forall (fun q : owned * mkey => ~ closing (fst q)) a -> close_is_last (map fst a).
Proof.
  induction a as [|q a IH]; intros H x m b E Hc; cbn [map app] in E; [destruct x; discriminate|].
  inversion H as [|? ? Hq Ha]; subst. destruct x as [|y x]; cbn [app] in E; injection E as E1 E2.
  - subst m. contradiction.
  - eapply IH; eauto.
Qed.

(** [C72] However the three threads are scheduled and whatever the server sends, when writing
    does not fail: what is on the wire are the messages typed and the answers to those
    received, each in order, one masked frame each; nothing follows a close message; and
    nothing gets lost but what comes after it. *)
Lemma chat_says_proof : forall df msg lines buf s w sched,
  never_fails w -> Forall (fun t => well_formed (octets t) /\ size t <= 2 ^ 34) lines ->
  let r := mk_reader (receiver_with_limits false df msg) buf s in
  let c := chat_run sched (chat_new lines r (mk_writer (mk_sender true) w)) in
  exists us ms ans said later,
    types lines us /\ hears r ms ans /\ merge us ans (map fst said ++ later) /\
    octets (w_out (wr_out (ch_writer c))) = octets (w_out w) ++ client_says said /\
    close_is_last (map fst said) /\
    (ch_send c = Waiting -> later = ch_queue c) /\ (forall m, ch_send c = Holding m -> later = m :: ch_queue c) /\
    (ch_send c = SendOver -> exists before m k, said = before ++ [(m, k)] /\ closing m).
Proof.
  intros df msg lines buf s w sched HN HL r c.
  assert (chat_inv df msg lines r w c) as (us & ms & ans & sent & later & w' & HH & HE & HM & HS & HW & HN' & HO & HF & HL' & HJ).
  { apply chat_keeps. apply chat_starts; assumption. }
  exists us, ms, ans, sent, later. split; [apply HH|]. split; [apply HE|]. split; [exact HM|].
  split; [rewrite HW; exact HO|].
  destruct (ch_send c) as [|m|]; cbn [spoken] in HS.
  - destruct HS as [HS ->]. split; [apply no_close; exact HS|]. split; [auto|split; discriminate].
  - destruct HS as [HS ->]. split; [apply no_close; exact HS|]. split; [discriminate|]. split; [|discriminate].
    intros m' G. injection G as ->. reflexivity.
  - destruct HS as (a & [m k] & -> & HS & HC). split; [apply last_close; exact HS|]. split; [discriminate|].
    split; [discriminate|]. intros _. exists a, m, k. auto.
Qed.

(*EX
(** The server pings and closes; the user types a word and "/ping".  Two schedules. *)
Definition chat_start : chat :=
  chat_new [str "hi"; str "/ping"] (mk_reader (receiver_with_limits false 100 1000) [] [RData x89 [x01; x07; x88]; RData x00 []])
    (mk_writer (mk_sender true) (mk_w [] [])).
Definition key0 : mkey * mkey := (mk_key x00 x00 x00 x00, mk_key x00 x00 x00 x00).
Example chat_says_ex :
  let go := repeat (SendLoop key0) 10 in
  w_out (wr_out (ch_writer (chat_run ([Main; ReceiveLoop; Main; ReceiveLoop] ++ go) chat_start)))
  = [x81; x82; x00; x00; x00; x00; x68; x69; x8a; x81; x00; x00; x00; x00; x07;
     x89; x84; x00; x00; x00; x00; x50; x49; x4e; x47; x88; x80; x00; x00; x00; x00] /\
  w_out (wr_out (ch_writer (chat_run ([ReceiveLoop; ReceiveLoop; Main; Main] ++ go) chat_start)))
  = [x8a; x81; x00; x00; x00; x00; x07; x88; x80; x00; x00; x00; x00].
Proof. split; reflexivity. Qed.
EX*)

Lemma types_open : forall ts us, types ts us -> ~ In (str "/close") ts -> Forall (fun m => ~ closing m) us.
Proof.
  induction 1 as [ts|t ts us Ht H IH|ts|us H IH]; intros HI; [constructor| | |].
  - constructor; [unfold command; destruct (beqb _ _); intros []|]. apply IH. intros G. apply HI. right. exact G.
  - exfalso. apply HI. left. reflexivity.
  - constructor; [intros []|auto].
Qed.
Lemma pongs_open : forall ms, Forall (fun m => ~ closing m) (flat_map pong ms).
Proof.
  induction ms as [|m ms IH]; [constructor|]. cbn [flat_map]. apply Forall_app. split; [|exact IH].
  destruct m; repeat constructor; intros [].
Qed.
Lemma first_close : forall (a b p : list owned) m, a ++ m :: b = p ++ [OClose None] -> closing m ->
  Forall (fun m => ~ closing m) p -> a = p.
Proof.
  intros a b p m H Hm Hp. revert a H. induction Hp as [|x p Hx Hp IH]; intros a H; cbn [app] in H.
  - destruct a as [|y a]; [reflexivity|]. cbn [app] in H. injection H as _ H. destruct a; discriminate.
  - destruct a as [|y a]; cbn [app] in H; injection H as H1 H2.
    + subst m. contradiction.
    + subst y. f_equal. apply IH. exact H2.
Qed.

(** [C72] If the user does not close the connection and the send loop is over, every ping
    received before the server's close message (or an error) has been answered, in order; and
    the close message is the last thing said. *)
Lemma chat_answers_proof : forall df msg lines buf s w sched,
  never_fails w -> Forall (fun t => well_formed (octets t) /\ size t <= 2 ^ 34) lines ->
  ~ In (str "/close") lines ->
  let r := mk_reader (receiver_with_limits false df msg) buf s in
  let c := chat_run sched (chat_new lines r (mk_writer (mk_sender true) w)) in
  ch_send c = SendOver ->
  exists us ms x rc s' said k,
    recv_n (S (length ms)) (receiver_with_limits false df msg) (push_back buf s) = (map Ok ms ++ [x], rc, s') /\
    Forall (fun m => ~ closing m) ms /\ match x with Ok m => closing m | Err _ => True | _ => False end /\
    types lines us /\ merge us (flat_map pong ms) (map fst said) /\
    octets (w_out (wr_out (ch_writer c))) = octets (w_out w) ++ client_says (said ++ [(OClose None, k)]).
Proof.
  intros df msg lines buf s w sched HN HL HC r c HO.
  destruct (chat_says_proof df msg lines buf s w sched HN HL) as (us & ms & ans & said & later & A1 & A2 & A3 & A4 & A5 & _ & _ & A7).
  fold r in A2. fold r c in A4, A7. destruct (A7 HO) as (before & m & k & -> & Hm).
  rewrite map_app, <- app_assoc in A3. cbn [map fst app] in A3.
  apply merge_split in A3 as (a1 & a2 & b1 & b2 & -> & -> & M1 & M2).
  pose proof (types_open _ _ A1 HC) as HU. apply Forall_app in HU as [HU1 HU2].
  inversion M2 as [|x a b l H0|x a b l H0]; subst; [inversion HU2; contradiction|].
  inversion A2 as [ms0 rc s0 F1 F2 E1 E2|ms0 x rc s0 F1 F2 F3 E1 E2]; subst ms0.
  { pose proof (pongs_open ms) as HP. rewrite E2 in HP. apply Forall_app in HP as [_ HP]. inversion HP; contradiction. }
  symmetry in E2. pose proof (first_close _ _ _ _ E2 Hm (pongs_open ms)) as ->.
  apply app_inv_head in E2. injection E2 as -> _.
  assert (types lines a1) as T1.
  { clear - A1. remember (a1 ++ a2) as us eqn:EU. revert a1 a2 EU.
    induction A1 as [ts|t ts us Ht H IH|ts|us H IH]; intros a1 a2 EU; destruct a1 as [|x a1]; try constructor;
      try discriminate; cbn [app] in EU; injection EU as <- EU.
    - constructor; eauto.
    - symmetry in EU. apply app_eq_nil in EU as [-> _]. constructor.
    - apply types_end. eauto. }
  exists a1, ms, x, rc, s0, before, k. repeat (split; [assumption|]). assumption.
Qed.

(*EX
Example chat_answers_ex :
  ch_send (chat_run ([ReceiveLoop; ReceiveLoop; Main; Main] ++ repeat (SendLoop key0) 10) chat_start) = SendOver.
Proof. reflexivity. Qed.
EX*)

(** ** The end *)

Definition held_by (a : send_at) : list owned := match a with Holding m => [m] | _ => [] end.
Definition orderly (c : chat) : Prop :=
  (ch_main c <> Typing -> ch_send c = SendOver \/ Exists closing (held_by (ch_send c) ++ ch_queue c)) /\
  (ch_main c = JoinReceive \/ ch_main c = Exited -> ch_send c = SendOver).

Lemma recv_put : forall (c : chat) x r c', ch_recv c = Listening -> reader_recv (ch_reader c) = (x, r) -> recv_step c = Some c' ->
  ch_main c' = ch_main c /\ ch_lines c' = ch_lines c /\ ch_send c' = ch_send c /\ ch_writer c' = ch_writer c /\
  ch_reader c' = r /\ (exists q, ch_queue c' = ch_queue c ++ q /\ (length q <= 1)%nat) /\
  (ch_recv c' = Listening -> exists m, x = Ok m).
Proof.
  intros c x r c' EL EX H. unfold recv_step in H. rewrite EL, EX in H. unfold set_reader in H.
  assert (exists q, ch_queue c = ch_queue c ++ q /\ (length q <= 1)%nat) as Q0
    by (exists []; rewrite app_nil_r; split; [reflexivity|cbn; lia]).
  assert (forall m : owned, exists q, ch_queue c ++ [m] = ch_queue c ++ q /\ (length q <= 1)%nat) as Q1
    by (intros m; exists [m]; split; [reflexivity|cbn; lia]).
  destruct x as [m|e| |]; [destruct m as [d|d|cd|d|d]|..]; rewrite ?put_eq in H;
    cbn [ch_main ch_lines ch_queue ch_send ch_writer ch_recv ch_reader] in H;
    destruct (ch_send c) eqn:ES; injection H as <-; unfold at_recv;
    cbn [ch_main ch_lines ch_queue ch_send ch_writer ch_recv ch_reader]; rewrite ?EL;
    repeat (split; [reflexivity|]); (split; [auto|]); intros G; try discriminate; eauto.
Qed.

Lemma exists_tail : forall (P : owned -> Prop) l l', Exists P l -> Exists P (l ++ l').
Proof. intros P l l' H. apply Exists_app. left. exact H. Qed.

Lemma orderly_step : forall p c c', orderly c -> chat_step p c = Some c' -> orderly c'.
Proof.
  intros p c c' [H1 H2] H. destruct p as [|[k1 k2]|]; cbn [chat_step] in H.
  - unfold main_step in H. destruct (ch_main c) eqn:EM; [| | |discriminate].
    + assert (exists ls, snd (next_line c) = mk_chat Typing ls (ch_queue c) (ch_send c) (ch_writer c) (ch_recv c) (ch_reader c)) as (ls & EN).
      { unfold next_line. destruct (ch_lines c) as [|t ts] eqn:EL; cbn [snd]; [|rewrite EM; eauto].
        exists (ch_lines c). destruct c; cbn in *; subst; reflexivity. }
      destruct (next_line c) as [t c1]. cbn [snd] in EN. subst c1.
      destruct (beqb t (str "/close")).
      * rewrite put_eq in H. injection H as <-. unfold orderly, at_main.
        cbn [ch_main ch_lines ch_queue ch_send ch_writer ch_recv ch_reader].
        split; [|intros [G|G]; discriminate]. intros _. destruct (ch_send c); [right|right|left; reflexivity];
          rewrite ?app_assoc; apply Exists_app; right; constructor; exact I.
      * rewrite put_eq in H. cbn [ch_main ch_lines ch_queue ch_send ch_writer ch_recv ch_reader] in H.
        destruct (ch_send c) eqn:ES; injection H as <-; unfold orderly, at_main;
          cbn [ch_main ch_lines ch_queue ch_send ch_writer ch_recv ch_reader];
          (split; [|intros [G|G]; discriminate]); intros G; try contradiction. left. reflexivity.
    + destruct (ch_send c) eqn:ES; try discriminate. injection H as <-. unfold orderly, at_main. cbn. rewrite ES. auto.
    + destruct (ch_recv c) eqn:ES; try discriminate. injection H as <-. unfold orderly, at_main. cbn.
      rewrite (H2 (or_introl eq_refl)). auto.
  - unfold send_step in H. destruct (ch_send c) as [|m|] eqn:ES; [| |discriminate].
    + destruct (ch_queue c) as [|m q] eqn:EQ.
      * destruct (ch_main c) eqn:EM; try discriminate. destruct (ch_recv c); [discriminate|]. injection H as <-.
        unfold orderly, at_send. cbn. auto.
      * injection H as <-. unfold orderly. cbn [ch_main ch_lines ch_queue ch_send ch_writer ch_recv ch_reader held_by app].
        cbn [held_by app] in H1. split; [|intros G; discriminate (H2 G)]. intros G. destruct (H1 G) as [G'|G']; [discriminate|auto].
    + assert (forall w, orderly (at_send SendOver (set_writer w c))) as G1 by (intros w; unfold orderly; cbn; auto).
      assert (forall w, ~ closing m -> orderly (at_send Waiting (set_writer w c))) as G2.
      { intros w Hm. unfold orderly, at_send, set_writer. cbn [ch_main ch_lines ch_queue ch_send ch_writer ch_recv ch_reader held_by app].
        split; [|intros G; discriminate (H2 G)]. intros G. destruct (H1 G) as [G'|G']; [discriminate|].
        cbn [held_by app] in G'. inversion G'; subst; [contradiction|auto]. }
      destruct (writer_send m _ _) as [x w1]. destruct (writer_send_frame _ _ w1) as [y w2].
      destruct m; [| |injection H as <-; apply G1| |]; (destruct x; injection H as <-; try apply G1; apply G2; intros []).
  - destruct (ch_recv c) eqn:EL; [|unfold recv_step in H; rewrite EL in H; discriminate].
    destruct (reader_recv (ch_reader c)) as [x r] eqn:ER.
    destruct (recv_put _ _ _ _ EL ER H) as (A1 & A2 & A3 & A4 & A5 & (q & A6 & _) & _). unfold orderly. rewrite A1, A3, A6.
    split; [|exact H2]. intros G. destruct (H1 G) as [G'|G']; [left; exact G'|right]. rewrite app_assoc. apply exists_tail, G'.
Qed.
Lemma orderly_run : forall sched c, orderly c -> orderly (chat_run sched c).
Proof.
  induction sched as [|p sched IH]; intros c H; [exact H|]. cbn [chat_run]. apply IH.
  destruct (chat_step p c) as [c'|] eqn:E; [eapply orderly_step; eauto|exact H].
Qed.

(** [C72] The threads never wait for each other in a circle: if none can go on, all are over,
    whatever the server, the user and the stream did before. *)
Lemma chat_no_deadlock_proof : forall lines r w sched,
  all_wait (chat_run sched (chat_new lines r w)) -> all_over (chat_run sched (chat_new lines r w)).
Proof.
  intros lines r w sched H. assert (orderly (chat_run sched (chat_new lines r w))) as [H1 H2].
  { apply orderly_run. split; cbn; [intros G; contradiction|intros [G|G]; discriminate]. }
  revert H H1 H2. generalize (chat_run sched (chat_new lines r w)). intros c H H1 H2.
  assert (ch_recv c = ReceiveOver) as HR.
  { specialize (H ReceiveLoop). cbn [chat_step] in H. unfold recv_step in H. destruct (ch_recv c); [|reflexivity].
    destruct (reader_recv _) as [[m|e| |] r']; [destruct m|..]; rewrite ?put_eq in H; try discriminate;
      destruct (ch_send _); discriminate. }
  pose proof (H Main) as HM. cbn [chat_step] in HM. unfold main_step in HM.
  destruct (ch_main c) eqn:EM.
  - destruct (next_line c) as [t c1]. destruct (beqb t (str "/close")); rewrite put_eq in HM; [discriminate|].
    destruct (ch_send c1); discriminate.
  - pose proof (H (SendLoop (mk_key x00 x00 x00 x00, mk_key x00 x00 x00 x00))) as HS. cbn [chat_step] in HS. unfold send_step in HS.
    destruct (ch_send c) as [|m|] eqn:ES; [| |discriminate].
    + destruct (ch_queue c) as [|m q]; [|discriminate]. destruct (H1 ltac:(discriminate)) as [G|G]; [discriminate|inversion G].
    + destruct (writer_send _ _ _) as [x w1]. destruct (writer_send_frame _ _ w1). destruct m; try discriminate; destruct x; discriminate.
  - rewrite HR in HM. discriminate.
  - repeat split; auto.
Qed.
(*EX
(** Both schedules above, with one more turn of the main thread, come to the end. *)
Example chat_no_deadlock_ex :
  all_wait (chat_run ([Main; ReceiveLoop; Main; ReceiveLoop] ++ repeat (SendLoop key0) 10 ++ [Main; Main; Main]) chat_start).
Proof. intros [|[k1 k2]|]; vm_compute; reflexivity. Qed.
EX*)

Definition patience (c : chat) : nat :=
  match ch_main c with Typing => 3 * length (ch_lines c) + 3 | JoinSend => 2 | JoinReceive => 1 | Exited => 0 end +
  2 * length (ch_queue c) +
  match ch_send c with Waiting => 1 | Holding _ => 2 | SendOver => 0 end +
  match ch_recv c with
  | Listening => 3 * S (script_bytes (push_back (rd_buf (ch_reader c)) (rd_in (ch_reader c))))
  | ReceiveOver => 0
  end.
Definition sane (c : chat) : Prop :=
  r_max_df (rd_receiver (ch_reader c)) <= isize_max /\ (ch_main c = Typing -> In (str "/close") (ch_lines c)).

Lemma send_patience : forall ks c c', send_step ks c = Some c' -> (patience c' < patience c)%nat /\ (sane c -> sane c').
Proof.
  intros [k1 k2] c c' H. unfold send_step in H. destruct (ch_send c) as [|m|] eqn:ES; [| |discriminate].
  - destruct (ch_queue c) as [|m q] eqn:EQ.
    + destruct (ch_main c) eqn:EM; try discriminate. destruct (ch_recv c) eqn:ER; [discriminate|]. injection H as <-.
      unfold patience, sane, at_send. cbn. rewrite ES, EM, EQ, ER. cbn. split; [lia|tauto].
    + injection H as <-. unfold patience, sane. cbn [ch_main ch_lines ch_queue ch_send ch_writer ch_recv ch_reader].
      rewrite ES, EQ. cbn [length]. split; [lia|tauto].
  - assert (forall a w, a = Waiting \/ a = SendOver ->
      (patience (at_send a (set_writer w c)) < patience c)%nat /\ (sane c -> sane (at_send a (set_writer w c)))) as G.
    { intros a w Ha. unfold patience, sane, at_send, set_writer. cbn [ch_main ch_lines ch_queue ch_send ch_writer ch_recv ch_reader].
      rewrite ES. split; [|tauto]. destruct Ha as [->| ->]; lia. }
    destruct (writer_send m _ _) as [x w1]. destruct (writer_send_frame _ _ w1) as [y w2].
    destruct m; [| |injection H as <-; apply G; auto| |]; (destruct x; injection H as <-; apply G; auto).
Qed.
Lemma recv_patience : forall c c', sane c -> recv_step c = Some c' -> (patience c' < patience c)%nat /\ sane c'.
Proof.
  intros c c' [S1 S2] H. destruct (ch_recv c) eqn:EL; [|unfold recv_step in H; rewrite EL in H; discriminate].
  unfold reader_recv in H. destruct (reader_recv (ch_reader c)) as [x r] eqn:ER.
  destruct (recv_put _ _ _ _ EL ER H) as (A1 & A2 & A3 & A4 & A5 & (q & A6 & A7) & A8). clear H.
  unfold reader_recv in ER. set (q0 := push_back _ _) in ER.
  pose proof (recv_message_any (rd_receiver (ch_reader c)) q0 S1) as HA.
  destruct (recv_message (rd_receiver (ch_reader c)) q0) as [[y r1] s1] eqn:EQ. injection ER as -> <-.
  assert (sane c') as HS.
  { unfold sane. rewrite A1, A2, A5. split; [|exact S2]. cbn [rd_receiver].
    apply recv_message_limits in EQ; [|exact S1]. rewrite EQ. exact S1. }
  split; [|exact HS]. unfold patience. rewrite A1, A2, A3, A5, A6, EL, app_length. cbn [rd_buf rd_in push_back]. fold q0.
  destruct (ch_recv c'); [|lia]. destruct (A8 eq_refl) as [m ->]. cbn [msg_post] in HA.
  destruct HA as (l & L1 & L2 & L3 & _). rewrite !script_bytes_flat, L1, app_length.
  destruct l as [|[f key] l]; [discriminate L3|].
  rewrite encs_cons, app_length. cbn [fst snd]. unfold enc. rewrite app_length.
  unfold header_bytes. cbn [app length]. lia.
Qed.
Lemma main_patience : forall c c', sane c -> main_step c = Some c' -> (patience c' < patience c)%nat /\ sane c'.
Proof.
  intros c c' [S1 S2] H. unfold main_step in H. destruct (ch_main c) eqn:EM; [| | |discriminate].
  - specialize (S2 eq_refl). unfold next_line in H. destruct (ch_lines c) as [|t ts] eqn:EL; [destruct S2|].
    destruct (beqb t (str "/close")) eqn:EB.
    + rewrite put_eq in H. cbn [ch_main ch_lines ch_queue ch_send ch_writer ch_recv ch_reader] in H. injection H as <-.
      unfold patience, sane, at_main. cbn [ch_main ch_lines ch_queue ch_send ch_writer ch_recv ch_reader].
      rewrite EM, EL. split; [|split; [exact S1|discriminate]]. destruct (ch_send c); rewrite ?app_length; cbn [length]; lia.
    + assert (In (str "/close") ts) as HI.
      { destruct S2 as [->|S2]; [|exact S2]. rewrite (proj2 (beqb_eq _ _) eq_refl) in EB. discriminate. }
      rewrite put_eq in H. cbn [ch_main ch_lines ch_queue ch_send ch_writer ch_recv ch_reader] in H.
      destruct (ch_send c) eqn:ES; injection H as <-; unfold patience, sane, at_main;
        cbn [ch_main ch_lines ch_queue ch_send ch_writer ch_recv ch_reader]; rewrite ?EM, ?EL, ?ES, ?app_length; cbn [length];
        (split; [lia|]); (split; [exact S1|]); first [discriminate|intros _; exact HI].
  - destruct (ch_send c) eqn:ES; try discriminate. injection H as <-. unfold patience, sane, at_main.
    cbn [ch_main ch_lines ch_queue ch_send ch_writer ch_recv ch_reader]. rewrite EM, ES. split; [lia|]. split; [exact S1|discriminate].
  - destruct (ch_recv c) eqn:ES; try discriminate. injection H as <-. unfold patience, sane, at_main.
    cbn [ch_main ch_lines ch_queue ch_send ch_writer ch_recv ch_reader]. rewrite EM, ES. split; [lia|]. split; [exact S1|discriminate].
Qed.

(** [C72] If the user types "/close" some time and the server's stream ends, the program does:
    no schedule can use more turns than the lines and bytes allow. *)
Lemma chat_ends_proof : forall df msg lines buf s w sched,
  In (str "/close") lines ->
  (turns_used sched (chat_new lines (mk_reader (receiver_with_limits false df msg) buf s) w)
   <= 3 * length lines + 3 * (length buf + script_bytes s) + 7)%nat.
Proof.
  intros df msg lines buf s w sched HI.
  assert (forall sched c, sane c -> (turns_used sched c <= patience c)%nat) as G.
  { clear. induction sched as [|p sched IH]; intros c HS; cbn [turns_used]; [lia|].
    destruct (chat_step p c) as [c'|] eqn:E; [|apply IH, HS].
    assert ((patience c' < patience c)%nat /\ sane c') as [G1 G2].
    { destruct p; cbn [chat_step] in E.
      - apply main_patience; assumption.
      - apply send_patience in E as [E1 E2]. auto.
      - apply recv_patience; assumption. }
    specialize (IH c' G2). lia. }
  etransitivity; [apply G|].
  - split; [apply (capped_isize df)|intros _; exact HI].
  - unfold patience, chat_new. cbn [ch_main ch_lines ch_queue ch_send ch_writer ch_recv ch_reader rd_buf rd_in length].
    rewrite !script_bytes_flat, flat_push_back, app_length. lia.
Qed.

(*EX
(** A server that hangs up at once; of 60 turns offered, nine are used (the bound is 13). *)
Example chat_ends_ex :
  let c := chat_new [str "a"; str "/close"] (mk_reader (receiver_with_limits false 100 1000) [] []) (mk_writer (mk_sender true) (mk_w [] [])) in
  turns_used (concat (repeat [Main; SendLoop key0; ReceiveLoop] 20)) c = 9%nat /\
  ch_main (chat_run (concat (repeat [Main; SendLoop key0; ReceiveLoop] 20)) c) = Exited.
Proof. split; reflexivity. Qed.
EX*)

Lemma one_empty : forall r k wr wr', writer_send (OText []) k wr = (Ok tt, wr') ->
  chat_run [Main; SendLoop (k, k); SendLoop (k, k)] (chat_new [] r wr) = chat_new [] r wr'.
Proof.
  intros r k wr wr' H.
  assert (chat_run [Main; SendLoop (k, k)] (chat_new [] r wr) = mk_chat Typing [] [] (Holding (OText [])) wr Listening r) as E
    by reflexivity.
  change (chat_run [SendLoop (k, k)] (chat_run [Main; SendLoop (k, k)] (chat_new [] r wr)) = chat_new [] r wr').
  rewrite E. cbn [chat_run chat_step]. unfold send_step. cbn [ch_send ch_writer fst]. rewrite H. reflexivity.
Qed.

(** [C72, refuted] One would expect a client to be silent when nothing is typed.  But at the
    end of standard input (no terminal, a pipe that ends) an empty text message is sent again
    and again, as many as there is time for. *)
Lemma chat_silent_refuted_proof : exists r, forall n, exists sched said,
  let c := chat_run sched (chat_new [] r (mk_writer (mk_sender true) (mk_w [] []))) in
  octets (w_out (wr_out (ch_writer c))) = client_says said /\ length said = n /\
  Forall (fun p => fst p = OText []) said.
Proof.
  exists (mk_reader (receiver_new false) [] []). intros n.
  set (k := mk_key x00 x00 x00 x00).
  assert (forall w, never_fails w -> exists sched said,
    let c := chat_run sched (chat_new [] (mk_reader (receiver_new false) [] []) (mk_writer (mk_sender true) w)) in
    octets (w_out (wr_out (ch_writer c))) = octets (w_out w) ++ client_says said /\ length said = n /\
    Forall (fun p => fst p = OText []) said) as G.
  2:{ exact (G (mk_w [] []) ltac:(constructor)). }
  induction n as [|n IH]; intros w HN.
  - exists [], []. cbn. rewrite app_nil_r. auto.
  - assert (sendable (2 ^ 34) (OText [])) as HS.
    { split; [apply utf8_valid_iff; reflexivity|]. split; [vm_compute; discriminate|intros []]. }
    destruct (client_says_one (OText []) k w HN HS) as (w1 & W1 & W2 & W3).
    destruct (IH w1 W3) as (sched & said & I1 & I2 & I3).
    exists (Main :: SendLoop (k, k) :: SendLoop (k, k) :: sched), ((OText [], k) :: said).
    pose proof (one_empty (mk_reader (receiver_new false) [] []) _ _ _ W1) as HE. cbv zeta in I1 |- *.
    change (chat_run (Main :: SendLoop (k, k) :: SendLoop (k, k) :: sched) ?c) with
      (chat_run sched (chat_run [Main; SendLoop (k, k); SendLoop (k, k)] c)).
    rewrite HE.
    rewrite I1, W2. split; [|split; [cbn; congruence|constructor; [reflexivity|exact I3]]].
    rewrite <- app_assoc. f_equal.
Qed.
