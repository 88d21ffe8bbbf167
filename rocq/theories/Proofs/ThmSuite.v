(** The clients of the Autobahn test suite: C78. *)
From Coq Require Import NArith ZArith String Bool List Lia.
From Coq Require Import ZifyBool ZifyNat ZifyN.
From Coq.Strings Require Import Byte.
From Verif.Model Require Import Base Io Header Mask Dataframe Utf8 Text Base64 WsKey Headers
  Handshake Message Receiver Codec Framed Http Connect Examples AsyncExamples Suite.
From Verif.Spec Require Import RfcFrame FrameSpec Schedule Unicode Drive Session Connection Polled Fields Upgrade Builder HttpHead Wire Endpoint Echo Polls Chat Suite.
From Verif.Proofs Require Import BaseFacts MaskFacts HeaderFacts FrameFacts CodecFacts ScriptFacts
  Machine FramedFacts AsyncFacts Utf8Facts ThmFrames ThmStream SessionFacts RecvFacts MessageFacts
  TextFacts MapFacts ExTac ThmMessages ThmFlow ThmLimits ThmServer ThmHttp ThmConnect ThmInterop ThmSession
  ThmEcho ThmWake ThmAsyncEcho ThmChat.
Import ListNotations.
Local Open Scope string_scope.
Local Open Scope list_scope.
Local Open Scope N_scope.

(** ** Numbers *)
Lemma digit_value_iff : forall b d, digit_value b = Some d <-> is_digit b d.
Proof.
  intros b d. unfold digit_value, is_digit. destruct ((48 <=? Byte.to_N b) && (Byte.to_N b <=? 57)) eqn:E.
  - split; [intros H; injection H as <-; lia|]. intros [H1 H2]. f_equal. lia.
  - split; [discriminate|]. intros [H1 H2]. lia.
Qed.
(** Digits after what has been read. *)
Inductive digits_after (acc : N) : bytes -> N -> Prop :=
| after_none : digits_after acc [] acc
| after_one : forall b d l n, is_digit b d -> digits_after (10 * acc + d) l n -> digits_after acc (b :: l) n.
Lemma digits_after_snoc : forall acc l n b d, digits_after acc l n -> is_digit b d -> digits_after acc (l ++ [b]) (10 * n + d).
Proof.
  intros acc l n b d H Hd. induction H as [acc|acc b' d' l n H1 H2 IH]; cbn [app].
  - econstructor; [exact Hd|constructor].
  - econstructor; [exact H1|exact IH].
Qed.
Lemma digits_after_app : forall acc l n l' n', digits_after acc l n -> digits_after n l' n' -> digits_after acc (l ++ l') n'.
Proof. intros acc l n l' n' H. induction H; intros H'; cbn [app]; [exact H'|]. econstructor; eauto. Qed.
Lemma numeral_after : forall l n, numeral l n <-> l <> [] /\ digits_after 0 l n.
Proof.
  intros l n. split.
  - induction 1 as [b d H|l n b d H [IH1 IH2] Hd].
    + split; [discriminate|]. econstructor; [exact H|]. replace (10 * 0 + d) with d by lia. constructor.
    + split; [destruct l; discriminate|]. apply digits_after_snoc; assumption.
  - intros [Hn H]. revert n Hn H. induction l as [|b l IH] using rev_ind; intros n Hn H; [congruence|]. clear Hn.
    assert (Hs : forall acc l b n, digits_after acc (l ++ [b]) n -> exists m d, digits_after acc l m /\ is_digit b d /\ n = 10 * m + d).
    { clear. intros acc l. revert acc. induction l as [|c l IH]; intros acc b n H; cbn [app] in H.
      - inversion H as [|? d ? ? Hd H']; subst. inversion H'; subst. exists acc, d. split; [constructor|auto].
      - inversion H as [|? d ? ? Hd H']; subst. destruct (IH _ _ _ H') as (m & d' & A & B & C). exists m, d'. split; [econstructor; eauto|auto]. }
    destruct (Hs _ _ _ _ H) as (m & d & A & B & ->). destruct l as [|c l].
    + inversion A; subst. cbn [app]. replace (10 * 0 + d) with d by lia. apply numeral_one. exact B.
    + apply numeral_more; [|exact B]. apply IH; [discriminate|exact A].
Qed.
Lemma after_grows : forall acc l n, digits_after acc l n -> acc <= n.
Proof. intros acc l n H. induction H as [acc|acc b d l n H1 H2 IH]; lia. Qed.
Lemma digits_value_iff : forall l acc n, acc < 2 ^ 64 -> (digits_value acc l = Some n <-> n < 2 ^ 64 /\ digits_after acc l n).
Proof.
  induction l as [|b l IH]; intros acc n Ha; cbn [digits_value].
  - split; [intros H; injection H as <-; split; [exact Ha|constructor]|]. intros [_ H]. inversion H. reflexivity.
  - destruct (digit_value b) as [d|] eqn:E.
    + apply digit_value_iff in E. cbv zeta. destruct (N.ltb_spec (acc * 10 + d) (2 ^ 64)) as [Hl|Hl].
      * rewrite IH by exact Hl. split; intros [H1 H2]; (split; [exact H1|]).
        -- econstructor; [exact E|]. replace (10 * acc + d) with (acc * 10 + d) by lia. exact H2.
        -- inversion H2 as [|? d' ? ? Hd H']; subst. assert (d' = d) by (unfold is_digit in *; lia). subst d'.
           replace (acc * 10 + d) with (10 * acc + d) by lia. exact H'.
      * split; [discriminate|]. intros [H1 H2]. exfalso. inversion H2 as [|? d' ? ? Hd H']; subst.
        assert (d' = d) by (unfold is_digit in *; lia). subst d'. apply after_grows in H'. lia.
    + split; [discriminate|]. intros [_ H2]. inversion H2 as [|? d' ? ? Hd H']; subst. apply digit_value_iff in Hd. congruence.
Qed.
Lemma parse_usize_iff : forall t n, parse_usize t = Some n <-> names_number t n.
Proof.
  intros t n. unfold names_number. destruct t as [|b t]; cbn [parse_usize].
  - split; [discriminate|]. intros (_ & [H|(r & H & _)]); [|discriminate]. apply numeral_after in H as [H _]. congruence.
  - destruct (Byte.eqb b x2b) eqn:E.
    + apply Byte.byte_dec_bl in E. subst b.
      assert (Hno : forall m, ~ numeral (x2b :: t) m).
      { intros m H. apply numeral_after in H as [_ H]. inversion H as [|? d ? ? Hd _]; subst. destruct Hd as [Hd1 Hd2]. change (Byte.to_N x2b) with 43 in Hd2. lia. }
      destruct t as [|c t].
      * split; [discriminate|]. intros (_ & [H|(r & H & H2)]); [destruct (Hno _ H)|]. injection H as <-. apply numeral_after in H2 as [H2 _]. congruence.
      * rewrite digits_value_iff by lia. split.
        -- intros [H1 H2]. split; [exact H1|]. right. eexists. split; [reflexivity|]. apply numeral_after. split; [discriminate|exact H2].
        -- intros (H1 & [H|(r & H & H2)]); [destruct (Hno _ H)|]. injection H as <-. split; [exact H1|]. apply numeral_after in H2. apply H2.
    + rewrite digits_value_iff by lia. split.
      * intros [H1 H2]. split; [exact H1|]. left. apply numeral_after. split; [discriminate|exact H2].
      * intros (H1 & [H|(r & H & H2)]); [split; [exact H1|]; apply numeral_after in H; apply H|].
        injection H as -> _. discriminate E.
Qed.

Lemma decimal_from_spec : forall fuel n tail, n < 10 ^ N.of_nat fuel -> fuel <> O ->
  exists d, decimal_from fuel n tail = d ++ tail /\ digits_after 0 d n /\ d <> [] /\ (n <> 0 -> hd x30 d <> x30) /\ (n = 0 -> d = [x30]).
Proof.
  induction fuel as [|fuel IH]; intros n tail Hn Hf; [congruence|]. cbn [decimal_from].
  assert (Hd : exists b, Byte.of_N (48 + n mod 10) = Some b /\ is_digit b (n mod 10)).
  { assert (n mod 10 < 10) by (apply N.mod_lt; lia). destruct (Byte.of_N (48 + n mod 10)) as [b|] eqn:E.
    - exists b. split; [reflexivity|]. split; [lia|]. apply Byte.to_of_N. exact E.
    - exfalso. apply Byte.of_N_None_iff in E. lia. }
  destruct Hd as (b & E & Hb). rewrite E. assert (Hdm := N.div_mod n 10 ltac:(lia)).
  destruct (N.eqb_spec (n / 10) 0) as [E0|E0].
  - exists [b]. split; [reflexivity|]. split.
    + econstructor; [exact Hb|]. replace (10 * 0 + n mod 10) with n by lia. constructor.
    + split; [discriminate|]. assert (n mod 10 = n) by lia. rewrite H in Hb. split.
      * intros H0 H1. cbn [hd] in H1. subst b. destruct Hb as [Hb1 Hb2]. change (Byte.to_N x30) with 48 in Hb2. lia.
      * intros H0. subst n. cbn in E. injection E as <-. reflexivity.
  - assert (Hlt : n / 10 < 10 ^ N.of_nat fuel).
    { apply N.div_lt_upper_bound; [lia|]. rewrite Nat2N.inj_succ, N.pow_succ_r' in Hn. exact Hn. }
    destruct fuel as [|fuel]; [cbn in Hlt; lia|].
    destruct (IH (n / 10) (b :: tail) Hlt ltac:(discriminate)) as (d & A & B & C & D & _).
    exists (d ++ [b]). split; [rewrite A, <- app_assoc; reflexivity|]. split; [|split; [|split]].
    + pose proof (digits_after_snoc _ _ _ _ _ B Hb) as H. replace (10 * (n / 10) + n mod 10) with n in H by lia. exact H.
    + destruct d; discriminate.
    + intros _. specialize (D E0). destruct d; [congruence|exact D].
    + intros ->. cbn in E0. congruence.
Qed.
Lemma decimal_spec : forall n, n < 2 ^ 64 -> numeral (decimal n) n /\ (decimal n = [x30] \/ hd x30 (decimal n) <> x30).
Proof.
  intros n Hn. unfold decimal. assert (Hb : n < 10 ^ N.of_nat 20).
  { change (10 ^ N.of_nat 20) with 100000000000000000000. change (2 ^ 64) with 18446744073709551616 in Hn. lia. }
  destruct (decimal_from_spec 20 n [] Hb ltac:(discriminate)) as (d & A & B & C & D & E).
  rewrite A, app_nil_r. split; [apply numeral_after; auto|]. destruct (N.eq_dec n 0) as [H|H]; auto.
Qed.
Lemma numeral_fun : forall l n m, numeral l n -> numeral l m -> n = m.
Proof.
  intros l n m H1 H2. apply numeral_after in H1 as [_ H1]. apply numeral_after in H2 as [_ H2].
  revert m H2. induction H1 as [acc|acc b d l n Hd H1 IH]; intros m H2; inversion H2 as [|? d' ? ? Hd' H2']; subst; [reflexivity|].
  assert (d' = d) by (unfold is_digit in *; lia). subst d'. apply IH. exact H2'.
Qed.

(** ** Receiving until the end *)
Lemma recv_good_less : forall masked df msg r s m r' s',
  let r0 := receiver_with_limits masked df msg in
  receiving r0 r -> pend_ok (r_buffer r) -> recv_message r s = (Ok m, r', s') ->
  (script_bytes s' < script_bytes s)%nat.
Proof.
  intros masked df msg r s m r' s' r0 HR HP H.
  destruct (receiving_inv r0 r) as (I1 & _); [apply capped_isize|reflexivity|exact HR|].
  assert (r_max_df r <= isize_max) as Hm by (rewrite I1; apply (capped_isize df)).
  assert (recv_n 1 r s = (map Ok [m], r', s')) as H1 by (cbn [recv_n]; rewrite H; reflexivity).
  apply recv_n_sound in H1; auto. destruct H1 as (l & L1 & L2 & L3 & L4).
  apply results_delivers in L3; auto.
  2:{ apply Forall_map. eapply Forall_impl; [|exact L2]. intros [f k] [[_ G1] _] H8. apply G1, H8. }
  destruct L3 as [HD _]. rewrite !script_bytes_flat, L1, app_length.
  destruct l as [|[f key] l].
  { cbn [map] in HD. inversion HD. }
  rewrite encs_cons, app_length. cbn [fst snd]. unfold enc. rewrite app_length.
  unfold header_bytes. cbn [app length]. lia.
Qed.
Lemma recv_until : forall masked df msg n r q,
  let r0 := receiver_with_limits masked df msg in
  receiving r0 r -> pend_ok (r_buffer r) -> (script_bytes q < n)%nat ->
  exists ms x r' s', recv_n (S (length ms)) r q = (map Ok ms ++ [x], r', s') /\
    Forall (fun m => ~ closing m) ms /\ Forall (sendable (2 ^ 34)) ms /\ last_word x /\ (length ms <= script_bytes q)%nat.
Proof.
  intros masked df msg. induction n as [|n IH]; intros r q r0 HR HP Hn; [lia|].
  destruct (receiving_inv r0 r) as (I1 & _); [apply capped_isize|reflexivity|exact HR|].
  assert (r_max_df r <= isize_max) as Hm by (rewrite I1; apply (capped_isize df)).
  pose proof (recv_message_any r q Hm) as HA.
  destruct (recv_message r q) as [[y r1] s1] eqn:E. cbn [fst snd] in HA.
  destruct y as [m|e| |]; cbn [msg_post] in HA; try contradiction.
  - destruct (recv_good_any masked df msg _ _ _ _ _ HR HP E) as (G1 & G2 & G3).
    pose proof (recv_good_less masked df msg _ _ _ _ _ HR HP E) as G4.
    destruct (is_close m) eqn:Ec.
    + exists [], (Ok m), r1, s1. cbn [length recv_n]. rewrite E. repeat split; try constructor; [destruct m; try discriminate; exact I|lia].
    + destruct (IH r1 s1 G2 G3 ltac:(lia)) as (ms & x & r' & s' & J1 & J2 & J3 & J4 & J5).
      exists (m :: ms), x, r', s'. split; [|split; [|split; [|split]]].
      * cbn [length]. remember (S (length ms)) as k. cbn [recv_n]. rewrite E, J1. reflexivity.
      * constructor; [|exact J2]. destruct m; try discriminate; intros [].
      * constructor; [exact G1|exact J3].
      * exact J4.
      * cbn [length]. lia.
  - exists [], (Err e), r1, s1. cbn [length recv_n]. rewrite E. repeat split; try constructor. lia.
Qed.
Lemma recv_n_head : forall n r q l r' s' m ms x, l = map Ok (m :: ms) ++ [x] -> recv_n (S (S n)) r q = (l, r', s') ->
  exists r1 s1, recv_message r q = (Ok m, r1, s1) /\ recv_n (S n) r1 s1 = (map Ok ms ++ [x], r', s').
Proof.
  intros n r q l r' s' m ms x -> H. remember (S n) as k. cbn [recv_n] in H. destruct (recv_message r q) as [[y r1] s1].
  destruct (recv_n k r1 s1) as [[l' r2] s2] eqn:E. cbn [map app] in H. injection H as -> -> -> ->. exists r1, s1. auto.
Qed.
Lemma recv_n_last : forall r q r' s' x, recv_n 1 r q = ([x], r', s') -> recv_message r q = (x, r', s').
Proof. intros r q r' s' x H. cbn [recv_n] in H. destruct (recv_message r q) as [[y r1] s1]. injection H as -> -> ->. reflexivity. Qed.

Lemma with_keys_app : forall a ks b, with_keys ks (a ++ b) = with_keys ks a ++ with_keys (fun n => ks (length a + n)%nat) b.
Proof. induction a as [|m a IH]; intros ks b; [reflexivity|]. cbn [app with_keys length Nat.add]. rewrite IH. reflexivity. Qed.
Lemma bad_close_owned : forall k w, writer_send_frame (msg_ops (msg_close_because 1002 [])) k w
  = writer_send (OClose (Some (mk_close 1002 []))) k w.
Proof. reflexivity. Qed.

(** ** The blocking loops *)
Lemma client_says_more : forall ks a b o w w1, octets o = octets w ++ client_says (with_keys ks a) ->
  octets w1 = octets o ++ client_says (with_keys (fun n => ks (length a + n)%nat) b) ->
  octets w1 = octets w ++ client_says (with_keys ks (a ++ b)).
Proof. intros ks a b o w w1 H1 H2. rewrite H2, H1, <- app_assoc, <- client_says_app, <- with_keys_app. reflexivity. Qed.

Lemma case_run : forall ms fuel ks r b s w x r' s', (length ms < fuel)%nat ->
  recv_n (S (length ms)) r (push_back b s) = (map Ok ms ++ [x], r', s') ->
  Forall (fun m => ~ closing m) ms -> Forall (sendable (2 ^ 34)) ms -> last_word x -> never_fails w ->
  exists w', case_loop fuel ks (mk_reader r b s) (mk_writer (mk_sender true) w) = (Returned, mk_writer (mk_sender true) w') /\
    octets (w_out w') = octets (w_out w) ++ client_says (with_keys ks (flat_map echo ms ++ [OClose None])).
Proof.
  induction ms as [|m ms IH]; intros fuel ks r b s w x r' s' Hf HR HC HS HX HW; (destruct fuel as [|fuel]; [cbn in Hf; lia|]).
  - cbn [length map app] in HR. apply recv_n_last in HR. cbn [case_loop]. unfold reader_recv. cbn [rd_receiver rd_buf rd_in].
    rewrite HR. destruct (client_says_one (OClose None) (ks O) w HW close_sendable) as (w' & E & O & _).
    exists w'. destruct x as [m|e| |]; cbn [last_word] in HX; try contradiction.
    + destruct m; try contradiction. rewrite E. auto.
    + rewrite msg_close_owned, E. auto.
  - cbn [length] in HR. destruct (recv_n_head _ _ _ _ _ _ _ _ _ eq_refl HR) as (r1 & s1 & E1 & E2).
    inversion HC as [|? ? C1 C2]; subst. inversion HS as [|? ? S1 S2]; subst. cbn [length] in Hf.
    cbn [case_loop]. unfold reader_recv. cbn [rd_receiver rd_buf rd_in]. rewrite E1.
    assert (NEXT : forall rep w1, echo m = [rep] -> octets (w_out w1) = octets (w_out w) ++ client_says [(rep, ks O)] -> never_fails w1 ->
      exists w', case_loop fuel (next_keys ks) (mk_reader r1 [] s1) (mk_writer (mk_sender true) w1) = (Returned, mk_writer (mk_sender true) w') /\
        octets (w_out w') = octets (w_out w) ++ client_says (with_keys ks (flat_map echo (m :: ms) ++ [OClose None]))).
    { intros rep w1 Er O1 W1. destruct (IH fuel (next_keys ks) r1 [] s1 w1 x r' s' ltac:(lia) E2 C2 S2 HX W1) as (w' & A & B).
      exists w'. split; [exact A|]. cbn [flat_map]. rewrite Er, <- app_assoc. eapply (client_says_more ks [rep]); [exact O1|exact B]. }
    destruct m as [d|d|c|d|d].
    + destruct (client_says_one (OText d) (ks O) w HW S1) as (w1 & E & O1 & W1). rewrite E. apply (NEXT _ _ eq_refl O1 W1).
    + destruct (client_says_one (OBinary d) (ks O) w HW S1) as (w1 & E & O1 & W1). rewrite E. apply (NEXT _ _ eq_refl O1 W1).
    + destruct C1. exact I.
    + destruct (client_says_one (OPong d) (ks O) w HW (pong_sendable _ S1)) as (w1 & E & O1 & W1). rewrite E. apply (NEXT _ _ eq_refl O1 W1).
    + destruct (IH fuel ks r1 [] s1 w x r' s' ltac:(lia) E2 C2 S2 HX HW) as (w' & A & B). exists w'. split; [exact A|exact B].
Qed.

Lemma reports_run : forall ms fuel ks r b s w x r' s', (length ms < fuel)%nat ->
  recv_n (S (length ms)) r (push_back b s) = (map Ok ms ++ [x], r', s') ->
  Forall (fun m => ~ closing m) ms -> Forall (sendable (2 ^ 34)) ms -> last_word x -> never_fails w ->
  exists w', reports_loop fuel ks (mk_reader r b s) (mk_writer (mk_sender true) w) = (Returned, mk_writer (mk_sender true) w') /\
    octets (w_out w') = octets (w_out w) ++ client_says (with_keys ks (pongs ms ++ [OClose None])).
Proof.
  induction ms as [|m ms IH]; intros fuel ks r b s w x r' s' Hf HR HC HS HX HW; (destruct fuel as [|fuel]; [cbn in Hf; lia|]).
  - cbn [length map app] in HR. apply recv_n_last in HR. cbn [reports_loop]. unfold reader_recv. cbn [rd_receiver rd_buf rd_in].
    rewrite HR. destruct (client_says_one (OClose None) (ks O) w HW close_sendable) as (w' & E & O & _).
    exists w'. destruct x as [m|e| |]; cbn [last_word] in HX; try contradiction.
    + destruct m; try contradiction. rewrite msg_close_owned, E. auto.
    + rewrite msg_close_owned, E. auto.
  - cbn [length] in HR. destruct (recv_n_head _ _ _ _ _ _ _ _ _ eq_refl HR) as (r1 & s1 & E1 & E2).
    inversion HC as [|? ? C1 C2]; subst. inversion HS as [|? ? S1 S2]; subst. cbn [length] in Hf.
    cbn [reports_loop]. unfold reader_recv. cbn [rd_receiver rd_buf rd_in]. rewrite E1.
    assert (SKIP : pongs (m :: ms) = pongs ms -> exists w', reports_loop fuel ks (mk_reader r1 [] s1) (mk_writer (mk_sender true) w) = (Returned, mk_writer (mk_sender true) w') /\
        octets (w_out w') = octets (w_out w) ++ client_says (with_keys ks (pongs (m :: ms) ++ [OClose None]))).
    { intros ->. exact (IH fuel ks r1 [] s1 w x r' s' ltac:(lia) E2 C2 S2 HX HW). }
    destruct m as [d|d|c|d|d]; try (apply SKIP; reflexivity).
    + destruct C1. exact I.
    + destruct (client_says_one (OPong d) (ks O) w HW (pong_sendable _ S1)) as (w1 & E & O1 & W1). rewrite E.
      destruct (IH fuel (next_keys ks) r1 [] s1 w1 x r' s' ltac:(lia) E2 C2 S2 HX W1) as (w' & A & B).
      exists w'. split; [exact A|]. eapply (client_says_more ks [OPong d]); [exact O1|exact B].
Qed.

Lemma announces_all : forall ts n, announces ts n -> Forall (fun t => exists k, names_number t k) ts.
Proof. intros ts n [|ts' t k H1 H2]; [constructor|]. apply Forall_app. split; [exact H1|]. constructor; [eauto|constructor]. Qed.
Lemma names_number_fun : forall t n m, names_number t n -> names_number t m -> n = m.
Proof. intros t n m H1 H2. apply parse_usize_iff in H1. apply parse_usize_iff in H2. congruence. Qed.
(** What the variable holds in the end, if every text is a number. *)
Inductive counted (c : N) : list bytes -> N -> Prop :=
| counted_nil : counted c [] c
| counted_one : forall t k ts n, names_number t k -> counted k ts n -> counted c (t :: ts) n.
Lemma counted_announces : forall ts n, counted 0 ts n <-> announces ts n.
Proof.
  assert (A : forall c ts n, counted c ts n -> ts <> [] -> announces ts n).
  { intros c ts n H. induction H as [c|c t k ts n H1 H2 IH]; intros Hn; [congruence|].
    destruct ts as [|u ts].
    - inversion H2; subst. apply (announces_last [] t). constructor. exact H1.
    - specialize (IH ltac:(discriminate)). inversion IH as [|ts' t' k' F G E1 E2]. apply (announces_last (t :: ts') t'); [constructor; eauto|exact G]. }
  assert (B : forall ts t n c, Forall (fun t => exists k, names_number t k) ts -> names_number t n -> counted c (ts ++ [t]) n).
  { induction ts as [|u ts IH]; intros t n c H1 H2; cbn [app].
    - econstructor; [exact H2|constructor].
    - inversion H1 as [|? ? [k Hk] H3]; subst. econstructor; [exact Hk|]. apply IH; assumption. }
  intros ts n. split.
  - intros H. destruct ts as [|t ts]; [inversion H; constructor|]. eapply A; [exact H|discriminate].
  - intros [|ts' t k H1 H2]; [constructor|]. apply B; assumption.
Qed.
Definition bad_close : owned := OClose (Some (mk_close 1002 [])).
Definition last_close (x : result owned ws_error) : owned := match x with Ok _ => OClose None | _ => bad_close end.
Lemma count_run : forall ms fuel ks c r b s w x r' s', (length ms < fuel)%nat ->
  recv_n (S (length ms)) r (push_back b s) = (map Ok ms ++ [x], r', s') ->
  Forall (fun m => ~ closing m) ms -> Forall (sendable (2 ^ 34)) ms -> last_word x -> never_fails w ->
  exists e n w', count_loop fuel ks c (mk_reader r b s) (mk_writer (mk_sender true) w) = (e, n, mk_writer (mk_sender true) w') /\
   ((exists k, counted c (texts ms) k) ->
    e = Returned /\ counted c (texts ms) n /\
    octets (w_out w') = octets (w_out w) ++ client_says (with_keys ks (pongs ms ++ [last_close x]))) /\
   ((forall k, ~ counted c (texts ms) k) -> e = Panicked).
Proof.
  induction ms as [|m ms IH]; intros fuel ks c r b s w x r' s' Hf HR HC HS HX HW; (destruct fuel as [|fuel]; [cbn in Hf; lia|]).
  - cbn [length map app] in HR. apply recv_n_last in HR. cbn [count_loop]. unfold reader_recv. cbn [rd_receiver rd_buf rd_in].
    rewrite HR.
    assert (HB : sendable (2 ^ 34) (last_close x)).
    { destruct x; cbn [last_close]; [apply close_sendable|..]; unfold bad_close; repeat split; cbn; try lia; try (exists []; split; [constructor|reflexivity]). }
    destruct (client_says_one (last_close x) (ks O) w HW HB) as (w' & E & O & _).
    exists Returned, c, w'. split; [|split; [intros _; split; [reflexivity|]; split; [constructor|exact O]|intros H; destruct (H c); constructor]].
    destruct x as [m|e| |]; cbn [last_word] in HX; try contradiction.
    + destruct m; try contradiction. rewrite msg_close_owned. cbn [last_close] in E. rewrite E. reflexivity.
    + rewrite bad_close_owned. cbn [last_close] in E. unfold bad_close in E. rewrite E. reflexivity.
  - cbn [length] in HR. destruct (recv_n_head _ _ _ _ _ _ _ _ _ eq_refl HR) as (r1 & s1 & E1 & E2).
    inversion HC as [|? ? C1 C2]; subst. inversion HS as [|? ? S1 S2]; subst. cbn [length] in Hf.
    cbn [count_loop]. unfold reader_recv. cbn [rd_receiver rd_buf rd_in]. rewrite E1.
    destruct m as [d|d|cl|d|d].
    + change (texts (OText d :: ms)) with (d :: texts ms). destruct (parse_usize d) as [k|] eqn:Ek.
      * apply parse_usize_iff in Ek.
        destruct (IH fuel ks k r1 [] s1 w x r' s' ltac:(lia) E2 C2 S2 HX HW) as (e & n & w' & A & B & C).
        exists e, n, w'. split; [exact A|]. split.
        -- intros [j Hj]. inversion Hj as [|? k' ? ? K1 K2]; subst. pose proof (names_number_fun _ _ _ Ek K1). subst k'.
           destruct (B (ex_intro _ _ K2)) as (B1 & B2 & B3). split; [exact B1|]. split; [econstructor; eauto|exact B3].
        -- intros H. apply C. intros j Hj. apply (H j). econstructor; eauto.
      * exists Panicked, c, w. split; [reflexivity|]. split; [|reflexivity]. intros [j Hj]. inversion Hj as [|? k' ? ? K1 K2]; subst.
        apply parse_usize_iff in K1. congruence.
    + exact (IH fuel ks c r1 [] s1 w x r' s' ltac:(lia) E2 C2 S2 HX HW).
    + destruct C1. exact I.
    + destruct (client_says_one (OPong d) (ks O) w HW (pong_sendable _ S1)) as (w1 & E & O1 & W1). rewrite E.
      destruct (IH fuel (next_keys ks) c r1 [] s1 w1 x r' s' ltac:(lia) E2 C2 S2 HX W1) as (e & n & w' & A & B & C).
      exists e, n, w'. split; [exact A|]. split; [|exact C]. intros H. destruct (B H) as (B1 & B2 & B3). split; [exact B1|]. split; [exact B2|].
      eapply (client_says_more ks [OPong d]); [exact O1|exact B3].
    + exact (IH fuel ks c r1 [] s1 w x r' s' ltac:(lia) E2 C2 S2 HX HW).
Qed.

Lemma made_inv : forall c, made c -> c_sender c = mk_sender true /\ exists df, c_receiver c = receiver_with_limits false df df.
Proof.
  intros c (X & rnd & b & s & w & b' & w' & H). unfold connect_on in H.
  destruct (print_request (build_request rnd b)) as [d| | |]; try discriminate H.
  destruct (write_all d w) as [[[]|k| |] w1]; try discriminate H.
  destruct (parse_response X s) as [[[q|e| |] rest] s2] eqn:E1; try discriminate H.
  destruct (client_validate (build_request rnd b) q) as [[]|e| |] eqn:E2; try discriminate H.
  injection H as <- <- <-. split; [reflexivity|]. eexists. reflexivity.
Qed.
Lemma made_run : forall c, made c -> exists ms x r' s',
  recv_n (S (length ms)) (c_receiver c) (push_back (c_buf c) (c_in c)) = (map Ok ms ++ [x], r', s') /\
  Forall (fun m => ~ closing m) ms /\ Forall (sendable (2 ^ 34)) ms /\ last_word x /\
  (length ms < loop_fuel (mk_reader (c_receiver c) (c_buf c) (c_in c)))%nat.
Proof.
  intros c Hc. apply made_inv in Hc as [_ [df H]]. rewrite H.
  destruct (recv_until false df df (S (script_bytes (push_back (c_buf c) (c_in c)))) (receiver_with_limits false df df) (push_back (c_buf c) (c_in c)))
    as (ms & x & r' & s' & A & B & C & D & E); [constructor|constructor|lia|].
  exists ms, x, r', s'. repeat split; auto. unfold loop_fuel. cbn [rd_buf rd_in]. lia.
Qed.

(** [C78] The URLs the test suite's clients use are the fuzzing server's address followed by the
    path; the number of a test case is written in decimal without leading zeros, so that
    different cases have different URLs, none of them that of the count or of the reports. *)
Lemma suite_urls_proof :
  count_url = url_of (ascii "/getCaseCount") /\ reports_url = url_of (ascii "/updateReports?agent=rust-websocket") /\
  (forall n, n < 2 ^ 64 -> exists p, case_path n p /\ case_url n = url_of p) /\
  (forall n m, n < 2 ^ 64 -> m < 2 ^ 64 -> case_url n = case_url m -> n = m) /\
  (forall n, case_url n <> count_url /\ case_url n <> reports_url) /\ count_url <> reports_url.
Proof.
  split; [reflexivity|]. split; [reflexivity|]. split; [|split; [|split]].
  - intros n Hn. destruct (decimal_spec n Hn) as [A B]. exists (ascii "/runCase?case=" ++ decimal n ++ ascii "&agent=rust-websocket").
    split; [constructor; assumption|]. reflexivity.
  - intros n m Hn Hm H. unfold case_url in H. do 2 apply app_inv_head in H. apply app_inv_tail in H.
    destruct (decimal_spec n Hn) as [A _]. destruct (decimal_spec m Hm) as [B _]. rewrite H in A. eapply numeral_fun; eauto.
  - intros n. unfold case_url, count_url, reports_url. split; intros H; apply app_inv_head in H; discriminate H.
  - unfold count_url, reports_url. intros H. apply app_inv_head in H. discriminate H.
Qed.
(*EX
Example case_url_ex : case_url 301 = ascii "ws://127.0.0.1:9001/runCase?case=301&agent=rust-websocket" /\ numeral (ascii "301") 301.
Proof.
  split; [reflexivity|]. apply (numeral_more (ascii "30") 30 x31 1); [|split; [lia|reflexivity]].
  apply (numeral_more (ascii "3") 3 x30 0); [|split; [lia|reflexivity]]. apply (numeral_one x33 3). split; [lia|reflexivity].
Qed.
EX*)

(** [C78] A test case of the blocking client: whatever the fuzzing server sends, and however its
    stream ends, the messages up to the first Close or the first error are answered in order as
    an echo has to (pings with pongs, pongs not at all), each in a frame masked with a key of its
    own, and then exactly one Close without a status is written. *)
Lemma case_echoed_proof : forall W n c ks, made c -> never_fails (c_out c) -> W (case_url n) = Connected c None ks ->
  exists ms x w', hears c ms x /\ run_case W n = (Returned, [(case_url n, Some w')]) /\
    octets (w_out w') = octets (w_out (c_out c)) ++ client_says (with_keys ks (flat_map echo ms ++ [OClose None])).
Proof.
  intros W n c ks Hc HW E. destruct (made_run c Hc) as (ms & x & r' & s' & A & B & C & D & F).
  destruct (made_inv c Hc) as [HS _].
  destruct (case_run ms _ ks _ _ _ (c_out c) x r' s' F A B C D HW) as (w' & G & H).
  exists ms, x, w'. split; [|split; [|exact H]].
  - unfold hears. rewrite client_pushes, A. auto.
  - unfold run_case. rewrite E. unfold split. rewrite HS, G. reflexivity.
Qed.

(** [C78] How many cases there are: the blocking client takes every text for the number of cases,
    the last one counting, and none meaning no cases; a text that is not a number is a panic.
    Pings are answered; in the end a Close is written, with the status 1002 after an error. *)
Lemma count_heard_proof : forall W c ks, made c -> never_fails (c_out c) -> W count_url = Connected c None ks ->
  exists ms x e n w', hears c ms x /\ get_case_count W = (e, n, [(count_url, Some w')]) /\
    (forall k, announces (texts ms) k -> e = Returned /\ n = k /\
       octets (w_out w') = octets (w_out (c_out c)) ++
         client_says (with_keys ks (pongs ms ++ [match x with Ok _ => OClose None | _ => OClose (Some (mk_close 1002 [])) end]))) /\
    ((exists t, In t (texts ms) /\ forall k, ~ names_number t k) -> e = Panicked).
Proof.
  intros W c ks Hc HW E. destruct (made_run c Hc) as (ms & x & r' & s' & A & B & C & D & F).
  destruct (made_inv c Hc) as [HS _].
  destruct (count_run ms _ ks 0 _ _ _ (c_out c) x r' s' F A B C D HW) as (e & n & w' & G & H1 & H2).
  exists ms, x, e, n, (w'). split; [|split; [|split]].
  - unfold hears. rewrite client_pushes, A. auto.
  - unfold get_case_count. rewrite E. unfold split. rewrite HS, G. reflexivity.
  - intros k Hk. apply counted_announces in Hk. destruct (H1 (ex_intro _ _ Hk)) as (J1 & J2 & J3). split; [exact J1|].
    split; [|exact J3]. clear - Hk J2. revert J2. generalize dependent n. induction Hk as [c|c t j ts k K1 K2 IH]; intros n J2.
    + inversion J2. reflexivity.
    + inversion J2 as [|? j' ? ? L1 L2]; subst. pose proof (names_number_fun _ _ _ K1 L1). subst j'. apply IH. exact L2.
  - intros (t & Ht & Hn). apply H2. intros k Hk. apply counted_announces, announces_all in Hk.
    rewrite Forall_forall in Hk. destruct (Hk t Ht) as [j Hj]. apply (Hn j Hj).
Qed.

(** [C78] Updating the reports: the blocking client waits for a Close or an error, answers pings
    meanwhile, and writes one Close. *)
Lemma reports_updated_proof : forall W c ks, made c -> never_fails (c_out c) -> W reports_url = Connected c None ks ->
  exists ms x w', hears c ms x /\ update_reports W = (Returned, [(reports_url, Some w')]) /\
    octets (w_out w') = octets (w_out (c_out c)) ++ client_says (with_keys ks (pongs ms ++ [OClose None])).
Proof.
  intros W c ks Hc HW E. destruct (made_run c Hc) as (ms & x & r' & s' & A & B & C & D & F).
  destruct (made_inv c Hc) as [HS _].
  destruct (reports_run ms _ ks _ _ _ (c_out c) x r' s' F A B C D HW) as (w' & G & H).
  exists ms, x, w'. split; [|split; [|exact H]].
  - unfold hears. rewrite client_pushes, A. auto.
  - unfold update_reports. rewrite E. unfold split. rewrite HS, G. reflexivity.
Qed.

Lemma hears_fun : forall c ms x ms' x', hears c ms x -> hears c ms' x' -> ms = ms' /\ x = x'.
Proof.
  intros c ms. revert c. induction ms as [|m ms IH]; intros c x ms' x' (A1 & B1 & C1) (A2 & B2 & C2).
  - destruct ms' as [|m' ms'].
    + cbn [length client_recv_n map app] in A1, A2. destruct (client_recv c) as [y c1]. cbn [fst] in *. split; [reflexivity|congruence].
    + exfalso. cbn [length map app] in *. cbn [client_recv_n] in A1. remember (S (length ms')) as k. cbn [client_recv_n] in A2.
      destruct (client_recv c) as [y c1]. destruct (client_recv_n k c1) as [l c2]. cbn [fst] in *.
      injection A1 as ->. injection A2 as -> _. inversion B2; subst. contradiction.
  - destruct ms' as [|m' ms'].
    + exfalso. cbn [length map app] in *. cbn [client_recv_n] in A2. remember (S (length ms)) as k. cbn [client_recv_n] in A1.
      destruct (client_recv c) as [y c1]. destruct (client_recv_n k c1) as [l c2]. cbn [fst] in *.
      injection A2 as ->. injection A1 as -> _. inversion B1; subst. contradiction.
    + cbn [length map app] in *. remember (S (length ms')) as k'. remember (S (length ms)) as k. cbn [client_recv_n] in A1, A2.
      destruct (client_recv c) as [y c1] eqn:E. destruct (client_recv_n k c1) as [l c2] eqn:E1. destruct (client_recv_n k' c1) as [l' c2'] eqn:E2. cbn [fst] in *.
      injection A1 as -> A1. injection A2 as -> A2. subst k k'. inversion B1; subst. inversion B2; subst.
      destruct (IH c1 x ms' x') as [-> ->]; [| |auto]; (split; [|split]; auto); [rewrite E1; reflexivity|rewrite E2; reflexivity].
Qed.

Lemma upto_app : forall a b n, upto n (a + b) = upto n a ++ upto (n + N.of_nat a) b.
Proof.
  induction a as [|a IH]; intros b n; cbn [upto Nat.add app]; [f_equal; lia|]. rewrite IH. do 3 f_equal. lia.
Qed.
Lemma cases_run : forall W k m fuel n, (k <= fuel)%nat -> n + N.of_nat k <= 2 ^ 64 - 1 ->
  (forall i, In i (upto n k) -> i <= m) ->
  (forall i, In i (upto n k) -> reached W (case_url i)) ->
  exists vs, map fst vs = map case_url (upto n k) /\ Forall (fun v => snd v <> None) vs /\
    run_cases fuel W n m = (let '(e, v) := run_cases (fuel - k) W (n + N.of_nat k) m in (e, vs ++ v)).
Proof.
  intros W. induction k as [|k IH]; intros m fuel n Hf Hb Hm HW.
  - exists []. split; [reflexivity|]. split; [constructor|]. rewrite Nat.sub_0_r. replace (n + N.of_nat 0) with n by lia.
    destruct (run_cases fuel W n m). reflexivity.
  - destruct fuel as [|fuel]; [lia|]. cbn [upto] in *.
    destruct (HW n (or_introl eq_refl)) as (c & ks & E & Hc & Hw).
    destruct (case_echoed_proof W n c ks Hc Hw E) as (ms & x & w' & A1 & A2 & A3).
    destruct (IH m fuel (n + 1) ltac:(lia) ltac:(lia)) as (vs & B1 & B2 & B3).
    { intros i Hi. apply Hm. right. exact Hi. }
    { intros i Hi. apply HW. right. exact Hi. }
    exists ((case_url n, Some w') :: vs). cbn [map fst]. split; [f_equal; exact B1|]. split; [constructor; [discriminate|exact B2]|].
    cbn [run_cases]. assert (n <= m) as Hn by (apply Hm; left; reflexivity). apply N.leb_le in Hn. rewrite Hn.
    destruct (N.eqb_spec n (2 ^ 64 - 1)) as [Hx|_]; [lia|]. rewrite A2, B3. cbn [Nat.sub].
    replace (n + 1 + N.of_nat k) with (n + N.of_nat (S k)) by lia. destruct (run_cases (fuel - k) W (n + N.of_nat (S k)) m). reflexivity.
Qed.
Lemma In_upto : forall k n i, In i (upto n k) <-> n <= i < n + N.of_nat k.
Proof.
  induction k as [|k IH]; intros n i; cbn [upto In]; [lia|]. rewrite IH. lia.
Qed.
Lemma counted_by : forall W n, tells W n -> exists w', get_case_count W = (Returned, n, [(count_url, Some w')]).
Proof.
  intros W n (c & ks & ms & x & E & Hc & Hw & Hh & Ha).
  destruct (count_heard_proof W c ks Hc Hw E) as (ms' & x' & e & k & w' & A1 & A2 & A3 & _).
  destruct (hears_fun _ _ _ _ _ Hh A1) as [<- <-]. destruct (A3 n Ha) as (-> & -> & _). exists w'. exact A2.
Qed.

(** [C78] The whole suite, blocking: when the fuzzing server announces [n] cases and lets itself
    be reached, the client makes exactly these connections, in this order, each to its end: the
    count, the cases from 1 to [n], and the reports. *)
Lemma suite_runs_proof : forall W n, tells W n -> n < 2 ^ 64 - 1 ->
  (forall i, 1 <= i <= n -> reached W (case_url i)) -> reached W reports_url ->
  exists vs, autobahn_client W = (Returned, vs) /\ Forall (fun v => snd v <> None) vs /\
    map fst vs = count_url :: map case_url (upto 1 (N.to_nat n)) ++ [reports_url].
Proof.
  intros W n HT Hn HC HR. destruct (counted_by W n HT) as [w0 E0].
  destruct (cases_run W (N.to_nat n) n (N.to_nat n) 1) as (vs & A1 & A2 & A3); [lia|lia|intros i Hi; apply In_upto in Hi; lia| |].
  { intros i Hi. apply HC. apply In_upto in Hi. lia. }
  destruct HR as (c & ks & E & Hc & Hw). destruct (reports_updated_proof W c ks Hc Hw E) as (ms & x & w' & _ & B & _).
  assert (Z : run_cases (N.to_nat n - N.to_nat n) W (1 + N.of_nat (N.to_nat n)) n = (Returned, [])).
  { rewrite Nat.sub_diag. cbn [run_cases]. destruct (N.leb_spec (1 + N.of_nat (N.to_nat n)) n); [lia|reflexivity]. }
  rewrite Z, app_nil_r in A3. eexists. split; [|split].
  - unfold autobahn_client. rewrite E0, A3, B. reflexivity.
  - constructor; [discriminate|]. apply Forall_app. split; [exact A2|]. constructor; [discriminate|constructor].
  - cbn [app map fst]. f_equal. rewrite map_app. f_equal; exact A1.
Qed.

(** [C78] The first case that cannot be connected to ends the blocking client with a panic: the
    cases after it are not run and the reports are not updated. *)
Lemma suite_stops_proof : forall W n k, tells W n -> n < 2 ^ 64 - 1 -> 1 <= k <= n ->
  (forall i, 1 <= i < k -> reached W (case_url i)) -> W (case_url k) = NotConnected ->
  exists vs, autobahn_client W = (Panicked, vs) /\ map fst vs = count_url :: map case_url (upto 1 (N.to_nat k)).
Proof.
  intros W n k HT Hn Hk HC HR. destruct (counted_by W n HT) as [w0 E0].
  destruct (cases_run W (N.to_nat k - 1) n (N.to_nat n) 1) as (vs & A1 & A2 & A3); [lia|lia|intros i Hi; apply In_upto in Hi; lia| |].
  { intros i Hi. apply HC. apply In_upto in Hi. lia. }
  replace (1 + N.of_nat (N.to_nat k - 1)) with k in A3 by lia.
  assert (Z : run_cases (N.to_nat n - (N.to_nat k - 1)) W k n = (Panicked, [(case_url k, None)])).
  { destruct (N.to_nat n - (N.to_nat k - 1))%nat as [|f] eqn:Ef; [lia|]. cbn [run_cases]. destruct (N.leb_spec k n); [|lia].
    destruct (N.eqb_spec k (2 ^ 64 - 1)); [lia|]. unfold run_case. rewrite HR. reflexivity. }
  rewrite Z in A3. eexists. split.
  - unfold autobahn_client. rewrite E0, A3. reflexivity.
  - cbn [app map fst]. f_equal. rewrite map_app. replace (N.to_nat k) with ((N.to_nat k - 1) + 1)%nat by lia.
    rewrite upto_app, map_app. f_equal; [exact A1|]. cbn [upto map fst]. do 2 f_equal. lia.
Qed.

(*EX
(** A fuzzing server: the handshake is granted, then come the bytes of the URL's connection. *)
Definition a_url : url := mk_url (ascii "ws") (Some (ascii "127.0.0.1")) (Some 9001) [] None (ascii "/").
Definition a_head : bytes := str "HTTP/1.1 101 Switching Protocols" ++ crlf ++ str "Connection: Upgrade" ++ crlf ++
    str "Upgrade: websocket" ++ crlf ++ str "Sec-WebSocket-Accept: s3pPLMBiTxaQ9kYGzzhZRbK+xOo=" ++ crlf ++ crlf.
Definition dialled (bs : bytes) : attempt :=
  match connect_on httparse_lib (ascii "the sample nonce") (builder_init a_url)
      (push_back (a_head ++ bs) []) (mk_w [] [WAccept 3; WIntr; WAccept 2000; WAccept 1]) with
  | (Ok c, _, _) => Connected c None (fun n => mk_key x00 x00 x00 (match n with O => x00 | _ => xff end))
  | _ => NotConnected
  end.
Definition fuzzer (u : bytes) : attempt :=
  if beqb u count_url then dialled [x81; x01; x32; x88; x00]
  else if beqb u (case_url 1) then dialled [x82; x01; x61; x8a; x00; x89; x01; x70; x88; x02; x03; xe8; xff]
  else if beqb u (case_url 2) then dialled [x81; x01; x62; xff; xff]
  else if beqb u reports_url then dialled [x88; x00]
  else NotConnected.
Example suite_runs_ex :
  reached fuzzer (case_url 1) /\ reached fuzzer (case_url 2) /\ tells fuzzer 2 /\
  exists vs, autobahn_client fuzzer = (Returned, vs) /\
   map fst vs = [count_url; case_url 1; case_url 2; reports_url] /\
   exists w, nth_error vs 1 = Some (case_url 1, Some w) /\
     drop (llen (w_out w) - 20) (w_out w) = [x82; x81; x00; x00; x00; x00; x61] ++ [x8a; x81; x00; x00; x00; xff; x70] ++ [x88; x80; x00; x00; x00; xff].
Proof.
  assert (M : forall bs c f ks, dialled bs = Connected c f ks -> made c).
  { intros bs c f ks H. unfold dialled in H.
    match type of H with match connect_on ?X ?r ?b ?s ?w with _ => _ end = _ => destruct (connect_on X r b s w) as [[[c'|e| |] b'] w'] eqn:E end;
      try discriminate H. injection H as <- _ _. unfold made. eauto 10. }
  split; [|split; [|split]].
  - unfold reached. eexists _, _. split; [vm_compute; reflexivity|]. split; [eapply (M [x82; x01; x61; x8a; x00; x89; x01; x70; x88; x02; x03; xe8; xff]); vm_compute; reflexivity|].
    vm_compute. repeat constructor.
  - unfold reached. eexists _, _. split; [vm_compute; reflexivity|]. split; [eapply (M [x81; x01; x62; xff; xff]); vm_compute; reflexivity|].
    vm_compute. repeat constructor.
  - unfold tells. eexists _, _, [OText [x32]], (Ok (OClose None)). split; [vm_compute; reflexivity|].
    split; [eapply (M [x81; x01; x32; x88; x00]); vm_compute; reflexivity|]. split; [vm_compute; repeat constructor|].
    split; [split; [vm_compute; reflexivity|split; [repeat constructor; intros []|exact I]]|].
    apply (announces_last [] [x32] 2); [constructor|]. split; [reflexivity|]. left. apply numeral_one. split; [lia|reflexivity].
  - eexists. split; [vm_compute; reflexivity|]. split; [reflexivity|]. eexists. split; [reflexivity|]. vm_compute. reflexivity.
Qed.
(** The second case cannot be reached. *)
Example suite_stops_ex :
  let W u := if beqb u (case_url 2) then NotConnected else fuzzer u in
  fst (autobahn_client W) = Panicked /\ map fst (snd (autobahn_client W)) = [count_url; case_url 1; case_url 2].
Proof. cbv zeta. split; vm_compute; reflexivity. Qed.
EX*)

(** [C78] Without a server, or when its handshake fails, the blocking client takes it that there
    are no cases: it only tries to update the reports, and ends as if all had gone well. *)
Lemma suite_without_server_proof : forall W, W count_url = NotConnected -> W reports_url = NotConnected ->
  autobahn_client W = (Returned, [(count_url, None); (reports_url, None)]).
Proof.
  intros W H1 H2. unfold autobahn_client, get_case_count, update_reports. rewrite H1, H2. reflexivity.
Qed.

(** ** Asynchronous *)
Lemma next_run_spec : forall fuel s f, fr_inv mc_decode f -> (length s < fuel)%nat ->
  match next_run fuel s f with
  | (PItem m, f', s') => fr_inv mc_decode f' /\ cdrain mc_decode s (fr_st f) (fr_buf f)
       = (let '(l, e) := cdrain mc_decode s' (fr_st f') (fr_buf f') in (m :: l, e)) /\ (weight s' f' < weight s f)%nat
  | (PEnd, _, _) => cdrain mc_decode s (fr_st f) (fr_buf f) = ([], PEnd)
  | (PErr e, _, _) => cdrain mc_decode s (fr_st f) (fr_buf f) = ([], PErr e)
  | _ => False
  end.
Proof.
  induction fuel as [|fuel IH]; intros s f HI Hf; [lia|]. cbn [next_run].
  pose proof (framed_poll_spec _ _ mc_decode mc_some mc_none mc_total s f HI) as HP.
  destruct (framed_poll mc_decode s f) as [[p f'] s'] eqn:E. destruct p as [m| | |e| |]; try exact HP.
  destruct HP as (I' & HC & HM). rewrite HC. unfold weight.
  assert (length s' < length s)%nat as HL by (apply stream_waits_proof in E as (c & ->); rewrite app_length; cbn [length]; lia).
  specialize (IH s' f' I' ltac:(lia)). destruct (next_run fuel s' f') as [[p f2] s2].
  destruct p; try exact IH. destruct IH as (A & B & C). split; [exact A|]. split; [exact B|]. unfold weight in C. lia.
Qed.

Lemma csend_ok : forall m k extra w r w', afails_never w -> sendable (2 ^ 34) m ->
  start_send false (owned_ops m) k extra w = (r, w') ->
  afails_never w' /\
  ((r = SReady /\ sofar w' = sofar w ++ client_says [(m, k)] /\ (room w' <= room w)%nat) \/
   (r = SNotReady /\ sofar w' = sofar w /\ (room w' < room w)%nat)).
Proof.
  intros m k extra w r w' HF (Ht & Hs & Hc) H. pose proof (owned_sendable m Ht Hc) as HO.
  pose proof (proj2 (proj2 library_frames_honest_proof) m) as HH.
  assert (concat (df_writes (owned_ops m)) = payload_of m) as HP.
  { destruct HH as [_ _]. apply owned_payload. exact Ht. }
  assert (octets (fw_out w' ++ bm_data (fw_buf w'))
    = octets (fw_out w ++ bm_data (fw_buf w)) ++ match r with SReady => client_says [(m, k)] | _ => [] end) as HS.
  { assert (N.of_nat (length (concat (df_writes (owned_ops m)))) < 2 ^ 64) as HL.
    { rewrite HP. unfold size in Hs. clear - Hs. lia. }
    rewrite (start_send_spec _ _ _ _ _ _ _ HH HL H).
    f_equal. destruct r; try reflexivity. unfold wires, client_says. cbn [map concat fst snd].
    rewrite !app_nil_r. f_equal. apply owned_rfc. exact Ht. }
  unfold start_send in H.
  assert (forall v, exists b, match codec_encode false (owned_ops m) k extra (fw_buf v) with
    | (Ok _, b) => (SReady, mk_fw b (fw_out v) (fw_ws v) (fw_fs v))
    | (Err e, b) => (SErr e, mk_fw b (fw_out v) (fw_ws v) (fw_fs v))
    | (_, b) => (SErr (OtherError "panic"), mk_fw b (fw_out v) (fw_ws v) (fw_fs v))
    end = (SReady, mk_fw b (fw_out v) (fw_ws v) (fw_fs v))) as HE.
  { intros v. destruct (encode_good false (owned_ops m) k extra (fw_buf v) HH HO) as (wire & dst & E1 & _).
    rewrite E1. eauto. }
  destruct (BACKPRESSURE <=? llen (bm_data (fw_buf w))).
  - destruct (poll_complete w) as [r1 w1] eqn:EP. apply flush_ok in EP as (F1 & F2 & F3); [|exact HF].
    assert (((if BACKPRESSURE <=? llen (bm_data (fw_buf w1)) then (SNotReady, w1) else
       match codec_encode false (owned_ops m) k extra (fw_buf w1) with
    | (Ok _, b) => (SReady, mk_fw b (fw_out w1) (fw_ws w1) (fw_fs w1))
    | (Err e, b) => (SErr e, mk_fw b (fw_out w1) (fw_ws w1) (fw_fs w1))
    | (_, b) => (SErr (OtherError "panic"), mk_fw b (fw_out w1) (fw_ws w1) (fw_fs w1))
    end) = (r, w'))) as H'.
    { destruct F3 as [[-> _]|[-> _]]; exact H. }
    clear H. destruct (HE w1) as (b & E). rewrite E in H'. clear HE E.
    destruct (N.leb_spec BACKPRESSURE (llen (bm_data (fw_buf w1)))) as [HL|HL]; injection H' as <- <-.
    + split; [exact F1|]. right. rewrite app_nil_r in HS. split; [reflexivity|]. split; [exact HS|].
      destruct F3 as [(_ & F3 & _)|(_ & F3)]; [|exact F3]. rewrite F3 in HL. unfold llen, BACKPRESSURE in HL. cbn in HL. lia.
    + split; [exact F1|]. left. split; [reflexivity|]. split; [exact HS|]. unfold room in *. cbn [fw_ws fw_fs]. lia.
  - destruct (HE w) as (b & E). rewrite E in H. injection H as <- <-. split; [exact HF|]. left.
    split; [reflexivity|]. split; [exact HS|]. unfold room. cbn [fw_ws fw_fs]. lia.
Qed.
Lemma send_fully_ok : forall m k extra n w, afails_never w -> sendable (2 ^ 34) m -> (room w < n)%nat ->
  exists w', send_fully n false m k extra w = (SReady, w') /\ afails_never w' /\ bm_data (fw_buf w') = [] /\
    octets (fw_out w') = sofar w ++ client_says [(m, k)].
Proof.
  intros m k extra. induction n as [|n IH]; intros w HF HS Hn; [lia|]. cbn [send_fully].
  destruct (start_send false (owned_ops m) k extra w) as [r w1] eqn:E.
  apply csend_ok in E as (F1 & [(-> & F2 & F3)|(-> & F2 & F3)]); auto.
  - pose proof (flush_all_shape (S (length (fw_ws w1) + length (fw_fs w1))) w1 ltac:(lia)) as H.
    destruct (flush_all _ w1) as [r w']. destruct H as (A1 & A2 & A3 & A4). destruct (A4 F1) as [B1 ->].
    specialize (A3 eq_refl). exists w'. split; [reflexivity|]. split; [exact B1|]. split; [exact A3|].
    rewrite A3, app_nil_r in A1. rewrite <- A1. exact F2.
  - destruct (IH w1 F1 HS ltac:(lia)) as (w' & E1 & E2 & E3 & E4). exists w'. rewrite F2 in E4. auto.
Qed.
Lemma client_sends_ok : forall m k extra w, afails_never w -> sendable (2 ^ 34) m -> bm_data (fw_buf w) = [] ->
  exists w', client_sends m k extra w = (SReady, w') /\ afails_never w' /\ bm_data (fw_buf w') = [] /\
    octets (fw_out w') = octets (fw_out w) ++ client_says [(m, k)].
Proof.
  intros m k extra w HF HS HB. destruct (send_fully_ok m k extra (S (room w)) w HF HS ltac:(lia)) as (w' & A & B & C & D).
  exists w'. split; [exact A|]. split; [exact B|]. split; [exact C|]. unfold sofar in D. rewrite HB, app_nil_r in D. exact D.
Qed.

Lemma acase_run : forall fuel ks extra f s w ms rest e, (weight s f < fuel)%nat -> fr_inv mc_decode f ->
  cdrain mc_decode s (fr_st f) (fr_buf f) = (ms ++ rest, e) -> Forall (sendable (2 ^ 34)) ms ->
  Forall (fun m => ~ closing m) ms -> (rest = [] \/ exists c more, rest = OClose c :: more) ->
  afails_never w -> bm_data (fw_buf w) = [] ->
  exists w', acase_loop fuel ks extra f s w = (TReady, w') /\ bm_data (fw_buf w') = [] /\
    octets (fw_out w') = octets (fw_out w) ++ client_says (with_keys ks (flat_map echo ms ++
      match rest, e with [], PEnd => [] | _, _ => [OClose None] end)).
Proof.
  induction fuel as [|fuel IH]; intros ks extra f s w ms rest e HW HI HC HS HN HR HF HB; [lia|].
  cbn [acase_loop]. pose proof (next_run_spec (next_fuel s) s f HI ltac:(unfold next_fuel; lia)) as HP.
  destruct (next_run (next_fuel s) s f) as [[p f'] s'].
  destruct (client_sends_ok (OClose None) (ks O) extra w HF close_sendable HB) as (wc & C1 & C2 & C3 & C4).
  destruct p as [m| | |x| |]; try contradiction.
  - destruct HP as (I' & HD & HM). rewrite HD in HC. destruct (cdrain mc_decode s' (fr_st f') (fr_buf f')) as [l e'] eqn:EL.
    destruct ms as [|m0 ms].
    + destruct HR as [->|(c & more & ->)]; [discriminate HC|]. cbn [app] in HC.
      assert (m = OClose c) as -> by (injection HC as -> _; reflexivity). rewrite C1. exists wc. split; [reflexivity|]. split; [exact C3|].
      exact C4.
    + cbn [app] in HC. injection HC as -> -> ->. inversion HS as [|? ? S1 S2]; subst. inversion HN as [|? ? N1 N2]; subst.
      assert (NEXT : forall rep w1, echo m0 = [rep] -> octets (fw_out w1) = octets (fw_out w) ++ client_says [(rep, ks O)] -> afails_never w1 ->
        bm_data (fw_buf w1) = [] -> exists w', acase_loop fuel (next_keys ks) extra f' s' w1 = (TReady, w') /\ bm_data (fw_buf w') = [] /\
          octets (fw_out w') = octets (fw_out w) ++ client_says (with_keys ks (flat_map echo (m0 :: ms) ++
            match rest, e with [], PEnd => [] | _, _ => [OClose None] end))).
      { intros rep w1 Er O1 F1 B1. destruct (IH (next_keys ks) extra f' s' w1 ms rest e ltac:(lia) I' EL S2 N2 HR F1 B1) as (w' & A & B & C).
        exists w'. split; [exact A|]. split; [exact B|]. cbn [flat_map]. rewrite Er, <- app_assoc.
        eapply (client_says_more ks [rep]); [exact O1|exact C]. }
      destruct m0 as [d|d|c|d|d].
      * destruct (client_sends_ok (OText d) (ks O) extra w HF S1 HB) as (w1 & E & F1 & B1 & O1). rewrite E. apply (NEXT _ _ eq_refl O1 F1 B1).
      * destruct (client_sends_ok (OBinary d) (ks O) extra w HF S1 HB) as (w1 & E & F1 & B1 & O1). rewrite E. apply (NEXT _ _ eq_refl O1 F1 B1).
      * destruct N1. exact I.
      * destruct (client_sends_ok (OPong d) (ks O) extra w HF (pong_sendable _ S1) HB) as (w1 & E & F1 & B1 & O1). rewrite E. apply (NEXT _ _ eq_refl O1 F1 B1).
      * exact (IH ks extra f' s' w ms rest e ltac:(lia) I' EL S2 N2 HR HF HB).
  - rewrite HP in HC. injection HC as HC <-. symmetry in HC. apply app_eq_nil in HC as [-> ->].
    exists w. split; [reflexivity|]. split; [exact HB|]. cbn [flat_map app with_keys]. unfold client_says. cbn [map concat]. rewrite app_nil_r. reflexivity.
  - rewrite HP in HC. injection HC as HC <-. symmetry in HC. apply app_eq_nil in HC as [-> ->].
    rewrite C1. exists wc. split; [reflexivity|]. split; [exact C3|]. exact C4.
Qed.

Lemma amade_inv : forall a, amade a -> exists df msg buf, ac_read a = framed_new (msg_codec_with_limits CtxClient df msg) buf /\
  bm_data (fw_buf (ac_out a)) = [].
Proof.
  intros a (X & rnd & b & extra & s & w & h & H). unfold async_connect_on in H.
  destruct (print_request (build_request rnd b)) as [data| | |]; try discriminate H. cbn [rbind] in H.
  destruct (http_send data extra w) as [[| |e] w'] eqn:E; try discriminate H.
  destruct (await_head (try_response X) s) as [[p f] s']. destruct p as [[resp|x]| | |x| |]; try discriminate H.
  destruct (client_validate (build_request rnd b) resp) as [[]| | |]; try discriminate H. cbn [rbind] in H.
  injection H as <- _. eexists _, _, _. split; [reflexivity|]. cbn [update_framed_codec ac_out].
  unfold http_send in E.
  match type of E with flush_all ?n ?v = _ => pose proof (flush_all_shape n v ltac:(cbn [fw_ws fw_fs]; lia)) as HF end.
  rewrite E in HF. destruct HF as (_ & _ & HF & _). apply HF. reflexivity.
Qed.

(** Whatever the transport does, sending ends. *)
Lemma start_send_waits : forall server d k extra w r w', start_send server d k extra w = (r, w') ->
  r = SNotReady -> (room w' < room w)%nat.
Proof.
  intros server d k extra w r w' H Hr. subst r. unfold start_send in H.
  assert (HE : forall v w', match codec_encode server d k extra (fw_buf v) with
    | (Ok _, b) => (SReady, mk_fw b (fw_out v) (fw_ws v) (fw_fs v))
    | (Err e, b) => (SErr e, mk_fw b (fw_out v) (fw_ws v) (fw_fs v))
    | (_, b) => (SErr (OtherError "panic"), mk_fw b (fw_out v) (fw_ws v) (fw_fs v))
    end = (SNotReady, w') -> False).
  { intros v v'. destruct (codec_encode server d k extra (fw_buf v)) as [[| | |] b]; discriminate. }
  destruct (BACKPRESSURE <=? llen (bm_data (fw_buf w))); [|destruct (HE _ _ H)].
  destruct (poll_complete w) as [r1 w1] eqn:EP. apply poll_complete_shape in EP as (A1 & A2 & A3 & A4).
  destruct r1 as [| |e]; [| |discriminate H].
  - destruct (N.leb_spec BACKPRESSURE (llen (bm_data (fw_buf w1)))) as [HL|HL]; [|destruct (HE _ _ H)].
    rewrite (A2 eq_refl) in HL. unfold llen, BACKPRESSURE in HL. cbn in HL. lia.
  - destruct (BACKPRESSURE <=? llen (bm_data (fw_buf w1))); [|destruct (HE _ _ H)].
    injection H as <-. unfold room. apply A3. reflexivity.
Qed.
Lemma send_fully_ends : forall n server m k extra w, (room w < n)%nat -> fst (send_fully n server m k extra w) <> SNotReady.
Proof.
  induction n as [|n IH]; intros server m k extra w Hn; [lia|]. cbn [send_fully].
  destruct (start_send server (owned_ops m) k extra w) as [r w1] eqn:E. pose proof (start_send_waits _ _ _ _ _ _ _ E) as HW.
  destruct r as [| |e].
  - pose proof (flush_all_shape (S (length (fw_ws w1) + length (fw_fs w1))) w1 ltac:(lia)) as H.
    destruct (flush_all _ w1) as [r w']. apply H.
  - apply IH. specialize (HW eq_refl). lia.
  - discriminate.
Qed.
Lemma acase_ends : forall fuel ks extra f s w, (weight s f < fuel)%nat -> fr_inv mc_decode f ->
  fst (acase_loop fuel ks extra f s w) = TReady \/ exists e, fst (acase_loop fuel ks extra f s w) = TErr e.
Proof.
  induction fuel as [|fuel IH]; intros ks extra f s w HW HI; [lia|]. cbn [acase_loop].
  pose proof (next_run_spec (next_fuel s) s f HI ltac:(unfold next_fuel; lia)) as HP.
  destruct (next_run (next_fuel s) s f) as [[p f'] s'].
  assert (HS : forall m k, fst (client_sends m k extra w) <> SNotReady).
  { intros m k. apply send_fully_ends. unfold room. lia. }
  destruct p as [m| | |x| |]; try contradiction.
  - destruct HP as (I' & _ & HM). destruct m as [d|d|c|d|d].
    + specialize (HS (OText d) (ks O)). destruct (client_sends (OText d) (ks O) extra w) as [[| |e] w']; [apply IH; [lia|exact I']|destruct (HS eq_refl)|right; exists e; reflexivity].
    + specialize (HS (OBinary d) (ks O)). destruct (client_sends (OBinary d) (ks O) extra w) as [[| |e] w']; [apply IH; [lia|exact I']|destruct (HS eq_refl)|right; exists e; reflexivity].
    + specialize (HS (OClose None) (ks O)). destruct (client_sends (OClose None) (ks O) extra w) as [[| |e] w']; [left; reflexivity|destruct (HS eq_refl)|right; exists e; reflexivity].
    + specialize (HS (OPong d) (ks O)). destruct (client_sends (OPong d) (ks O) extra w) as [[| |e] w']; [apply IH; [lia|exact I']|destruct (HS eq_refl)|right; exists e; reflexivity].
    + apply IH; [lia|exact I'].
  - left. reflexivity.
  - specialize (HS (OClose None) (ks O)). destruct (client_sends (OClose None) (ks O) extra w) as [[| |e] w']; [left; reflexivity|destruct (HS eq_refl)|right; exists e; reflexivity].
Qed.

(** [C78] A test case of the asynchronous client: the messages up to the first Close are answered
    as above, and every answer has been flushed when the next message is asked for - so none is
    lost if reading fails then (the asynchronous echo server loses them, C69).  A Close is
    written after a Close and after an error, but not if the stream just ends. *)
Lemma async_case_echoed_proof : forall W extra n a ks, amade a -> afails_never (ac_out a) -> W (case_url n) = AConnected a ks ->
  exists ms rest e w', run_messages (fr_st (ac_read a)) (fr_buf (ac_read a)) (ac_in a) = (ms ++ rest, e) /\
    Forall (fun m => ~ closing m) ms /\ (rest = [] \/ exists c more, rest = OClose c :: more) /\
    arun_case W extra n = (Returned, (case_url n, Some w')) /\ bm_data (fw_buf w') = [] /\
    octets (fw_out w') = octets (fw_out (ac_out a)) ++ client_says (with_keys ks (flat_map echo ms ++
      match rest, e with [], PEnd => [] | _, _ => [OClose None] end)).
Proof.
  intros W extra n a ks Ha HF E. destruct (amade_inv a Ha) as (df & msg & buf & HR & HB).
  destruct (run_messages (fr_st (ac_read a)) (fr_buf (ac_read a)) (ac_in a)) as [l e] eqn:EM.
  destruct (up_to_close l) as (ms & rest & -> & HN & Hrest).
  assert (HS : Forall (sendable (2 ^ 34)) (ms ++ rest)).
  { pose proof (received_sendable CtxClient df msg buf (ac_in a)) as H. rewrite HR in EM. cbn [framed_new fr_st fr_buf] in EM. rewrite EM in H. exact H. }
  apply Forall_app in HS as [HS _].
  destruct (acase_run (acase_fuel (ac_read a) (ac_in a)) ks extra (ac_read a) (ac_in a) (ac_out a) ms rest e) as (w' & A & B & C); auto.
  { unfold acase_fuel, weight. lia. }
  { rewrite HR. apply fr_inv_new_mc. }
  { rewrite <- run_messages_cdrain. exact EM. }
  exists ms, rest, e, w'. split; [reflexivity|]. split; [exact HN|]. split; [exact Hrest|]. split; [|auto].
  unfold arun_case. rewrite E, A. reflexivity.
Qed.

Lemma acount : forall W a ks, amade a -> W count_url = AConnected a ks ->
  aget_case_count W = (match fst (run_messages (fr_st (ac_read a)) (fr_buf (ac_read a)) (ac_in a)) with
    | OText t :: _ => parse_usize t | _ => None end, [(count_url, Some (ac_out a))]).
Proof.
  intros W a ks Ha E. destruct (amade_inv a Ha) as (df & msg & buf & HR & HB).
  unfold aget_case_count. rewrite E. rewrite run_messages_cdrain.
  pose proof (next_run_spec (next_fuel (ac_in a)) (ac_in a) (ac_read a) ltac:(rewrite HR; apply fr_inv_new_mc) ltac:(unfold next_fuel; lia)) as HP.
  destruct (next_run _ _ _) as [[p f'] s']. destruct p as [m| | |x| |]; try contradiction.
  - destruct HP as (_ & -> & _). destruct (cdrain _ s' _ _) as [l e]. cbn [fst]. destruct m; reflexivity.
  - rewrite HP. reflexivity.
  - rewrite HP. reflexivity.
Qed.
(** [C78] How many cases there are, asynchronously: the first message has to be a text with a
    number in it; anything else - even a ping before it - makes the client panic, as does a
    failed connection. *)
Lemma async_count_heard_proof : forall W a ks, amade a -> W count_url = AConnected a ks ->
  exists o, aget_case_count W = (o, [(count_url, Some (ac_out a))]) /\
    (forall n, o = Some n <-> exists t l e, names_number t n /\
       run_messages (fr_st (ac_read a)) (fr_buf (ac_read a)) (ac_in a) = (OText t :: l, e)) /\
    (o = None -> forall extra, async_autobahn_client W extra = (Panicked, [(count_url, Some (ac_out a))])).
Proof.
  intros W a ks Ha E. rewrite (acount W a ks Ha E). eexists. split; [reflexivity|]. split.
  - intros n. destruct (run_messages _ _ _) as [[|m l] e]; cbn [fst].
    + split; [discriminate|]. intros (t & l & e' & _ & H). discriminate H.
    + destruct m as [t|d|c|d|d]; try (split; [discriminate|]; intros (t & l' & e' & _ & H); discriminate H).
      rewrite parse_usize_iff. split; [eauto 6|]. intros (t' & l' & e' & H1 & H). injection H as -> _ _. exact H1.
  - intros Ho extra. unfold async_autobahn_client. rewrite (acount W a ks Ha E), Ho. reflexivity.
Qed.

Lemma acases_run : forall W extra k n, (forall i a ks, W (case_url i) = AConnected a ks -> amade a) ->
  exists vs, arun_cases k W extra n = (Returned, vs) /\ map fst vs = map case_url (upto n k).
Proof.
  intros W extra k. induction k as [|k IH]; intros n HA; cbn [arun_cases upto]; [exists []; auto|].
  assert (exists v, arun_case W extra n = (Returned, v) /\ fst v = case_url n) as (v & E & Ev).
  { unfold arun_case. destruct (W (case_url n)) as [a ks|] eqn:EW; [|eexists; split; reflexivity].
    destruct (amade_inv a (HA _ _ _ EW)) as (df & msg & buf & HR & HB).
    pose proof (acase_ends (acase_fuel (ac_read a) (ac_in a)) ks extra (ac_read a) (ac_in a) (ac_out a)
      ltac:(unfold acase_fuel, weight; lia) ltac:(rewrite HR; apply fr_inv_new_mc)) as H.
    destruct (acase_loop _ _ _ _ _ _) as [r w]. cbn [fst] in H. destruct H as [->|[e ->]]; eexists; split; reflexivity. }
  destruct (IH (n + 1) HA) as (vs & A & B). rewrite E, A. eexists. split; [reflexivity|]. cbn [map]. rewrite Ev. f_equal. exact B.
Qed.

(** [C78] The whole suite, asynchronously: when the first message from the server is the number
    [n], the client dials the cases from 1 to [n] in order and then the reports, whatever
    becomes of the cases - those that cannot be connected to, or fail, are skipped.  Only for the
    reports the connection has to be made and the Close sent: it panics otherwise. *)
Lemma async_suite_runs_proof : forall W extra a0 ks0 t l e n,
  amade a0 -> W count_url = AConnected a0 ks0 ->
  run_messages (fr_st (ac_read a0)) (fr_buf (ac_read a0)) (ac_in a0) = (OText t :: l, e) -> names_number t n -> n < 2 ^ 64 - 1 ->
  (forall i a ks, W (case_url i) = AConnected a ks -> amade a) ->
  exists r vs, async_autobahn_client W extra = (r, vs) /\
    map fst vs = count_url :: map case_url (upto 1 (N.to_nat n)) ++ [reports_url] /\
    (W reports_url = ANotConnected -> r = Panicked) /\
    (forall a ks, W reports_url = AConnected a ks -> amade a -> afails_never (ac_out a) ->
       r = Returned /\ exists vs' w', vs = vs' ++ [(reports_url, Some w')] /\ bm_data (fw_buf w') = [] /\
         octets (fw_out w') = octets (fw_out (ac_out a)) ++ client_says [(OClose None, ks O)]).
Proof.
  intros W extra a0 ks0 t l e n H0 E0 EM Hn Hlt HA. apply parse_usize_iff in Hn.
  pose proof (acount W a0 ks0 H0 E0) as HC. rewrite EM in HC. cbn [fst] in HC. rewrite Hn in HC.
  destruct (acases_run W extra (N.to_nat n) 1 HA) as (vs & A & B).
  unfold async_autobahn_client. rewrite HC. destruct (N.eqb_spec n (2 ^ 64 - 1)) as [Hx|_]; [lia|]. rewrite A.
  destruct (aupdate_reports W extra) as [r v'] eqn:EU. eexists _, _. split; [reflexivity|].
  assert (HV : map fst v' = [reports_url]).
  { unfold aupdate_reports in EU. destruct (W reports_url) as [a ks|]; [|injection EU as _ <-; reflexivity].
    destruct (client_sends _ _ _ _) as [[| |x] w]; injection EU as _ <-; reflexivity. }
  split; [|split].
  - cbn [app map fst]. f_equal. rewrite map_app. f_equal; [exact B|exact HV].
  - intros E. unfold aupdate_reports in EU. rewrite E in EU. injection EU as <- _. reflexivity.
  - intros a ks E Ha HF. destruct (amade_inv a Ha) as (df & msg & buf & _ & HB).
    destruct (client_sends_ok (OClose None) (ks O) extra (ac_out a) HF close_sendable HB) as (w' & C1 & C2 & C3 & C4).
    unfold aupdate_reports in EU. rewrite E, C1 in EU. injection EU as <- <-. split; [reflexivity|].
    exists ((count_url, Some (ac_out a0)) :: vs), w'. split; [reflexivity|]. auto.
Qed.

(*EX
Definition adialled (s : list aev) : aattempt :=
  match async_connect_on httparse_lib (ascii "the sample nonce") (builder_init a_url) 0
      (apush_back a_head s) (mk_fw (mk_bm [] 0) [] [AwAccept 5; AwNotReady] [AfReady; AfNotReady]) with
  | Ok (a, _) => AConnected a (fun _ => mk_key x00 x00 x00 x00)
  | _ => ANotConnected
  end.
(** The first case is a text and then what is not a frame; the second cannot be reached. *)
Definition afuzzer (u : bytes) : aattempt :=
  if beqb u count_url then adialled [ANotReady; AData x81 [x01; x32]; AData x88 [x00]]
  else if beqb u (case_url 1) then adialled [AData x81 [x01; x61; xff]; ANotReady; AData xff []]
  else if beqb u reports_url then adialled []
  else ANotConnected.
Example async_suite_runs_ex :
  (exists a ks, afuzzer (case_url 1) = AConnected a ks /\ amade a /\ afails_never (ac_out a)) /\
  exists vs, async_autobahn_client afuzzer 0 = (Returned, vs) /\
   map fst vs = [count_url; case_url 1; case_url 2; reports_url] /\
   exists w, nth_error vs 1 = Some (case_url 1, Some w) /\ bm_data (fw_buf w) = [] /\
     drop (llen (fw_out w) - 13) (fw_out w) = [x81; x81; x00; x00; x00; x00; x61] ++ [x88; x80; x00; x00; x00; x00].
Proof.
  assert (M : forall s a ks, adialled s = AConnected a ks -> amade a).
  { intros s a ks H. unfold adialled in H.
    match type of H with match async_connect_on ?X ?r ?b ?x ?s ?w with _ => _ end = _ => destruct (async_connect_on X r b x s w) as [[a' h]|e| |] eqn:E end;
      try discriminate H. injection H as <- _. unfold amade. eauto 10. }
  split.
  - eexists _, _. split; [vm_compute; reflexivity|]. split; [eapply (M [AData x81 [x01; x61; xff]; ANotReady; AData xff []]); vm_compute; reflexivity|].
    split; vm_compute; repeat constructor.
  - eexists. split; [vm_compute; reflexivity|]. split; [reflexivity|]. eexists. split; [reflexivity|]. split; vm_compute; reflexivity.
Qed.
EX*)

(** [C78] Refuted: the two clients do not do the same.  A server that sends a ping before the
    number of cases is answered by the blocking client, which then runs the cases; the
    asynchronous one gives up. *)
Lemma async_count_after_ping_refuted_proof : exists bs,
  (forall ks fuel w, never_fails w -> (10 < fuel)%nat -> exists w',
     count_loop fuel ks 0 (mk_reader (receiver_with_limits false 100 100) bs []) (mk_writer (mk_sender true) w)
     = (Returned, 7, mk_writer (mk_sender true) w')) /\
  (forall W w ks, W count_url = AConnected (mk_aclient (framed_new (msg_codec_with_limits CtxClient 100 100) bs) [] w) ks ->
     forall extra, async_autobahn_client W extra = (Panicked, [(count_url, Some w)])).
Proof.
  exists [x89; x00; x81; x01; x37]. split.
  - intros ks fuel w HW Hf.
    destruct (count_run [OPing []; OText [x37]] fuel ks 0 (receiver_with_limits false 100 100) [x89; x00; x81; x01; x37] [] w
      (Err NoDataAvailable) (receiver_with_limits false 100 100) []) as (e & n & w' & A & B & _).
    { cbn [length]. lia. } { vm_compute. reflexivity. }
    { repeat constructor; intros []. }
    { repeat constructor; cbn; try lia. exists [55]. split; [repeat constructor; cbn; lia|reflexivity]. }
    { exact I. } { exact HW. }
    assert (K : counted 0 (texts [OPing []; OText [x37]]) 7).
    { econstructor; [apply parse_usize_iff; reflexivity|constructor]. }
    destruct (B (ex_intro _ _ K)) as (-> & B2 & _). exists w'. rewrite A. do 2 f_equal.
    inversion B2 as [|? k ? ? K1 K2]; subst. inversion K2; subst. apply parse_usize_iff in K1. cbn in K1. congruence.
  - intros W w ks E extra. unfold async_autobahn_client, aget_case_count. rewrite E. reflexivity.
Qed.
