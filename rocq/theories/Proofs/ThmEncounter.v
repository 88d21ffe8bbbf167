(** From the handshake to the programs: C97. *)
From Coq Require Import NArith ZArith String Bool List Lia.
From Coq Require Import ZifyBool ZifyNat ZifyN.
From Coq.Strings Require Import Byte.
From Verif.Model Require Import Base Io Header Mask Dataframe Utf8 Text Headers WsKey Handshake Http
  Message Receiver Codec Framed Connect Examples ChatClient Talk Narrow Errand Dialogue Programs Encounter.
From Verif.Spec Require Import RfcFrame FrameSpec Schedule Unicode Drive Session Fields Builder HttpHead Upgrade Wire Connection Polled Echo Chat Talking AsyncChat Errands Dialogues Queues CutOff Encounters.
From Verif.Proofs Require Import BaseFacts MaskFacts HeaderFacts FrameFacts CodecFacts ScriptFacts SpreadFacts
  Machine Utf8Facts ThmFrames ThmStream SessionFacts RecvFacts MessageFacts
  TextFacts ExTac ThmMessages ThmFlow ThmLimits HttpFacts ThmHttp ThmServer ThmAccepting ThmInterop ThmEcho ThmChat ThmTalk ThmNarrow AsyncTalkFacts ThmCrossed ThmErrand ThmDialogue ThmCutOff ThmPrograms.
Import ListNotations.
Local Open Scope string_scope.
Local Open Scope list_scope.
Local Open Scope nat_scope.

(** ** Scripts that only carry bytes *)
Lemma spread_inl : forall s l, spread s = map inl l -> clean s /\ flat s = l.
Proof.
  induction s as [|e s IH]; intros l H.
  - destruct l; [split; [constructor|reflexivity]|discriminate H].
  - destruct e as [b bs| | |k]; cbn [spread] in H; try (destruct l; discriminate H).
    destruct l as [|x l]; [discriminate H|]. cbn [map] in H. injection H as -> H.
    assert (exists l', l = bs ++ l' /\ spread s = map inl l') as (l' & -> & H').
    { revert l H. induction bs as [|y bs IHb]; intros l H; [exists l; split; [reflexivity|exact H]|]. cbn [map app] in H.
      destruct l as [|z l]; [discriminate H|]. cbn [map] in H. injection H as -> H. destruct (IHb l H) as (l' & -> & E). exists l'. split; [reflexivity|exact E]. }
    destruct (IH l' H') as [A B]. split; [constructor; [exact I|exact A]|]. cbn [flat]. rewrite B. reflexivity.
Qed.
Lemma spread_more : forall s l b bs, spread s = map inl l -> spread (s ++ [RData b bs]) = map inl (l ++ b :: bs).
Proof. intros s l b bs H. rewrite ThmAccepting.spread_app, H, map_app. cbn [spread]. rewrite app_nil_r. reflexivity. Qed.
Lemma put_some : forall cap n q out q' out', put cap n q out = Some (q', out') -> q' ++ out' = q ++ out /\ length q <= length q' /\ (length q <= cap -> length q' <= cap) /\ length out' < length out.
Proof.
  intros cap n q out q' out' H. unfold put in H. cbv zeta in H. set (j := Nat.min n (cap - length q)) in *. pose proof (firstn_skipn j out) as E.
  assert (length (firstn j out) <= cap - length q) as L by (rewrite firstn_length; lia).
  destruct (firstn j out) as [|b now]; [discriminate H|]. injection H as <- <-. rewrite <- app_assoc, E. split; [reflexivity|].
  rewrite app_length. apply (f_equal (@length byte)) in E. rewrite app_length in E. cbn [length] in *. lia.
Qed.
Lemma put_none : forall cap n q out, put cap (S n) q out = None -> out = [] \/ cap <= length q.
Proof.
  intros cap n q out H. unfold put in H. cbv zeta in H. destruct out as [|b out]; [auto|]. destruct (le_lt_dec cap (length q)) as [L|L]; [auto|].
  replace (Nat.min (S n) (cap - length q)) with (S (Nat.min n (cap - length q - 1))) in H by lia. discriminate H.
Qed.
Lemma get_some : forall n q s l s' q', spread s = map inl l -> get n q s = Some (s', q') -> exists l', spread s' = map inl l' /\ l' ++ q' = l ++ q /\ length q' < length q.
Proof.
  intros n q s l s' q' HS H. unfold get in H. pose proof (firstn_skipn n q) as E. destruct (firstn n q) as [|b bs]; [discriminate H|]. injection H as <- <-.
  exists (l ++ b :: bs). split; [apply spread_more; exact HS|]. rewrite <- app_assoc, E. split; [reflexivity|]. apply (f_equal (@length byte)) in E. rewrite app_length in E. cbn [length] in E. lia.
Qed.
Lemma get_none : forall n q s, get (S n) q s = None -> q = [].
Proof. intros n [|b q] s H; [reflexivity|discriminate H]. Qed.

(** ** What the calls of the handshake do *)
Definition gets_ready (u : url) (cs : list call) (o : occasion) (text rtext : bytes) : Prop :=
  text <> [] /\ rtext <> [] /\ asked o = text /\
  (forall s c d, spread s = map inl c -> text = c ++ d -> d <> [] -> s_waits o s = true) /\
  (forall s, spread s = map inl text -> s_waits o s = false /\
     exists buf s2 w, s_returns o s = SAnswers (mk_user [] (mk_reader (default_receiver false) buf s2) (mk_writer (mk_sender false) w) None) rtext /\
       clean s2 /\ buf ++ flat s2 = [] /\ never_fails w) /\
  (forall s c d, spread s = map inl c -> rtext = c ++ d -> d <> [] -> c_waits o s = true) /\
  (forall s p, spread s = map inl (rtext ++ p) -> c_waits o s = false /\
     exists buf s2 w, c_returns o s = CIn (mk_user [] (mk_reader (default_receiver true) buf s2) (mk_writer (mk_sender true) w) None) /\
       clean s2 /\ buf ++ flat s2 = p /\ never_fails w).
Lemma pushed : forall buf s l, spread (push_back buf s) = map inl l -> clean s /\ buf ++ flat s = l.
Proof.
  intros buf s l H. apply spread_inl in H as [A B]. rewrite flat_push_back in B. split; [|exact B]. destruct buf as [|b buf]; [exact A|]. inversion A; assumption.
Qed.
Lemma skipn_len : forall (A : Type) (a b : list A), skipn (length a) (a ++ b) = b.
Proof. intros A. induction a as [|x a IH]; intros b; [reflexivity|apply IH]. Qed.
Lemma handshake_ready : forall u cs o, auspicious u cs o -> exists text rtext, gets_ready u cs o text rtext.
Proof.
  intros u cs [X rnd b w1 h0 custom w2] (HS & HR & HC & HM & HU & HA & N1 & N2 & text & h & rtext & HT & L1 & HX & [HL HN] & L2).
  cbn [o_lib o_rnd o_builder o_wire1 o_chosen o_custom o_wire2] in *.
  destruct (configured_head X u cs rnd b text HS HC HT) as (H1 & H2 & _).
  destruct (request_good_proof X u cs rnd b HC) as [H3 _]. apply server_validate_iff_proof in H3.
  pose proof (response_good X u cs rnd b custom h0 h rtext Http11 (ascii "Switching Protocols") HC HU HA HX) as HG.
  pose proof HX as [HP HPR].
  pose proof (response_as_read_proof X Http11 h rtext (proj2 (proj2 HS)) HL (or_intror eq_refl) HPR) as HH.
  assert (length (read_back (fields h)) <= 100) as HN' by (unfold read_back; rewrite map_length; exact HN).
  destruct (write_never_fails (w_script w1) (w_out w1) text N1) as (t1 & EW1 & NW1).
  destruct (write_never_fails (w_script w2) (w_out w2) rtext N2) as (t2 & EW2 & NW2).
  pose proof (print_request_any _ client_error _ _ HT) as HT'.
  assert (text <> []) as NT. { destruct H1 as (a & vt & e & ls & _ & HMn & _ & _ & _ & _ & _ & ->). intros E. apply app_eq_nil in E as [_ E]. apply app_eq_nil in E as [_ E]. discriminate E. }
  assert (rtext <> []) as NR. { destruct HH as (a & vt & ct & rt & ls & _ & _ & _ & _ & _ & ->). intros E. apply app_eq_nil in E as [_ E]. apply app_eq_nil in E as [_ E]. discriminate E. }
  exists text, rtext. split; [exact NT|]. split; [exact NR|].
  cbn [o_lib o_rnd o_builder o_wire1 o_chosen o_custom o_wire2].
  assert (forall s c d, spread s = map inl c -> rtext = c ++ d -> d <> [] ->
    exists w', connect_on X rnd b s w1 = (Err (CParsing (PEIo UnexpectedEof)), build_request rnd b, w') /\ w_out w' = w_out w1 ++ text) as CW.
  { intros s c d E E2 ND. subst rtext. apply (response_cut_off_proof X rnd b _ _ _ _ c d [] UnexpectedEof s w1 text (proj1 HS) HR HH HN' ND); auto.
    - rewrite llen_app in L2. assert (0 < llen d)%N by (destruct d; [contradiction ND; reflexivity|rewrite llen_cons; lia]). lia.
    - unfold first_come. rewrite app_nil_r. exact E. }
  split.
  { unfold asked. cbn [o_lib o_rnd o_builder o_wire1]. destruct (CW [] [] rtext eq_refl eq_refl NR) as (w' & -> & E). cbn [snd]. rewrite E. apply skipn_len. }
  split.
  { intros s c d E E2 ND. subst text. unfold s_waits. cbn [o_lib o_wire2].
    destruct (request_cut_off_proof X _ _ _ _ c d [] UnexpectedEof s w2 (proj1 HS) HR H1 H2) as (s2 & ->); auto.
    - apply HC.
    - rewrite llen_app in L1. assert (0 < llen d)%N by (destruct d; [contradiction ND; reflexivity|rewrite llen_cons; lia]). lia.
    - unfold first_come. rewrite app_nil_r. exact E. }
  split.
  { intros s E. destruct (server_got X u cs rnd b text s w2 [] HS HR HC HT L1) as (rest & s2 & EI & ES).
    { unfold first_come. rewrite app_nil_r. exact E. }
    unfold s_waits, s_returns. cbn [o_lib o_wire2 o_custom o_chosen]. rewrite EI. split; [reflexivity|].
    unfold internal_accept. cbn [up_headers up_request up_buffer up_in up_out rq_headers rq_version].
    rewrite (prepare_any _ _ _ _ _ _ HP). cbn [rbind]. rewrite (print_response_any _ _ _ _ _ _ HPR). cbn [rbind].
    unfold write_all. rewrite EW2. destruct (pushed _ _ [] ES) as [C1 C2]. exists rest, s2, (mk_w (w_out w2 ++ rtext) t2).
    split; [|split; [exact C1|split; [exact C2|exact NW2]]]. unfold unchecked_with_limits, as_user. cbn [c_receiver c_buf c_in c_sender c_out w_out]. rewrite skipn_len. reflexivity. }
  split.
  { intros s c d E E2 ND. unfold c_waits. cbn [o_lib o_rnd o_builder o_wire1]. destruct (CW s c d E E2 ND) as (w' & -> & _). reflexivity. }
  intros s p E. destruct (sync_response_read_proof X _ _ _ _ rtext (map inl p) s (proj1 HS) HR HH HN' L2) as (rest & s2 & EP & ES).
  { unfold first_come. rewrite <- map_app. exact E. }
  unfold c_waits, c_returns. cbn [o_lib o_rnd o_builder o_wire1]. unfold connect_on. rewrite HT'. unfold write_all. rewrite EW1, EP, HG. split; [reflexivity|].
  destruct (pushed _ _ _ ES) as [C1 C2]. exists rest, s2, (mk_w (w_out w1 ++ text) t1).
  split; [|split; [exact C1|split; [exact C2|exact NW1]]]. unfold unchecked_with_limits, as_user. cbn [c_receiver c_buf c_in c_sender c_out].
  change (b_max_df (build_request rnd b)) with (b_max_df b). rewrite HM. reflexivity.
Qed.

(** ** Where they are *)
Definition newcomer : user := mk_user [] (mk_reader (default_receiver true) [] []) (mk_writer (mk_sender true) (mk_w [] [])) None.
Definition waiter (y : user) : Prop := exists buf s w,
  y = mk_user [] (mk_reader (default_receiver false) buf s) (mk_writer (mk_sender false) w) None /\ clean s /\ buf ++ flat s = [] /\ never_fails w.
Inductive enc_inv (text rtext : bytes) (cap : nat) : encounter -> queues -> Prop :=
| inv_ask : forall s l u out, spread s = map inl l -> l ++ u ++ out = text -> length u <= cap ->
    enc_inv text rtext cap (mk_encounter (c_asks out) (SAwaits s) u []) queues_new
| inv_answer : forall s l y d out, spread s = map inl l -> l ++ d ++ out = rtext -> out <> [] -> length d <= cap -> waiter y ->
    enc_inv text rtext cap (mk_encounter (CAwaits s) (SAnswers y out) [] d) queues_new
| inv_late : forall s l y d K post qs, spread s = map inl l -> l ++ d = rtext ++ post -> length d <= cap -> cap <= K ->
    link_inv K (mk_link newcomer y [] post) qs ->
    enc_inv text rtext cap (mk_encounter (CAwaits s) (SIn y) [] d) qs
| inv_in : forall x y u d qs, link_inv cap (mk_link x y u d) qs ->
    enc_inv text rtext cap (mk_encounter (CIn x) (SIn y) u d) qs.

Lemma way_more : forall cap K c x y net on, cap <= K -> way cap c x y net on -> way K c x y net on.
Proof. intros cap K c x y net on H (w & A & B & C & D). exists w. split; [exact A|]. split; [exact B|]. split; [exact C|lia]. Qed.
Lemma link_inv_more : forall cap K t qs, cap <= K -> link_inv cap t qs -> link_inv K t qs.
Proof. intros cap K t qs H (A & B & ux & uy & C & D & E). split; [exact A|]. split; [exact B|]. exists ux, uy. split; [exact (way_more _ _ _ _ _ _ _ H C)|]. split; [exact (way_more _ _ _ _ _ _ _ H D)|exact E]. Qed.
Lemma link_inv_first : forall K y, waiter y -> link_inv K (mk_link newcomer y [] []) queues_new.
Proof.
  intros K y (buf & s & w & -> & C & E & N). split; [reflexivity|]. split; [reflexivity|]. exists [], []. split; [|split; [|split; reflexivity]].
  - exists (mk_w [] []). cbn [l_client l_server l_up l_down newcomer u_reader u_write u_writer rest1 writer1 app]. split; [|split; [split; [reflexivity|constructor]|split; [intros X; contradiction X; reflexivity|cbn [length]; lia]]].
    split; [reflexivity|]. split; [exact C|]. split; [rewrite app_nil_r; exact E|constructor].
  - exists w. cbn [l_client l_server l_up l_down newcomer u_reader u_write u_writer rest1 writer1 app]. split; [|split; [split; [reflexivity|exact N]|split; [intros X; contradiction X; reflexivity|cbn [length]; lia]]].
    split; [reflexivity|]. split; [constructor|]. split; [reflexivity|constructor].
Qed.
Lemma turn_nothing : forall K f x y u d qs k y' w, minds f -> link_inv K (mk_link x y u d) qs -> user_turn f k u y = Some (y', w) -> w = [].
Proof.
  intros K f x y u d qs k y' w M (_ & _ & ux & uy & A & B & _) H. cbn [l_client l_server l_up l_down] in *.
  destruct (u_turn_step K false _ _ _ _ _ _ _ _ _ _ M B A H) as (-> & _). reflexivity.
Qed.
Lemma send_other : forall cap n q y y' q', user_send cap n q y = Some (y', q') -> length q <= cap ->
  exists now, q' = q ++ now /\ length q' <= cap /\ forall K q0, length q0 + length now <= K -> user_send K (length now) q0 y = Some (y', q0 ++ now).
Proof.
  intros cap n q y y' q' H HL. unfold user_send in *. destruct (u_write y) as [[w out]|]; [|discriminate H]. set (j := Nat.min n (cap - length q)) in *.
  assert (length (firstn j out) <= cap - length q) as HF by (rewrite firstn_length; lia).
  assert (firstn (length (firstn j out)) out = firstn j out /\ skipn (length (firstn j out)) out = skipn j out) as [E1 E2].
  { rewrite firstn_length. destruct (le_lt_dec j (length out)) as [L|L]; [rewrite Nat.min_l by lia; auto|]. rewrite Nat.min_r, !firstn_all2, !skipn_all2 by lia. auto. }
  destruct (firstn j out) as [|b now] eqn:EF; [discriminate H|]. injection H as <- <-. exists (b :: now). split; [reflexivity|]. split; [rewrite app_length; lia|].
  intros K q0 HK. replace (Nat.min (length (b :: now)) (K - length q0)) with (length (b :: now)) by lia. cbv zeta. rewrite E1, E2. reflexivity.
Qed.
Lemma read_nothing : forall f n y, user_read f n [] y = None.
Proof.
  intros f n y. unfold user_read. destruct (u_write y); [reflexivity|]. destruct (f (u_past y)) as [[|]|]; [reflexivity| |reflexivity].
  destruct (lacks (u_reader y)); [|reflexivity]. unfold arrive. rewrite firstn_nil. reflexivity.
Qed.
Lemma c_asks_in : forall out x, c_asks out <> CIn x. Proof. intros [|b out] x; discriminate. Qed.

Lemma enc_inv_step : forall uu cs o text rtext f1 f2 cap a t t' qs, gets_ready uu cs o text rtext -> minds f1 -> minds f2 ->
  enc_inv text rtext cap t qs -> encounter_step o f1 f2 cap a t = Some t' ->
  exists turns, enc_inv text rtext cap t' (queue_run f1 f2 turns qs).
Proof.
  intros uu cs o text rtext f1 f2 cap a t t' qs (NT & NR & EA & SW & SR & CW & CR) M1 M2 HI E.
  destruct HI as [s l u out HS HT HU|s l y d out HS HT NO HD HY|s l y d K post qs HS HT HD HK HL|x y u d qs HL].
  - destruct a as [[] k|[] n|[] n]; cbn [encounter_step] in E.
    + unfold c_asks in E. destruct out as [|b out]; [|discriminate E]. rewrite (CW [] [] rtext) in E by auto. discriminate E.
    + destruct (u ++ out) as [|b r] eqn:EU.
      * apply app_eq_nil in EU as [-> ->]. rewrite app_nil_r in HT. subst l. destruct (SR s HS) as (EW & buf & s2 & w & ER & C1 & C2 & C3). rewrite EW, ER in E. injection E as <-.
        exists []. cbn [c_asks queue_run]. apply (inv_answer _ _ _ [] []); [reflexivity|reflexivity|exact NR|cbn [length]; lia|]. exists buf, s2, w. auto.
      * rewrite (SW s l (b :: r)) in E; [discriminate E|exact HS|auto|discriminate].
    + unfold c_asks in E. destruct out as [|b out]; [discriminate E|]. destruct (put cap n u (b :: out)) as [[u' out']|] eqn:EP; [|discriminate E]. injection E as <-.
      destruct (put_some _ _ _ _ _ _ EP) as (P1 & _ & P2 & _). exists []. cbn [queue_run]. apply (inv_ask _ _ _ s l); [exact HS|rewrite P1; exact HT|auto].
    + discriminate E.
    + unfold c_asks in E. destruct out as [|b out]; [|discriminate E]. destruct (c_waits o []); [|discriminate E]. unfold get in E. rewrite firstn_nil in E. discriminate E.
    + destruct (s_waits o s); [|discriminate E]. destruct (get n u s) as [[s' u']|] eqn:EG; [|discriminate E]. injection E as <-.
      destruct (get_some _ _ _ _ _ _ HS EG) as (l' & G1 & G2 & G3). exists []. cbn [queue_run]. apply (inv_ask _ _ _ s' l'); [exact G1|rewrite app_assoc, G2, <- app_assoc; exact HT|lia].
  - destruct a as [[] k|[] n|[] n]; cbn [encounter_step] in E; try discriminate E.
    + rewrite (CW s l (d ++ out)) in E; [discriminate E|exact HS|auto|]. intros X. apply app_eq_nil in X as [_ X]. contradiction.
    + destruct (put cap n d out) as [[d' out']|] eqn:EP; [|discriminate E]. injection E as <-. destruct (put_some _ _ _ _ _ _ EP) as (P1 & _ & P2 & _). exists []. cbn [queue_run]. destruct out' as [|b out'].
      * apply (inv_late _ _ _ s l y d' cap []); auto; [rewrite app_nil_r in P1; rewrite P1, app_nil_r; exact HT|]. apply link_inv_first. exact HY.
      * apply (inv_answer _ _ _ s l); auto; [rewrite P1; exact HT|discriminate].
    + destruct (c_waits o s); [|discriminate E]. destruct (get n d s) as [[s' d']|] eqn:EG; [|discriminate E]. injection E as <-.
      destruct (get_some _ _ _ _ _ _ HS EG) as (l' & G1 & G2 & G3). exists []. cbn [queue_run]. apply (inv_answer _ _ _ s' l'); auto; [rewrite app_assoc, G2, <- app_assoc; exact HT|lia].
  - destruct a as [[] k|[] n|[] n]; cbn [encounter_step] in E; try discriminate E.
    + apply app_eq_app in HT as (z & [[E1 E2]|[E1 E2]]).
      * subst l. destruct (CR s z HS) as (EW & buf & s2 & w & ER & C1 & C2 & C3). rewrite EW, ER in E. injection E as <-. exists []. cbn [queue_run]. apply inv_in.
        destruct HL as (P1 & P2 & ux & uy & (w1 & W1 & _ & _ & W2) & (w2 & V1 & V2 & V3 & V4) & Q1 & Q2). cbn [l_client l_server l_up l_down newcomer u_past u_reader u_write u_writer rest1 writer1] in *.
        split; [exact P1|]. split; [exact P2|]. exists ux, uy. cbn [l_client l_server l_up l_down]. split; [|split; [|split; [exact Q1|exact Q2]]].
        -- exists w. cbn [u_reader u_write u_writer rest1 writer1]. split; [exact W1|]. split; [auto|]. split; [intros X; contradiction X; reflexivity|cbn [length]; lia].
        -- exists w2. cbn [u_reader]. split; [|split; [exact V2|split; [exact V3|exact HD]]]. destruct V1 as (_ & _ & V5 & V6). cbn [rd_receiver rd_buf rd_in flat app] in *.
           split; [reflexivity|]. split; [exact C1|]. split; [|exact V6]. cbn [rd_buf rd_in]. rewrite C2, app_assoc, <- E2. exact V5.
      * destruct z as [|b z].
        -- rewrite app_nil_r in E1. rewrite app_nil_l in E2. subst d.
           assert (spread s = map inl (rtext ++ [])) as HS' by (rewrite app_nil_r, E1; exact HS).
           destruct (CR s [] HS') as (EW & buf & s2 & w & ER & C1 & C2 & C3). rewrite EW, ER in E. injection E as <-. exists []. cbn [queue_run]. apply inv_in.
           destruct HL as (P1 & P2 & ux & uy & (w1 & W1 & _ & _ & W2) & (w2 & V1 & V2 & V3 & V4) & Q1 & Q2). cbn [l_client l_server l_up l_down newcomer u_past u_reader u_write u_writer rest1 writer1] in *.
           split; [exact P1|]. split; [exact P2|]. exists ux, uy. cbn [l_client l_server l_up l_down]. split; [|split; [|split; [exact Q1|exact Q2]]].
           ++ exists w. cbn [u_reader u_write u_writer rest1 writer1]. split; [exact W1|]. split; [auto|]. split; [intros X; contradiction X; reflexivity|cbn [length]; lia].
           ++ exists w2. cbn [u_reader]. split; [|split; [exact V2|split; [exact V3|exact HD]]]. destruct V1 as (_ & _ & V5 & V6). cbn [rd_receiver rd_buf rd_in flat app] in *.
              split; [reflexivity|]. split; [exact C1|]. split; [|exact V6]. cbn [rd_buf rd_in]. rewrite C2. exact V5.
        -- rewrite (CW s l (b :: z)) in E; [discriminate E|exact HS|exact E1|discriminate].
    + destruct (user_turn f2 k [] y) as [[y' w]|] eqn:EU; [|discriminate E]. injection E as <-. pose proof (turn_nothing _ _ _ _ _ _ _ _ _ _ M2 HL EU) as ->.
      assert (link_step f1 f2 K (DTurn false k) (mk_link newcomer y [] post) = Some (mk_link newcomer y' [] (post ++ []))) as EL by (cbn [link_step]; rewrite EU; reflexivity).
      destruct (link_inv_step _ _ _ _ _ _ _ M1 M2 HL EL) as [turns HL']. exists turns. rewrite app_nil_r in *. apply (inv_late _ _ _ s l y' d K post); auto.
    + destruct (user_send cap n d y) as [[y' d']|] eqn:EU; [|discriminate E]. injection E as <-. destruct (send_other _ _ _ _ _ _ EU HD) as (now & -> & HD' & HS').
      set (K' := K + length post + length now). assert (K <= K') as LK by lia. apply (link_inv_more _ K') in HL; [|exact LK].
      assert (link_step f1 f2 K' (DSend false (length now)) (mk_link newcomer y [] post) = Some (mk_link newcomer y' [] (post ++ now))) as EL by (cbn [link_step]; rewrite (HS' K' post) by lia; reflexivity).
      destruct (link_inv_step _ _ _ _ _ _ _ M1 M2 HL EL) as [turns HL']. exists turns. apply (inv_late _ _ _ s l y' (d ++ now) K' (post ++ now)); auto; [rewrite !app_assoc; f_equal; exact HT|lia].
    + destruct (c_waits o s); [|discriminate E]. destruct (get n d s) as [[s' d']|] eqn:EG; [|discriminate E]. injection E as <-.
      destruct (get_some _ _ _ _ _ _ HS EG) as (l' & G1 & G2 & G3). exists []. cbn [queue_run]. apply (inv_late _ _ _ s' l' y d' K post); auto; [congruence|lia].
    + rewrite read_nothing in E. discriminate E.
  - assert (exists x' y' u' d', t' = mk_encounter (CIn x') (SIn y') u' d' /\ link_step f1 f2 cap a (mk_link x y u d) = Some (mk_link x' y' u' d')) as (x' & y' & u' & d' & -> & EL).
    { destruct a as [[] k|[] n|[] n]; cbn [encounter_step link_step] in *;
      match type of E with match ?X with _ => _ end = _ => destruct X as [[? ?]|]; [|discriminate E] end; injection E as <-; do 4 eexists; split; reflexivity. }
    destruct (link_inv_step _ _ _ _ _ _ _ M1 M2 HL EL) as [turns HL']. exists turns. apply inv_in. exact HL'.
Qed.
Lemma enc_inv_run : forall uu cs o text rtext f1 f2 cap acts t qs, gets_ready uu cs o text rtext -> minds f1 -> minds f2 ->
  enc_inv text rtext cap t qs -> exists turns, enc_inv text rtext cap (encounter_run o f1 f2 cap acts t) (queue_run f1 f2 turns qs).
Proof.
  intros uu cs o text rtext f1 f2 cap. induction acts as [|a acts IH]; intros t qs HG M1 M2 H; [exists []; exact H|]. cbn [encounter_run]. destruct (encounter_step o f1 f2 cap a t) as [t'|] eqn:E; [|auto].
  destruct (enc_inv_step _ _ _ _ _ _ _ _ _ _ _ _ HG M1 M2 H E) as [turns H']. destruct (IH _ _ HG M1 M2 H') as [turns' H'']. exists (turns ++ turns'). rewrite queue_run_app. exact H''.
Qed.
Lemma enc_inv_new : forall uu cs o text rtext cap, gets_ready uu cs o text rtext -> enc_inv text rtext cap (encounter_new o) queues_new.
Proof.
  intros uu cs o text rtext cap (_ & _ & <- & _). unfold encounter_new. apply (inv_ask _ _ _ [] []); [reflexivity|reflexivity|cbn [length]; lia].
Qed.
Lemma enc_inv_says : forall text rtext cap t qs, enc_inv text rtext cap t qs ->
  on_course t /\ past1 t = q_past1 qs /\ past2 t = q_past2 qs /\ length (n_up t) <= cap /\ length (n_down t) <= cap.
Proof.
  intros text rtext cap t qs H. unfold on_course. destruct H as [s l u out HS HT HU|s l y d out HS HT NO HD HY|s l y d K post qs HS HT HD HK HL|x y u d qs HL]; cbn [n_client n_server n_up n_down past1 past2 length].
  - unfold past1. cbn [n_client n_server]. unfold c_asks. destruct out; repeat split; try discriminate; try lia; auto.
  - repeat split; try discriminate; try lia; auto.
  - destruct HL as (P1 & P2 & _). repeat split; try discriminate; try lia; auto.
  - destruct HL as (P1 & P2 & ux & uy & (w1 & _ & _ & _ & B1) & (w2 & _ & _ & _ & B2) & _). repeat split; try discriminate; auto.
Qed.

(** ** At rest *)
Lemma rests_made : forall uu cs o text rtext f1 f2 cap t qs, gets_ready uu cs o text rtext -> 1 <= cap ->
  enc_inv text rtext cap t qs -> encounter_rests o f1 f2 cap t ->
  exists x y, n_client t = CIn x /\ n_server t = SIn y /\
    link_inv cap (mk_link x y (n_up t) (n_down t)) qs /\ link_rests f1 f2 cap (mk_link x y (n_up t) (n_down t)).
Proof.
  intros uu cs o text rtext f1 f2 cap t qs (NT & NR & EA & SW & SR & CW & CR) Hcap HI HR. set (k := mk_key x00 x00 x00 x00).
  pose proof (HR (DTurn true k)) as R1. pose proof (HR (DTurn false k)) as R2. pose proof (HR (DSend true 1)) as R3. pose proof (HR (DSend false 1)) as R4. pose proof (HR (DRead true 1)) as R5. pose proof (HR (DRead false 1)) as R6.
  destruct HI as [s l u out HS HT HU|s l y d out HS HT NO HD HY|s l y d K post qs HS HT HD HK HL|x y u d qs HL].
  - exfalso. cbn [encounter_step] in *. destruct (u ++ out) as [|b r] eqn:EU.
    + rewrite app_nil_r in HT. subst l. destruct (SR s HS) as (EW & _). rewrite EW in R2. discriminate R2.
    + assert (s_waits o s = true) as EW by (apply (SW s l (b :: r)); [exact HS|auto|discriminate]). rewrite EW in R6.
      destruct (get 1 u s) as [[? ?]|] eqn:EG; [discriminate R6|]. apply get_none in EG. subst u. destruct out as [|b0 out]; [discriminate EU|]. cbn [c_asks] in R3.
      destruct (put cap 1 [] (b0 :: out)) as [[? ?]|] eqn:EP; [discriminate R3|]. apply put_none in EP as [EP|EP]; [discriminate EP|cbn [length] in EP; lia].
  - exfalso. cbn [encounter_step] in *. assert (c_waits o s = true) as EW by (apply (CW s l (d ++ out)); [exact HS|auto|intros X; apply app_eq_nil in X as [_ X]; contradiction]). rewrite EW in R5.
    destruct (get 1 d s) as [[? ?]|] eqn:EG; [discriminate R5|]. apply get_none in EG. subst d.
    destruct (put cap 1 [] out) as [[? ?]|] eqn:EP; [discriminate R4|]. apply put_none in EP as [EP|EP]; [contradiction|cbn [length] in EP; lia].
  - exfalso. cbn [encounter_step] in *. destruct (c_waits o s) eqn:EW; [|discriminate R1]. destruct (get 1 d s) as [[? ?]|] eqn:EG; [discriminate R5|]. apply get_none in EG. subst d.
    rewrite app_nil_r in HT. subst l. destruct (CR s post HS) as (EW' & _). congruence.
  - exists x, y. cbn [n_client n_server n_up n_down]. split; [reflexivity|]. split; [reflexivity|]. split; [exact HL|]. intros a. specialize (HR a).
    destruct a as [[] k0|[] n|[] n]; cbn [encounter_step link_step] in *;
      match type of HR with match ?X with _ => _ end = _ => destruct X as [[? ?]|]; [discriminate HR|reflexivity] end.
Qed.

(** ** The handshake can be got done *)
Lemma encounter_run_app : forall o f1 f2 cap a b t, encounter_run o f1 f2 cap (a ++ b) t = encounter_run o f1 f2 cap b (encounter_run o f1 f2 cap a t).
Proof. intros o f1 f2 cap. induction a as [|c a IH]; intros b t; [reflexivity|]. cbn [app encounter_run]. apply IH. Qed.
Lemma go_on : forall o f1 f2 cap a t t' (P : encounter -> Prop), encounter_step o f1 f2 cap a t = Some t' ->
  (exists acts, P (encounter_run o f1 f2 cap acts t')) -> exists acts, P (encounter_run o f1 f2 cap acts t).
Proof. intros o f1 f2 cap a t t' P E [acts H]. exists (a :: acts). cbn [encounter_run]. rewrite E. exact H. Qed.
Definition just_made (cap : nat) (t : encounter) : Prop := exists x y, t = mk_encounter (CIn x) (SIn y) [] [] /\ link_inv cap (mk_link x y [] []) queues_new /\ free x /\ free y.
Lemma made_late : forall uu cs o text rtext f1 f2 cap n s l y d, gets_ready uu cs o text rtext -> length d <= n ->
  spread s = map inl l -> l ++ d = rtext -> waiter y ->
  exists acts, just_made cap (encounter_run o f1 f2 cap acts (mk_encounter (CAwaits s) (SIn y) [] d)).
Proof.
  intros uu cs o text rtext f1 f2 cap. induction n as [|n IH]; intros s l y d HG HN HS HT HY; pose proof HG as (NT & NR & EA & SW & SR & CW & CR).
  - destruct d; [|cbn [length] in HN; lia]. rewrite app_nil_r in HT. subst l. rewrite <- (app_nil_r rtext) in HS. destruct (CR s [] HS) as (EW & buf & s2 & w & ER & C1 & C2 & C3).
    exists [DTurn true (mk_key x00 x00 x00 x00)]. cbn [encounter_run encounter_step]. rewrite EW, ER. do 2 eexists. split; [reflexivity|].
    destruct HY as (buf' & s' & w' & -> & D1 & D2 & D3). split; [|split; reflexivity]. split; [reflexivity|]. split; [reflexivity|]. exists [], []. cbn [l_client l_server l_up l_down].
    split; [|split; [|split; reflexivity]]; eexists; cbn [u_reader u_write u_writer rest1 writer1 app]; (split; [|split; [split; [reflexivity|eassumption]|split; [intros X; contradiction X; reflexivity|cbn [length]; lia]]]);
      (split; [reflexivity|]); cbn [rd_buf rd_in]; (split; [eassumption|]); (split; [rewrite app_nil_r; eassumption|constructor]).
  - destruct d as [|b d]; [apply (IH s l y []); auto; cbn [length]; lia|].
    assert (c_waits o s = true) as EW by (apply (CW s l (b :: d)); [exact HS|auto|discriminate]).
    destruct (get 1 (b :: d) s) as [[s' d']|] eqn:EG; [|apply get_none in EG; discriminate EG]. destruct (get_some _ _ _ _ _ _ HS EG) as (l' & G1 & G2 & G3).
    apply (go_on _ _ _ _ (DRead true 1) _ (mk_encounter (CAwaits s') (SIn y) [] d')); [cbn [encounter_step]; rewrite EW, EG; reflexivity|]. apply (IH s' l' y d'); auto; [cbn [length] in *; lia|congruence].
Qed.
Lemma made_answer : forall uu cs o text rtext f1 f2 cap n s l y d out, gets_ready uu cs o text rtext -> 1 <= cap -> 2 * length out + length d <= n ->
  spread s = map inl l -> l ++ d ++ out = rtext -> out <> [] -> length d <= cap -> waiter y ->
  exists acts, just_made cap (encounter_run o f1 f2 cap acts (mk_encounter (CAwaits s) (SAnswers y out) [] d)).
Proof.
  intros uu cs o text rtext f1 f2 cap. induction n as [|n IH]; intros s l y d out HG HC HN HS HT NO HD HY; pose proof HG as (NT & NR & EA & SW & SR & CW & CR).
  - destruct out; [contradiction NO; reflexivity|cbn [length] in HN; lia].
  - assert (c_waits o s = true) as EW by (apply (CW s l (d ++ out)); [exact HS|auto|intros X; apply app_eq_nil in X as [_ X]; contradiction]).
    destruct (get 1 d s) as [[s' d']|] eqn:EG.
    + destruct (get_some _ _ _ _ _ _ HS EG) as (l' & G1 & G2 & G3). apply (go_on _ _ _ _ (DRead true 1) _ (mk_encounter (CAwaits s') (SAnswers y out) [] d')); [cbn [encounter_step]; rewrite EW, EG; reflexivity|].
      apply (IH s' l' y d' out); auto; [lia|rewrite app_assoc, G2, <- app_assoc; exact HT|lia].
    + apply get_none in EG. subst d. destruct (put cap 1 [] out) as [[d' out']|] eqn:EP; [|apply put_none in EP as [EP|EP]; [contradiction|cbn [length] in EP; lia]].
      destruct (put_some _ _ _ _ _ _ EP) as (P1 & P2 & P3 & P4). pose proof (f_equal (@length byte) P1) as PL. rewrite !app_length in PL. cbn [length app] in *.
      apply (go_on _ _ _ _ (DSend false 1) _ (mk_encounter (CAwaits s) (match out' with [] => SIn y | _ => SAnswers y out' end) [] d')); [cbn [encounter_step]; rewrite EP; reflexivity|].
      destruct out' as [|b out']; [|apply (IH s l y d' (b :: out')); auto; [cbn [length] in *; lia|rewrite P1; exact HT|discriminate]].
      rewrite app_nil_r in P1. subst d'. exact (made_late uu cs o text rtext f1 f2 cap (length out) s l y out HG (le_n _) HS HT HY).
Qed.
Lemma made_ask : forall uu cs o text rtext f1 f2 cap n s l u out, gets_ready uu cs o text rtext -> 1 <= cap -> 2 * length out + length u <= n ->
  spread s = map inl l -> l ++ u ++ out = text -> length u <= cap ->
  exists acts, just_made cap (encounter_run o f1 f2 cap acts (mk_encounter (c_asks out) (SAwaits s) u [])).
Proof.
  intros uu cs o text rtext f1 f2 cap. induction n as [|n IH]; intros s l u out HG HC HN HS HT HU; pose proof HG as (NT & NR & EA & SW & SR & CW & CR).
  - destruct out; [|cbn [length] in HN; lia]. destruct u; [|cbn [length] in HN; lia]. cbn [app] in HT. rewrite app_nil_r in HT. subst l. destruct (SR s HS) as (EW & buf & s2 & w & ER & C1 & C2 & C3).
    apply (go_on _ _ _ _ (DTurn false (mk_key x00 x00 x00 x00)) _ (mk_encounter (CAwaits []) (SAnswers (mk_user [] (mk_reader (default_receiver false) buf s2) (mk_writer (mk_sender false) w) None) rtext) [] [])); [cbn [encounter_step c_asks]; rewrite EW, ER; reflexivity|].
    apply (made_answer uu cs o text rtext f1 f2 cap (2 * length rtext) [] []); [exact HG|exact HC|cbn [length]; lia|reflexivity|reflexivity|exact NR|cbn [length]; lia|]. exists buf, s2, w. auto.
  - destruct (u ++ out) as [|b r] eqn:EU.
    { apply app_eq_nil in EU as [-> ->]. apply (IH s l [] []); auto. cbn [length]. lia. }
    assert (s_waits o s = true) as EW by (apply (SW s l (b :: r)); [exact HS|auto|discriminate]).
    destruct (get 1 u s) as [[s' u']|] eqn:EG.
    + destruct (get_some _ _ _ _ _ _ HS EG) as (l' & G1 & G2 & G3). apply (go_on _ _ _ _ (DRead false 1) _ (mk_encounter (c_asks out) (SAwaits s') u' [])); [cbn [encounter_step]; rewrite EW, EG; reflexivity|].
      apply (IH s' l' u' out); auto; [lia|rewrite app_assoc, G2, <- app_assoc, EU; exact HT|lia].
    + apply get_none in EG. subst u. cbn [app] in EU. subst out. destruct (put cap 1 [] (b :: r)) as [[u' out']|] eqn:EP; [|apply put_none in EP as [EP|EP]; [discriminate EP|cbn [length] in EP; lia]].
      destruct (put_some _ _ _ _ _ _ EP) as (P1 & P2 & P3 & P4). pose proof (f_equal (@length byte) P1) as PL. rewrite !app_length in PL. cbn [length app] in *.
      apply (go_on _ _ _ _ (DSend true 1) _ (mk_encounter (c_asks out') (SAwaits s) u' [])); [cbn [encounter_step c_asks]; rewrite EP; reflexivity|].
      apply (IH s l u' out'); auto; [cbn [length] in *; lia|rewrite P1; exact HT].
Qed.
(** What a made connection does, the encounter does. *)
Lemma as_made : forall o f1 f2 cap acts x y u d, exists x' y' u' d',
  encounter_run o f1 f2 cap acts (mk_encounter (CIn x) (SIn y) u d) = mk_encounter (CIn x') (SIn y') u' d' /\ link_run f1 f2 cap acts (mk_link x y u d) = mk_link x' y' u' d'.
Proof.
  intros o f1 f2 cap. induction acts as [|a acts IH]; intros x y u d; [exists x, y, u, d; auto|]. cbn [encounter_run link_run].
  destruct a as [[] k|[] n|[] n]; cbn [encounter_step link_step]; match goal with |- context [match ?X with _ => _ end] => destruct X as [[? ?]|]; apply IH end.
Qed.

(** ** The theorems *)
(** [C97] Two programs that begin with the handshake: whatever they do with their connection, whatever
    the room in the network, its delays and the scheduling, neither call of the handshake fails, and what
    happens to the programs could have happened with two queues of messages (Spec/Queues.v): nothing that is
    sent behind a head is lost with it, nothing of a head comes out as a message. *)
Lemma encounter_is_queues_proof : forall u cs o f1 f2 cap acts, auspicious u cs o -> minds f1 -> minds f2 ->
  let t := encounter_run o f1 f2 cap acts (encounter_new o) in
  on_course t /\ (List.length (n_up t) <= cap)%nat /\ (List.length (n_down t) <= cap)%nat /\
  exists turns, let s := queue_run f1 f2 turns queues_new in past1 t = q_past1 s /\ past2 t = q_past2 s.
Proof.
  intros u cs o f1 f2 cap acts HO M1 M2 t. destruct (handshake_ready u cs o HO) as (text & rtext & HG).
  destruct (enc_inv_run _ _ _ _ _ f1 f2 cap acts _ _ HG M1 M2 (enc_inv_new _ _ _ _ _ cap HG)) as [turns HI]. fold t in HI.
  destruct (enc_inv_says _ _ _ _ _ HI) as (A & B & C & D & E). split; [exact A|]. split; [exact D|]. split; [exact E|]. exists turns. auto.
Qed.
(*EX
(** A server that greets, a client that answers; the server chose a protocol and adds a header. *)
Definition greeter : program := fun past => match past with [] => Some (Say (OText (str "hello"))) | [_] => Some Hear | _ => None end.
Definition guest : program := fun past => match past with [] => Some Hear | [_] => Some (Say (OText (str "bye"))) | _ => None end.
Example greeters_mind : minds guest /\ minds greeter.
Proof.
  split; intros past m H; unfold guest, greeter in H; repeat match type of H with context [match ?x with _ => _ end] => destruct x; try discriminate H end;
    injection H as <-; (split; [apply ExTac.good_text; reflexivity|vm_compute; discriminate]).
Qed.
Definition inn_url : url := mk_url (ascii "ws") (Some (ascii "example.org")) None [] None (ascii "/inn").
Definition inn_calls : list call := [AddProtocol (ascii "chat"); SetOrigin (ascii "http://example.org")].
Definition inn : occasion :=
  mk_occasion httparse_lib (ascii "the sample nonce") (match run_calls inn_calls (builder_init inn_url) with Ok b => b | _ => builder_init inn_url end) (mk_w [] [])
    [(n_protocol, Typed (VProtocol [ascii "chat"]))] (Some [(ascii "X", Raw [ascii "y"])]) (mk_w [] [WAccept 3]).
Example auspicious_ex : auspicious inn_url inn_calls inn.
Proof.
  split. { split; [repeat split|]. split; [repeat constructor; discriminate|]. repeat constructor. }
  split. { split; [intros n H; unfold inn, httparse_lib; cbn [o_lib l_room]; lia|reflexivity]. }
  split.
  { split; [reflexivity|]. split; [repeat constructor|]. split; [repeat constructor|].
    split; [reflexivity|]. split; [reflexivity|]. split; [repeat constructor; discriminate|].
    split; [split; [discriminate|right; left; eexists; reflexivity]|].
    split; [split; intros HI; cbn in HI; decompose [or] HI; try discriminate; contradiction|].
    split; [|vm_compute; lia]. apply ThmInterop.legible_check. vm_compute. reflexivity. }
  split; [reflexivity|]. split; [repeat constructor; intros []|]. split; [repeat constructor; intros []|]. split; [constructor|]. split; [repeat constructor|].
  do 3 eexists. split; [vm_compute; reflexivity|]. split; [vm_compute; discriminate|]. split; [split; vm_compute; reflexivity|].
  split; [split; [apply ThmInterop.legible_check; vm_compute; reflexivity|vm_compute; lia]|vm_compute; discriminate].
Qed.
(** The network has room for 40 bytes.  When the client's call returns, the greeting is in its buffer. *)
Definition inn_turns (n : nat) : list dact :=
  let k := mk_key x01 x02 x03 x04 in
  concat (repeat [DTurn true k; DSend true 100; DTurn false k; DSend false 100; DRead false 100; DTurn false k; DSend false 100; DRead true 100] n).
Example encounter_is_queues_ex :
  (let t := encounter_run inn guest greeter 40 (inn_turns 11) (encounter_new inn) in
   past1 t = [] /\ past2 t = [Said (OText (str "hello"))] /\
   match n_client t with CIn x => rd_buf (u_reader x) = x81 :: x05 :: str "hello" | _ => False end) /\
  let t := encounter_run inn guest greeter 40 (inn_turns 13) (encounter_new inn) in
  past1 t = [Heard (OText (str "hello")); Said (OText (str "bye"))] /\ past2 t = [Said (OText (str "hello")); Heard (OText (str "bye"))].
Proof. vm_compute. repeat split; reflexivity. Qed.
EX*)

(** [C97] And the handshake comes about: if nothing can happen any more, both have their connection,
    and each of the two programs is done, or waits for a message where there is none, or is in a write
    and the network is full. *)
Lemma encounter_comes_about_proof : forall u cs o f1 f2 cap acts, auspicious u cs o -> minds f1 -> minds f2 -> (1 <= cap)%nat ->
  let t := encounter_run o f1 f2 cap acts (encounter_new o) in encounter_rests o f1 f2 cap t ->
  exists x y, n_client t = CIn x /\ n_server t = SIn y /\
    (f1 (u_past x) = None \/ f1 (u_past x) = Some Hear /\ n_down t = [] \/ ~ free x /\ List.length (n_up t) = cap) /\
    (f2 (u_past y) = None \/ f2 (u_past y) = Some Hear /\ n_up t = [] \/ ~ free y /\ List.length (n_down t) = cap).
Proof.
  intros u cs o f1 f2 cap acts HO M1 M2 Hcap t HR. destruct (handshake_ready u cs o HO) as (text & rtext & HG).
  destruct (enc_inv_run _ _ _ _ _ f1 f2 cap acts _ _ HG M1 M2 (enc_inv_new _ _ _ _ _ cap HG)) as [turns HI]. fold t in HI.
  destruct (rests_made _ _ _ _ _ f1 f2 cap t _ HG Hcap HI HR) as (x & y & E1 & E2 & (_ & _ & ux & uy & W1 & W2 & _) & HL). exists x, y. split; [exact E1|]. split; [exact E2|].
  cbn [l_client l_server l_up l_down] in *. set (k := mk_key x00 x00 x00 x00). destruct (step_none _ _ _ k 1 1 1 1 k _ _ _ _ HL) as (S1 & S2 & S3 & S4 & S5 & S6).
  pose proof (u_rests cap f1 x y _ _ ux uy true k 0 0 Hcap W1 W2 S1 S2 S3) as A. pose proof (u_rests cap f2 y x _ _ uy ux false k 0 0 Hcap W2 W1 S4 S5 S6) as B. unfold free.
  split; [destruct A as [[A1 A2]|[[A1 A2]|(A1 & A2 & A3 & _)]]|destruct B as [[A1 A2]|[[A1 A2]|(A1 & A2 & A3 & _)]]]; auto.
Qed.
(*EX
Example encounter_comes_about_ex :
  encounter_rests inn guest greeter 40 (encounter_run inn guest greeter 40 (inn_turns 13) (encounter_new inn)).
Proof.
  match goal with |- encounter_rests _ _ _ _ ?X => let v := eval vm_compute in X in assert (X = v) as -> by (vm_compute; reflexivity) end.
  intros [[] k|[] [|n]|[] [|n]]; reflexivity.
Qed.
EX*)

(** [C97] The programs cannot tell from what comes through their connection how it was made: of any two
    runs, with other clients and other headers, other keys, another network, what happens to a program
    in the one is an initial part of what happens to it in the other; also if in one of them the handshake
    is left out (Model/Programs.v). *)
Lemma handshake_unseen_proof : forall u cs o u' cs' o' f1 f2 cap cap' w1 w2 acts acts', auspicious u cs o -> auspicious u' cs' o' -> minds f1 -> minds f2 ->
  never_fails w1 -> never_fails w2 ->
  let t := encounter_run o f1 f2 cap acts (encounter_new o) in
  let t' := encounter_run o' f1 f2 cap' acts' (encounter_new o') in
  let l := link_run f1 f2 cap' acts' (link_new w1 w2) in
  (prefix (past1 t) (past1 t') \/ prefix (past1 t') (past1 t)) /\ (prefix (past2 t) (past2 t') \/ prefix (past2 t') (past2 t)) /\
  (prefix (past1 t) (u_past (l_client l)) \/ prefix (u_past (l_client l)) (past1 t)) /\
  (prefix (past2 t) (u_past (l_server l)) \/ prefix (u_past (l_server l)) (past2 t)).
Proof.
  intros u cs o u' cs' o' f1 f2 cap cap' w1 w2 acts acts' HO HO' M1 M2 N1 N2 t t' l.
  destruct (encounter_is_queues_proof u cs o f1 f2 cap acts HO M1 M2) as (_ & _ & _ & a & A1 & A2). destruct (encounter_is_queues_proof u' cs' o' f1 f2 cap' acts' HO' M1 M2) as (_ & _ & _ & b & B1 & B2).
  destruct (link_is_queues_proof f1 f2 cap' w1 w2 acts' M1 M2 N1 N2) as (c & C1 & C2 & _). fold t in A1, A2. fold t' in B1, B2. fold l in C1, C2. rewrite A1, A2, B1, B2, C1, C2.
  assert (forall a b, (prefix (q_past1 (queue_run f1 f2 a queues_new)) (q_past1 (queue_run f1 f2 b queues_new)) \/ prefix (q_past1 (queue_run f1 f2 b queues_new)) (q_past1 (queue_run f1 f2 a queues_new))) /\
    (prefix (q_past2 (queue_run f1 f2 a queues_new)) (q_past2 (queue_run f1 f2 b queues_new)) \/ prefix (q_past2 (queue_run f1 f2 b queues_new)) (q_past2 (queue_run f1 f2 a queues_new)))) as HP.
  { clear. intros a b. destruct (queue_confluent f1 f2 a b queues_new) as (a' & b' & E). rewrite !queue_run_app in E.
    destruct (queue_extends f1 f2 a' (queue_run f1 f2 a queues_new)) as [X1 X2]. destruct (queue_extends f1 f2 b' (queue_run f1 f2 b queues_new)) as [Y1 Y2]. rewrite E in X1, X2.
    split; eapply prefix_either; eassumption. }
  destruct (HP a b) as [P1 P2]. destruct (HP a c) as [P3 P4]. auto.
Qed.
(*EX
(** With another builder and other headers, and with no handshake at all, after as many steps. *)
Definition other_inn : occasion :=
  mk_occasion httparse_lib (ascii "another 16 bytes") (builder_init inn_url) (mk_w [] []) [] None (mk_w [] []).
Example other_auspicious_ex : auspicious inn_url [] other_inn.
Proof.
  split; [apply auspicious_ex|]. split; [apply auspicious_ex|]. split.
  { split; [reflexivity|]. split; [constructor|]. split; [constructor|]. split; [reflexivity|]. split; [reflexivity|]. split; [repeat constructor; discriminate|].
    split; [split; [discriminate|right; left; eexists; reflexivity]|].
    split; [split; intros HI; cbn in HI; decompose [or] HI; try discriminate; contradiction|].
    split; [|vm_compute; lia]. apply ThmInterop.legible_check. vm_compute. reflexivity. }
  split; [reflexivity|]. split; [constructor|]. split; [exact I|]. split; [constructor|]. split; [constructor|].
  do 3 eexists. split; [vm_compute; reflexivity|]. split; [vm_compute; discriminate|]. split; [split; vm_compute; reflexivity|].
  split; [split; [apply ThmInterop.legible_check; vm_compute; reflexivity|vm_compute; lia]|vm_compute; discriminate].
Qed.
Example handshake_unseen_ex :
  past1 (encounter_run inn guest greeter 40 (inn_turns 11) (encounter_new inn)) = [] /\
  past1 (encounter_run other_inn guest greeter 200 (inn_turns 6) (encounter_new other_inn)) = [Heard (OText (str "hello")); Said (OText (str "bye"))] /\
  u_past (l_client (link_run guest greeter 40 (inn_turns 2) (link_new (mk_w [] []) (mk_w [] [])))) = [Heard (OText (str "hello"))].
Proof. vm_compute. repeat split; reflexivity. Qed.
EX*)

(** [C97] A run that ended with neither program in a write ended as it had to, however the connection
    was made: in every other run, what has happened to either program is an initial part of what
    happened to it in this one, and if the other run ended like that too, it is the same. *)
Lemma encounter_one_end_proof : forall u cs o u' cs' o' f1 f2 cap cap' acts acts' x y, auspicious u cs o -> auspicious u' cs' o' -> minds f1 -> minds f2 -> (1 <= cap)%nat ->
  let t := encounter_run o f1 f2 cap acts (encounter_new o) in
  let t' := encounter_run o' f1 f2 cap' acts' (encounter_new o') in
  encounter_rests o f1 f2 cap t -> n_client t = CIn x -> n_server t = SIn y -> free x -> free y ->
  prefix (past1 t') (past1 t) /\ prefix (past2 t') (past2 t) /\
  forall x' y', (1 <= cap')%nat -> encounter_rests o' f1 f2 cap' t' -> n_client t' = CIn x' -> n_server t' = SIn y' -> free x' -> free y' ->
  past1 t' = past1 t /\ past2 t' = past2 t.
Proof.
  intros u cs o u' cs' o' f1 f2 cap cap' acts acts' x y HO HO' M1 M2 Hcap t t' HR Ex Ey F1 F2.
  destruct (handshake_ready u cs o HO) as (text & rtext & HG). destruct (enc_inv_run _ _ _ _ _ f1 f2 cap acts _ _ HG M1 M2 (enc_inv_new _ _ _ _ _ cap HG)) as [a HI]. fold t in HI.
  destruct (handshake_ready u' cs' o' HO') as (text' & rtext' & HG'). destruct (enc_inv_run _ _ _ _ _ f1 f2 cap' acts' _ _ HG' M1 M2 (enc_inv_new _ _ _ _ _ cap' HG')) as [b HI']. fold t' in HI'.
  destruct (rests_made _ _ _ _ _ f1 f2 cap t _ HG Hcap HI HR) as (x0 & y0 & E1 & E2 & HL & HLR). rewrite Ex in E1. rewrite Ey in E2. injection E1 as <-. injection E2 as <-.
  pose proof (rests_final f1 f2 cap _ _ Hcap HL HLR F1 F2) as HF.
  destruct (enc_inv_says _ _ _ _ _ HI) as (_ & A1 & A2 & _). destruct (enc_inv_says _ _ _ _ _ HI') as (_ & B1 & B2 & _).
  destruct (queue_confluent f1 f2 a b queues_new) as (a' & b' & E). rewrite !queue_run_app in E. rewrite (queue_still _ _ a' _ HF) in E.
  destruct (queue_extends f1 f2 b' (queue_run f1 f2 b queues_new)) as [X1 X2]. rewrite <- E in X1, X2. rewrite <- A1, <- B1 in X1. rewrite <- A2, <- B2 in X2. split; [exact X1|]. split; [exact X2|].
  intros x' y' Hcap' HR' Ex' Ey' F1' F2'. destruct (rests_made _ _ _ _ _ f1 f2 cap' t' _ HG' Hcap' HI' HR') as (x1 & y1 & E1' & E2' & HL' & HLR'). rewrite Ex' in E1'. rewrite Ey' in E2'. injection E1' as <-. injection E2' as <-.
  pose proof (rests_final f1 f2 cap' _ _ Hcap' HL' HLR' F1' F2') as HF'. rewrite (queue_still _ _ b' _ HF') in E. rewrite A1, A2, B1, B2, E. split; reflexivity.
Qed.
(*EX
Example encounter_one_end_ex :
  let t := encounter_run inn guest greeter 40 (inn_turns 13) (encounter_new inn) in
  match n_client t, n_server t with CIn x, SIn y => free x /\ free y | _, _ => False end.
Proof. vm_compute. split; reflexivity. Qed.
EX*)

(** [C97] And the other way: whatever could happen with queues that never hold more than the network
    has room for, happens to the programs in some run that begins with the handshake, whatever client
    and server are configured to write in it. *)
Lemma queues_are_encounter_proof : forall u cs o f1 f2 cap turns, auspicious u cs o -> minds f1 -> minds f2 -> (1 <= cap)%nat ->
  (forall n, let s := queue_run f1 f2 (firstn n turns) queues_new in (up_bytes (q_up s) <= cap)%nat /\ (down_bytes (q_down s) <= cap)%nat) ->
  exists acts, let t := encounter_run o f1 f2 cap acts (encounter_new o) in let s := queue_run f1 f2 turns queues_new in
    past1 t = q_past1 s /\ past2 t = q_past2 s.
Proof.
  intros u cs o f1 f2 cap turns HO M1 M2 HC HB. destruct (handshake_ready u cs o HO) as (text & rtext & HG). pose proof HG as (_ & _ & EA & _).
  destruct (made_ask u cs o text rtext f1 f2 cap (2 * length (asked o)) [] [] [] (asked o) HG HC) as (acts & x & y & E & HL & F1 & F2); [cbn [length]; lia|reflexivity|exact EA|cbn [length]; lia|].
  destruct (real_run cap f1 f2 turns _ _ M1 M2 HL F1 F2 HB) as (acts' & P1 & P2 & _). exists (acts ++ acts'). cbv zeta. rewrite encounter_run_app. unfold encounter_new. rewrite E.
  destruct (as_made o f1 f2 cap acts' x y [] []) as (x' & y' & u' & d' & E1 & E2). rewrite E1. rewrite E2 in P1, P2. cbn [l_client l_server] in *. auto.
Qed.
(*EX
Example queues_are_encounter_ex : forall n, let s := queue_run guest greeter (firstn n [false; true; true; false]) queues_new in
  (up_bytes (q_up s) <= 9)%nat /\ (down_bytes (q_down s) <= 9)%nat.
Proof.
  intros n. do 5 (destruct n as [|n]; [split; apply PeanoNat.Nat.leb_le; vm_compute; reflexivity|]). split; apply PeanoNat.Nat.leb_le; cbn [firstn]; vm_compute; reflexivity.
Qed.
EX*)
