(** A connection that breaks is two queues that break: C101. *)
From Coq Require Import NArith ZArith String Bool List Lia.
From Coq Require Import ZifyBool ZifyNat ZifyN.
From Coq.Strings Require Import Byte.
From Verif.Model Require Import Base Io Header Mask Dataframe Utf8 Text Headers
  Message Receiver Codec Framed Connect Examples AsyncExamples ChatClient Talk Narrow AsyncChat AsyncTalk Errand Dialogue Programs Kinds Endings Breaking.
From Verif.Spec Require Import RfcFrame FrameSpec Schedule Unicode Drive Session Connection Polled Fields Echo Chat Talking AsyncChat Errands Dialogues Queues Pairings Partings Breaks BrokenQueues.
From Verif.Proofs Require Import BaseFacts MaskFacts HeaderFacts FrameFacts CodecFacts ScriptFacts
  Machine Utf8Facts FramedFacts AsyncFacts ThmFrames ThmStream SessionFacts RecvFacts MessageFacts
  TextFacts ExTac ThmMessages ThmFlow ThmLimits ThmInterop ThmEcho ThmChat ThmTalk ThmNarrow AsyncTalkFacts ThmCrossed ThmErrand ThmDialogue ThmPrograms ThmKinds ThmEndings ThmBreaking.
Import ListNotations.
Local Open Scope string_scope.
Local Open Scope list_scope.
Local Open Scope nat_scope.

(** ** Counting bytes *)
Lemma bytes_some : forall c m, 0 < bytes_of c [m].
Proof. intros c m. pose proof (one_length c m (mk_key x00 x00 x00 x00)) as H. rewrite bytes_frames in H. cbn [map fst] in H. lia. Qed.
Lemma exactly_grow : forall c a K h m, exactly_so c a K h -> exactly_so c (a + bytes_of c [m]) (K ++ [m]) h.
Proof.
  intros c a K h m (more & -> & A & B). exists (more ++ [m]). rewrite !app_assoc. split; [reflexivity|]. pose proof (bytes_some c m) as P. rewrite !bytes_app in *. split; [lia|].
  intros m0 more' E. rewrite !bytes_app. destruct more as [|m1 more]; cbn [app] in E; injection E as <- E.
  - assert (bytes_of c [] = 0) as Z by (destruct c; reflexivity). rewrite Z in *. lia.
  - specialize (B _ _ eq_refl). rewrite bytes_app in B. lia.
Qed.
Lemma exactly_head : forall c a m K h, exactly_so c a (m :: K) h -> a <= bytes_of c K -> exists h', h = m :: h' /\ exactly_so c a K h'.
Proof.
  intros c a m K h (more & E & A & B) L. pose proof (bytes_app c [m] K) as S. cbn [app] in S. destruct h as [|m0 h].
  - cbn [app] in E. specialize (B _ _ (eq_sym E)). cbn [app] in B. lia.
  - cbn [app] in E. injection E as <- E. exists h. split; [reflexivity|]. exists more. split; [exact E|]. pose proof (bytes_app c [m] h) as S2. cbn [app] in S2. split; [lia|].
    intros m1 more' E1. specialize (B _ _ E1). pose proof (bytes_app c [m] (h ++ [m1])) as S3. cbn [app] in S3, B. lia.
Qed.
Lemma exactly_some : forall c a K, a <= bytes_of c K -> exists k, exactly_so c a K (firstn k K).
Proof.
  intros c a K. induction K as [|m K IH]; intros L.
  - exists 0, []. split; [reflexivity|]. cbn [firstn app]. assert (bytes_of c [] = 0) as Z by (destruct c; reflexivity). split; [lia|discriminate].
  - pose proof (bytes_app c [m] K) as SS. cbn [app] in SS. destruct (Nat.le_gt_cases a (bytes_of c K)) as [L2|L2].
    + destruct (IH L2) as (k & more & E & A & B). exists (S k), more. cbn [firstn app]. split; [f_equal; exact E|]. pose proof (bytes_app c [m] (firstn k K)) as S2. cbn [app] in S2. split; [lia|].
      intros m1 more' E1. specialize (B _ _ E1). pose proof (bytes_app c [m] (firstn k K ++ [m1])) as S3. cbn [app] in S3. lia.
    + exists 0, (m :: K). cbn [firstn app]. split; [reflexivity|]. assert (bytes_of c [] = 0) as Z by (destruct c; reflexivity). split; [lia|]. intros m1 more' E1. injection E1 as <- _. lia.
Qed.
Lemma exactly_none : forall c rest on qs, exactly_so c (length rest) (map fst on) qs -> short_of c rest on -> qs = [].
Proof.
  intros c rest on qs (more & E & A & _) [->|(m & k & l' & -> & H)].
  - cbn [map] in E. symmetry in E. apply app_eq_nil in E as [E _]. exact E.
  - destruct qs as [|m0 qs]; [reflexivity|exfalso]. rewrite !bytes_frames in H. cbn [map fst app] in *. injection E as <- _. pose proof (bytes_app c [m] qs) as S. cbn [app] in S. lia.
Qed.

(** ** A direction and its queue *)
Definition vway (c cut : bool) (x y : peer) (net : bytes) (qs : list owned) : Prop :=
  (exists lost on, takes c y (net ++ lost ++ owes x) on /\ if cut then exactly_so c (length (lost ++ owes x)) (map fst on) qs else lost = [] /\ qs = map fst on) \/
  (cut = true /\ net = [] /\ dead c y /\ qs = []).
Lemma v_quiet : forall c cut x x' y net qs, owes x' = owes x -> vway c cut x y net qs -> vway c cut x' y net qs.
Proof. intros c cut x x' y net qs E H. unfold vway. rewrite E. exact H. Qed.
Lemma v_reads : forall c cut x y y' net qs, reads_as y y' -> vway c cut x y net qs -> vway c cut x y' net qs.
Proof. intros c cut x y y' net qs R [(lost & on & T & H)|(A & B & C & D)]; [left; exists lost, on; split; [apply R; exact T|exact H]|right; split; [exact A|]; split; [exact B|]; split; [apply R; exact C|exact D]]. Qed.
Lemma v_says : forall c cut x x' y net qs m k, sendable big m -> owes x' = owes x ++ encs (masked_frames c [(m, k)]) -> vway c cut x y net qs -> vway c cut x' y net (if cut then qs else qs ++ [m]).
Proof.
  intros c cut x x' y net qs m k HS E [(lost & on & T & H)|(A & B)]; [left|right; subst cut; auto]. exists lost, (on ++ [(m, k)]). rewrite E. split; [rewrite !app_assoc; apply takes_more; [rewrite <- !app_assoc; exact T|exact HS]|].
  destruct cut.
  - rewrite app_assoc, app_length, bytes_frames, map_app. cbn [map fst]. apply exactly_grow. exact H.
  - destruct H as [-> ->]. rewrite map_app. auto.
Qed.
Lemma v_send : forall c (cut : bool) x x' y net q' qs d, owes x = d ++ owes x' -> q' = (if cut then [] else net) ++ d -> vway c cut x y net qs -> vway c cut x' y (if cut then net else q') qs.
Proof.
  intros c cut x x' y net q' qs d E -> [(lost & on & T & H)|(A & B)]; [left|right; subst cut; auto]. destruct cut.
  - exists (lost ++ d), on. rewrite <- (app_assoc lost), <- E. auto.
  - destruct H as [-> ->]. exists [], on. cbn [app] in *. rewrite <- app_assoc, <- E. auto.
Qed.
Lemma v_hears : forall c (cut : bool) x y y' net net' qs lost m k l', takes c y' (net' ++ lost ++ owes x) l' ->
  (if cut then exactly_so c (length (lost ++ owes x)) (map fst ((m, k) :: l')) qs else lost = [] /\ qs = map fst ((m, k) :: l')) ->
  vway c cut x y net qs -> exists qs', qs = m :: qs' /\ vway c cut x y' net' qs'.
Proof.
  intros c cut x y y' net net' qs lost m k l' T H _. cbn [map fst] in H. destruct cut.
  - pose proof (takes_room _ _ _ _ T) as L. rewrite bytes_frames, app_length in L. destruct (exactly_head _ _ _ _ _ H) as (qs' & -> & H'); [lia|]. exists qs'. split; [reflexivity|]. left. exists lost, l'. auto.
  - destruct H as [-> ->]. exists (map fst l'). split; [reflexivity|]. left. exists [], l'. auto.
Qed.
Lemma v_cut : forall c n x y net qs, vway c false x y net qs -> exists k, vway c true x y (firstn n net) (firstn k qs).
Proof.
  intros c n x y net qs [(lost & on & T & -> & ->)|(A & _)]; [|discriminate A]. cbn [app] in T. rewrite <- (firstn_skipn n net), <- app_assoc in T.
  pose proof (takes_room _ _ _ _ T) as L. rewrite bytes_frames, app_length in L. destruct (exactly_some c (length (skipn n net ++ owes x)) (map fst on)) as (k & H); [lia|]. exists k. left. exists (skipn n net), on. auto.
Qed.

(** ** What a program does *)
Lemma turn_does : forall c f k e q x x' o, minds f -> says c x -> peer_turn c f k e q x = Some (x', o) ->
  (exists m, f (peer_past x) = Some (Say m) /\ peer_past x' = peer_past x ++ [if goes m then Said m else NotSaid m]) \/
  (f (peer_past x) = Some Hear /\ exists h, peer_past x' = peer_past x ++ [h] /\ words_said [h] = [] /\ forall m, h <> NotSaid m).
Proof.
  intros c f k e q [[past rd wr wt]|a] x' o M W H; cbn [peer_turn] in H.
  - destruct (user_turn f k q (mk_user past rd wr wt)) as [[u' o']|] eqn:EU; [|discriminate H]. injection H as <- <-. rename EU into H. unfold user_turn in H. pcbn_in. destruct wt as [b|]; [discriminate H|].
    destruct (f past) as [[m|]|] eqn:EF; [left|right|discriminate H].
    + exists m. split; [reflexivity|]. destruct (M _ _ EF) as [HT HS]. destruct W as (w & HW & HN & _). pcbn_in. subst wr. destruct (goes m) eqn:EG.
      * pose proof (goes_sendable m HT HS EG) as Hm. destruct (sends c m k w HN (big_sendable m Hm)) as (w' & A1 & _). rewrite A1 in H. injection H as <- <-. reflexivity.
      * destruct (not_sent c m k w EG) as [er E]. rewrite E in H. injection H as <- <-. reflexivity.
    + split; [reflexivity|]. destruct (reader_recv rd) as [z r']. destruct (must_wait z false q); [discriminate H|]. exists (match z with Ok m => Heard m | _ => NotHeard end). destruct z; injection H as <- <-; (split; [reflexivity|]); (split; [reflexivity|intros m; discriminate]).
  - destruct (auser_turn (negb c) f k e a) as [a'|] eqn:E; [|discriminate H]. injection H as <- <-. pose proof E as E'. unfold auser_turn in E'.
    destruct (au_busy a) eqn:EB; [discriminate E'|]. destruct (f (au_past a)) as [[m|]|] eqn:EF; try discriminate E'. clear E'. left. exists m. cbn [peer_past]. split; [exact EF|].
    cbn [says] in W. destruct (turned c f k e m a W EB EF M) as (w' & _ & P2). rewrite P2 in E. injection E as <-. reflexivity.
Qed.
Lemma read_does : forall f n q x r, peer_read f n q x = Some r -> f (peer_past x) = Some Hear.
Proof.
  intros f n q [[past rd wr wt]|a] r H; cbn [peer_read peer_past] in *.
  - unfold user_read in H. pcbn_in. destruct wt; [discriminate H|]. destruct (f past) as [[m|]|]; try discriminate H. reflexivity.
  - unfold auser_read in H. destruct (au_busy a); [discriminate H|]. destruct (f (au_past a)) as [[m|]|]; try discriminate H. reflexivity.
Qed.
Lemma end_does : forall f gone q x r, peer_end f gone q x = Some r -> f (peer_past x) = Some Hear.
Proof.
  intros f gone q x r H. destruct (end_gone _ _ _ _ _ H) as [-> ->]. unfold peer_end in H. destruct x as [[past rd wr wt]|a]; pcbn_in; cbn [peer_past].
  - destruct wt; [discriminate H|]. destruct (f past) as [[m|]|]; try discriminate H. reflexivity.
  - destruct (au_busy a); [discriminate H|]. destruct (f (au_past a)) as [[m|]|]; try discriminate H. reflexivity.
Qed.

(** ** The simulation: nothing happens in the queues, or the program has its turn *)
Definition does (f : program) (cu cd : bool) (x x' : peer) (u d u' d' : list owned) : Prop :=
  peer_past x' = peer_past x /\ u' = u /\ d' = d \/ broken_deed f cu cd (peer_past x) u d = Some (peer_past x', u', d').
Lemma does_hear : forall f cu cd past m u d, f past = Some Hear -> broken_deed f cu cd past u (m :: d) = Some (past ++ [Heard m], u, d).
Proof. intros f cu cd past m u d E. unfold broken_deed, deed_or_end, deed_done. rewrite E. destruct cd, cu; reflexivity. Qed.
Lemma does_end : forall f cu past u, f past = Some Hear -> broken_deed f cu true past u [] = Some (past ++ [NotHeard], u, []).
Proof. intros f cu past u E. unfold broken_deed, deed_or_end. rewrite E. destruct cu; reflexivity. Qed.
Lemma does_say : forall f (cu : bool) cd past m u d, f past = Some (Say m) ->
  broken_deed f cu cd past u d = Some (past ++ [if goes m then Said m else NotSaid m], if goes m then (if cu then u else u ++ [m]) else u, d).
Proof. intros f cu cd past m u d E. unfold broken_deed, deed_or_end, deed_done. rewrite E. destruct (goes m), cd, d, cu; reflexivity. Qed.
Lemma s_turn : forall c f k e cu cd x y out inn x' o u d, minds f -> says c x -> vway c cu x y out u -> vway (negb c) cd y x inn d -> peer_turn c f k e inn x = Some (x', o) ->
  o = [] /\ exists u' d', does f cu cd x x' u d u' d' /\ vway c cu x' y out u' /\ vway (negb c) cd y x' inn d'.
Proof.
  intros c f k e cu cd x y out inn x' o u d M S V1 V2 H. pose proof (turn_does _ _ _ _ _ _ _ _ M S H) as D. destruct (b_turn _ _ _ _ _ _ _ _ M S H) as (-> & [(_ & R & [(m & k0 & E1 & E2 & E3)|(m & E1 & E2)])|(S1 & S2 & S3)]); (split; [reflexivity|]).
  - destruct D as [(m0 & D1 & D2)|(_ & h & D2 & D3 & _)]; rewrite E1 in D2; apply app_inj_tail in D2 as [_ D2]; [|rewrite <- D2 in D3; discriminate D3].
    destruct (goes m0) eqn:EG; [|discriminate D2]. injection D2 as <-. exists (if cu then u else u ++ [m]), d. split; [right; rewrite E1, (does_say _ _ _ _ _ _ _ D1), EG; reflexivity|].
    split; [exact (v_says _ _ _ _ _ _ _ _ _ E2 E3 V1)|exact (v_reads _ _ _ _ _ _ _ R V2)].
  - destruct D as [(m0 & D1 & D2)|(_ & h & D2 & _ & D3)]; rewrite E1 in D2; apply app_inj_tail in D2 as [_ D2]; [|contradiction (D3 m (eq_sym D2))].
    destruct (goes m0) eqn:EG; [discriminate D2|]. injection D2 as <-. exists u, d. split; [right; rewrite E1, (does_say _ _ _ _ _ _ _ D1), EG; reflexivity|].
    split; [exact (v_quiet _ _ _ _ _ _ _ E2 V1)|exact (v_reads _ _ _ _ _ _ _ R V2)].
  - destruct (S3 (negb c)) as [T1 T2]. pose proof V2 as [(lost & on & T & X)|(_ & _ & Z & _)]; [|contradiction (T1 Z)]. destruct (T2 _ _ T) as (m & j & l' & -> & E & T').
    destruct (v_hears _ _ _ _ x' _ _ _ _ _ _ _ T' X V2) as (d' & -> & V). exists u, d'. split; [|split; [exact (v_quiet _ _ _ _ _ _ _ S2 V1)|exact V]]. right. rewrite E.
    destruct D as [(m0 & D1 & D2)|(D1 & _)]; [rewrite E in D2; apply app_inj_tail in D2 as [_ D2]; destruct (goes m0); discriminate D2|]. apply does_hear. exact D1.
Qed.
Lemma s_send : forall cap c n cu cd x y out inn x' q' u d, says c x -> length out <= cap -> vway c cu x y out u -> vway (negb c) cd y x inn d -> peer_send cap n (if cu then [] else out) x = Some (x', q') ->
  peer_past x' = peer_past x /\ vway c cu x' y (if cu then out else q') u /\ vway (negb c) cd y x' inn d.
Proof.
  intros cap c n cu cd x y out inn x' q' u d S B V1 V2 H. destruct (b_send cap c n (if cu then [] else out) x x' q' S) with (2 := H) as (p & E1 & E2 & E3 & E4 & E5 & E6); [destruct cu; [cbn [length]; lia|exact B]|].
  split; [exact E5|]. split; [exact (v_send _ _ _ _ _ _ _ _ _ E2 E1 V1)|exact (v_reads _ _ _ _ _ _ _ E4 V2)].
Qed.
Lemma s_read : forall c f n cu cd x y out inn x' q' u d, vway c cu x y out u -> vway (negb c) cd y x inn d -> peer_read f n inn x = Some (x', q') ->
  exists d', does f cu cd x x' u d u d' /\ vway c cu x' y out u /\ vway (negb c) cd y x' q' d'.
Proof.
  intros c f n cu cd x y out inn x' q' u d V1 V2 H. pose proof (read_does _ _ _ _ _ H) as EF. pose proof V2 as [(lost & on & T & X)|(-> & -> & Z & ->)].
  - destruct (b_read _ _ _ _ _ _ _ _ _ T H) as (_ & S2 & _ & [[S4 S5]|(m & k & l' & -> & S4 & S5)]).
    + exists d. split; [left; auto|]. split; [exact (v_quiet _ _ _ _ _ _ _ S2 V1)|]. left. exists lost, on. auto.
    + destruct (v_hears _ _ _ _ x' _ _ _ _ _ _ _ S4 X V2) as (d' & -> & V). exists d'. split; [right; rewrite S5; apply does_hear; exact EF|]. split; [exact (v_quiet _ _ _ _ _ _ _ S2 V1)|exact V].
  - destruct (b_read_dead _ _ _ _ _ _ Z H) as (-> & _ & S2 & S3 & S5). exists []. split; [right; rewrite S5; apply does_end; exact EF|]. split; [exact (v_quiet _ _ _ _ _ _ _ S2 V1)|]. right. auto.
Qed.
Lemma s_end : forall c f cu cd x y out inn x' u d, vway c cu x y out u -> vway (negb c) cd y x inn d -> peer_end f cd inn x = Some x' ->
  exists d', does f cu cd x x' u d u d' /\ vway c cu x' y out u /\ vway (negb c) cd y x' inn d'.
Proof.
  intros c f cu cd x y out inn x' u d V1 V2 H. pose proof (end_does _ _ _ _ _ H) as EF. destruct (end_gone _ _ _ _ _ H) as [-> ->]. pose proof V2 as [(lost & on & T & X)|(_ & _ & Z & ->)].
  - cbn [app] in T. destruct (b_end _ _ _ _ _ _ T H) as (_ & S2 & [(m & k & l' & -> & S4 & S5)|(S5 & S4 & HO)]).
    + destruct (v_hears _ true _ _ x' [] [] _ _ _ _ _ S4 X V2) as (d' & -> & V). exists d'. split; [right; rewrite S5; apply does_hear; exact EF|]. split; [exact (v_quiet _ _ _ _ _ _ _ S2 V1)|exact V].
    + rewrite (exactly_none _ _ _ _ X HO). exists []. split; [right; rewrite S5; apply does_end; exact EF|]. split; [exact (v_quiet _ _ _ _ _ _ _ S2 V1)|]. right. auto.
  - destruct (b_end_dead _ _ _ _ Z H) as (_ & S2 & S3 & S5). exists []. split; [right; rewrite S5; apply does_end; exact EF|]. split; [exact (v_quiet _ _ _ _ _ _ _ S2 V1)|]. right. auto.
Qed.
Definition broken_inv (t : breaking) (s : bqueues) : Prop :=
  let '(mk_breaking (mk_pairing x y u d) bu bd) := t in let '(mk_bqueues (mk_queues p1 p2 qu qd) bu' bd') := s in
  bu' = bu /\ bd' = bd /\ p1 = peer_past x /\ p2 = peer_past y /\ vway true bu x y u qu /\ vway false bd y x d qd.
Lemma does_one : forall f1 f2 bu bd x x' y u d u' d' up down up' down', does f1 bu bd x x' u d u' d' -> vway true bu x' y up' u' -> vway false bd y x' down' d' -> broken_inv (mk_breaking (mk_pairing x y up down) bu bd) (mk_bqueues (mk_queues (peer_past x) (peer_past y) u d) bu bd) ->
  exists turns, broken_inv (mk_breaking (mk_pairing x' y up' down') bu bd) (bqueue_run f1 f2 turns (mk_bqueues (mk_queues (peer_past x) (peer_past y) u d) bu bd)).
Proof.
  intros f1 f2 bu bd x x' y u d u' d' up down up' down' [(E & -> & ->)|E] V1 V2 _.
  - exists []. cbn [bqueue_run broken_inv]. rewrite E. auto 8.
  - exists [BTurn true]. cbn [bqueue_run bqueue_step]. rewrite E. cbn [broken_inv]. auto 8.
Qed.
Lemma does_two : forall f1 f2 bu bd x y y' u d u' d' up' down', does f2 bd bu y y' d u d' u' -> vway true bu x y' up' u' -> vway false bd y' x down' d' ->
  exists turns, broken_inv (mk_breaking (mk_pairing x y' up' down') bu bd) (bqueue_run f1 f2 turns (mk_bqueues (mk_queues (peer_past x) (peer_past y) u d) bu bd)).
Proof.
  intros f1 f2 bu bd x y y' u d u' d' up' down' [(E & -> & ->)|E] V1 V2.
  - exists []. cbn [bqueue_run broken_inv]. rewrite E. auto 8.
  - exists [BTurn false]. cbn [bqueue_run bqueue_step]. rewrite E. cbn [broken_inv]. auto 8.
Qed.
Lemma broken_step : forall f1 f2 cap a t t' s, minds f1 -> minds f2 -> breaking_inv cap t -> broken_inv t s -> breaking_step f1 f2 cap a t = Some t' -> exists turns, broken_inv t' (bqueue_run f1 f2 turns s).
Proof.
  intros f1 f2 cap a [[c s u d] bu bd] t' [[p1 p2 qu qd] bu' bd'] M1 M2 [(A1 & B1 & _) (A2 & B2 & _)] J H. pose proof J as (-> & -> & -> & -> & V1 & V2). destruct a as [[[] k e|[] n|[] n]|[] n|[]]; cbn [breaking_step pairing_step] in H.
  - destruct (peer_turn true f1 k e d c) as [[c' o]|] eqn:E; [|discriminate H]. injection H as <-. destruct (s_turn true f1 k e bu bd c s u d c' o qu qd M1 A1 V1 V2 E) as (-> & u' & d' & D & X & Y). rewrite app_nil_r. exact (does_one f1 f2 _ _ _ _ _ _ _ _ _ u d _ _ D X Y J).
  - destruct (peer_turn false f2 k e u s) as [[s' o]|] eqn:E; [|discriminate H]. injection H as <-. destruct (s_turn false f2 k e bd bu s c d u s' o qd qu M2 A2 V2 V1 E) as (-> & d' & u' & D & X & Y). rewrite app_nil_r. exact (does_two f1 f2 _ _ _ _ _ _ _ _ _ _ _ D Y X).
  - destruct (peer_send cap n (if bu then [] else u) c) as [[c' q]|] eqn:E; [|discriminate H]. injection H as <-. destruct (s_send cap true n bu bd c s u d c' q qu qd A1 B1 V1 V2 E) as (D & X & Y). exact (does_one f1 f2 _ _ _ _ _ _ _ _ _ u d _ _ (or_introl (conj D (conj eq_refl eq_refl))) X Y J).
  - destruct (peer_send cap n (if bd then [] else d) s) as [[s' q]|] eqn:E; [|discriminate H]. injection H as <-. destruct (s_send cap false n bd bu s c d u s' q qd qu A2 B2 V2 V1 E) as (D & X & Y). exact (does_two f1 f2 _ _ _ _ _ _ _ _ _ _ _ (or_introl (conj D (conj eq_refl eq_refl))) Y X).
  - destruct (peer_read f1 n d c) as [[c' q]|] eqn:E; [|discriminate H]. injection H as <-. destruct (s_read true f1 n bu bd c s u d c' q qu qd V1 V2 E) as (d' & D & X & Y). exact (does_one f1 f2 _ _ _ _ _ _ _ _ _ u d _ _ D X Y J).
  - destruct (peer_read f2 n u s) as [[s' q]|] eqn:E; [|discriminate H]. injection H as <-. destruct (s_read false f2 n bd bu s c d u s' q qd qu V2 V1 E) as (u' & D & X & Y). exact (does_two f1 f2 _ _ _ _ _ _ _ _ _ _ _ D Y X).
  - destruct bu; [discriminate H|]. injection H as <-. destruct (v_cut _ n _ _ _ _ V1) as (k & X). exists [BBreak true k]. cbn [bqueue_run bqueue_step broken_inv]. auto 8.
  - destruct bd; [discriminate H|]. injection H as <-. destruct (v_cut _ n _ _ _ _ V2) as (k & X). exists [BBreak false k]. cbn [bqueue_run bqueue_step broken_inv]. auto 8.
  - destruct (peer_end f1 bd d c) as [c'|] eqn:E; [|discriminate H]. injection H as <-. destruct (s_end true f1 bu bd c s u d c' qu qd V1 V2 E) as (d' & D & X & Y). exact (does_one f1 f2 _ _ _ _ _ _ _ _ _ u d _ _ D X Y J).
  - destruct (peer_end f2 bu u s) as [s'|] eqn:E; [|discriminate H]. injection H as <-. destruct (s_end false f2 bd bu s c d u s' qd qu V2 V1 E) as (u' & D & X & Y). exact (does_two f1 f2 _ _ _ _ _ _ _ _ _ _ _ D Y X).
Qed.
Lemma bqueue_run_app : forall f1 f2 a b s, bqueue_run f1 f2 (a ++ b) s = bqueue_run f1 f2 b (bqueue_run f1 f2 a s).
Proof. intros f1 f2 a. induction a as [|x a IH]; intros b s; [reflexivity|]. cbn [app bqueue_run]. apply IH. Qed.
Lemma broken_run : forall f1 f2 cap acts t s, minds f1 -> minds f2 -> breaking_inv cap t -> broken_inv t s -> exists turns, broken_inv (breaking_run f1 f2 cap acts t) (bqueue_run f1 f2 turns s).
Proof.
  intros f1 f2 cap acts. induction acts as [|a acts IH]; intros t s M1 M2 I J; [exists []; exact J|]. cbn [breaking_run]. destruct (breaking_step f1 f2 cap a t) as [t'|] eqn:E; [|apply IH; auto].
  destruct (broken_step _ _ _ _ _ _ _ M1 M2 I J E) as (l1 & J1). destruct (IH _ _ M1 M2 (breaking_inv_step _ _ _ _ _ _ M1 M2 I E) J1) as (l2 & J2). exists (l1 ++ l2). rewrite bqueue_run_app. exact J2.
Qed.
Lemma broken_new : forall s1 s2, works s1 -> works s2 -> broken_inv (breaking_new s1 s2) bqueues_new.
Proof.
  intros s1 s2 H1 H2. assert (forall c s, peer_past (peer_new c s) = []) as E by (intros ? []; reflexivity). unfold breaking_new, pairing_new, bqueues_new, queues_new. cbn [broken_inv]. rewrite !E.
  destruct (path_new 0 true s1 s2 H1) as (A & _). destruct (path_new 0 false s2 s1 H2) as (B & _). split; [reflexivity|]. split; [reflexivity|]. split; [reflexivity|]. split; [reflexivity|].
  split; left; exists [], []; cbn [app] in *; auto.
Qed.

(** ** C101: a connection that breaks is two queues that break *)
(** [C101] Whatever the programs, the kinds of their clients, the room of the network, the masking keys, the
    scheduling and the polls, and wherever in the bytes a direction breaks, what happens to the two
    programs, taken together, could have happened with two queues of messages (Spec/BrokenQueues.v) that
    break between messages. *)
Lemma breaking_is_queues_proof : forall f1 f2 cap s1 s2 acts, minds f1 -> minds f2 -> works s1 -> works s2 ->
  let t := breaking_run f1 f2 cap acts (breaking_new s1 s2) in
  exists turns, let s := bqueue_run f1 f2 turns bqueues_new in
    bk_client_past t = q_past1 (bq s) /\ bk_server_past t = q_past2 (bq s) /\ bk_up t = bq_up s /\ bk_down t = bq_down s.
Proof.
  intros f1 f2 cap s1 s2 acts M1 M2 H1 H2 t. destruct (broken_run f1 f2 cap acts _ _ M1 M2 (breaking_inv_new cap s1 s2 H1 H2) (broken_new s1 s2 H1 H2)) as (turns & J). fold t in J. exists turns. cbv zeta.
  destruct t as [[x y u d] bu bd]. destruct (bqueue_run f1 f2 turns bqueues_new) as [[p1 p2 qu qd] bu' bd']. destruct J as (-> & -> & -> & -> & _). unfold bk_client_past, bk_server_past. cbn [bk_pair p_client p_server bq q_past1 q_past2 bk_up bk_down bq_up bq_down]. auto.
Qed.
(*EX
(** The client says three messages; the way to the server breaks after the second, with four bytes of its
    frame under way.  With queues: after the second message the queue breaks and one message is left in it. *)
Definition talker : program := fun past =>
  match past with
  | [] => Some (Say (OText (str "one")))
  | [_] => Some (Say (OText (str "two")))
  | [_; _] => Some (Say (OBinary (str "three")))
  | [_; _; _] => Some Hear
  | _ => None
  end.
Definition listener : program := fun past =>
  match rev past with
  | NotHeard :: before => Some (Say (OBinary (firstn 100 (repeat x2a (List.length before)))))
  | Said _ :: _ => None
  | _ => Some Hear
  end.
Example talkers_mind : minds talker /\ minds listener.
Proof.
  split; intros past m H; unfold talker, listener in H;
    repeat match type of H with context [match ?x with _ => _ end] => destruct x; try discriminate H end;
    match type of H with Some (Say ?x) = _ => assert (m = x) as -> by congruence end;
    (split; [try exact I; apply ExTac.good_text; reflexivity|]);
    match goal with
    | |- (size (payload_of (_ (firstn ?n ?d))) <= _)%N => apply (ThmKinds.short n d); vm_compute; discriminate
    | _ => vm_compute; discriminate
    end.
Qed.
Definition talk_turns : list bkact :=
  [BkGo (PTurn true (mk_key x01 x02 x03 x04) 3); BkGo (PSend true 100); BkGo (PTurn true (mk_key x01 x02 x03 x04) 3); BkGo (PSend true 100); BkCut true 13] ++
  concat (repeat [BkGo (PTurn true (mk_key x01 x02 x03 x04) 3); BkGo (PSend true 3); BkGo (PRead true 2); BkEnd true;
   BkGo (PTurn false (mk_key x00 x00 x00 x00) 0); BkGo (PSend false 4); BkGo (PRead false 3); BkEnd false] 30).
Example breaking_is_queues_ex : forall s1 s2, In s1 [WithPolling 0; WithBlocking (mk_w [] [])] -> In s2 [WithPolling 0; WithBlocking (mk_w [] [])] ->
  let t := breaking_run talker listener 50 talk_turns (breaking_new s1 s2) in
  let s := bqueue_run talker listener [BTurn true; BTurn true; BBreak true 1; BTurn true; BTurn false; BTurn false; BTurn false; BTurn true] bqueues_new in
  bk_server_past t = [Heard (OText (str "one")); NotHeard; Said (OBinary (str "*"))] /\
  bk_server_past t = q_past2 (bq s) /\ bk_client_past t = q_past1 (bq s) /\ bq_up s = true.
Proof. intros s1 s2 [<-|[<-|[]]] [<-|[<-|[]]]; vm_compute; repeat split; reflexivity. Qed.
EX*)
(** ** And the other way: at every turn nothing is left over, so that the frames under way are the queue *)
Lemma says_idle : forall c x, says c x -> owes x = [] -> peer_free x.
Proof.
  intros c [[past rd wr [b|]]|a] S O; cbn [peer_free]; unfold free; pcbn_in; [|reflexivity|apply S; exact O].
  destruct S as (w & _ & _ & X). exfalso. apply X; [discriminate|exact O].
Qed.
Lemma takes_other : forall c y l l', takes c y (encs (masked_frames c l)) l -> Forall (sendable big) (map fst l') -> takes c y (encs (masked_frames c l')) l'.
Proof.
  intros c [u|a] l l' H F; cbn [takes] in *.
  - destruct H as (A & B & C & D). split; [exact A|]. split; [exact B|]. split; [|exact F]. apply (f_equal (@length byte)) in C as L. rewrite app_length in L.
    destruct (rd_buf (u_reader u) ++ flat (rd_in (u_reader u))); [reflexivity|cbn [length] in L; lia].
  - destruct H as (A & B & C & D). split; [exact A|]. split; [exact B|]. split; [|exact F]. cbn [aev_bytes app] in *. rewrite frames_encs in *. apply (f_equal (@length byte)) in C as L. rewrite app_length in L.
    destruct (fr_buf (au_read a)); [reflexivity|cbn [length] in L; lia].
Qed.
Lemma takes_good : forall c y q l, takes c y q l -> Forall (sendable big) (map fst l).
Proof. intros c [u|a] q l H; cbn [takes] in H; apply H. Qed.
Lemma send_moves : forall cap c q x, says c x -> owes x <> [] -> length q < cap -> exists x' q', peer_send cap (S cap) q x = Some (x', q') /\ length q < length q'.
Proof.
  intros cap c q [[past rd wr wt]|a] W O L; cbn [peer_send].
  - unfold user_send. pcbn_in. destruct wt as [[w o]|]; [|contradiction O; reflexivity]. cbn [rest1] in O. cbv zeta.
    pose proof (push_stuck (cap - length q) cap o ltac:(lia) O) as P. destruct (firstn (Nat.min (S cap) (cap - length q)) o) as [|b now]; [contradiction P; reflexivity|].
    eexists; eexists. split; [reflexivity|]. rewrite app_length. cbn [length]. lia.
  - cbn [says owes] in *. unfold auser_send. destruct (au_busy a) eqn:EB; [|contradiction O; apply W; reflexivity].
    destruct (poll_complete (with_room (Nat.min (S cap) (cap - length q)) 1 (au_out a))) as [z w'] eqn:EP.
    destruct (flush_sink _ 0 (with_room (Nat.min (S cap) (cap - length q)) 1 (au_out a)) _ _ (conj eq_refl eq_refl) EP) as (d & r' & k' & F1 & F2 & F3 & F4 & F5 & F6 & _).
    change (pend (with_room (Nat.min (S cap) (cap - length q)) 1 (au_out a))) with (pend (au_out a)) in F4.
    assert (awritten (au_out a) w' = d) as HW. { unfold awritten. rewrite F3. cbn [with_room fw_out]. rewrite skipn_app, skipn_all, Nat.sub_diag. reflexivity. }
    assert (d <> []) as HD.
    { destruct F6 as [[-> F6]|(-> & F6 & F7)]; intros ->; [rewrite F6 in F4; contradiction|cbn [length] in F5; lia]. }
    rewrite HW. destruct d as [|b d]; [contradiction HD; reflexivity|]. destruct F6 as [[-> F6]|(-> & F6 & F7)]; eexists; eexists; (split; [reflexivity|]); rewrite app_length; cbn [length]; lia.
Qed.
(** What a side has still to write is written, or lost. *)
Fixpoint peer_sends (cap : nat) (cut : bool) (n : nat) (q : bytes) (x : peer) : peer * bytes :=
  match n with
  | 0 => (x, q)
  | S n' => match peer_send cap (S cap) (if cut then [] else q) x with Some (x', q') => peer_sends cap cut n' (if cut then q else q') x' | None => peer_sends cap cut n' q x end
  end.
Lemma sends_up : forall f1 f2 cap n c s u d bu bd, breaking_run f1 f2 cap (repeat (BkGo (PSend true (S cap))) n) (mk_breaking (mk_pairing c s u d) bu bd) =
  let (c', u') := peer_sends cap bu n u c in mk_breaking (mk_pairing c' s u' d) bu bd.
Proof. intros f1 f2 cap n. induction n as [|n IH]; intros c s u d bu bd; [reflexivity|]. cbn [repeat breaking_run breaking_step peer_sends]. destruct (peer_send cap (S cap) (if bu then [] else u) c) as [[c' q]|]; apply IH. Qed.
Lemma sends_down : forall f1 f2 cap n c s u d bu bd, breaking_run f1 f2 cap (repeat (BkGo (PSend false (S cap))) n) (mk_breaking (mk_pairing c s u d) bu bd) =
  let (s', d') := peer_sends cap bd n d s in mk_breaking (mk_pairing c s' u d') bu bd.
Proof. intros f1 f2 cap n. induction n as [|n IH]; intros c s u d bu bd; [reflexivity|]. cbn [repeat breaking_run breaking_step peer_sends]. destruct (peer_send cap (S cap) (if bd then [] else d) s) as [[c' q]|]; apply IH. Qed.
Lemma reads_trans : forall x y z, reads_as x y -> reads_as y z -> reads_as x z.
Proof. intros x y z A B c. split; intros; apply B; apply A; assumption. Qed.
Lemma reads_refl : forall x, reads_as x x.
Proof. intros x c. split; auto. Qed.
Lemma drains : forall cap c (cut : bool) j q x, says c x -> length (owes x) <= j -> 1 <= cap -> (cut = false -> length q + length (owes x) <= cap) ->
  exists n x', peer_sends cap cut n q x = (x', if cut then q else q ++ owes x) /\ says c x' /\ owes x' = [] /\ reads_as x x' /\ peer_past x' = peer_past x.
Proof.
  intros cap c cut j. induction j as [|j IH]; intros q x W L C B.
  - assert (owes x = []) as E by (destruct (owes x); [reflexivity|cbn [length] in L; lia]). exists 0, x. cbn [peer_sends]. rewrite E, app_nil_r. split; [destruct cut; reflexivity|]. split; [exact W|]. split; [reflexivity|]. split; [apply reads_refl|reflexivity].
  - destruct (owes x) as [|b o] eqn:E.
    + exists 0, x. cbn [peer_sends]. rewrite app_nil_r. split; [destruct cut; reflexivity|]. split; [exact W|]. split; [exact E|]. split; [apply reads_refl|reflexivity].
    + assert (length (if cut then [] else q) < cap) as LQ by (destruct cut; cbn [length] in *; [lia|specialize (B eq_refl); lia]).
      destruct (send_moves cap c (if cut then [] else q) x W ltac:(rewrite E; discriminate) LQ) as (x1 & q1 & E1 & E2).
      destruct (b_send cap c _ _ _ _ _ W (Nat.lt_le_incl _ _ LQ) E1) as (d & D1 & D2 & D3 & D4 & D5 & D6). assert (length q1 = length (if cut then [] else q) + length d) as LD by (rewrite D1; apply app_length).
      assert (length (b :: o) = length d + length (owes x1)) as LO by (rewrite <- E, D2; apply app_length).
      destruct (IH (if cut then q else q1) x1 D3 ltac:(lia) C) as (n & x' & N1 & N2 & N3 & N4 & N5).
      { intros ->. specialize (B eq_refl). lia. }
      exists (S n), x'. cbn [peer_sends]. match goal with |- context [peer_send ?a ?b ?c ?d] => replace (peer_send a b c d) with (Some (x1, q1)) by (symmetry; exact E1) end. split; [refine (eq_trans N1 _)|split; [exact N2|]; split; [exact N3|]; split; [exact (reads_trans _ _ _ D4 N4)|congruence]].
      f_equal. destruct cut; [reflexivity|]. rewrite <- E, D2, D1, app_assoc. reflexivity.
Qed.
Lemma says_goes : forall c c' f k q x m, minds f -> says c x -> owes x = [] -> (exists z l, takes c' x z l) \/ dead c' x -> f (peer_past x) = Some (Say m) ->
  exists x1, peer_turn c f k 0 q x = Some (x1, []) /\ says c x1 /\ reads_as x x1 /\ peer_past x1 = peer_past x ++ [if goes m then Said m else NotSaid m] /\
    exists k', owes x1 = if goes m then encs (masked_frames c [(m, k')]) else [].
Proof.
  intros c c' f k q x m M W O TD EF. pose proof (says_idle _ _ W O) as F.
  assert (exists x1 o, peer_turn c f k 0 q x = Some (x1, o)) as (x1 & o & E).
  { destruct (M _ _ EF) as [HT HS]. destruct x as [[past rd wr wt]|a]; cbn [peer_turn].
    - cbn [peer_free] in F. unfold free in F. pcbn_in. subst wt. unfold user_turn. pcbn. rewrite EF. destruct (writer_send m k wr) as [[z|er| |] w1]; eauto.
    - cbn [says peer_free peer_past] in *. destruct (turned c f k 0%N m a W F EF M) as (w' & P1 & P2). rewrite P2. eauto. }
  pose proof (turn_does _ _ _ _ _ _ _ _ M W E) as D. destruct D as [(m0 & D1 & D2)|(D1 & _)]; [|congruence]. assert (m0 = m) as -> by congruence.
  destruct (b_turn _ _ _ _ _ _ _ _ M W E) as (-> & [(A & R & [(m1 & k1 & E1 & E2 & E3)|(m1 & E1 & E2)])|(S1 & S2 & S3)]); exists x1; (split; [exact E|]).
  - split; [exact A|]. split; [exact R|]. split; [exact D2|]. rewrite D2 in E1. apply app_inj_tail in E1 as [_ E1]. destruct (goes m); [|discriminate E1]. injection E1 as <-. exists k1. rewrite E3, O. reflexivity.
  - split; [exact A|]. split; [exact R|]. split; [exact D2|]. rewrite D2 in E1. apply app_inj_tail in E1 as [_ E1]. destruct (goes m); [discriminate E1|]. exists k. congruence.
  - exfalso. destruct (S3 c') as [T1 T2]. destruct TD as [(z & l & T)|T]; [|exact (T1 T)]. destruct (T2 _ _ T) as (m1 & j & l' & _ & E1 & _). rewrite D2 in E1. apply app_inj_tail in E1 as [_ E1]. destruct (goes m); discriminate E1.
Qed.
(** A reader reads the bytes of one message. *)
Lemma read_piece : forall f n q x x' z, peer_read f n (firstn n q) x = Some (x', z) -> peer_read f n q x = Some (x', z ++ skipn n q).
Proof.
  intros f n q [u|a] x' z H; cbn [peer_read] in *.
  - unfold user_read, arrive in *. rewrite firstn_firstn, Nat.min_id in H. destruct (u_write u); [discriminate H|]. destruct (f (u_past u)) as [[m|]|]; try discriminate H. destruct (lacks (u_reader u)); [|discriminate H].
    assert (skipn n (firstn n q) = []) as E by (apply skipn_all2; rewrite firstn_length; lia). rewrite E in H. destruct (firstn n q); [discriminate H|]. injection H as <- <-. reflexivity.
  - unfold auser_read, apiece in *. rewrite firstn_firstn, Nat.min_id in H. destruct (au_busy a); [discriminate H|]. destruct (f (au_past a)) as [[m|]|]; try discriminate H.
    assert (skipn n (firstn n q) = []) as E by (apply skipn_all2; rewrite firstn_length; lia). rewrite E in H.
    destruct (framed_poll mc_decode (can_read false 1 match firstn n q with [] => [] | b :: bs => [AData b bs] end) (au_read a)) as [[p r'] s']. rewrite app_nil_r in H.
    destruct p; try (injection H as <- <-; reflexivity). destruct (firstn n q); [discriminate H|]. injection H as <- <-. reflexivity.
Qed.
Lemma hears_one : forall c c' f k q x m j, says c x -> owes x = [] -> takes c' x (encs (masked_frames c' [(m, j)])) [(m, j)] -> f (peer_past x) = Some Hear ->
  let b := encs (masked_frames c' [(m, j)]) in
  exists x', (peer_read f (length b) b x = Some (x', []) \/ exists x1, peer_read f (length b) b x = Some (x1, []) /\ peer_turn c f k 0 q x1 = Some (x', [])) /\
    says c x' /\ owes x' = [] /\ takes c' x' [] [] /\ peer_past x' = peer_past x ++ [Heard m].
Proof.
  intros c c' f k q x m j W O T EF b. pose proof (says_idle _ _ W O) as F. assert (b <> []) as HB by (intros X; pose proof (one_length c' m j) as HL; fold b in HL; rewrite X in HL; cbn [length] in HL; lia). fold b in T.
  destruct x as [[past rd wr wt]|a].
  - cbn [peer_free] in F. unfold free in F. pcbn_in. subst wt.
    assert (lacks rd = true) as HL.
    { unfold lacks. destruct (pipe_stops _ _ _ _ T) as [(m1 & k1 & l' & r' & E1 & E2 & E3)|(r' & E & _)]; [|rewrite E; reflexivity]. exfalso. injection E1 as <- <- <-. destruct E3 as (_ & _ & E3 & _). change (encs (masked_frames c' [])) with (@nil byte) in E3. apply app_eq_nil in E3 as [_ E3]. contradiction. }
    destruct (arrive (length b) b rd) as [[r1 q1]|] eqn:EA; [|unfold arrive in EA; rewrite firstn_all in EA; destruct b; [contradiction HB; reflexivity|discriminate EA]].
    assert (q1 = []) as -> by (unfold arrive in EA; rewrite firstn_all, skipn_all in EA; destruct b; [discriminate EA|injection EA as _ <-; reflexivity]).
    destruct (pipe_arrive _ _ _ _ _ _ _ T EA) as (T1 & _). destruct (pipe_stops _ _ _ _ T1) as [(m1 & k1 & l' & r' & E1 & E2 & E3)|(r' & E & _ & [X|(m1 & k1 & l' & X & Y)])].
    + injection E1 as <- <- <-. exists (Blocking (mk_user (past ++ [Heard m]) r' wr None)). split; [right; exists (Blocking (mk_user past r1 wr None)); split|].
      * cbn [peer_read]. unfold user_read. pcbn. rewrite EF, HL, EA. reflexivity.
      * cbn [peer_turn]. unfold user_turn. pcbn. rewrite EF, E2. reflexivity.
      * pcbn. auto.
    + discriminate X.
    + exfalso. injection X as <- <- <-. cbn [length] in Y. lia.
  - cbn [peer_free peer_past] in *. cbn [takes] in T. destruct (polled _ f (length b) b [] a _ ltac:(rewrite app_nil_r; exact T) F EF) as [(m1 & k1 & l' & q' & r' & E0 & E1 & E2 & E3)|(r' & _ & E1 & _)].
    + injection E0 as <- <- <-. rewrite app_nil_r in E2. assert (q' = []) as -> by (destruct E2 as (_ & _ & E2 & _); cbn [aev_bytes app] in E2; rewrite frames_encs in E2; change (encs (masked_frames c' [])) with (@nil byte) in E2; apply app_eq_nil in E2; apply E2).
      exists (Polling (mk_auser (au_past a ++ [Heard m]) r' (au_out a) false)). split; [left; cbn [peer_read]; rewrite E1; reflexivity|]. cbn [says owes] in *. pcbn. split; [rewrite F in W; exact W|]. auto.
    + exfalso. rewrite skipn_all in E1. destruct E1 as [E1|E1]; [discriminate E1|contradiction E1; reflexivity].
Qed.
Lemma ends_now : forall c c' f x, says c x -> owes x = [] -> takes c' x [] [] \/ dead c' x -> f (peer_past x) = Some Hear ->
  exists x', peer_end f true [] x = Some x' /\ says c x' /\ owes x' = [] /\ dead c' x' /\ peer_past x' = peer_past x ++ [NotHeard].
Proof.
  intros c c' f x W O TD EF. pose proof (says_idle _ _ W O) as F.
  assert (exists x', peer_end f true [] x = Some x') as (x' & E).
  { destruct x as [[past rd wr wt]|a]; unfold peer_end.
    - cbn [peer_free] in F. unfold free in F. pcbn_in. subst wt. rewrite EF. cbn [dead u_reader] in TD. assert (pipe c' rd [] []) as T by (destruct TD; assumption). destruct (recv_nothing _ _ T) as (r' & E & _). rewrite E. cbn [must_wait andb negb]. eauto.
    - cbn [peer_free peer_past] in *. rewrite F, EF. cbn [can_read app takes dead] in *. destruct TD as [T|(b & E1 & E2)].
      + destruct (apipe_stops _ _ _ _ T) as [(m & k & l' & r' & X & _)|(b & E & _)]; [discriminate X|]. rewrite E. destruct b; cbn [stop_poll]; eauto.
      + rewrite E1, poll_stopped by exact E2. destruct b; cbn [stop_poll]; eauto. }
  exists x'. split; [exact E|]. destruct TD as [T|T].
  - destruct (b_end _ _ _ _ _ _ T E) as (A & B & [(m & k & l' & X & _)|(C & D & _)]); [discriminate X|]. split; [apply A; exact W|]. split; [congruence|]. auto.
  - destruct (b_end_dead _ _ _ _ T E) as (A & B & C & D). split; [apply A; exact W|]. split; [congruence|]. auto.
Qed.
Lemma masked_app : forall c a b, masked_frames c (a ++ b) = masked_frames c a ++ masked_frames c b.
Proof. intros c a b. unfold masked_frames. apply map_app. Qed.
(** A direction where all that was said is in the network, in whole frames, and the reader has read whole
    frames only; [qs] is the queue. *)
Definition tidy (c cut : bool) (x y : peer) (net : bytes) (qs : list owned) : Prop :=
  says c x /\ owes x = [] /\
  ((exists on, takes c y net on /\ net = encs (masked_frames c on) /\ map fst on = qs) \/ (cut = true /\ net = [] /\ dead c y /\ qs = [])).
Lemma tidy_alive : forall c cut x y net qs, tidy c cut x y net qs -> (exists z l, takes c y z l) \/ dead c y.
Proof. intros c cut x y net qs (_ & _ & [(on & T & _)|(_ & _ & D & _)]); [left; eauto|right; exact D]. Qed.
Lemma tidy_reads : forall c cut x y y' net qs, reads_as y y' -> tidy c cut x y net qs -> tidy c cut x y' net qs.
Proof. intros c cut x y y' net qs R (A & B & [(on & T & H)|(C & D & E & F)]); (split; [exact A|]); (split; [exact B|]); [left; exists on; split; [apply R; exact T|exact H]|right; split; [exact C|]; split; [exact D|]; split; [apply R; exact E|exact F]]. Qed.
Lemma tidy_quiet : forall c cut x x' y net qs, says c x' -> owes x' = [] -> tidy c cut x y net qs -> tidy c cut x' y net qs.
Proof. intros c cut x x' y net qs A B (_ & _ & C). split; [exact A|]. split; [exact B|exact C]. Qed.
Lemma tidy_said : forall c cut x x' y net qs m k, sendable big m -> says c x' -> owes x' = [] -> tidy c cut x y net qs ->
  tidy c cut x' y (if cut then net else net ++ encs (masked_frames c [(m, k)])) (if cut then qs else qs ++ [m]).
Proof.
  intros c cut x x' y net qs m k HS A B (_ & _ & C). split; [exact A|]. split; [exact B|]. destruct cut; [exact C|]. destruct C as [(on & T & -> & <-)|(C & _)]; [|discriminate C]. left. exists (on ++ [(m, k)]).
  split; [apply takes_more; assumption|]. split; [rewrite masked_app, encs_app; reflexivity|rewrite map_app; reflexivity].
Qed.
Lemma real_turn : forall cap c f cu cd x y out inn u d past' u' d', 1 <= cap -> minds f -> tidy c cu x y out u -> tidy (negb c) cd y x inn d ->
  broken_deed f cu cd (peer_past x) u d = Some (past', u', d') -> bytes_of c u' <= cap ->
  exists x' out' inn', tidy c cu x' y out' u' /\ tidy (negb c) cd y x' inn' d' /\ peer_past x' = past' /\
    ((exists k n x1, peer_turn c f k 0 inn x = Some (x1, []) /\ peer_sends cap cu n out x1 = (x', out') /\ inn' = inn) \/
     (exists k n x1, peer_read f n inn x = Some (x1, inn') /\ (x1 = x' \/ peer_turn c f k 0 inn' x1 = Some (x', [])) /\ out' = out) \/
     (peer_end f cd inn x = Some x' /\ out' = out /\ inn' = inn)).
Proof.
  intros cap c f cu cd x y out inn u d past' u' d' C M W1 W2 H B. pose proof W1 as (S1 & O1 & V1). pose proof W2 as (S2 & O2 & V2). set (k := mk_key x00 x00 x00 x00).
  destruct (f (peer_past x)) as [[m|]|] eqn:EF.
  - rewrite (does_say _ _ _ _ _ _ _ EF) in H. destruct (says_goes c (negb c) f k inn x m M S1 O1 (tidy_alive _ _ _ _ _ _ W2) EF) as (x1 & E1 & E2 & E3 & E4 & k' & E5).
    destruct (goes m) eqn:EG; injection H as <- <- <-.
    + destruct (M _ _ EF) as [HT HS]. destruct (drains cap c cu (length (owes x1)) out x1 E2 (le_n _) C) as (n & x' & N1 & N2 & N3 & N4 & N5).
      { intros ->. destruct V1 as [(on & T & -> & <-)|(X & _)]; [|discriminate X]. rewrite E5, !bytes_frames. cbn [map fst]. rewrite bytes_app in B. exact B. }
      rewrite E5 in N1. exists x', (if cu then out else out ++ encs (masked_frames c [(m, k')])), inn. split; [exact (tidy_said _ _ _ _ _ _ _ _ k' (goes_sendable m HT HS EG) N2 N3 W1)|].
      split; [exact (tidy_reads _ _ _ _ _ _ _ (reads_trans _ _ _ E3 N4) W2)|]. split; [congruence|]. left. exists k, n, x1. auto.
    + exists x1, out, inn. split; [exact (tidy_quiet _ _ _ _ _ _ _ E2 E5 W1)|]. split; [exact (tidy_reads _ _ _ _ _ _ _ E3 W2)|]. split; [exact E4|]. left. exists k, 0, x1. auto.
  - destruct d as [|m d].
    + destruct cd; [|unfold broken_deed, deed_or_end, deed_done in H; rewrite EF in H; discriminate H]. rewrite (does_end _ _ _ _ EF) in H. injection H as <- <- <-.
      assert (inn = [] /\ (takes (negb c) x [] [] \/ dead (negb c) x)) as [-> TD].
      { destruct V2 as [(on & T & -> & E)|(_ & -> & D & _)]; [|auto]. destruct on; [|discriminate E]. auto. }
      destruct (ends_now c (negb c) f x S1 O1 TD EF) as (x' & E1 & E2 & E3 & E4 & E5). exists x', out, []. split; [exact (tidy_quiet _ _ _ _ _ _ _ E2 E3 W1)|]. split; [|split; [exact E5|right; right; auto]].
      split; [exact S2|]. split; [exact O2|]. right. auto.
    + rewrite (does_hear _ _ _ _ _ _ _ EF) in H. injection H as <- <- <-. destruct V2 as [(on & T & -> & E)|(_ & _ & _ & X)]; [|discriminate X]. destruct on as [|[m' j] l]; [discriminate E|]. cbn [map fst] in E. injection E as -> <-.
      pose proof (takes_good _ _ _ _ T) as G. cbn [map fst] in G. inversion G as [|? ? G1 G2]; subst.
      assert (takes (negb c) x (encs (masked_frames (negb c) [(m, j)])) [(m, j)]) as T1 by (apply (takes_other _ _ _ _ T); constructor; [exact G1|constructor]).
      set (b := encs (masked_frames (negb c) [(m, j)])) in *. set (r := encs (masked_frames (negb c) l)).
      assert (encs (masked_frames (negb c) ((m, j) :: l)) = b ++ r) as EB by (unfold b, r; rewrite <- encs_app, <- masked_app; reflexivity). rewrite EB.
      destruct (hears_one c (negb c) f k r x m j S1 O1 T1 EF) as (x' & P & E2 & E3 & E4 & E5). fold b in P.
      assert (forall x1, peer_read f (length b) b x = Some (x1, []) -> peer_read f (length b) (b ++ r) x = Some (x1, r)) as RP.
      { intros x1 X. pose proof (read_piece f (length b) (b ++ r) x x1 []) as Y. rewrite firstn_app, firstn_all, Nat.sub_diag, firstn_O, app_nil_r, skipn_app, skipn_all, Nat.sub_diag in Y. exact (Y X). }
      exists x', out, r. split; [exact (tidy_quiet _ _ _ _ _ _ _ E2 E3 W1)|]. split; [|split; [exact E5|right; left]].
      * split; [exact S2|]. split; [exact O2|]. left. exists l. split; [apply (takes_other _ _ [] l); assumption|]. auto.
      * destruct P as [P|(x1 & P1 & P2)]; [exists k, (length b), x'; auto|exists k, (length b), x1; auto].
  - unfold broken_deed, deed_or_end, deed_done in H. rewrite EF in H. destruct cd, d; discriminate H.
Qed.
Lemma real_break : forall c x y net qs n, tidy c false x y net qs -> exists j, tidy c true x y (firstn j net) (firstn n qs).
Proof.
  intros c x y net qs n (A & B & [(on & T & -> & <-)|(X & _)]); [|discriminate X]. exists (length (encs (masked_frames c (firstn n on)))). split; [exact A|]. split; [exact B|]. left. exists (firstn n on).
  assert (firstn (length (encs (masked_frames c (firstn n on)))) (encs (masked_frames c on)) = encs (masked_frames c (firstn n on))) as E.
  { rewrite <- (firstn_skipn n on) at 2. rewrite masked_app, encs_app, firstn_app, firstn_all, Nat.sub_diag, firstn_O, app_nil_r. reflexivity. }
  rewrite E. split; [|split; [reflexivity|symmetry; apply firstn_map]]. apply (takes_other _ _ _ _ T). pose proof (takes_good _ _ _ _ T) as G. rewrite <- (firstn_skipn n on), map_app in G. apply Forall_app in G. apply G.
Qed.
Definition tidy_inv (t : breaking) (s : bqueues) : Prop :=
  let '(mk_breaking (mk_pairing x y u d) bu bd) := t in let '(mk_bqueues (mk_queues p1 p2 qu qd) bu' bd') := s in
  bu' = bu /\ bd' = bd /\ p1 = peer_past x /\ p2 = peer_past y /\ tidy true bu x y u qu /\ tidy false bd y x d qd.
Lemma real_step : forall f1 f2 cap a t s s', 1 <= cap -> minds f1 -> minds f2 -> tidy_inv t s -> bqueue_step f1 f2 a s = Some s' ->
  up_bytes (q_up (bq s')) <= cap -> down_bytes (q_down (bq s')) <= cap -> exists acts, tidy_inv (breaking_run f1 f2 cap acts t) s'.
Proof.
  intros f1 f2 cap a [[x y u d] bu bd] [[p1 p2 qu qd] bu' bd'] s' C M1 M2 (-> & -> & -> & -> & V1 & V2) H B1 B2. destruct a as [[]|[] n]; cbn [bqueue_step] in H.
  - destruct (broken_deed f1 bu bd (peer_past x) qu qd) as [[[p' u'] d']|] eqn:ED; [|discriminate H]. injection H as <-. cbn [bq q_up q_down] in B1, B2.
    destruct (real_turn cap true f1 bu bd x y u d qu qd p' u' d' C M1 V1 V2 ED B1) as (x' & o & i & W1 & W2 & <- & [(k & n & x1 & E1 & E2 & ->)|[(k & n & x1 & E1 & E2 & ->)|(E1 & -> & ->)]]).
    + exists (BkGo (PTurn true k 0) :: repeat (BkGo (PSend true (S cap))) n). cbn [breaking_run breaking_step pairing_step]. rewrite E1, app_nil_r, sends_up, E2. cbn [tidy_inv]. auto 8.
    + destruct E2 as [->|E2].
      * exists [BkGo (PRead true n)]. cbn [breaking_run breaking_step pairing_step]. rewrite E1. cbn [tidy_inv]. auto 8.
      * exists [BkGo (PRead true n); BkGo (PTurn true k 0)]. cbn [breaking_run breaking_step pairing_step]. rewrite E1. cbn [breaking_step pairing_step]. rewrite E2, app_nil_r. cbn [tidy_inv]. auto 8.
    + exists [BkEnd true]. cbn [breaking_run breaking_step]. rewrite E1. cbn [tidy_inv]. auto 8.
  - destruct (broken_deed f2 bd bu (peer_past y) qd qu) as [[[p' d'] u']|] eqn:ED; [|discriminate H]. injection H as <-. cbn [bq q_up q_down] in B1, B2.
    destruct (real_turn cap false f2 bd bu y x d u qd qu p' d' u' C M2 V2 V1 ED B2) as (x' & o & i & W1 & W2 & <- & [(k & n & x1 & E1 & E2 & ->)|[(k & n & x1 & E1 & E2 & ->)|(E1 & -> & ->)]]).
    + exists (BkGo (PTurn false k 0) :: repeat (BkGo (PSend false (S cap))) n). cbn [breaking_run breaking_step pairing_step]. rewrite E1, app_nil_r, sends_down, E2. cbn [tidy_inv]. auto 8.
    + destruct E2 as [->|E2].
      * exists [BkGo (PRead false n)]. cbn [breaking_run breaking_step pairing_step]. rewrite E1. cbn [tidy_inv]. auto 8.
      * exists [BkGo (PRead false n); BkGo (PTurn false k 0)]. cbn [breaking_run breaking_step pairing_step]. rewrite E1. cbn [breaking_step pairing_step]. rewrite E2, app_nil_r. cbn [tidy_inv]. auto 8.
    + exists [BkEnd false]. cbn [breaking_run breaking_step]. rewrite E1. cbn [tidy_inv]. auto 8.
  - destruct bu; [discriminate H|]. injection H as <-. destruct (real_break _ _ _ _ _ n V1) as (j & W). exists [BkCut true j]. cbn [breaking_run breaking_step tidy_inv]. auto 8.
  - destruct bd; [discriminate H|]. injection H as <-. destruct (real_break _ _ _ _ _ n V2) as (j & W). exists [BkCut false j]. cbn [breaking_run breaking_step tidy_inv]. auto 8.
Qed.
Lemma real_run : forall f1 f2 cap turns t s, 1 <= cap -> minds f1 -> minds f2 -> tidy_inv t s ->
  (forall n, let s' := bq (bqueue_run f1 f2 (firstn n turns) s) in up_bytes (q_up s') <= cap /\ down_bytes (q_down s') <= cap) ->
  exists acts, tidy_inv (breaking_run f1 f2 cap acts t) (bqueue_run f1 f2 turns s).
Proof.
  intros f1 f2 cap turns. induction turns as [|a turns IH]; intros t s C M1 M2 I HB; [exists []; exact I|]. cbn [bqueue_run]. destruct (bqueue_step f1 f2 a s) as [s'|] eqn:E.
  - pose proof (HB 1) as [B1 B2]. cbn [firstn bqueue_run] in B1, B2. rewrite E in B1, B2. destruct (real_step _ _ _ _ _ _ _ C M1 M2 I E B1 B2) as (l1 & J).
    destruct (IH _ _ C M1 M2 J) as (l2 & K). { intros n. specialize (HB (S n)). cbn [firstn bqueue_run] in HB. rewrite E in HB. exact HB. }
    exists (l1 ++ l2). rewrite breaking_run_app. exact K.
  - apply IH; auto. intros n. specialize (HB (S n)). cbn [firstn bqueue_run] in HB. rewrite E in HB. exact HB.
Qed.
Lemma tidy_new : forall s1 s2, works s1 -> works s2 -> tidy_inv (breaking_new s1 s2) bqueues_new.
Proof.
  intros s1 s2 H1 H2. assert (forall c s, peer_past (peer_new c s) = []) as E by (intros ? []; reflexivity). unfold breaking_new, pairing_new, bqueues_new, queues_new. cbn [tidy_inv]. rewrite !E.
  assert (forall c s, owes (peer_new c s) = []) as O by (intros ? []; reflexivity).
  destruct (path_new 0 true s1 s2 H1) as (A & A2 & _). destruct (path_new 0 false s2 s1 H2) as (B & B2 & _). rewrite O in A, B. cbn [negb] in *. split; [reflexivity|]. split; [reflexivity|]. split; [reflexivity|]. split; [reflexivity|].
  split; (split; [assumption|]; split; [apply O|]; left; exists []; cbn [app] in *; auto).
Qed.
(** [C101] And the other way: whatever could happen with queues that break and never hold more than the
    network has room for, happens to the programs in some run, with either kind of client at either
    end. *)
Lemma queues_are_breaking_proof : forall f1 f2 cap s1 s2 turns, minds f1 -> minds f2 -> works s1 -> works s2 -> (1 <= cap)%nat ->
  (forall n, let s := bq (bqueue_run f1 f2 (firstn n turns) bqueues_new) in (up_bytes (q_up s) <= cap)%nat /\ (down_bytes (q_down s) <= cap)%nat) ->
  exists acts, let t := breaking_run f1 f2 cap acts (breaking_new s1 s2) in let s := bqueue_run f1 f2 turns bqueues_new in
    bk_client_past t = q_past1 (bq s) /\ bk_server_past t = q_past2 (bq s) /\ bk_up t = bq_up s /\ bk_down t = bq_down s.
Proof.
  intros f1 f2 cap s1 s2 turns M1 M2 H1 H2 C HB. destruct (real_run f1 f2 cap turns _ _ C M1 M2 (tidy_new s1 s2 H1 H2) HB) as (acts & J). exists acts. cbv zeta.
  destruct (breaking_run f1 f2 cap acts (breaking_new s1 s2)) as [[x y u d] bu bd]. destruct (bqueue_run f1 f2 turns bqueues_new) as [[p1 p2 qu qd] bu' bd']. destruct J as (-> & -> & -> & -> & _).
  unfold bk_client_past, bk_server_past. cbn [bk_pair p_client p_server bq q_past1 q_past2 bk_up bk_down bq_up bq_down]. auto.
Qed.
(*EX
Example queues_are_breaking_ex :
  let turns := [BTurn true; BTurn true; BBreak true 1; BTurn true; BTurn false; BTurn false; BTurn false; BTurn true] in
  (forall n, let s := bq (bqueue_run talker listener (firstn n turns) bqueues_new) in (up_bytes (q_up s) <= 18)%nat /\ (down_bytes (q_down s) <= 3)%nat) /\
  q_past2 (bq (bqueue_run talker listener turns bqueues_new)) = [Heard (OText (str "one")); NotHeard; Said (OBinary (str "*"))].
Proof.
  split; [|vm_compute; reflexivity]. intros n. do 9 (destruct n as [|n]; [split; apply PeanoNat.Nat.leb_le; vm_compute; reflexivity|]).
  split; apply PeanoNat.Nat.leb_le; cbn [firstn]; rewrite ?firstn_nil; vm_compute; reflexivity.
Qed.
EX*)

Lemma room_for : forall f1 f2 turns s, exists cap, 1 <= cap /\ forall n, let s' := bq (bqueue_run f1 f2 (firstn n turns) s) in up_bytes (q_up s') <= cap /\ down_bytes (q_down s') <= cap.
Proof.
  intros f1 f2 turns. induction turns as [|a turns IH]; intros s.
  - exists (S (up_bytes (q_up (bq s)) + down_bytes (q_down (bq s)))). split; [lia|]. intros n. rewrite firstn_nil. cbn [bqueue_run]. cbv zeta. lia.
  - destruct (IH (match bqueue_step f1 f2 a s with Some s' => s' | None => s end)) as (cap & C & H). exists (cap + up_bytes (q_up (bq s)) + down_bytes (q_down (bq s))). split; [lia|].
    intros [|n]; cbn [firstn bqueue_run]; cbv zeta; [lia|]. specialize (H n). cbv zeta in H. lia.
Qed.
(** [C101] So a connection that breaks does not show what clients are at its ends: what happened to two
    programs can happen to them with clients of any other kinds, on a network with room enough. *)
Lemma breaking_kinds_proof : forall f1 f2 cap s1 s2 acts, minds f1 -> minds f2 -> works s1 -> works s2 ->
  let t := breaking_run f1 f2 cap acts (breaking_new s1 s2) in
  forall s1' s2', works s1' -> works s2' -> exists cap' acts', let t' := breaking_run f1 f2 cap' acts' (breaking_new s1' s2') in
    bk_client_past t' = bk_client_past t /\ bk_server_past t' = bk_server_past t /\ bk_up t' = bk_up t /\ bk_down t' = bk_down t.
Proof.
  intros f1 f2 cap s1 s2 acts M1 M2 H1 H2 t s1' s2' H3 H4. destruct (breaking_is_queues_proof f1 f2 cap s1 s2 acts M1 M2 H1 H2) as (turns & A1 & A2 & A3 & A4). fold t in A1, A2, A3, A4.
  destruct (room_for f1 f2 turns bqueues_new) as (cap' & C & HB). destruct (queues_are_breaking_proof f1 f2 cap' s1' s2' turns M1 M2 H3 H4 C HB) as (acts' & B1 & B2 & B3 & B4). exists cap', acts'. cbv zeta. repeat split; congruence.
Qed.
(*EX
Example breaking_kinds_ex : works (WithPolling 7) /\ works (WithBlocking (mk_w [] [])) /\
  bk_server_past (breaking_run talker listener 50 talk_turns (breaking_new (WithPolling 7) (WithBlocking (mk_w [] [])))) =
  bk_server_past (breaking_run talker listener 50 talk_turns (breaking_new (WithBlocking (mk_w [] [])) (WithPolling 7))).
Proof. split; [exact I|]. split; [|vm_compute; reflexivity]. constructor. Qed.
EX*)
