(** Two programs and the two queues of messages between them: C95. *)
From Coq Require Import NArith ZArith String Bool List Lia.
From Coq Require Import ZifyBool ZifyNat ZifyN.
From Coq.Strings Require Import Byte.
From Verif.Model Require Import Base Io Header Mask Dataframe Utf8 Text Headers
  Message Receiver Codec Framed Connect Examples ChatClient Talk Narrow Errand Dialogue Programs.
From Verif.Spec Require Import RfcFrame FrameSpec Schedule Unicode Drive Session Connection Polled Fields Echo Chat Talking AsyncChat Errands Dialogues Queues.
From Verif.Proofs Require Import BaseFacts MaskFacts HeaderFacts FrameFacts CodecFacts ScriptFacts
  Machine Utf8Facts ThmFrames ThmStream SessionFacts RecvFacts MessageFacts
  TextFacts ExTac ThmMessages ThmFlow ThmLimits ThmInterop ThmEcho ThmChat ThmTalk ThmNarrow AsyncTalkFacts ThmCrossed ThmErrand ThmDialogue.
Import ListNotations.
Local Open Scope string_scope.
Local Open Scope list_scope.
Local Open Scope nat_scope.

(** ** What is sent and what is refused *)
Lemma goes_sendable : forall m, typed m -> (size (payload_of m) <= 104857600)%N -> goes m = true -> sendable big m.
Proof.
  intros m H1 H2 H3. split; [exact H1|]. split; [exact H2|]. destruct m; cbn [control_message]; try contradiction; intros _; cbn [goes] in H3; apply N.leb_le in H3; exact H3.
Qed.
Lemma not_sent : forall c m k w, goes m = false -> exists e, writer_send m k (mk_writer (mk_sender c) w) = (Err e, mk_writer (mk_sender c) w).
Proof.
  intros c m k w H. unfold writer_send, writer_send_frame, send_frame. cbn [wr_sender wr_out s_mask].
  assert (exists e, write_to (owned_ops m) (if c then Some k else None) w = (Err (DataFrameError e), w)) as [e ->]; [|eauto].
  apply send_refused_iff_proof; [destruct m; reflexivity|]. right.
  unfold goes in H. destruct m as [d|d|[cl|]|d|d]; try discriminate H; apply N.leb_gt in H; unfold owned_ops; cbn [df_opcode df_size]; (split; [vm_compute; discriminate|]);
    unfold size, payload_of in H; rewrite ?app_length in H; unfold llen; try (cbn [length] in H); lia.
Qed.

(** ** The whole *)
Definition way (cap : nat) (c : bool) (x y : user) (net : bytes) (on : list (owned * mkey)) : Prop :=
  exists w, pipe c (u_reader y) (net ++ rest1 (u_write x)) on /\
  (writer1 (u_write x) (u_writer x) = mk_writer (mk_sender c) w /\ never_fails w) /\
  (u_write x <> None -> rest1 (u_write x) <> []) /\ length net <= cap.
Ltac ucbn := cbn [u_past u_reader u_writer u_write rest1 writer1].
Ltac ucbn_in := cbn [u_past u_reader u_writer u_write rest1 writer1] in *.

Lemma u_turn_step : forall cap c f k x y out inn x' o ux uy, minds f -> way cap c x y out ux -> way cap (negb c) y x inn uy ->
  user_turn f k inn x = Some (x', o) ->
  o = [] /\ exists ux' uy', way cap c x' y out ux' /\ way cap (negb c) y x' inn uy' /\
    deed_done f (u_past x) (map fst ux) (map fst uy) = Some (u_past x', map fst ux', map fst uy').
Proof.
  intros cap c f k [past rd wr wt] y out inn x' o ux uy HF H1 H2 H. unfold user_turn in H. unfold deed_done. ucbn_in. destruct wt as [a|]; [discriminate H|].
  destruct (f past) as [[m|]|] eqn:EF; [| |discriminate H].
  - destruct (HF _ _ EF) as [HT HS]. destruct H1 as (w & HPi & [HW HN] & _ & HB). ucbn_in. subst wr. destruct (goes m) eqn:EG.
    + pose proof (goes_sendable m HT HS EG) as Hm. destruct (sends c m k w HN (big_sendable m Hm)) as (w' & W1 & W2 & W3). rewrite W1 in H. injection H as <- <-.
      rewrite (written_eq _ _ _ _ _ W2). pose proof (one_length c m k) as HL. set (e := encs (masked_frames c [(m, k)])) in *. split; [reflexivity|].
      exists (ux ++ [(m, k)]), uy. split; [|split; [exact H2|rewrite map_app; reflexivity]]. exists w'. ucbn. split.
      { rewrite app_nil_r in HPi. apply (pipe_write c _ _ _ (m, k)); [exact HPi|exact Hm]. }
      split; [auto|]. split; [intros _ E; rewrite E in HL; cbn [length] in HL; lia|exact HB].
    + destruct (not_sent c m k w EG) as [e E]. rewrite E in H. injection H as <- <-. rewrite written_same. split; [reflexivity|]. exists ux, uy. split; [|split; [exact H2|reflexivity]].
      exists w. ucbn. split; [exact HPi|]. split; [auto|]. split; [intros X; contradiction X; reflexivity|exact HB].
  - destruct H2 as (w & HPi & HWr & HR & HB). ucbn_in. destruct (pipe_read _ _ _ _ HPi) as [(m & k0 & l' & r' & E1 & E2 & E3 & E4)|(E1 & E2)].
    + rewrite E2 in H. cbn [must_wait] in H. injection H as <- <-. split; [reflexivity|]. exists ux, l'. subst uy. split; [exact H1|]. split; [|reflexivity].
      exists w. ucbn. auto.
    + exfalso. destruct (reader_recv rd) as [a r']. cbn [fst] in E1. subst a. discriminate H.
Qed.
Lemma u_send_step : forall cap c n x y out inn x' q' ux uy, way cap c x y out ux -> way cap (negb c) y x inn uy ->
  user_send cap n out x = Some (x', q') -> way cap c x' y q' ux /\ way cap (negb c) y x' inn uy /\ u_past x' = u_past x.
Proof.
  intros cap c n [past rd wr wt] y out inn x' q' ux uy H1 H2 H. unfold user_send in H. ucbn_in.
  destruct wt as [[w' o]|]; [|discriminate H]. pose proof (firstn_skipn (Nat.min n (cap - length out)) o) as HO.
  assert (length (firstn (Nat.min n (cap - length out)) o) <= cap - length out) as HF by (rewrite firstn_length; lia).
  destruct (firstn (Nat.min n (cap - length out)) o) as [|b now]; [discriminate H|]. injection H as <- <-.
  set (later := skipn _ o) in *. clearbody later. subst o.
  assert (rest1 (match later with [] => None | y :: l => Some (w', y :: l) end) = later) as HL by (destruct later; reflexivity).
  split; [|split; [exact H2|reflexivity]]. destruct H1 as (w & HPi & [HW HN] & HWr & HB). ucbn_in. exists w. ucbn.
  split; [rewrite HL, <- app_assoc; exact HPi|]. split; [split; [destruct later; exact HW|exact HN]|].
  split; [rewrite HL; destruct later; [intros X; contradiction X; reflexivity|discriminate]|]. rewrite app_length. lia.
Qed.
Lemma u_read_step : forall cap c f n x y out inn x' q' ux uy, way cap c x y out ux -> way cap (negb c) y x inn uy ->
  user_read f n inn x = Some (x', q') -> way cap c x' y out ux /\ way cap (negb c) y x' q' uy /\ u_past x' = u_past x.
Proof.
  intros cap c f n [past rd wr wt] y out inn x' q' ux uy H1 H2 H. unfold user_read in H. ucbn_in. destruct wt as [a|]; [discriminate H|].
  destruct (f past) as [[m|]|]; try discriminate H. destruct (lacks rd); [|discriminate H]. destruct (arrive n inn rd) as [[r' q0]|] eqn:EA; [|discriminate H]. injection H as <- <-.
  split; [exact H1|]. split; [|reflexivity]. destruct H2 as (w & HPi & HWr & HR & HB). ucbn_in. exists w. ucbn.
  unfold arrive in EA. pose proof (firstn_skipn n inn) as HQ. destruct (firstn n inn) as [|b bs]; [discriminate EA|]. injection EA as <- <-.
  assert (length inn = S (length bs) + length (skipn n inn)) as HL by (rewrite <- HQ at 1; rewrite app_length; reflexivity).
  split; [|split; [exact HWr|split; [exact HR|lia]]]. destruct HPi as (P1 & P2 & P3 & P4). split; [exact P1|]. cbn [rd_receiver rd_buf rd_in].
  split; [apply Forall_app; split; [exact P2|constructor; [exact I|constructor]]|]. split; [|exact P4].
  rewrite flat_app. cbn [flat]. rewrite app_nil_r, <- P3. rewrite <- HQ at 2. rewrite <- !app_assoc. reflexivity.
Qed.

Definition link_inv (cap : nat) (t : link) (s : queues) : Prop :=
  q_past1 s = u_past (l_client t) /\ q_past2 s = u_past (l_server t) /\
  exists ux uy, way cap true (l_client t) (l_server t) (l_up t) ux /\ way cap false (l_server t) (l_client t) (l_down t) uy /\
    q_up s = map fst ux /\ q_down s = map fst uy.
Lemma link_inv_step : forall cap f1 f2 a t t' s, minds f1 -> minds f2 -> link_inv cap t s -> link_step f1 f2 cap a t = Some t' ->
  exists turns, link_inv cap t' (queue_run f1 f2 turns s).
Proof.
  intros cap f1 f2 a [x y out inn] t' [p1 p2 u d] M1 M2 (P1 & P2 & ux & uy & W1 & W2 & Q1 & Q2) E. cbn [l_client l_server l_up l_down q_past1 q_past2 q_up q_down] in *. subst p1 p2 u d.
  destruct a as [[] k|[] n|[] n]; cbn [link_step] in E.
  - destruct (user_turn f1 k inn x) as [[x' o]|] eqn:EP; [|discriminate E]. injection E as <-. destruct (u_turn_step cap true _ _ _ _ _ _ _ _ _ _ M1 W1 W2 EP) as (-> & ux' & uy' & A & B & C).
    exists [true]. cbn [queue_run queue_step]. rewrite C. split; [reflexivity|]. split; [reflexivity|]. exists ux', uy'. cbn [l_client l_server l_up l_down q_up q_down]. rewrite app_nil_r. auto.
  - destruct (user_turn f2 k out y) as [[x' o]|] eqn:EP; [|discriminate E]. injection E as <-. destruct (u_turn_step cap false _ _ _ _ _ _ _ _ _ _ M2 W2 W1 EP) as (-> & ux' & uy' & A & B & C).
    exists [false]. cbn [queue_run queue_step]. rewrite C. split; [reflexivity|]. split; [reflexivity|]. exists uy', ux'. cbn [l_client l_server l_up l_down q_up q_down]. rewrite app_nil_r. auto.
  - destruct (user_send cap n out x) as [[x' o]|] eqn:EP; [|discriminate E]. injection E as <-. destruct (u_send_step cap true _ _ _ _ _ _ _ _ _ W1 W2 EP) as (A & B & C).
    exists []. split; [symmetry; exact C|]. split; [reflexivity|]. exists ux, uy. auto.
  - destruct (user_send cap n inn y) as [[x' o]|] eqn:EP; [|discriminate E]. injection E as <-. destruct (u_send_step cap false _ _ _ _ _ _ _ _ _ W2 W1 EP) as (A & B & C).
    exists []. split; [reflexivity|]. split; [symmetry; exact C|]. exists ux, uy. auto.
  - destruct (user_read f1 n inn x) as [[x' o]|] eqn:EP; [|discriminate E]. injection E as <-. destruct (u_read_step cap true _ _ _ _ _ _ _ _ _ _ W1 W2 EP) as (A & B & C).
    exists []. split; [symmetry; exact C|]. split; [reflexivity|]. exists ux, uy. auto.
  - destruct (user_read f2 n out y) as [[x' o]|] eqn:EP; [|discriminate E]. injection E as <-. destruct (u_read_step cap false _ _ _ _ _ _ _ _ _ _ W2 W1 EP) as (A & B & C).
    exists []. split; [reflexivity|]. split; [symmetry; exact C|]. exists ux, uy. auto.
Qed.
Lemma queue_run_app : forall f1 f2 a b s, queue_run f1 f2 (a ++ b) s = queue_run f1 f2 b (queue_run f1 f2 a s).
Proof. intros f1 f2. induction a as [|c a IH]; intros b s; [reflexivity|]. cbn [app queue_run]. apply IH. Qed.
Lemma link_run_app : forall f1 f2 cap a b t, link_run f1 f2 cap (a ++ b) t = link_run f1 f2 cap b (link_run f1 f2 cap a t).
Proof. intros f1 f2 cap. induction a as [|c a IH]; intros b t; [reflexivity|]. cbn [app link_run]. apply IH. Qed.
Lemma link_inv_run : forall cap f1 f2 acts t s, minds f1 -> minds f2 -> link_inv cap t s -> exists turns, link_inv cap (link_run f1 f2 cap acts t) (queue_run f1 f2 turns s).
Proof.
  intros cap f1 f2. induction acts as [|a acts IH]; intros t s M1 M2 H; [exists []; exact H|]. cbn [link_run]. destruct (link_step f1 f2 cap a t) as [t'|] eqn:E; [|auto].
  destruct (link_inv_step _ _ _ _ _ _ _ M1 M2 H E) as [turns H']. destruct (IH _ _ M1 M2 H') as [turns' H'']. exists (turns ++ turns'). rewrite queue_run_app. exact H''.
Qed.
Lemma link_inv_new : forall cap w1 w2, never_fails w1 -> never_fails w2 -> link_inv cap (link_new w1 w2) queues_new.
Proof.
  intros cap w1 w2 H1 H2. split; [reflexivity|]. split; [reflexivity|]. exists [], []. split; [|split; [|split; reflexivity]]; eexists; cbn;
    (split; [repeat split; constructor|]); (split; [split; [reflexivity|assumption]|]); (split; [intros X; contradiction X; reflexivity|lia]).
Qed.

(** ** Queues do not care for timing *)
Lemma deed_extends : forall f past mine theirs past' mine' theirs', deed_done f past mine theirs = Some (past', mine', theirs') ->
  exists h, past' = past ++ [h].
Proof.
  intros f past mine theirs past' mine' theirs' H. unfold deed_done in H. destruct (f past) as [[m|]|]; [|destruct theirs; [discriminate H|]|discriminate H].
  - destruct (goes m); injection H as <- <- <-; eauto.
  - injection H as <- <- <-; eauto.
Qed.
(** What the other adds to the queue does not change a deed. *)
Lemma deed_later : forall f past mine theirs past' mine' theirs' add, deed_done f past mine theirs = Some (past', mine', theirs') ->
  deed_done f past mine (theirs ++ add) = Some (past', mine', theirs' ++ add).
Proof.
  intros f past mine theirs past' mine' theirs' add H. unfold deed_done in *. destruct (f past) as [[m|]|]; [|destruct theirs; [discriminate H|]|discriminate H].
  - destruct (goes m); injection H as <- <- <-; reflexivity.
  - injection H as <- <- <-; reflexivity.
Qed.
(** A deed takes from the front of the one queue and adds to the back of the other. *)
Lemma deed_shape : forall f past mine theirs past' mine' theirs', deed_done f past mine theirs = Some (past', mine', theirs') ->
  exists taken add, theirs = taken ++ theirs' /\ mine' = mine ++ add /\ forall mine0, deed_done f past mine0 theirs = Some (past', mine0 ++ add, theirs').
Proof.
  intros f past mine theirs past' mine' theirs' H. unfold deed_done in *. destruct (f past) as [[m|]|]; [|destruct theirs as [|m theirs]; [discriminate H|]|discriminate H].
  - destruct (goes m); injection H as <- <- <-; [exists [], [m]|exists [], []]; rewrite ?app_nil_r; repeat split; intros mine0; rewrite ?app_nil_r; reflexivity.
  - injection H as <- <- <-. exists [m], []. rewrite app_nil_r. repeat split. intros mine0. rewrite app_nil_r. reflexivity.
Qed.
Lemma queue_diamond : forall f1 f2 s s1 s2, queue_step f1 f2 true s = Some s1 -> queue_step f1 f2 false s = Some s2 ->
  exists s3, queue_step f1 f2 false s1 = Some s3 /\ queue_step f1 f2 true s2 = Some s3.
Proof.
  intros f1 f2 [p1 p2 u d] s1 s2 H1 H2. cbn [queue_step] in *. destruct (deed_done f1 p1 u d) as [[[p1' u1] d1]|] eqn:E1; [|discriminate H1]. destruct (deed_done f2 p2 d u) as [[[p2' d2] u2]|] eqn:E2; [|discriminate H2].
  injection H1 as <-. injection H2 as <-.
  destruct (deed_shape _ _ _ _ _ _ _ E1) as (t1 & a1 & T1 & A1 & F1). destruct (deed_shape _ _ _ _ _ _ _ E2) as (t2 & a2 & T2 & A2 & F2).
  exists (mk_queues p1' p2' (u2 ++ a1) (d1 ++ a2)). split.
  - cbn [queue_step]. rewrite A1. pose proof (deed_later _ _ _ _ _ _ _ a1 (F2 d1)) as X. rewrite X. reflexivity.
  - cbn [queue_step]. rewrite A2. pose proof (deed_later _ _ _ _ _ _ _ a2 (F1 u2)) as X. rewrite X. reflexivity.
Qed.
(** One step more at the front can be made up for at the end. *)
Lemma queue_push : forall f1 f2 turns c s s', queue_step f1 f2 c s = Some s' ->
  exists turns' more, queue_run f1 f2 turns' s' = queue_run f1 f2 (turns ++ more) s.
Proof.
  intros f1 f2. induction turns as [|b turns IH]; intros c s s' H.
  - exists [], [c]. cbn [app queue_run]. rewrite H. reflexivity.
  - cbn [app queue_run]. destruct (queue_step f1 f2 b s) as [s1|] eqn:EB.
    + destruct (Bool.bool_dec b c) as [->|NE].
      * rewrite H in EB. injection EB as ->. exists turns, []. rewrite app_nil_r. reflexivity.
      * assert (exists s3, queue_step f1 f2 c s1 = Some s3 /\ queue_step f1 f2 b s' = Some s3) as (s3 & A & B).
        { destruct b, c; try (contradiction NE; reflexivity).
          - destruct (queue_diamond _ _ _ _ _ EB H) as (s3 & A & B). eauto.
          - destruct (queue_diamond _ _ _ _ _ H EB) as (s3 & A & B). eauto. }
        destruct (IH c s1 s3 A) as (turns' & more & E). exists (b :: turns'), more. cbn [queue_run]. rewrite B. exact E.
    + destruct (IH c s s' H) as (turns' & more & E). exists turns', more. exact E.
Qed.
Lemma queue_confluent : forall f1 f2 a b s, exists a' b', queue_run f1 f2 (a ++ a') s = queue_run f1 f2 (b ++ b') s.
Proof.
  intros f1 f2. induction a as [|c a IH]; intros b s.
  - exists b, []. rewrite app_nil_r. reflexivity.
  - cbn [app queue_run]. destruct (queue_step f1 f2 c s) as [s'|] eqn:E; [|apply IH].
    destruct (queue_push _ _ b _ _ _ E) as (b' & more & E'). destruct (IH b' s') as (a' & b'' & E''). exists a', (more ++ b'').
    rewrite E'', app_assoc, (queue_run_app _ _ (b ++ more)), queue_run_app, E'. reflexivity.
Qed.
Lemma queue_extends : forall f1 f2 turns s, prefix (q_past1 s) (q_past1 (queue_run f1 f2 turns s)) /\ prefix (q_past2 s) (q_past2 (queue_run f1 f2 turns s)).
Proof.
  intros f1 f2. induction turns as [|c turns IH]; intros s; [split; exists []; rewrite app_nil_r; reflexivity|]. cbn [queue_run]. destruct (queue_step f1 f2 c s) as [s'|] eqn:E; [|apply IH].
  destruct (IH s') as [[x X] [y Y]]. rewrite X, Y. destruct s as [p1 p2 u d]. cbn [queue_step] in E. destruct c.
  - destruct (deed_done f1 p1 u d) as [[[p1' u'] d']|] eqn:ED; [|discriminate E]. injection E as <-. destruct (deed_extends _ _ _ _ _ _ _ ED) as [h ->]. cbn [q_past1 q_past2].
    split; eexists; [rewrite <- app_assoc|]; reflexivity.
  - destruct (deed_done f2 p2 d u) as [[[p2' d'] u']|] eqn:ED; [|discriminate E]. injection E as <-. destruct (deed_extends _ _ _ _ _ _ _ ED) as [h ->]. cbn [q_past1 q_past2].
    split; eexists; [|rewrite <- app_assoc]; reflexivity.
Qed.
Lemma prefix_either : forall (A : Type) (a b l : list A), prefix a l -> prefix b l -> prefix a b \/ prefix b a.
Proof.
  intros A a b l [x ->] [y E]. apply app_eq_app in E as (z & [[-> _]|[-> _]]); [right|left]; eexists; reflexivity.
Qed.
Lemma queue_still : forall f1 f2 turns s, (forall c, queue_step f1 f2 c s = None) -> queue_run f1 f2 turns s = s.
Proof. intros f1 f2. induction turns as [|c turns IH]; intros s H; [reflexivity|]. cbn [queue_run]. rewrite H. apply IH. exact H. Qed.

(** ** At rest *)
Lemma u_rests : forall cap f x y out inn ux uy c k n1 n2, 1 <= cap -> way cap c x y out ux -> way cap (negb c) y x inn uy ->
  user_turn f k inn x = None -> user_send cap (S n1) out x = None -> user_read f (S n2) inn x = None ->
  u_write x <> None /\ length out = cap \/
  u_write x = None /\ f (u_past x) = None \/
  u_write x = None /\ f (u_past x) = Some Hear /\ inn = [] /\ (u_write y = None -> uy = []).
Proof.
  intros cap f [past rd wr wt] y out inn ux uy c k n1 n2 Hcap (w & HPi & [HW HN] & HWr & HB) (w' & HPi' & [HW' HN'] & HWr' & HB') S1 S2 S3.
  unfold user_turn in S1. unfold user_send in S2. unfold user_read in S3. ucbn_in. destruct wt as [[w0 o]|].
  - left. split; [discriminate|]. ucbn_in. specialize (HWr ltac:(discriminate)). destruct (Nat.eq_dec (length out) cap) as [E|E]; [exact E|exfalso].
    destruct (firstn (Nat.min (S n1) (cap - length out)) o) eqn:EF; [|discriminate S2]. revert EF. apply push_stuck; [lia|exact HWr].
  - right. destruct (f past) as [[m|]|]; [|right|left; auto].
    + exfalso. destruct (writer_send m k wr) as [[x|e| |] w1]; discriminate S1.
    + split; [reflexivity|]. split; [reflexivity|]. destruct (pipe_read _ _ _ _ HPi') as [(m & k0 & l' & r' & E1 & E2 & _)|(E1 & E2)]; [rewrite E2 in S1; discriminate S1|].
      assert (lacks rd = true) as HL by (unfold lacks; rewrite E1; reflexivity). rewrite HL in S3. destruct inn; [|discriminate S3]. split; [reflexivity|].
      intros EY. rewrite EY in E2. cbn [rest1 app] in E2. destruct E2 as [E2|E2]; [exact E2|contradiction E2; reflexivity].
Qed.
Lemma step_none : forall f1 f2 cap k n1 n2 n3 n4 n5 x y out inn, link_rests f1 f2 cap (mk_link x y out inn) ->
  user_turn f1 k inn x = None /\ user_send cap n1 out x = None /\ user_read f1 n2 inn x = None /\
  user_turn f2 n5 out y = None /\ user_send cap n3 inn y = None /\ user_read f2 n4 out y = None.
Proof.
  intros f1 f2 cap k n1 n2 n3 n4 n5 x y out inn H. pose proof (H (DTurn true k)) as H1. pose proof (H (DSend true n1)) as H2. pose proof (H (DRead true n2)) as H3.
  pose proof (H (DTurn false n5)) as H4. pose proof (H (DSend false n3)) as H5. pose proof (H (DRead false n4)) as H6. cbn [link_step] in *.
  repeat match goal with H : match ?X with _ => _ end = None |- _ => destruct X as [[? ?]|]; [discriminate H|] end. repeat split; auto.
Qed.
Lemma rests_final : forall f1 f2 cap t s, 1 <= cap -> link_inv cap t s -> link_rests f1 f2 cap t -> free (l_client t) -> free (l_server t) ->
  forall c, queue_step f1 f2 c s = None.
Proof.
  intros f1 f2 cap [x y out inn] [p1 p2 u d] Hcap (P1 & P2 & ux & uy & W1 & W2 & Q1 & Q2) HR F1 F2 c. unfold free in *. cbn [l_client l_server l_up l_down q_past1 q_past2 q_up q_down] in *. subst p1 p2 u d.
  set (k := mk_key x00 x00 x00 x00). destruct (step_none _ _ _ k 1 1 1 1 k _ _ _ _ HR) as (S1 & S2 & S3 & S4 & S5 & S6).
  pose proof (u_rests cap f1 x y out inn ux uy true k 0 0 Hcap W1 W2 S1 S2 S3) as A. pose proof (u_rests cap f2 y x inn out uy ux false k 0 0 Hcap W2 W1 S4 S5 S6) as B.
  cbn [queue_step]. unfold deed_done. destruct c.
  - destruct A as [[A _]|[[_ ->]|(_ & -> & _ & A)]]; [contradiction|reflexivity|]. rewrite (A F2). reflexivity.
  - destruct B as [[B _]|[[_ ->]|(_ & -> & _ & B)]]; [contradiction|reflexivity|]. rewrite (B F1). reflexivity.
Qed.

(** ** Whatever queues do, the connection can do *)
Lemma real_deed : forall cap c f k x y out inn ux uy past' mine' theirs', minds f -> way cap c x y out ux -> way cap (negb c) y x inn uy -> free x ->
  deed_done f (u_past x) (map fst ux) (map fst uy) = Some (past', mine', theirs') -> szc c mine' <= cap -> u_write y = None ->
  exists x' out' inn' ux' uy', way cap c x' y out' ux' /\ way cap (negb c) y x' inn' uy' /\ free x' /\ u_past x' = past' /\ map fst ux' = mine' /\ map fst uy' = theirs' /\
    ((exists x1, user_turn f k inn x = Some (x1, []) /\ user_send cap (S cap) out x1 = Some (x', out') /\ inn' = inn) \/
     (user_turn f k inn x = Some (x', []) /\ out' = out /\ inn' = inn) \/
     (exists x1, user_read f (S (length inn)) inn x = Some (x1, inn') /\ user_turn f k inn' x1 = Some (x', []) /\ out' = out)).
Proof.
  intros cap c f k x y out inn ux uy past' mine' theirs' HF H1 H2 HX HD HC HY. unfold free in *.
  assert (forall x', user_turn f k inn x = Some (x', []) -> exists ux' uy', way cap c x' y out ux' /\ way cap (negb c) y x' inn uy' /\ u_past x' = past' /\ map fst ux' = mine' /\ map fst uy' = theirs') as HT.
  { intros x' E. destruct (u_turn_step _ _ _ _ _ _ _ _ _ _ _ _ HF H1 H2 E) as (_ & ux' & uy' & A & B & C). rewrite HD in C. injection C as -> -> ->. exists ux', uy'. auto. }
  destruct (f (u_past x)) as [[m|]|] eqn:EF.
  - destruct (HF _ _ EF) as [HTy HS]. destruct (goes m) eqn:EG.
    + assert (exists x1 w o, user_turn f k inn x = Some (x1, []) /\ u_write x1 = Some (w, o)) as (x1 & w1 & o & E1 & E2).
      { destruct H1 as (w & _ & [HW HN] & _). rewrite HX in HW. cbn [writer1] in HW. unfold user_turn. rewrite HX, EF, HW.
        destruct (sends c m k w HN (big_sendable m (goes_sendable m HTy HS EG))) as (w' & W1 & _). rewrite W1. do 3 eexists. split; [reflexivity|reflexivity]. }
      destruct (HT _ E1) as (ux' & uy' & A & B & C1 & C2 & C3).
      assert (exists x', user_send cap (S cap) out x1 = Some (x', out ++ o) /\ u_write x' = None) as (x' & E3 & E4).
      { destruct A as (w & HPi & _ & HWr & HB). rewrite E2 in *. cbn [rest1] in *. specialize (HWr ltac:(discriminate)). destruct HPi as (_ & _ & P3 & _).
        apply (f_equal (@length byte)) in P3. rewrite szc_len, C2, !app_length in P3. unfold user_send. rewrite E2. cbv zeta.
        rewrite firstn_all2, skipn_all2 by lia. destruct o as [|b o]; [contradiction HWr; reflexivity|]. eexists. split; reflexivity. }
      destruct (u_send_step _ _ _ _ _ _ _ _ _ _ _ A B E3) as (A' & B' & C'). exists x', (out ++ o), inn, ux', uy'.
      split; [exact A'|]. split; [exact B'|]. split; [exact E4|]. split; [congruence|]. split; [exact C2|]. split; [exact C3|]. left. eauto.
    + assert (exists x', user_turn f k inn x = Some (x', []) /\ u_write x' = None) as (x' & E1 & E2).
      { destruct H1 as (w & _ & [HW HN] & _). rewrite HX in HW. cbn [writer1] in HW. unfold user_turn. rewrite HX, EF, HW. destruct (not_sent c m k w EG) as [e ->].
        rewrite written_same. eexists. split; reflexivity. }
      destruct (HT _ E1) as (ux' & uy' & A & B & C1 & C2 & C3). exists x', out, inn, ux', uy'. split; [exact A|]. split; [exact B|]. split; [exact E2|]. split; [exact C1|]. split; [exact C2|]. split; [exact C3|]. right. left. auto.
  - assert (exists m k0 l, uy = (m, k0) :: l) as (m & k0 & l & Euy).
    { unfold deed_done in HD. rewrite EF in HD. destruct uy as [|[m k0] l]; [discriminate HD|eauto]. }
    pose proof H2 as (w & HPi & HW & HWr & HB).
    destruct (pipe_read _ _ _ _ HPi) as [(m1 & k1 & l' & r' & E1 & E2 & _)|(E1 & E2)].
    + assert (exists x', user_turn f k inn x = Some (x', []) /\ u_write x' = None) as (x' & E3 & E4).
      { unfold user_turn. rewrite HX, EF, E2. cbn [must_wait]. eexists. split; reflexivity. }
      destruct (HT _ E3) as (ux' & uy' & A & B & C1 & C2 & C3). exists x', out, inn, ux', uy'. split; [exact A|]. split; [exact B|]. split; [exact E4|]. split; [exact C1|]. split; [exact C2|]. split; [exact C3|]. right. left. auto.
    + assert (inn <> []) as HI. { intros ->. rewrite HY in E2. cbn [rest1 app] in E2. destruct E2 as [E2|E2]; [subst uy; discriminate E2|contradiction E2; reflexivity]. }
      assert (lacks (u_reader x) = true) as HL by (unfold lacks; rewrite E1; reflexivity).
      assert (exists x1, user_read f (S (length inn)) inn x = Some (x1, []) /\ u_past x1 = u_past x /\ u_write x1 = None) as (x1 & R1 & R2 & R3).
      { unfold user_read. rewrite HX, EF, HL. unfold arrive. rewrite firstn_all2, skipn_all2 by lia. destruct inn as [|b bs]; [contradiction HI; reflexivity|]. eexists. split; [reflexivity|]. split; reflexivity. }
      destruct (u_read_step _ _ _ _ _ _ _ _ _ _ _ _ H1 H2 R1) as (A1 & B1 & _).
      assert (exists x', user_turn f k [] x1 = Some (x', []) /\ u_write x' = None) as (x' & E3 & E4).
      { destruct B1 as (w1 & HPi1 & _). rewrite HY in HPi1. cbn [rest1 app] in HPi1. destruct (pipe_read _ _ _ _ HPi1) as [(m1 & k1 & l' & r' & _ & E3 & _)|(_ & [E3|E3])].
        - unfold user_turn. rewrite R3, R2, EF, E3. cbn [must_wait]. eexists. split; reflexivity.
        - subst uy. discriminate E3.
        - contradiction E3. reflexivity. }
      destruct (u_turn_step _ _ _ _ _ _ _ _ _ _ _ _ HF A1 B1 E3) as (_ & ux' & uy' & A & B & C). rewrite R2, HD in C. injection C as C1 C2 C3.
      exists x', out, [], ux', uy'. split; [exact A|]. split; [exact B|]. split; [exact E4|]. split; [auto|]. split; [auto|]. split; [auto|]. right. right. exists x1. auto.
  - unfold deed_done in HD. rewrite EF in HD. discriminate HD.
Qed.
Lemma real_step : forall cap f1 f2 c t s s', minds f1 -> minds f2 -> link_inv cap t s -> free (l_client t) -> free (l_server t) -> queue_step f1 f2 c s = Some s' ->
  up_bytes (q_up s') <= cap -> down_bytes (q_down s') <= cap ->
  exists acts, let t' := link_run f1 f2 cap acts t in link_inv cap t' s' /\ free (l_client t') /\ free (l_server t').
Proof.
  intros cap f1 f2 c [x y out inn] [p1 p2 u d] s' M1 M2 (P1 & P2 & ux & uy & W1 & W2 & Q1 & Q2) F1 F2 E B1 B2. cbn [l_client l_server l_up l_down q_past1 q_past2 q_up q_down] in *. subst p1 p2 u d.
  set (k := mk_key x00 x00 x00 x00). cbn [queue_step] in E. destruct c.
  - destruct (deed_done f1 (u_past x) (map fst ux) (map fst uy)) as [[[p' u'] d']|] eqn:ED; [|discriminate E]. injection E as <-. cbn [q_up q_down] in *.
    destruct (real_deed cap true f1 k x y out inn ux uy p' u' d' M1 W1 W2 F1 ED B1 F2) as (x' & out' & inn' & ux' & uy' & A & B & C & D1 & D2 & D3 & HA).
    assert (exists acts, link_run f1 f2 cap acts (mk_link x y out inn) = mk_link x' y out' inn') as [acts EA].
    { destruct HA as [(x1 & E1 & E2 & ->)|[(E1 & -> & ->)|(x1 & E1 & E2 & ->)]].
      - exists [DTurn true k; DSend true (S cap)]. cbn [link_run link_step]. rewrite E1, app_nil_r. cbn [link_step]. rewrite E2. reflexivity.
      - exists [DTurn true k]. cbn [link_run link_step]. rewrite E1, app_nil_r. reflexivity.
      - exists [DRead true (S (length inn)); DTurn true k]. cbn [link_run link_step]. rewrite E1. cbn [link_step]. rewrite E2, app_nil_r. reflexivity. }
    exists acts. cbv zeta. rewrite EA. cbn [l_client l_server]. split; [|split; [exact C|exact F2]]. split; [auto|]. split; [reflexivity|]. exists ux', uy'. auto.
  - destruct (deed_done f2 (u_past y) (map fst uy) (map fst ux)) as [[[p' d'] u']|] eqn:ED; [|discriminate E]. injection E as <-. cbn [q_up q_down] in *.
    destruct (real_deed cap false f2 k y x inn out uy ux p' d' u' M2 W2 W1 F2 ED B2 F1) as (x' & out' & inn' & ux' & uy' & A & B & C & D1 & D2 & D3 & HA).
    assert (exists acts, link_run f1 f2 cap acts (mk_link x y out inn) = mk_link x x' inn' out') as [acts EA].
    { destruct HA as [(x1 & E1 & E2 & ->)|[(E1 & -> & ->)|(x1 & E1 & E2 & ->)]].
      - exists [DTurn false k; DSend false (S cap)]. cbn [link_run link_step]. rewrite E1, app_nil_r. cbn [link_step]. rewrite E2. reflexivity.
      - exists [DTurn false k]. cbn [link_run link_step]. rewrite E1, app_nil_r. reflexivity.
      - exists [DRead false (S (length out)); DTurn false k]. cbn [link_run link_step]. rewrite E1. cbn [link_step]. rewrite E2, app_nil_r. reflexivity. }
    exists acts. cbv zeta. rewrite EA. cbn [l_client l_server]. split; [|split; [exact F1|exact C]]. split; [reflexivity|]. split; [auto|]. exists uy', ux'. auto.
Qed.
Lemma real_run : forall cap f1 f2 turns t s, minds f1 -> minds f2 -> link_inv cap t s -> free (l_client t) -> free (l_server t) ->
  (forall n, let s' := queue_run f1 f2 (firstn n turns) s in up_bytes (q_up s') <= cap /\ down_bytes (q_down s') <= cap) ->
  exists acts, link_inv cap (link_run f1 f2 cap acts t) (queue_run f1 f2 turns s).
Proof.
  intros cap f1 f2. induction turns as [|c turns IH]; intros t s M1 M2 HI F1 F2 HB; [exists []; exact HI|]. cbn [queue_run]. destruct (queue_step f1 f2 c s) as [s'|] eqn:E.
  - destruct (HB 1) as [B1 B2]. cbn [firstn queue_run] in B1, B2. rewrite E in B1, B2. destruct (real_step _ _ _ _ _ _ _ M1 M2 HI F1 F2 E B1 B2) as (acts & A & B & C).
    destruct (IH _ _ M1 M2 A B C) as [acts' D].
    { intros n. specialize (HB (S n)). cbn [firstn queue_run] in HB. rewrite E in HB. exact HB. }
    exists (acts ++ acts'). rewrite link_run_app. exact D.
  - apply IH; auto. intros n. specialize (HB (S n)). cbn [firstn queue_run] in HB. rewrite E in HB. exact HB.
Qed.

(** ** The theorems *)
(** [C95] To the programs at its ends, a connection is two queues of messages: whatever the programs,
    the room of the network, its delays, the masking keys and the scheduling, what happens to them
    could have happened with queues (Spec/Queues.v), where there are no bytes and no network. *)
Lemma link_is_queues_proof : forall f1 f2 cap w1 w2 acts, minds f1 -> minds f2 -> never_fails w1 -> never_fails w2 ->
  let t := link_run f1 f2 cap acts (link_new w1 w2) in
  exists turns, let s := queue_run f1 f2 turns queues_new in
    u_past (l_client t) = q_past1 s /\ u_past (l_server t) = q_past2 s /\
    (List.length (l_up t) <= cap)%nat /\ (List.length (l_down t) <= cap)%nat.
Proof.
  intros f1 f2 cap w1 w2 acts M1 M2 H1 H2 t. destruct (link_inv_run cap f1 f2 acts _ _ M1 M2 (link_inv_new cap w1 w2 H1 H2)) as [turns (P1 & P2 & ux & uy & (a & _ & _ & _ & A) & (b & _ & _ & _ & B) & _)].
  exists turns. fold t in P1, P2, A, B. auto.
Qed.
(*EX
(** The client asks for a number and stops at "no"; the server says how many numbers it was asked
    for, up to two.  A Ping that is too long is refused and nothing comes of it. *)
Definition ask : owned := OText (str "more?").
Definition asking : program := fun past =>
  match rev past with
  | [] => Some (Say (OPing (repeat x00 126)))
  | NotSaid _ :: _ => Some (Say ask)
  | Said _ :: _ => Some Hear
  | Heard (OText d) :: _ => if beqb d (str "no") then None else Some (Say ask)
  | _ => None
  end.
Definition counting : program := fun past =>
  match rev past with
  | Heard _ :: _ :: _ :: _ :: _ => Some (Say (OText (str "no")))
  | Heard _ :: before => Some (Say (OText (str (if (List.length before =? 0)%nat then "1" else "2"))))
  | _ => Some Hear
  end.
Example programs_mind : minds asking /\ minds counting.
Proof.
  split; intros past m H; unfold asking, counting in H;
    repeat match type of H with context [match ?x with _ => _ end] => destruct x; try discriminate H end;
    injection H as <-; (split; [try exact I; apply ExTac.good_text; reflexivity|vm_compute; discriminate]).
Qed.
Definition link_turns : list dact :=
  [DTurn true (mk_key x01 x02 x03 x04); DSend true 3; DRead true 2; DTurn false (mk_key x00 x00 x00 x00); DSend false 4; DRead false 3].
Example link_is_queues_ex :
  let t := link_run asking counting 5 (concat (repeat link_turns 40)) (link_new (mk_w [] []) (mk_w [] [])) in
  u_past (l_client t) = [NotSaid (OPing (repeat x00 126)); Said ask; Heard (OText (str "1")); Said ask; Heard (OText (str "2")); Said ask; Heard (OText (str "no"))] /\
  q_past1 (queue_run asking counting (concat (repeat [true; false] 12)) queues_new) = u_past (l_client t).
Proof. vm_compute. split; reflexivity. Qed.
EX*)

(** [C95] And the other way: whatever could happen with queues that never hold more than the network
    has room for, happens to the programs in some run. *)
Lemma queues_are_link_proof : forall f1 f2 cap w1 w2 turns, minds f1 -> minds f2 -> never_fails w1 -> never_fails w2 ->
  (forall n, let s := queue_run f1 f2 (firstn n turns) queues_new in (up_bytes (q_up s) <= cap)%nat /\ (down_bytes (q_down s) <= cap)%nat) ->
  exists acts, let t := link_run f1 f2 cap acts (link_new w1 w2) in let s := queue_run f1 f2 turns queues_new in
    u_past (l_client t) = q_past1 s /\ u_past (l_server t) = q_past2 s.
Proof.
  intros f1 f2 cap w1 w2 turns M1 M2 H1 H2 HB. destruct (real_run cap f1 f2 turns _ _ M1 M2 (link_inv_new cap w1 w2 H1 H2) eq_refl eq_refl HB) as [acts (P1 & P2 & _)]. exists acts. auto.
Qed.
(*EX
Example queues_are_link_ex : forall n, let s := queue_run asking counting (firstn n (concat (repeat [true; true; false; false] 3))) queues_new in
  (up_bytes (q_up s) <= 11)%nat /\ (down_bytes (q_down s) <= 11)%nat.
Proof.
  intros n. do 13 (destruct n as [|n]; [split; apply PeanoNat.Nat.leb_le; vm_compute; reflexivity|]). split; apply PeanoNat.Nat.leb_le; cbn [repeat concat app firstn];
    rewrite ?firstn_nil; vm_compute; reflexivity.
Qed.
EX*)

(** [C95] The programs cannot tell one timing from another: of any two runs, with any room in the
    network, any delays and keys, what happens to a program in the one is an initial part of what
    happens to it in the other. *)
Lemma timing_unseen_proof : forall f1 f2 cap cap' w1 w2 w1' w2' acts acts', minds f1 -> minds f2 -> never_fails w1 -> never_fails w2 -> never_fails w1' -> never_fails w2' ->
  let t := link_run f1 f2 cap acts (link_new w1 w2) in
  let t' := link_run f1 f2 cap' acts' (link_new w1' w2') in
  (prefix (u_past (l_client t)) (u_past (l_client t')) \/ prefix (u_past (l_client t')) (u_past (l_client t))) /\
  (prefix (u_past (l_server t)) (u_past (l_server t')) \/ prefix (u_past (l_server t')) (u_past (l_server t))).
Proof.
  intros f1 f2 cap cap' w1 w2 w1' w2' acts acts' M1 M2 H1 H2 H1' H2' t t'.
  destruct (link_is_queues_proof f1 f2 cap w1 w2 acts M1 M2 H1 H2) as (a & A1 & A2 & _). destruct (link_is_queues_proof f1 f2 cap' w1' w2' acts' M1 M2 H1' H2') as (b & B1 & B2 & _).
  fold t in A1, A2. fold t' in B1, B2. rewrite A1, A2, B1, B2. destruct (queue_confluent f1 f2 a b queues_new) as (a' & b' & E). rewrite !queue_run_app in E.
  destruct (queue_extends f1 f2 a' (queue_run f1 f2 a queues_new)) as [X1 X2]. destruct (queue_extends f1 f2 b' (queue_run f1 f2 b queues_new)) as [Y1 Y2]. rewrite E in X1, X2.
  split; eapply prefix_either; eassumption.
Qed.
(*EX
(** With room for one byte, and with room for a hundred. *)
Example timing_unseen_ex :
  let t := link_run asking counting 1 (concat (repeat link_turns 30)) (link_new (mk_w [] []) (mk_w [] [])) in
  let t' := link_run asking counting 100 (concat (repeat link_turns 30)) (link_new (mk_w [] []) (mk_w [] [])) in
  u_past (l_client t) = [NotSaid (OPing (repeat x00 126)); Said ask; Heard (OText (str "1")); Said ask] /\
  u_past (l_client t') = u_past (l_client t) ++ [Heard (OText (str "2")); Said ask; Heard (OText (str "no"))].
Proof. vm_compute. split; reflexivity. Qed.
EX*)

(** [C95] When nothing can happen any more, each of the two programs is done, or waits for a message
    where there is none, or is in a write and the network is full. *)
Lemma link_rest_proof : forall f1 f2 cap w1 w2 acts, minds f1 -> minds f2 -> never_fails w1 -> never_fails w2 -> (1 <= cap)%nat ->
  let t := link_run f1 f2 cap acts (link_new w1 w2) in link_rests f1 f2 cap t ->
  (f1 (u_past (l_client t)) = None \/ f1 (u_past (l_client t)) = Some Hear /\ l_down t = [] \/ ~ free (l_client t) /\ List.length (l_up t) = cap) /\
  (f2 (u_past (l_server t)) = None \/ f2 (u_past (l_server t)) = Some Hear /\ l_up t = [] \/ ~ free (l_server t) /\ List.length (l_down t) = cap).
Proof.
  intros f1 f2 cap w1 w2 acts M1 M2 H1 H2 Hcap t HR. destruct (link_inv_run cap f1 f2 acts _ _ M1 M2 (link_inv_new cap w1 w2 H1 H2)) as [turns HI]. fold t in HI. destruct t as [x y out inn].
  destruct HI as (P1 & P2 & ux & uy & W1 & W2 & _). cbn [l_client l_server l_up l_down] in *. set (k := mk_key x00 x00 x00 x00).
  destruct (step_none _ _ _ k 1 1 1 1 k _ _ _ _ HR) as (S1 & S2 & S3 & S4 & S5 & S6).
  pose proof (u_rests cap f1 x y out inn ux uy true k 0 0 Hcap W1 W2 S1 S2 S3) as A. pose proof (u_rests cap f2 y x inn out uy ux false k 0 0 Hcap W2 W1 S4 S5 S6) as B. unfold free.
  split; [destruct A as [[A1 A2]|[[A1 A2]|(A1 & A2 & A3 & _)]]|destruct B as [[A1 A2]|[[A1 A2]|(A1 & A2 & A3 & _)]]]; auto.
Qed.
(*EX
Example link_rest_ex :
  let t := link_run asking counting 5 (concat (repeat link_turns 40)) (link_new (mk_w [] []) (mk_w [] [])) in
  link_rests asking counting 5 t /\ asking (u_past (l_client t)) = None /\ counting (u_past (l_server t)) = Some Hear.
Proof.
  split; [|vm_compute; split; reflexivity]. match goal with |- link_rests _ _ _ ?X => let v := eval vm_compute in X in assert (X = v) as -> by (vm_compute; reflexivity) end.
  intros [[] k|[] [|n]|[] [|n]]; reflexivity.
Qed.
EX*)

(** [C95] A run that ended with neither program in a write ended as it had to: in every other run,
    what has happened to either program is an initial part of what happened to it in this one; and if
    the other run ended like that too, it is the same. *)
Lemma one_end_proof : forall f1 f2 cap cap' w1 w2 w1' w2' acts acts', minds f1 -> minds f2 -> never_fails w1 -> never_fails w2 -> never_fails w1' -> never_fails w2' -> (1 <= cap)%nat ->
  let t := link_run f1 f2 cap acts (link_new w1 w2) in
  let t' := link_run f1 f2 cap' acts' (link_new w1' w2') in
  link_rests f1 f2 cap t -> free (l_client t) -> free (l_server t) ->
  prefix (u_past (l_client t')) (u_past (l_client t)) /\ prefix (u_past (l_server t')) (u_past (l_server t)) /\
  ((1 <= cap')%nat -> link_rests f1 f2 cap' t' -> free (l_client t') -> free (l_server t') ->
   u_past (l_client t') = u_past (l_client t) /\ u_past (l_server t') = u_past (l_server t)).
Proof.
  intros f1 f2 cap cap' w1 w2 w1' w2' acts acts' M1 M2 H1 H2 H1' H2' Hcap t t' HR F1 F2.
  destruct (link_inv_run cap f1 f2 acts _ _ M1 M2 (link_inv_new cap w1 w2 H1 H2)) as [a HI]. fold t in HI.
  destruct (link_inv_run cap' f1 f2 acts' _ _ M1 M2 (link_inv_new cap' w1' w2' H1' H2')) as [b HI']. fold t' in HI'.
  pose proof (rests_final f1 f2 cap t _ Hcap HI HR F1 F2) as HF.
  destruct (queue_confluent f1 f2 a b queues_new) as (a' & b' & E). rewrite !queue_run_app in E. rewrite (queue_still _ _ a' _ HF) in E.
  destruct (queue_extends f1 f2 b' (queue_run f1 f2 b queues_new)) as [X1 X2]. rewrite <- E in X1, X2. destruct HI as (A1 & A2 & _). destruct HI' as (B1 & B2 & HI').
  rewrite A1, B1 in X1. rewrite A2, B2 in X2. split; [exact X1|]. split; [exact X2|]. intros Hcap' HR' F1' F2'.
  pose proof (rests_final f1 f2 cap' t' _ Hcap' (conj B1 (conj B2 HI')) HR' F1' F2') as HF'. rewrite (queue_still _ _ b' _ HF') in E.
  split; congruence.
Qed.
(*EX
Example one_end_ex :
  let t := link_run asking counting 5 (concat (repeat link_turns 40)) (link_new (mk_w [] []) (mk_w [] [])) in
  let t' := link_run asking counting 1 (concat (repeat link_turns 90)) (link_new (mk_w [] []) (mk_w [] [])) in
  link_rests asking counting 5 t /\ free (l_client t) /\ free (l_server t) /\ u_past (l_server t) = u_past (l_server t') /\ List.length (u_past (l_server t)) = 6%nat.
Proof.
  split; [exact (proj1 link_rest_ex)|]. vm_compute. repeat split; reflexivity.
Qed.
EX*)
