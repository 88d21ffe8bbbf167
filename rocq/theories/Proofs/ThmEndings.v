(** Two programs on a connection that ends: C99. *)
From Coq Require Import NArith ZArith String Bool List Lia.
From Coq Require Import ZifyBool ZifyNat ZifyN.
From Coq.Strings Require Import Byte.
From Verif.Model Require Import Base Io Header Mask Dataframe Utf8 Text Headers
  Message Receiver Codec Framed Connect Examples AsyncExamples ChatClient Talk Narrow AsyncChat AsyncTalk Errand Dialogue Programs Kinds Endings.
From Verif.Spec Require Import RfcFrame FrameSpec Schedule Unicode Drive Session Connection Polled Fields Echo Chat Talking AsyncChat Errands Dialogues Queues Pairings Partings.
From Verif.Proofs Require Import BaseFacts MaskFacts HeaderFacts FrameFacts CodecFacts ScriptFacts
  Machine Utf8Facts FramedFacts AsyncFacts ThmFrames ThmStream SessionFacts RecvFacts MessageFacts
  TextFacts ExTac ThmMessages ThmFlow ThmLimits ThmInterop ThmEcho ThmChat ThmTalk ThmNarrow AsyncTalkFacts ThmCrossed ThmErrand ThmDialogue ThmPrograms ThmKinds.
Import ListNotations.
Local Open Scope string_scope.
Local Open Scope list_scope.
Local Open Scope nat_scope.

(** ** The end *)
Lemma nothing_left : forall s, clean s -> flat s = [] -> rd_exact 1 s = (Err UnexpectedEof, []).
Proof.
  induction s as [|e s IH]; intros H F; [reflexivity|]. inversion H as [|? ? H1 H2]; subst. destruct e; try contradiction H1; [discriminate F|]. cbn [rd_exact]. apply IH; assumption.
Qed.
Lemma recv_nothing : forall c r, pipe c r [] [] -> exists r', reader_recv r = (Err NoDataAvailable, r') /\ pipe c r' [] [].
Proof.
  intros c r (P1 & P2 & P3 & P4). rewrite app_nil_r in P3. unfold reader_recv. rewrite P1.
  assert (rd_exact 1 (push_back (rd_buf r) (rd_in r)) = (Err UnexpectedEof, [])) as E.
  { apply nothing_left; [apply clean_push_back; exact P2|rewrite flat_push_back; exact P3]. }
  assert (recv_message (default_receiver (negb c)) (push_back (rd_buf r) (rd_in r)) = (Err NoDataAvailable, default_receiver (negb c), [])) as ->.
  { unfold recv_message, recv_message_dataframes. destruct c; cbn [negb default_receiver r_buffer receiver_new receiver_with_limits data_total]; unfold recv_dataframe, read_dataframe_with_limit, read_header, read_uint; rewrite E; reflexivity. }
  eexists. split; [reflexivity|]. split; [reflexivity|]. split; [constructor|]. split; [reflexivity|constructor].
Qed.
Definition over_now (c : bool) : framed msg_codec := mk_framed (acodec c) [] true true.
Lemma poll_over : forall c s, framed_poll mc_decode s (over_now c) = (PEnd, over_now c, s).
Proof. intros [] [|e s]; reflexivity. Qed.
Lemma poll_nothing : forall c r, apipe c r [] [] [] -> framed_poll mc_decode [] r = (PEnd, over_now c, []).
Proof.
  intros c [st buf rb eof] (A1 & (A2 & A3) & A4 & _). cbn [fr_st fr_buf fr_eof fr_readable] in *. cbn [aev_bytes app] in A4. rewrite app_nil_r in A4. cbn in A4. subst. destruct c, rb; reflexivity.
Qed.

(** A client that has come to the end, as if it had not. *)
Definition clear (p : peer) : peer :=
  match p with
  | Blocking u => Blocking u
  | Polling a => Polling (mk_auser (au_past a) (mk_framed (fr_st (au_read a)) (fr_buf (au_read a)) (fr_readable (au_read a)) false) (au_out a) (au_busy a))
  end.
Definition at_end (p : peer) : bool := match p with Blocking _ => false | Polling a => fr_eof (au_read a) end.
Lemma clear_past : forall p, peer_past (clear p) = peer_past p.
Proof. intros [u|a]; reflexivity. Qed.
Lemma clear_id : forall p, at_end p = false -> clear p = p.
Proof. intros [u|[past [st b rb e] out bz]] H; [reflexivity|]. cbn in H |- *. rewrite H. reflexivity. Qed.
Lemma takes_clear : forall c p q l, takes c p q l -> at_end p = false.
Proof. intros c [u|a] q l H; [reflexivity|]. destruct H as (_ & (H & _) & _). exact H. Qed.
Lemma clear_turn : forall c f k e q p, peer_turn c f k e q (clear p) = match peer_turn c f k e q p with Some (p', o) => Some (clear p', o) | None => None end.
Proof.
  intros c f k e q [u|a]; cbn [clear peer_turn]; [destruct (user_turn f k q u) as [[? ?]|]; reflexivity|]. unfold auser_turn. pcbn. destruct (au_busy a); [reflexivity|]. destruct (f (au_past a)) as [[m|]|]; try reflexivity.
  destruct (start_send _ _ _ _ _) as [[| |] w']; reflexivity.
Qed.
Lemma clear_send : forall cap n q p, peer_send cap n q (clear p) = match peer_send cap n q p with Some (p', o) => Some (clear p', o) | None => None end.
Proof.
  intros cap n q [u|a]; cbn [clear peer_send]; [destruct (user_send cap n q u) as [[? ?]|]; reflexivity|]. unfold auser_send. pcbn. destruct (au_busy a); [|reflexivity].
  destruct (poll_complete _) as [[| |] w']; try reflexivity. destruct (awritten _ _); reflexivity.
Qed.
Lemma turn_read : forall c f k e q a p' o, peer_turn c f k e q (Polling a) = Some (p', o) ->
  exists a' m, p' = Polling a' /\ au_read a' = au_read a /\ f (au_past a) = Some (Say m).
Proof.
  intros c f k e q a p' o H. cbn [peer_turn] in H. unfold auser_turn in H. destruct (au_busy a); [discriminate H|]. destruct (f (au_past a)) as [[m|]|]; try discriminate H.
  destruct (start_send _ _ _ _ _) as [[| |] w']; try discriminate H; injection H as <- <-; eexists _, m; split; [reflexivity|split; reflexivity|reflexivity|split; reflexivity].
Qed.
Lemma send_read : forall cap n q a p' o, peer_send cap n q (Polling a) = Some (p', o) -> exists a', p' = Polling a' /\ au_read a' = au_read a.
Proof.
  intros cap n q a p' o H. cbn [peer_send] in H. unfold auser_send in H. destruct (au_busy a); [|discriminate H]. destruct (poll_complete _) as [[| |] w']; try discriminate H.
  - injection H as <- <-. eexists. split; reflexivity.
  - destruct (awritten _ _); [discriminate H|]. injection H as <- <-. eexists. split; reflexivity.
Qed.

(** A program that is gone does nothing any more. *)
Lemma gone_none : forall f p, peer_gone f p = true -> f (peer_past p) = None /\ peer_free p.
Proof.
  intros f p H. unfold peer_gone in H. destruct (f (peer_past p)); [discriminate H|]. split; [reflexivity|]. destruct p as [u|a]; cbn [peer_free]; unfold free.
  - destruct (u_write u); [discriminate H|reflexivity].
  - destruct (au_busy a); [discriminate H|reflexivity].
Qed.
Lemma gone_free : forall f p, f (peer_past p) = None -> peer_free p -> peer_gone f p = true.
Proof. intros f p H F. unfold peer_gone. rewrite H. destruct p as [u|a]; cbn [peer_free] in F; unfold free in *; rewrite F; reflexivity. Qed.
Lemma clear_gone : forall f p, peer_gone f (clear p) = peer_gone f p.
Proof. intros f [u|a]; reflexivity. Qed.
Lemma gone_still : forall f p, peer_gone f p = true -> (forall c k e q, peer_turn c f k e q p = None) /\ (forall cap n q, peer_send cap n q p = None) /\
  (forall n q, peer_read f n q p = None) /\ (forall g q, peer_end f g q p = None).
Proof.
  intros f p H. apply gone_none in H as [H1 H2]. destruct p as [u|a]; cbn [peer_past peer_free] in *; unfold free in *;
    (split; [|split; [|split]]); intros; cbn [peer_turn peer_send peer_read]; unfold user_turn, user_send, user_read, auser_turn, auser_send, auser_read, peer_end; rewrite ?H1, ?H2; try reflexivity;
    destruct g; try reflexivity; destruct q; reflexivity.
Qed.
Lemma deed_is : forall f o past mine theirs r, deed_done f past mine theirs = Some r -> deed_or_end f o past mine theirs = Some r.
Proof. intros f o past mine theirs r H. unfold deed_or_end. destruct (f past) as [[m|]|] eqn:E; try exact H. destruct theirs; [|exact H]. unfold deed_done in H. rewrite E in H. discriminate H. Qed.

(** ** A side *)
(** If [y] has come to the end, its partner [x] is gone and nothing is under way. *)
Definition endly (c : bool) (f : program) (x y : peer) (net : bytes) (on : list (owned * mkey)) : Prop :=
  at_end y = true -> peer_gone f x = true /\ net = [] /\ on = [] /\ exists a, y = Polling a /\ au_read a = over_now c.
Definition road (cap : nat) (c : bool) (f : program) (x y : peer) (net : bytes) (on : list (owned * mkey)) : Prop :=
  path cap c (clear x) (clear y) net on /\ endly c f x y net on.
Definition moved (f g : program) (x y x' : peer) (ux uy ux' uy' : list (owned * mkey)) : Prop :=
  peer_past x' = peer_past x /\ ux' = ux /\ uy' = uy \/
  deed_or_end f (no_more g (peer_past y)) (peer_past x) (map fst ux) (map fst uy) = Some (peer_past x', map fst ux', map fst uy').
Lemma endly_gone : forall c f x y net on, endly c f x y net on -> peer_gone f x = false -> forall x' net' on', endly c f x' y net' on'.
Proof. intros c f x y net on H G x' net' on' A. destruct (H A) as [B _]. rewrite B in G. discriminate G. Qed.

Lemma e_turn : forall cap c f g k e x y out inn x' o ux uy, minds f -> road cap c f x y out ux -> road cap (negb c) g y x inn uy ->
  peer_turn c f k e inn x = Some (x', o) ->
  o = [] /\ exists ux' uy', road cap c f x' y out ux' /\ road cap (negb c) g y x' inn uy' /\ moved f g x y x' ux uy ux' uy'.
Proof.
  intros cap c f g k e x y out inn x' o ux uy M [H1 E1] [H2 E2] T.
  assert (peer_gone f x = false) as G by (destruct (peer_gone f x) eqn:G; [|reflexivity]; destruct (gone_still _ _ G) as (X & _); rewrite X in T; discriminate T).
  pose proof (clear_turn c f k e inn x) as CT. rewrite T in CT. destruct (p_turn_step _ _ _ _ _ _ _ _ _ _ _ _ _ M H1 H2 CT) as (-> & ux' & uy' & A & B & C). split; [reflexivity|].
  rewrite !clear_past in C. exists ux', uy'. split; [split; [exact A|exact (endly_gone _ _ _ _ _ _ E1 G _ _ _)]|]. split; [split; [exact B|]|right; apply deed_is; exact C].
  intros AE. assert (at_end x = true /\ exists a m, x = Polling a /\ f (au_past a) = Some (Say m) /\ exists a', x' = Polling a' /\ au_read a' = au_read a) as (AX & a & m & -> & FM & a' & -> & ER).
  { destruct x as [u|a].
    - exfalso. cbn [peer_turn] in T. destruct (user_turn f k inn u) as [[? ?]|]; [|discriminate T]. injection T as <- _. discriminate AE.
    - destruct (turn_read _ _ _ _ _ _ _ _ T) as (a' & m & -> & ER & FM). cbn [at_end] in *. rewrite ER in AE. split; [exact AE|]. eauto 10. }
  destruct (E2 AX) as (X1 & X2 & X3 & a0 & X4 & X5). injection X4 as <-. split; [exact X1|]. split; [exact X2|]. split; [|exists a'; split; [reflexivity|congruence]].
  cbn [peer_past] in C. unfold deed_done in C. rewrite FM in C. subst uy. destruct uy'; [reflexivity|]. destruct (goes m); discriminate C.
Qed.
Lemma e_send : forall cap c f g n x y out inn x' q' ux uy, road cap c f x y out ux -> road cap (negb c) g y x inn uy ->
  peer_send cap n out x = Some (x', q') -> road cap c f x' y q' ux /\ road cap (negb c) g y x' inn uy /\ peer_past x' = peer_past x.
Proof.
  intros cap c f g n x y out inn x' q' ux uy [H1 E1] [H2 E2] T.
  assert (peer_gone f x = false) as G by (destruct (peer_gone f x) eqn:G; [|reflexivity]; destruct (gone_still _ _ G) as (_ & X & _); rewrite X in T; discriminate T).
  pose proof (clear_send cap n out x) as CT. rewrite T in CT. destruct (p_send_step _ _ _ _ _ _ _ _ _ _ _ H1 H2 CT) as (A & B & C). rewrite !clear_past in C.
  split; [split; [exact A|exact (endly_gone _ _ _ _ _ _ E1 G _ _ _)]|]. split; [split; [exact B|]|exact C].
  intros AE. destruct x as [u|a].
  - exfalso. cbn [peer_send] in T. destruct (user_send cap n out u) as [[? ?]|]; [|discriminate T]. injection T as <- _. discriminate AE.
  - destruct (send_read _ _ _ _ _ _ T) as (a' & -> & ER). cbn [at_end] in *. rewrite ER in AE. destruct (E2 AE) as (X1 & X2 & X3 & a0 & X4 & X5). injection X4 as <-. split; [exact X1|]. split; [exact X2|]. split; [exact X3|]. exists a'. split; [reflexivity|congruence].
Qed.
(** It has come to the end before, and hears of it again. *)
Lemma again : forall cap c f g x y out inn ux uy a past', road cap c f x y out ux -> road cap (negb c) g y x inn uy -> peer_gone f x = false -> x = Polling a -> at_end x = true -> f (au_past a) = Some Hear ->
  past' = au_past a ++ [NotHeard] -> au_busy a = false ->
  let x' := Polling (mk_auser past' (over_now (negb c)) (au_out a) false) in
  inn = [] /\ road cap c f x' y out ux /\ road cap (negb c) g y x' inn uy /\ moved f g x y x' ux uy ux uy.
Proof.
  intros cap c f g x y out inn ux uy a past' [H1 E1] [H2 E2] G -> AE F -> B x'. destruct (E2 AE) as (X1 & X2 & X3 & a0 & X4 & X5). injection X4 as <-. subst inn uy. split; [reflexivity|].
  destruct H1 as (T1 & S1 & L1). destruct H2 as (T2 & S2 & L2). cbn [clear] in *. pcbn_in. rewrite X5 in *. rewrite B in *. split; [split; [split; [exact T1|split; [exact S1|exact L1]]|exact (endly_gone _ _ _ _ _ _ E1 G _ _ _)]|].
  split; [split; [split; [exact T2|split; [exact S2|exact L2]]|]|].
  - intros _. split; [exact X1|]. split; [reflexivity|]. split; [reflexivity|]. eexists. split; reflexivity.
  - right. unfold deed_or_end. cbn [map]. pcbn. rewrite F. unfold no_more. destruct (gone_none _ _ X1) as [-> _]. reflexivity.
Qed.
Lemma e_read : forall cap c f g n x y out inn x' q' ux uy, road cap c f x y out ux -> road cap (negb c) g y x inn uy ->
  peer_read f n inn x = Some (x', q') -> exists uy', road cap c f x' y out ux /\ road cap (negb c) g y x' q' uy' /\ moved f g x y x' ux uy ux uy'.
Proof.
  intros cap c f g n x y out inn x' q' ux uy R1 R2 T.
  assert (peer_gone f x = false) as G by (destruct (peer_gone f x) eqn:G; [|reflexivity]; destruct (gone_still _ _ G) as (_ & _ & X & _); rewrite X in T; discriminate T).
  destruct (at_end x) eqn:AE.
  - destruct R2 as [H2 E2]. destruct (E2 AE) as (X1 & -> & -> & a & -> & X5). cbn [peer_read] in T. unfold auser_read in T. rewrite X5 in T. destruct (au_busy a) eqn:B; [discriminate T|]. destruct (f (au_past a)) as [[m|]|] eqn:F; try discriminate T.
    assert (apiece n [] = []) as EA by (unfold apiece; rewrite firstn_nil; reflexivity). rewrite EA, poll_over, skipn_nil in T. cbn [can_read app repeat aev_bytes] in T. injection T as <- <-.
    destruct (again cap c f g _ y out [] ux [] a _ R1 (conj H2 E2) G eq_refl AE F eq_refl B) as (_ & A1 & A2 & A3). exists []. auto.
  - destruct R1 as [H1 E1]. destruct R2 as [H2 E2]. rewrite (clear_id _ AE) in H1, H2. destruct (p_read_step _ _ _ _ _ _ _ _ _ _ _ _ H1 H2 T) as (A & [[B C]|(uy' & B & C)]).
    + pose proof (takes_clear _ _ _ _ (proj1 B)) as AE'. exists uy. unfold road. rewrite (clear_id _ AE'). split; [split; [exact A|exact (endly_gone _ _ _ _ _ _ E1 G _ _ _)]|]. split; [split; [exact B|intros X; congruence]|]. left. auto.
    + pose proof (takes_clear _ _ _ _ (proj1 B)) as AE'. exists uy'. unfold road. rewrite (clear_id _ AE'). split; [split; [exact A|exact (endly_gone _ _ _ _ _ _ E1 G _ _ _)]|]. split; [split; [exact B|intros X; congruence]|]. right. apply deed_is. exact C.
Qed.
Lemma e_end : forall cap c f g x y out inn x' ux uy, road cap c f x y out ux -> road cap (negb c) g y x inn uy ->
  peer_end f (peer_gone g y) inn x = Some x' -> exists uy', road cap c f x' y out ux /\ road cap (negb c) g y x' inn uy' /\ moved f g x y x' ux uy ux uy'.
Proof.
  intros cap c f g x y out inn x' ux uy R1 R2 T.
  assert (peer_gone f x = false) as G by (destruct (peer_gone f x) eqn:G; [|reflexivity]; destruct (gone_still _ _ G) as (_ & _ & _ & X); rewrite X in T; discriminate T).
  unfold peer_end in T. destruct (peer_gone g y) eqn:GY; [|discriminate T]. destruct inn; [|discriminate T]. destruct (gone_none _ _ GY) as [NY FY].
  assert (no_more g (peer_past y) = true) as NM by (unfold no_more; rewrite NY; reflexivity).
  destruct (at_end x) eqn:AE.
  - pose proof R2 as [H2 E2]. destruct (E2 AE) as (X1 & _ & -> & a & -> & X5). destruct (au_busy a) eqn:B; [discriminate T|]. destruct (f (au_past a)) as [[m|]|] eqn:F; try discriminate T.
    rewrite X5, poll_over in T. injection T as <-.
    destruct (again cap c f g _ y out [] ux [] a _ R1 R2 G eq_refl AE F eq_refl B) as (_ & A1 & A2 & A3). exists []. auto.
  - destruct R1 as [H1 E1]. destruct R2 as [H2 E2]. rewrite (clear_id _ AE) in H1, H2. destruct H1 as (T1 & S1 & L1). destruct H2 as (T2 & S2 & L2).
    assert (owes (clear y) = []) as OY by (apply (says_free _ _ S2); destruct y; exact FY). rewrite OY in T2. cbn [app] in T2. destruct x as [u|a]; pcbn_in.
    + destruct (u_write u) eqn:UW; [discriminate T|]. destruct (f (u_past u)) as [[m|]|] eqn:F; try discriminate T. destruct (pipe_read _ _ _ _ T2) as [(m & k & l' & r' & -> & E & P & _)|(E & [->|X])].
      * rewrite E in T. cbn [must_wait] in T. injection T as <-. exists l'. split; [split; [split; [exact T1|split; [|exact L1]]|exact (endly_gone _ _ _ _ _ _ E1 G _ _ _)]|]. { exact S1. }
        split; [split; [split; [rewrite OY; exact P|split; [exact S2|exact L2]]|intros X; discriminate X]|]. right. apply deed_is. unfold deed_done. pcbn. rewrite F. reflexivity.
      * destruct (recv_nothing _ _ T2) as (r' & E' & P). rewrite E' in T. cbn [must_wait andb negb] in T. injection T as <-. exists []. split; [split; [split; [exact T1|split; [|exact L1]]|exact (endly_gone _ _ _ _ _ _ E1 G _ _ _)]|]. { exact S1. }
        split; [split; [split; [rewrite OY; exact P|split; [exact S2|exact L2]]|intros X; discriminate X]|]. right. unfold deed_or_end. pcbn. cbn [map]. rewrite F, NM. reflexivity.
      * contradiction X. reflexivity.
    + destruct (au_busy a) eqn:B; [discriminate T|]. destruct (f (au_past a)) as [[m|]|] eqn:F; try discriminate T. cbn [can_read app] in T.
      destruct uy as [|[m k] uy].
      * rewrite (poll_nothing _ _ T2) in T. injection T as <-. exists []. split; [split; [split; [exact T1|split; [exact S1|exact L1]]|exact (endly_gone _ _ _ _ _ _ E1 G _ _ _)]|].
        split; [split; [split; [rewrite OY; cbn [clear takes]; pcbn|split; [exact S2|exact L2]]|]|].
        { split; [reflexivity|]. split; [split; [reflexivity|intros X; discriminate X]|]. split; [reflexivity|constructor]. }
        { intros _. split; [exact GY|]. split; [reflexivity|]. split; [reflexivity|]. eexists. split; reflexivity. }
        right. unfold deed_or_end. pcbn. cbn [map]. rewrite F, NM. reflexivity.
      * pose proof (apipe_poll _ [] _ _ _ T2 (Forall_nil _)) as HP. destruct (framed_poll mc_decode [] (au_read a)) as [[[m0| | |er| |] r'] s'] eqn:EP; try contradiction HP.
        { destruct HP as (k0 & l' & used & E0 & _ & P & E3 & _). injection E0 as -> -> ->. injection T as <-. symmetry in E3. apply app_eq_nil in E3 as [_ ->]. pose proof P as (_ & (EO & _) & _).
          assert (forall z1 z2 z3, clear (Polling (mk_auser z1 r' z2 z3)) = Polling (mk_auser z1 r' z2 z3)) as CC by (intros; apply clear_id; exact EO).
          exists l'. unfold road. rewrite CC. split; [split; [split; [exact T1|split; [exact S1|exact L1]]|exact (endly_gone _ _ _ _ _ _ E1 G _ _ _)]|].
          split; [split; [split; [rewrite OY; exact P|split; [exact S2|exact L2]]|intros X; cbn [at_end au_read] in X; rewrite EO in X; discriminate X]|]. right. apply deed_is. unfold deed_done. pcbn. rewrite F. reflexivity. }
        all: exfalso; repeat match goal with H : exists _, _ |- _ => destruct H end; repeat match goal with H : _ /\ _ |- _ => destruct H end.
        all: try (match goal with H : [] = _ ++ _ |- _ => destruct (app_cons_not_nil _ _ _ H) end).
        all: try (match goal with H : [] = [] -> _ |- _ => discriminate (H eq_refl) end).
        all: try (match goal with H : [] <> [] |- _ => contradiction H; reflexivity end).
Qed.

(** ** A connection *)
Definition ending_inv (f1 f2 : program) (cap : nat) (t : pairing) (s : queues) : Prop :=
  q_past1 s = peer_past (p_client t) /\ q_past2 s = peer_past (p_server t) /\
  exists ux uy, road cap true f1 (p_client t) (p_server t) (p_up t) ux /\ road cap false f2 (p_server t) (p_client t) (p_down t) uy /\
    q_up s = map fst ux /\ q_down s = map fst uy.
Lemma moved_one : forall f1 f2 x y x' ux uy ux' uy', moved f1 f2 x y x' ux uy ux' uy' ->
  exists turns, parting_run f1 f2 turns (mk_queues (peer_past x) (peer_past y) (map fst ux) (map fst uy)) = mk_queues (peer_past x') (peer_past y) (map fst ux') (map fst uy').
Proof.
  intros f1 f2 x y x' ux uy ux' uy' [(-> & -> & ->)|H]; [exists []; reflexivity|]. exists [true]. cbn [parting_run parting_step]. rewrite H. reflexivity.
Qed.
Lemma moved_two : forall f1 f2 x y y' ux uy ux' uy', moved f2 f1 y x y' uy ux uy' ux' ->
  exists turns, parting_run f1 f2 turns (mk_queues (peer_past x) (peer_past y) (map fst ux) (map fst uy)) = mk_queues (peer_past x) (peer_past y') (map fst ux') (map fst uy').
Proof.
  intros f1 f2 x y y' ux uy ux' uy' [(-> & -> & ->)|H]; [exists []; reflexivity|]. exists [false]. cbn [parting_run parting_step]. rewrite H. reflexivity.
Qed.
Lemma ending_inv_step : forall cap f1 f2 a t t' s, minds f1 -> minds f2 -> ending_inv f1 f2 cap t s -> ending_step f1 f2 cap a t = Some t' ->
  exists turns, ending_inv f1 f2 cap t' (parting_run f1 f2 turns s).
Proof.
  intros cap f1 f2 a [x y out inn] t' [p1 p2 u d] M1 M2 (P1 & P2 & ux & uy & W1 & W2 & Q1 & Q2) E. cbn [p_client p_server p_up p_down q_past1 q_past2 q_up q_down] in *. subst p1 p2 u d.
  assert (forall x' out' inn' ux' uy', moved f1 f2 x y x' ux uy ux' uy' -> road cap true f1 x' y out' ux' -> road cap false f2 y x' inn' uy' ->
    exists turns, ending_inv f1 f2 cap (mk_pairing x' y out' inn') (parting_run f1 f2 turns (mk_queues (peer_past x) (peer_past y) (map fst ux) (map fst uy)))) as K1.
  { intros x' out' inn' ux' uy' H A B. destruct (moved_one _ _ _ _ _ _ _ _ _ H) as [turns HT]. exists turns. rewrite HT. split; [reflexivity|]. split; [reflexivity|]. exists ux', uy'. auto. }
  assert (forall y' out' inn' ux' uy', moved f2 f1 y x y' uy ux uy' ux' -> road cap true f1 x y' out' ux' -> road cap false f2 y' x inn' uy' ->
    exists turns, ending_inv f1 f2 cap (mk_pairing x y' out' inn') (parting_run f1 f2 turns (mk_queues (peer_past x) (peer_past y) (map fst ux) (map fst uy)))) as K2.
  { intros y' out' inn' ux' uy' H A B. destruct (moved_two _ _ _ _ _ _ _ _ _ H) as [turns HT]. exists turns. rewrite HT. split; [reflexivity|]. split; [reflexivity|]. exists ux', uy'. auto. }
  destruct a as [[[] k e|[] n|[] n]|[]]; cbn [ending_step pairing_step p_client p_server p_up p_down] in E.
  - destruct (peer_turn true f1 k e inn x) as [[x' o]|] eqn:EP; [|discriminate E]. injection E as <-. destruct (e_turn cap true _ f2 _ _ _ _ _ _ _ _ _ _ M1 W1 W2 EP) as (-> & ux' & uy' & A & B & C). rewrite app_nil_r. eauto.
  - destruct (peer_turn false f2 k e out y) as [[x' o]|] eqn:EP; [|discriminate E]. injection E as <-. destruct (e_turn cap false _ f1 _ _ _ _ _ _ _ _ _ _ M2 W2 W1 EP) as (-> & ux' & uy' & A & B & C). rewrite app_nil_r. eauto.
  - destruct (peer_send cap n out x) as [[x' o]|] eqn:EP; [|discriminate E]. injection E as <-. destruct (e_send cap true _ f2 _ _ _ _ _ _ _ _ _ W1 W2 EP) as (A & B & C). eapply K1; [left|exact A|exact B]. auto.
  - destruct (peer_send cap n inn y) as [[x' o]|] eqn:EP; [|discriminate E]. injection E as <-. destruct (e_send cap false _ f1 _ _ _ _ _ _ _ _ _ W2 W1 EP) as (A & B & C). eapply K2; [left|exact B|exact A]. auto.
  - destruct (peer_read f1 n inn x) as [[x' o]|] eqn:EP; [|discriminate E]. injection E as <-. destruct (e_read cap true _ f2 _ _ _ _ _ _ _ _ _ W1 W2 EP) as (uy' & A & B & C). eauto.
  - destruct (peer_read f2 n out y) as [[x' o]|] eqn:EP; [|discriminate E]. injection E as <-. destruct (e_read cap false _ f1 _ _ _ _ _ _ _ _ _ W2 W1 EP) as (uy' & A & B & C). eauto.
  - destruct (peer_end f1 (peer_gone f2 y) inn x) as [x'|] eqn:EP; [|discriminate E]. injection E as <-. destruct (e_end cap true _ f2 _ _ _ _ _ _ _ W1 W2 EP) as (uy' & A & B & C). eauto.
  - destruct (peer_end f2 (peer_gone f1 x) out y) as [x'|] eqn:EP; [|discriminate E]. injection E as <-. destruct (e_end cap false _ f1 _ _ _ _ _ _ _ W2 W1 EP) as (uy' & A & B & C). eauto.
Qed.
Lemma parting_run_app : forall f1 f2 a b s, parting_run f1 f2 (a ++ b) s = parting_run f1 f2 b (parting_run f1 f2 a s).
Proof. intros f1 f2. induction a as [|c a IH]; intros b s; [reflexivity|]. cbn [app parting_run]. apply IH. Qed.
Lemma ending_inv_run : forall cap f1 f2 acts t s, minds f1 -> minds f2 -> ending_inv f1 f2 cap t s -> exists turns, ending_inv f1 f2 cap (ending_run f1 f2 cap acts t) (parting_run f1 f2 turns s).
Proof.
  intros cap f1 f2. induction acts as [|a acts IH]; intros t s M1 M2 H; [exists []; exact H|]. cbn [ending_run]. destruct (ending_step f1 f2 cap a t) as [t'|] eqn:E; [|auto].
  destruct (ending_inv_step _ _ _ _ _ _ _ M1 M2 H E) as [turns H']. destruct (IH _ _ M1 M2 H') as [turns' H'']. exists (turns ++ turns'). rewrite parting_run_app. exact H''.
Qed.
Lemma ending_inv_new : forall f1 f2 cap s1 s2, works s1 -> works s2 -> ending_inv f1 f2 cap (pairing_new s1 s2) queues_new.
Proof.
  intros f1 f2 cap s1 s2 H1 H2. assert (forall c s, at_end (peer_new c s) = false) as AE by (intros [] [w|b]; reflexivity).
  split; [destruct s1; reflexivity|]. split; [destruct s2; reflexivity|]. exists [], []. unfold road, pairing_new. cbn [p_client p_server p_up p_down]. rewrite !clear_id by apply AE.
  split; [split; [apply (path_new cap true); exact H1|intros X; rewrite AE in X; discriminate X]|]. split; [split; [apply (path_new cap false); exact H2|intros X; rewrite AE in X; discriminate X]|]. split; reflexivity.
Qed.

(** ** Queues that end do not care for timing *)
Lemma queue_parting : forall f1 f2 c s s', queue_step f1 f2 c s = Some s' -> parting_step f1 f2 c s = Some s'.
Proof.
  intros f1 f2 c [p1 p2 u d] s' H. cbn [queue_step parting_step] in *. destruct c.
  - destruct (deed_done f1 p1 u d) as [[[a b] e]|] eqn:E; [|discriminate H]. rewrite (deed_is _ _ _ _ _ _ E). exact H.
  - destruct (deed_done f2 p2 d u) as [[[a b] e]|] eqn:E; [|discriminate H]. rewrite (deed_is _ _ _ _ _ _ E). exact H.
Qed.
(** Where the other can do something, there is no end. *)
Lemma deed_not_over : forall f past mine theirs, deed_or_end f false past mine theirs = deed_done f past mine theirs.
Proof. intros f past mine theirs. unfold deed_or_end. destruct (f past) as [[m|]|]; try reflexivity. destruct theirs; reflexivity. Qed.
Lemma deed_more : forall f o past mine theirs r, deed_or_end f o past mine theirs = Some r -> no_more f past = false.
Proof. intros f o past mine theirs r H. unfold no_more, deed_or_end, deed_done in *. destruct (f past); [reflexivity|discriminate H]. Qed.
Lemma parting_queue : forall f1 f2 s s1 s2, parting_step f1 f2 true s = Some s1 -> parting_step f1 f2 false s = Some s2 -> queue_step f1 f2 true s = Some s1 /\ queue_step f1 f2 false s = Some s2.
Proof.
  intros f1 f2 [p1 p2 u d] s1 s2 H1 H2. cbn [queue_step parting_step] in *.
  destruct (deed_or_end f1 (no_more f2 p2) p1 u d) as [[[a b] e]|] eqn:E1; [|discriminate H1]. destruct (deed_or_end f2 (no_more f1 p1) p2 d u) as [[[a' b'] e']|] eqn:E2; [|discriminate H2].
  rewrite (deed_more _ _ _ _ _ _ E2), deed_not_over in E1. rewrite deed_more with (1 := deed_is _ true _ _ _ _ E1), deed_not_over in E2. rewrite E1, E2. auto.
Qed.
Lemma parting_push : forall f1 f2 turns c s s', parting_step f1 f2 c s = Some s' ->
  exists turns' more, parting_run f1 f2 turns' s' = parting_run f1 f2 (turns ++ more) s.
Proof.
  intros f1 f2. induction turns as [|b turns IH]; intros c s s' H.
  - exists [], [c]. cbn [app parting_run]. rewrite H. reflexivity.
  - cbn [app parting_run]. destruct (parting_step f1 f2 b s) as [s1|] eqn:EB.
    + destruct (Bool.bool_dec b c) as [->|NE].
      * rewrite H in EB. injection EB as ->. exists turns, []. rewrite app_nil_r. reflexivity.
      * assert (exists s3, parting_step f1 f2 c s1 = Some s3 /\ parting_step f1 f2 b s' = Some s3) as (s3 & A & B).
        { destruct b, c; try (contradiction NE; reflexivity).
          - destruct (parting_queue _ _ _ _ _ EB H) as [X Y]. destruct (queue_diamond _ _ _ _ _ X Y) as (s3 & A & B). exists s3. split; apply queue_parting; assumption.
          - destruct (parting_queue _ _ _ _ _ H EB) as [X Y]. destruct (queue_diamond _ _ _ _ _ X Y) as (s3 & A & B). exists s3. split; apply queue_parting; assumption. }
        destruct (IH c s1 s3 A) as (turns' & more & E). exists (b :: turns'), more. cbn [parting_run]. rewrite B. exact E.
    + destruct (IH c s s' H) as (turns' & more & E). exists turns', more. exact E.
Qed.
Lemma parting_confluent : forall f1 f2 a b s, exists a' b', parting_run f1 f2 (a ++ a') s = parting_run f1 f2 (b ++ b') s.
Proof.
  intros f1 f2. induction a as [|c a IH]; intros b s.
  - exists b, []. rewrite app_nil_r. reflexivity.
  - cbn [app parting_run]. destruct (parting_step f1 f2 c s) as [s'|] eqn:E; [|apply IH].
    destruct (parting_push _ _ b _ _ _ E) as (b' & more & E'). destruct (IH b' s') as (a' & b'' & E''). exists a', (more ++ b'').
    rewrite E'', app_assoc, (parting_run_app _ _ (b ++ more)), parting_run_app, E'. reflexivity.
Qed.
Lemma end_shape : forall f o past mine theirs past' mine' theirs', deed_or_end f o past mine theirs = Some (past', mine', theirs') ->
  deed_done f past mine theirs = Some (past', mine', theirs') \/ o = true /\ theirs = [] /\ theirs' = [] /\ mine' = mine /\ past' = past ++ [NotHeard].
Proof.
  intros f o past mine theirs past' mine' theirs' H. unfold deed_or_end in H. destruct (f past) as [[m|]|] eqn:E; auto. destruct theirs; auto. destruct o; auto. right. injection H as <- <- <-. auto.
Qed.
Lemma end_extends : forall f o past mine theirs past' mine' theirs', deed_or_end f o past mine theirs = Some (past', mine', theirs') -> exists h, past' = past ++ [h].
Proof. intros f o past mine theirs past' mine' theirs' H. destruct (end_shape _ _ _ _ _ _ _ _ H) as [H'|(_ & _ & _ & _ & ->)]; [exact (deed_extends _ _ _ _ _ _ _ H')|eauto]. Qed.
Lemma parting_extends : forall f1 f2 turns s, prefix (q_past1 s) (q_past1 (parting_run f1 f2 turns s)) /\ prefix (q_past2 s) (q_past2 (parting_run f1 f2 turns s)).
Proof.
  intros f1 f2. induction turns as [|c turns IH]; intros s; [split; exists []; rewrite app_nil_r; reflexivity|]. cbn [parting_run]. destruct (parting_step f1 f2 c s) as [s'|] eqn:E; [|apply IH].
  destruct (IH s') as [[x X] [y Y]]. rewrite X, Y. destruct s as [p1 p2 u d]. cbn [parting_step] in E. destruct c.
  - destruct (deed_or_end f1 _ p1 u d) as [[[p1' u'] d']|] eqn:ED; [|discriminate E]. injection E as <-. destruct (end_extends _ _ _ _ _ _ _ _ ED) as [h ->]. cbn [q_past1 q_past2].
    split; eexists; [rewrite <- app_assoc|]; reflexivity.
  - destruct (deed_or_end f2 _ p2 d u) as [[[p2' d'] u']|] eqn:ED; [|discriminate E]. injection E as <-. destruct (end_extends _ _ _ _ _ _ _ _ ED) as [h ->]. cbn [q_past1 q_past2].
    split; eexists; [|rewrite <- app_assoc]; reflexivity.
Qed.
Lemma parting_still : forall f1 f2 turns s, (forall c, parting_step f1 f2 c s = None) -> parting_run f1 f2 turns s = s.
Proof. intros f1 f2. induction turns as [|c turns IH]; intros s H; [reflexivity|]. cbn [parting_run]. rewrite H. apply IH. exact H. Qed.

(** ** Nothing is lost at the end *)
Lemma words_said_app : forall a b, words_said (a ++ b) = words_said a ++ words_said b.
Proof. intros. apply flat_map_app. Qed.
Lemma words_heard_app : forall a b, words_heard (a ++ b) = words_heard a ++ words_heard b.
Proof. intros. apply flat_map_app. Qed.
Definition half (f2 : program) (p1 p2 : list happening) (d : list owned) : Prop :=
  words_said p2 = words_heard p1 ++ d /\ forall a b, p1 = a ++ NotHeard :: b -> f2 p2 = None /\ words_heard a = words_said p2.
Lemma half_hears : forall f1 f2 p1 p2 u d p1' u' d', half f2 p1 p2 d -> half f1 p2 p1 u -> deed_or_end f1 (no_more f2 p2) p1 u d = Some (p1', u', d') -> half f2 p1' p2 d' /\ half f1 p2 p1' u'.
Proof.
  intros f1 f2 p1 p2 u d p1' u' d' [A1 A2] [B1 B2] H. pose proof (deed_more _ _ _ _ _ _ H) as HM. unfold no_more in HM.
  assert (forall a b, p2 = a ++ NotHeard :: b -> False) as B3 by (intros a b E; destruct (B2 a b E) as [X _]; rewrite X in HM; discriminate HM).
  assert (forall h, p1' = p1 ++ [h] -> h <> NotHeard -> forall a b, p1' = a ++ NotHeard :: b -> f2 p2 = None /\ words_heard a = words_said p2) as A3.
  { intros h -> Hh a b E. destruct b as [|z b0 _] using rev_ind; [apply app_inj_tail in E as [_ E]; contradiction|]. rewrite app_comm_cons, app_assoc in E. apply app_inj_tail in E as [E _]. exact (A2 _ _ E). }
  destruct (end_shape _ _ _ _ _ _ _ _ H) as [HD|(HO & -> & -> & -> & ->)].
  - unfold deed_done in HD. destruct (f1 p1) as [[m|]|] eqn:F; [destruct (goes m)|destruct d as [|m d]|]; try discriminate HD; injection HD as <- <- <-.
    + split; [split; [rewrite words_heard_app; cbn; rewrite app_nil_r; exact A1|apply (A3 (Said m)); [reflexivity|discriminate]]|].
      split; [rewrite words_said_app, B1, <- app_assoc; reflexivity|intros a b E; destruct (B3 a b E)].
    + split; [split; [rewrite words_heard_app; cbn; rewrite app_nil_r; exact A1|apply (A3 (NotSaid m)); [reflexivity|discriminate]]|].
      split; [rewrite words_said_app, B1; cbn; rewrite app_nil_r; reflexivity|intros a b E; destruct (B3 a b E)].
    + split; [split; [rewrite words_heard_app, <- app_assoc; exact A1|apply (A3 (Heard m)); [reflexivity|discriminate]]|].
      split; [rewrite words_said_app; cbn; rewrite app_nil_r; exact B1|intros a b E; destruct (B3 a b E)].
  - rewrite app_nil_r in A1. split; [split; [rewrite words_heard_app; cbn; rewrite !app_nil_r; exact A1|]|].
    + intros a b E. destruct b as [|z b _] using rev_ind.
      * apply app_inj_tail in E as [<- _]. split; [|symmetry; exact A1]. unfold no_more in HO. destruct (f2 p2); [discriminate HO|reflexivity].
      * rewrite app_comm_cons, app_assoc in E. apply app_inj_tail in E as [E _]. exact (A2 _ _ E).
    + split; [rewrite words_said_app; cbn; rewrite app_nil_r; exact B1|intros a b E; destruct (B3 a b E)].
Qed.
Lemma half_run : forall f1 f2 turns s, half f2 (q_past1 s) (q_past2 s) (q_down s) -> half f1 (q_past2 s) (q_past1 s) (q_up s) ->
  let s' := parting_run f1 f2 turns s in half f2 (q_past1 s') (q_past2 s') (q_down s') /\ half f1 (q_past2 s') (q_past1 s') (q_up s').
Proof.
  intros f1 f2. induction turns as [|c turns IH]; intros s A B; [auto|]. cbn [parting_run]. destruct (parting_step f1 f2 c s) as [s'|] eqn:E; [|apply IH; assumption].
  destruct s as [p1 p2 u d]. cbn [parting_step q_past1 q_past2 q_up q_down] in *. destruct c.
  - destruct (deed_or_end f1 _ p1 u d) as [[[p1' u'] d']|] eqn:ED; [|discriminate E]. injection E as <-. destruct (half_hears _ _ _ _ _ _ _ _ _ A B ED) as [X Y]. apply IH; assumption.
  - destruct (deed_or_end f2 _ p2 d u) as [[[p2' d'] u']|] eqn:ED; [|discriminate E]. injection E as <-. destruct (half_hears _ _ _ _ _ _ _ _ _ B A ED) as [X Y]. apply IH; assumption.
Qed.
Lemma half_new : forall f, half f [] [] [].
Proof. intros f. split; [reflexivity|]. intros [|h a] b E; discriminate E. Qed.

(** ** At rest *)
Lemma e_rests : forall cap f g x y out inn ux uy c k e n1 n2, 1 <= cap -> minds f -> road cap c f x y out ux -> road cap (negb c) g y x inn uy ->
  peer_turn c f k e inn x = None -> peer_send cap (S n1) out x = None -> peer_read f (S n2) inn x = None -> peer_end f (peer_gone g y) inn x = None ->
  ~ peer_free x /\ length out = cap \/
  peer_free x /\ f (peer_past x) = None \/
  peer_free x /\ f (peer_past x) = Some Hear /\ inn = [] /\ peer_gone g y = false /\ (peer_free y -> uy = []).
Proof.
  intros cap f g x y out inn ux uy c k e n1 n2 Hcap M [H1 E1] [H2 E2] S1 S2 S3 S4.
  assert (peer_read f (S n2) inn (clear x) = None) as S3'.
  { destruct (at_end x) eqn:AE; [|rewrite clear_id by exact AE; exact S3]. destruct (E2 AE) as (X1 & -> & _ & a & -> & X5). cbn [clear peer_read]. unfold auser_read. pcbn. rewrite X5.
    destruct (au_busy a); [reflexivity|]. destruct (f (au_past a)) as [[m|]|]; try reflexivity. }
  assert (peer_turn c f k e inn (clear x) = None) as S1' by (rewrite clear_turn, S1; reflexivity). assert (peer_send cap (S n1) out (clear x) = None) as S2' by (rewrite clear_send, S2; reflexivity).
  assert (forall p, peer_free (clear p) <-> peer_free p) as CF by (intros [u|a]; reflexivity).
  destruct (p_rests _ _ _ _ _ _ _ _ _ _ _ _ _ Hcap M H1 H2 S1' S2' S3') as [[A B]|[[A B]|(A & B & C & D)]]; rewrite CF in A; rewrite ?clear_past in *; rewrite ?CF in *; auto.
  right. right. split; [exact A|]. split; [exact B|]. split; [exact C|]. split; [|exact D]. destruct (peer_gone g y) eqn:GY; [exfalso|reflexivity]. subst inn. unfold peer_end in S4.
  pose proof (D (proj2 (gone_none _ _ GY))) as ->. destruct H2 as (T2 & SY & _). assert (owes (clear y) = []) as OY by (apply (says_free _ _ SY); apply CF; exact (proj2 (gone_none _ _ GY))). rewrite OY in T2. cbn [app] in T2.
  destruct x as [u|a]; cbn [peer_free peer_past clear takes] in *; unfold free in *.
  - rewrite A, B in S4. destruct (recv_nothing _ _ T2) as (r' & E' & _). rewrite E' in S4. discriminate S4.
  - rewrite A, B in S4. destruct (fr_eof (au_read a)) eqn:EE.
    + destruct (E2 EE) as (_ & _ & _ & a0 & X4 & X5). injection X4 as <-. rewrite X5, poll_over in S4. discriminate S4.
    + assert (mk_framed (fr_st (au_read a)) (fr_buf (au_read a)) (fr_readable (au_read a)) false = au_read a) as EQ by (destruct (au_read a); cbn in *; congruence).
      cbn [au_read] in T2. rewrite EQ in T2. cbn [can_read app] in S4. rewrite (poll_nothing _ _ T2) in S4. discriminate S4.
Qed.
Lemma ending_none : forall f1 f2 cap k e n x y out inn, ending_rests f1 f2 cap (mk_pairing x y out inn) ->
  (peer_turn true f1 k e inn x = None /\ peer_send cap n out x = None /\ peer_read f1 n inn x = None /\
   peer_turn false f2 k e out y = None /\ peer_send cap n inn y = None /\ peer_read f2 n out y = None) /\
  peer_end f1 (peer_gone f2 y) inn x = None /\ peer_end f2 (peer_gone f1 x) out y = None.
Proof.
  intros f1 f2 cap k e n x y out inn H. split; [apply (pairing_none f1 f2 cap); intros a; exact (H (EGo a))|]. pose proof (H (EEnd true)) as A. pose proof (H (EEnd false)) as B. cbn [ending_step p_client p_server p_up p_down] in A, B.
  destruct (peer_end f1 (peer_gone f2 y) inn x); [discriminate A|]. destruct (peer_end f2 (peer_gone f1 x) out y); [discriminate B|]. auto.
Qed.
Lemma ending_at_rest : forall f1 f2 cap t s, 1 <= cap -> minds f1 -> minds f2 -> ending_inv f1 f2 cap t s -> ending_rests f1 f2 cap t ->
  parted cap f1 f2 (p_client t) (p_server t) (p_up t) (p_down t) /\ parted cap f2 f1 (p_server t) (p_client t) (p_down t) (p_up t) /\
  (peer_free (p_client t) -> peer_free (p_server t) -> forall c, parting_step f1 f2 c s = None).
Proof.
  intros f1 f2 cap [x y out inn] [p1 p2 u d] Hcap M1 M2 (P1 & P2 & ux & uy & W1 & W2 & Q1 & Q2) HR. cbn [p_client p_server p_up p_down q_past1 q_past2 q_up q_down] in *. subst p1 p2 u d.
  set (k := mk_key x00 x00 x00 x00). destruct (ending_none _ _ _ k 0%N 1 _ _ _ _ HR) as ((S1 & S2 & S3 & S4 & S5 & S6) & S7 & S8).
  pose proof (e_rests cap f1 f2 x y out inn ux uy true k 0%N 0 0 Hcap M1 W1 W2 S1 S2 S3 S7) as A. pose proof (e_rests cap f2 f1 y x inn out uy ux false k 0%N 0 0 Hcap M2 W2 W1 S4 S5 S6 S8) as B.
  assert (inn = [] -> peer_gone f2 y = false -> f2 (peer_past y) <> None) as N1.
  { intros -> G X. destruct B as [[_ B]|[[B _]|(_ & B & _)]]; [cbn [length] in B; lia|rewrite (gone_free _ _ X B) in G; discriminate G|congruence]. }
  assert (out = [] -> peer_gone f1 x = false -> f1 (peer_past x) <> None) as N2.
  { intros -> G X. destruct A as [[_ A]|[[A _]|(_ & A & _)]]; [cbn [length] in A; lia|rewrite (gone_free _ _ X A) in G; discriminate G|congruence]. }
  unfold parted. split; [|split].
  - destruct A as [A|[[A1 A2]|(A1 & A2 & A3 & A4 & _)]]; auto 10.
  - destruct B as [A0|[[A1 A2]|(A1 & A2 & A3 & A4 & _)]]; auto 10.
  - intros F1 F2 c. cbn [parting_step]. unfold deed_or_end, deed_done, no_more. destruct c.
    + destruct A as [[A _]|[[_ ->]|(_ & -> & A3 & A4 & A5)]]; [contradiction|reflexivity|]. rewrite (A5 F2). cbn [map]. destruct (f2 (peer_past y)) eqn:X; [reflexivity|]. contradiction (N1 A3 A4 eq_refl).
    + destruct B as [[B _]|[[_ ->]|(_ & -> & A3 & A4 & A5)]]; [contradiction|reflexivity|]. rewrite (A5 F1). cbn [map]. destruct (f1 (peer_past x)) eqn:X; [reflexivity|]. contradiction (N2 A3 A4 eq_refl).
Qed.

(** ** Whatever queues that end do, the connection can do *)
Lemma end_comes : forall cap c f g x y out inn ux, road cap c f x y out ux -> road cap (negb c) g y x inn [] -> peer_free x -> peer_free y -> f (peer_past x) = Some Hear -> g (peer_past y) = None ->
  exists x', peer_end f (peer_gone g y) inn x = Some x' /\ peer_free x' /\ road cap c f x' y out ux /\ road cap (negb c) g y x' inn [] /\ peer_past x' = peer_past x ++ [NotHeard].
Proof.
  intros cap c f g x y out inn ux R1 R2 FX FY F G. pose proof (gone_free _ _ G FY) as GY. rewrite GY. pose proof R2 as [(T2 & SY & _) E2].
  destruct (takes_all _ _ _ _ T2) as [b HB]. change (encs (masked_frames (negb c) [])) with (@nil byte) in HB. apply app_eq_nil in HB as [_ HB]. apply app_eq_nil in HB as [-> HO]. rewrite HO in T2. cbn [app] in T2.
  assert (exists x', peer_end f true [] x = Some x' /\ peer_free x') as (x' & E & FX').
  { unfold peer_end. destruct x as [u|a]; cbn [peer_free peer_past clear takes] in *; unfold free in *; rewrite FX, F.
    - destruct (recv_nothing _ _ T2) as (r' & E' & _). rewrite E'. eexists. split; reflexivity.
    - destruct (fr_eof (au_read a)) eqn:EE.
      + destruct (E2 EE) as (_ & _ & _ & a0 & X4 & X5). injection X4 as <-. rewrite X5, poll_over. eexists. split; reflexivity.
      + assert (mk_framed (fr_st (au_read a)) (fr_buf (au_read a)) (fr_readable (au_read a)) false = au_read a) as EQ by (destruct (au_read a); cbn in *; congruence).
        cbn [au_read] in T2. rewrite EQ in T2. cbn [can_read app]. rewrite (poll_nothing _ _ T2). eexists. split; reflexivity. }
  exists x'. split; [exact E|]. split; [exact FX'|]. rewrite <- GY in E. destruct (e_end _ _ _ _ _ _ _ _ _ _ _ R1 R2 E) as (uy' & A & B & [(C & _)|C]).
  - exfalso. rewrite GY in E. unfold peer_end in E. destruct x as [u|a]; cbn [peer_free peer_past] in *; unfold free in *; rewrite FX, F in E.
    + destruct (reader_recv (u_reader u)) as [z r']. destruct (must_wait z true []); [discriminate E|]. injection E as <-. cbn [peer_past u_past] in C. apply (f_equal (@length happening)) in C. rewrite app_length in C. cbn in C. lia.
    + destruct (framed_poll mc_decode _ (au_read a)) as [[[m0| | |er| |] r'] s']; try discriminate E; injection E as <-; cbn [peer_past au_past] in C; apply (f_equal (@length happening)) in C; rewrite app_length in C; cbn in C; lia.
  - unfold deed_or_end, no_more in C. rewrite F, G in C. cbn [map] in C. injection C as C1 C2. destruct uy'; [|discriminate C2]. auto.
Qed.
Lemma e_real : forall cap c f g k x y out inn ux uy past' mine' theirs', minds f -> road cap c f x y out ux -> road cap (negb c) g y x inn uy -> peer_free x -> peer_free y ->
  deed_done f (peer_past x) (map fst ux) (map fst uy) = Some (past', mine', theirs') -> szc c mine' <= cap ->
  exists x' out' inn' ux' uy', road cap c f x' y out' ux' /\ road cap (negb c) g y x' inn' uy' /\ peer_free x' /\ peer_past x' = past' /\ map fst ux' = mine' /\ map fst uy' = theirs' /\
    ((exists x1, peer_turn c f k 0 inn x = Some (x1, []) /\ peer_send cap (S cap) out x1 = Some (x', out') /\ inn' = inn) \/
     (peer_turn c f k 0 inn x = Some (x', []) /\ out' = out /\ inn' = inn) \/
     (exists x1, peer_read f (S (length inn)) inn x = Some (x1, inn') /\ peer_turn c f k 0 inn' x1 = Some (x', []) /\ out' = out) \/
     (peer_read f (S (length inn)) inn x = Some (x', inn') /\ out' = out)).
Proof.
  intros cap c f g k x y out inn ux uy past' mine' theirs' M [H1 E1] [H2 E2] FX FY HD HC.
  assert (forall p, peer_free (clear p) <-> peer_free p) as CF by (intros [u|a]; reflexivity).
  assert (peer_gone f x = false) as G by (unfold peer_gone; unfold deed_done in HD; destruct (f (peer_past x)); [reflexivity|discriminate HD]).
  destruct (at_end x) eqn:AE.
  - pose proof HD as HD'. rewrite <- (clear_past x) in HD'. destruct (p_real cap c f k _ _ out inn ux uy past' mine' theirs' M H1 H2 (proj2 (CF x) FX) (proj2 (CF y) FY) HD' HC) as (x' & out' & inn' & ux' & uy' & A & B & C & D1 & D2 & D3 & HA).
    destruct (E2 AE) as (X1 & X2 & X3 & a & X4 & X5).
    assert (exists m, f (peer_past x) = Some (Say m)) as [m FM] by (unfold deed_done in HD; destruct (f (peer_past x)) as [[m|]|]; [eauto|subst uy; discriminate HD|discriminate HD]).
    assert (forall n q z, peer_read f n q (clear x) = Some z -> False) as NR by (intros n q z E; subst x; cbn [clear peer_read peer_past] in *; unfold auser_read in E; cbn [au_past au_busy] in E; rewrite FM in E; destruct (au_busy a); discriminate E).
    assert (uy' = [] /\ theirs' = []) as [UY TH].
    { unfold deed_done in HD. rewrite FM in HD. subst uy. cbn [map] in HD. assert (theirs' = []) as -> by (destruct (goes m); congruence). destruct uy'; [auto|discriminate D3]. }
    assert (forall x1, clear x1 = x' -> au_past a = au_past a -> (exists a', x1 = Polling a' /\ au_read a' = au_read a) -> inn' = inn -> road cap c f x1 y out' ux' /\ road cap (negb c) g y x1 inn' uy') as RR.
    { intros x1 <- _ (a' & -> & ER) ->. split; [split; [exact A|exact (endly_gone _ _ _ _ _ _ E1 G _ _ _)]|]. split; [exact B|]. intros _. split; [exact X1|]. split; [exact X2|]. split; [exact UY|]. exists a'. split; [reflexivity|congruence]. }
    subst x. destruct HA as [(x1 & T1 & T2 & T3)|[(T1 & T2 & T3)|[(x1 & T1 & _)|(T1 & _)]]].
    + rewrite clear_turn in T1. destruct (peer_turn c f k 0 inn (Polling a)) as [[x0 o]|] eqn:T0; [|discriminate T1]. injection T1 as <- ->. destruct (turn_read _ _ _ _ _ _ _ _ T0) as (a' & _ & -> & ER & _).
      rewrite clear_send in T2. destruct (peer_send cap (S cap) out (Polling a')) as [[x0 o]|] eqn:T4; [|discriminate T2]. injection T2 as <- ->. destruct (send_read _ _ _ _ _ _ T4) as (a'' & -> & ER').
      destruct (RR (Polling a'') eq_refl eq_refl) as [Y1 Y2]; [exists a''; split; [reflexivity|congruence]|exact T3|]. exists (Polling a''), out', inn', ux', uy'. split; [exact Y1|]. split; [exact Y2|]. split; [exact C|]. split; [exact D1|]. split; [exact D2|]. split; [exact D3|]. left. exists (Polling a'). auto.
    + rewrite clear_turn in T1. destruct (peer_turn c f k 0 inn (Polling a)) as [[x0 o]|] eqn:T0; [|discriminate T1]. injection T1 as <- ->. destruct (turn_read _ _ _ _ _ _ _ _ T0) as (a' & _ & -> & ER & _).
      destruct (RR (Polling a') eq_refl eq_refl) as [Y1 Y2]; [exists a'; split; [reflexivity|exact ER]|exact T3|]. exists (Polling a'), out', inn', ux', uy'. split; [exact Y1|]. split; [exact Y2|]. split; [exact C|]. split; [exact D1|]. split; [exact D2|]. split; [exact D3|]. right. left. auto.
    + destruct (NR _ _ _ T1).
    + destruct (NR _ _ _ T1).
  - rewrite (clear_id _ AE) in H1, H2. destruct (p_real cap c f k _ _ out inn ux uy past' mine' theirs' M H1 H2 FX (proj2 (CF y) FY) HD HC) as (x' & out' & inn' & ux' & uy' & A & B & C & D1 & D2 & D3 & HA).
    pose proof (takes_clear _ _ _ _ (proj1 B)) as AE'. exists x', out', inn', ux', uy'. unfold road. rewrite (clear_id _ AE'). split; [split; [exact A|exact (endly_gone _ _ _ _ _ _ E1 G _ _ _)]|]. split; [split; [exact B|intros X; congruence]|]. auto 10.
Qed.
Lemma ending_run_app : forall f1 f2 cap a b t, ending_run f1 f2 cap (a ++ b) t = ending_run f1 f2 cap b (ending_run f1 f2 cap a t).
Proof. intros f1 f2 cap. induction a as [|c a IH]; intros b t; [reflexivity|]. cbn [app ending_run]. apply IH. Qed.
Lemma ending_real_step : forall cap f1 f2 c t s s', minds f1 -> minds f2 -> ending_inv f1 f2 cap t s -> peer_free (p_client t) -> peer_free (p_server t) -> parting_step f1 f2 c s = Some s' ->
  up_bytes (q_up s') <= cap -> down_bytes (q_down s') <= cap ->
  exists acts, let t' := ending_run f1 f2 cap acts t in ending_inv f1 f2 cap t' s' /\ peer_free (p_client t') /\ peer_free (p_server t').
Proof.
  intros cap f1 f2 c [x y out inn] [p1 p2 u d] s' M1 M2 (P1 & P2 & ux & uy & W1 & W2 & Q1 & Q2) F1 F2 E B1 B2. cbn [p_client p_server p_up p_down q_past1 q_past2 q_up q_down] in *. subst p1 p2 u d.
  set (k := mk_key x00 x00 x00 x00). cbn [parting_step] in E. destruct c.
  - destruct (deed_or_end f1 _ (peer_past x) (map fst ux) (map fst uy)) as [[[p' u'] d']|] eqn:EO; [|discriminate E]. injection E as <-. cbn [q_up q_down] in *.
    destruct (f1 (peer_past x)) as [dd|] eqn:FE; [|unfold deed_or_end, deed_done in EO; rewrite FE in EO; discriminate EO].
    destruct (end_shape _ _ _ _ _ _ _ _ EO) as [ED|(HO & HU & -> & -> & ->)].
    + destruct (e_real cap true f1 f2 k x y out inn ux uy p' u' d' M1 W1 W2 F1 F2 ED B1) as (x' & out' & inn' & ux' & uy' & A & B & C & D1 & D2 & D3 & HA).
      assert (exists acts, ending_run f1 f2 cap acts (mk_pairing x y out inn) = mk_pairing x' y out' inn') as [acts EA].
      { destruct HA as [(x1 & E1 & E2 & ->)|[(E1 & -> & ->)|[(x1 & E1 & E2 & ->)|(E1 & ->)]]].
        - exists [EGo (PTurn true k 0%N); EGo (PSend true (S cap))]. cbn [ending_run ending_step pairing_step]. rewrite E1, app_nil_r. cbn [ending_step pairing_step]. rewrite E2. reflexivity.
        - exists [EGo (PTurn true k 0%N)]. cbn [ending_run ending_step pairing_step]. rewrite E1, app_nil_r. reflexivity.
        - exists [EGo (PRead true (S (length inn))); EGo (PTurn true k 0%N)]. cbn [ending_run ending_step pairing_step]. rewrite E1. cbn [ending_step pairing_step]. rewrite E2, app_nil_r. reflexivity.
        - exists [EGo (PRead true (S (length inn)))]. cbn [ending_run ending_step pairing_step]. rewrite E1. reflexivity. }
      exists acts. cbv zeta. rewrite EA. cbn [p_client p_server]. split; [|split; [exact C|exact F2]]. split; [auto|]. split; [reflexivity|]. exists ux', uy'. auto.
    + assert (uy = []) as -> by (destruct uy; [reflexivity|discriminate HU]). assert (f2 (peer_past y) = None) as G2 by (unfold no_more in HO; destruct (f2 (peer_past y)); [discriminate HO|reflexivity]).
      assert (f1 (peer_past x) = Some Hear) as FH.
      { rewrite FE. destruct dd; [|reflexivity]. unfold deed_or_end, deed_done in EO. rewrite FE in EO. assert (exists h, h <> NotHeard /\ peer_past x ++ [h] = peer_past x ++ [NotHeard]) as (h & NH & X) by (destruct (goes m); [exists (Said m)|exists (NotSaid m)]; (split; [discriminate|congruence])). apply app_inj_tail in X as [_ X]. contradiction. }
      destruct (end_comes cap true f1 f2 x y out inn ux W1 W2 F1 F2 FH G2) as (x' & EE & FX & A & B & C). exists [EEnd true]. cbn [ending_run ending_step p_client p_server p_up p_down]. rewrite EE. cbv zeta. cbn [p_client p_server].
      split; [|split; [exact FX|exact F2]]. split; [symmetry; exact C|]. split; [reflexivity|]. exists ux, []. auto.
  - destruct (deed_or_end f2 _ (peer_past y) (map fst uy) (map fst ux)) as [[[p' d'] u']|] eqn:EO; [|discriminate E]. injection E as <-. cbn [q_up q_down] in *.
    destruct (f2 (peer_past y)) as [dd|] eqn:FE; [|unfold deed_or_end, deed_done in EO; rewrite FE in EO; discriminate EO].
    destruct (end_shape _ _ _ _ _ _ _ _ EO) as [ED|(HO & HU & -> & -> & ->)].
    + destruct (e_real cap false f2 f1 k y x inn out uy ux p' d' u' M2 W2 W1 F2 F1 ED B2) as (x' & out' & inn' & ux' & uy' & A & B & C & D1 & D2 & D3 & HA).
      assert (exists acts, ending_run f1 f2 cap acts (mk_pairing x y out inn) = mk_pairing x x' inn' out') as [acts EA].
      { destruct HA as [(x1 & E1 & E2 & ->)|[(E1 & -> & ->)|[(x1 & E1 & E2 & ->)|(E1 & ->)]]].
        - exists [EGo (PTurn false k 0%N); EGo (PSend false (S cap))]. cbn [ending_run ending_step pairing_step]. rewrite E1, app_nil_r. cbn [ending_step pairing_step]. rewrite E2. reflexivity.
        - exists [EGo (PTurn false k 0%N)]. cbn [ending_run ending_step pairing_step]. rewrite E1, app_nil_r. reflexivity.
        - exists [EGo (PRead false (S (length out))); EGo (PTurn false k 0%N)]. cbn [ending_run ending_step pairing_step]. rewrite E1. cbn [ending_step pairing_step]. rewrite E2, app_nil_r. reflexivity.
        - exists [EGo (PRead false (S (length out)))]. cbn [ending_run ending_step pairing_step]. rewrite E1. reflexivity. }
      exists acts. cbv zeta. rewrite EA. cbn [p_client p_server]. split; [|split; [exact F1|exact C]]. split; [reflexivity|]. split; [auto|]. exists uy', ux'. auto.
    + assert (ux = []) as -> by (destruct ux; [reflexivity|discriminate HU]). assert (f1 (peer_past x) = None) as G2 by (unfold no_more in HO; destruct (f1 (peer_past x)); [discriminate HO|reflexivity]).
      assert (f2 (peer_past y) = Some Hear) as FH.
      { rewrite FE. destruct dd; [|reflexivity]. unfold deed_or_end, deed_done in EO. rewrite FE in EO. assert (exists h, h <> NotHeard /\ peer_past y ++ [h] = peer_past y ++ [NotHeard]) as (h & NH & X) by (destruct (goes m); [exists (Said m)|exists (NotSaid m)]; (split; [discriminate|congruence])). apply app_inj_tail in X as [_ X]. contradiction. }
      destruct (end_comes cap false f2 f1 y x inn out uy W2 W1 F2 F1 FH G2) as (x' & EE & FX & A & B & C). exists [EEnd false]. cbn [ending_run ending_step p_client p_server p_up p_down]. rewrite EE. cbv zeta. cbn [p_client p_server].
      split; [|split; [exact F1|exact FX]]. split; [reflexivity|]. split; [symmetry; exact C|]. exists [], uy. auto.
Qed.
Lemma ending_real_run : forall cap f1 f2 turns t s, minds f1 -> minds f2 -> ending_inv f1 f2 cap t s -> peer_free (p_client t) -> peer_free (p_server t) ->
  (forall n, let s' := parting_run f1 f2 (firstn n turns) s in up_bytes (q_up s') <= cap /\ down_bytes (q_down s') <= cap) ->
  exists acts, ending_inv f1 f2 cap (ending_run f1 f2 cap acts t) (parting_run f1 f2 turns s).
Proof.
  intros cap f1 f2. induction turns as [|c turns IH]; intros t s M1 M2 HI F1 F2 HB; [exists []; exact HI|]. cbn [parting_run]. destruct (parting_step f1 f2 c s) as [s'|] eqn:E.
  - destruct (HB 1) as [B1 B2]. cbn [firstn parting_run] in B1, B2. rewrite E in B1, B2. destruct (ending_real_step _ _ _ _ _ _ _ M1 M2 HI F1 F2 E B1 B2) as (acts & A & B & C).
    destruct (IH _ _ M1 M2 A B C) as [acts' D].
    { intros n. specialize (HB (S n)). cbn [firstn parting_run] in HB. rewrite E in HB. exact HB. }
    exists (acts ++ acts'). rewrite ending_run_app. exact D.
  - apply IH; auto. intros n. specialize (HB (S n)). cbn [firstn parting_run] in HB. rewrite E in HB. exact HB.
Qed.

(** ** The theorems *)
(** [C99] A program that is done shuts down its sending side.  To the programs at its ends, a
    connection is then two queues of messages with an end: where a program is done and all it said has
    been heard, its partner is told so.  Whatever the programs, the kinds of their clients, the room of
    the network, its delays, the masking keys, the scheduling and the polls, what happens to them could
    have happened with such queues (Spec/Partings.v). *)
Lemma ending_is_queues_proof : forall f1 f2 cap s1 s2 acts, minds f1 -> minds f2 -> works s1 -> works s2 ->
  let t := ending_run f1 f2 cap acts (pairing_new s1 s2) in
  exists turns, let s := parting_run f1 f2 turns queues_new in
    peer_past (p_client t) = q_past1 s /\ peer_past (p_server t) = q_past2 s /\
    (List.length (p_up t) <= cap)%nat /\ (List.length (p_down t) <= cap)%nat.
Proof.
  intros f1 f2 cap s1 s2 acts M1 M2 H1 H2 t. destruct (ending_inv_run cap f1 f2 acts _ _ M1 M2 (ending_inv_new f1 f2 cap s1 s2 H1 H2)) as [turns (P1 & P2 & ux & uy & ((_ & _ & A) & _) & ((_ & _ & B) & _) & _)].
  exists turns. fold t in P1, P2, A, B. auto.
Qed.
(*EX
(** The client says three messages, the second of which is refused, and is done; the server hears until
    it is told that there is nothing more, and then says how many messages it heard. *)
Definition leaver : program := fun past =>
  match past with
  | [] => Some (Say (OText (str "one")))
  | [_] => Some (Say (OPing (repeat x00 126)))
  | [_; _] => Some (Say (OBinary (str "two")))
  | _ => None
  end.
Definition counter : program := fun past =>
  match rev past with
  | NotHeard :: before => Some (Say (OBinary (firstn 100 (repeat x2a (List.length before)))))
  | Said _ :: _ => None
  | _ => Some Hear
  end.
Example leavers_mind : minds leaver /\ minds counter.
Proof.
  split; intros past m H; unfold leaver, counter in H;
    repeat match type of H with context [match ?x with _ => _ end] => destruct x; try discriminate H end;
    match type of H with Some (Say ?x) = _ => assert (m = x) as -> by congruence end;
    (split; [try exact I; apply ExTac.good_text; reflexivity|]);
    match goal with
    | |- (size (payload_of (_ (firstn ?n ?d))) <= _)%N => apply (ThmKinds.short n d); vm_compute; discriminate
    | _ => vm_compute; discriminate
    end.
Qed.
Definition ending_turns : list eact :=
  [EGo (PTurn true (mk_key x01 x02 x03 x04) 3); EGo (PSend true 3); EGo (PRead true 2); EEnd true;
   EGo (PTurn false (mk_key x00 x00 x00 x00) 0); EGo (PSend false 4); EGo (PRead false 3); EEnd false].
Example ending_is_queues_ex : forall s1 s2, In s1 [WithPolling 0; WithBlocking (mk_w [] [])] -> In s2 [WithPolling 0; WithBlocking (mk_w [] [])] ->
  let t := ending_run leaver counter 5 (concat (repeat ending_turns 40)) (pairing_new s1 s2) in
  peer_past (p_server t) = [Heard (OText (str "one")); Heard (OBinary (str "two")); NotHeard; Said (OBinary (str "**"))] /\
  q_past2 (parting_run leaver counter (concat (repeat [true; false] 8)) queues_new) = peer_past (p_server t).
Proof. intros s1 s2 [<-|[<-|[]]] [<-|[<-|[]]]; vm_compute; split; reflexivity. Qed.
EX*)

(** [C99] And the other way: whatever could happen with queues that end and never hold more than the
    network has room for, happens to the programs in some run, with either kind of client at either
    end. *)
Lemma queues_are_ending_proof : forall f1 f2 cap s1 s2 turns, minds f1 -> minds f2 -> works s1 -> works s2 ->
  (forall n, let s := parting_run f1 f2 (firstn n turns) queues_new in (up_bytes (q_up s) <= cap)%nat /\ (down_bytes (q_down s) <= cap)%nat) ->
  exists acts, let t := ending_run f1 f2 cap acts (pairing_new s1 s2) in let s := parting_run f1 f2 turns queues_new in
    peer_past (p_client t) = q_past1 s /\ peer_past (p_server t) = q_past2 s.
Proof.
  intros f1 f2 cap s1 s2 turns M1 M2 H1 H2 HB.
  destruct (ending_real_run cap f1 f2 turns _ _ M1 M2 (ending_inv_new f1 f2 cap s1 s2 H1 H2) (peer_new_free true s1) (peer_new_free false s2) HB) as [acts (P1 & P2 & _)]. exists acts. auto.
Qed.
(*EX
Example queues_are_ending_ex : (forall n, let s := parting_run leaver counter (firstn n [true; true; true; false; false; false; false]) queues_new in
  (up_bytes (q_up s) <= 18)%nat /\ (down_bytes (q_down s) <= 4)%nat) /\
  nth 2 (q_past2 (parting_run leaver counter [true; true; true; false; false; false; false] queues_new)) (Said (OText [])) = NotHeard.
Proof.
  split; [|vm_compute; reflexivity]. intros n. do 8 (destruct n as [|n]; [split; apply PeanoNat.Nat.leb_le; vm_compute; reflexivity|]). split; apply PeanoNat.Nat.leb_le; cbn [firstn]; rewrite ?firstn_nil; vm_compute; reflexivity.
Qed.
EX*)

(** [C99] Nothing is lost at the end: when a program is told that there is nothing more, its partner
    is done, and what the program had heard by then is all that its partner has said, in order. *)
Lemma end_after_all_proof : forall f1 f2 cap s1 s2 acts, minds f1 -> minds f2 -> works s1 -> works s2 ->
  let t := ending_run f1 f2 cap acts (pairing_new s1 s2) in
  let p1 := peer_past (p_client t) in let p2 := peer_past (p_server t) in
  (forall a b, p1 = a ++ NotHeard :: b -> f2 p2 = None /\ words_heard a = words_said p2 /\ words_heard b = []) /\
  (forall a b, p2 = a ++ NotHeard :: b -> f1 p1 = None /\ words_heard a = words_said p1 /\ words_heard b = []).
Proof.
  intros f1 f2 cap s1 s2 acts M1 M2 H1 H2 t p1 p2. destruct (ending_is_queues_proof f1 f2 cap s1 s2 acts M1 M2 H1 H2) as (turns & P1 & P2 & _). fold t in P1, P2. fold p1 in P1. fold p2 in P2.
  destruct (half_run f1 f2 turns queues_new (half_new f2) (half_new f1)) as [A B]. rewrite <- P1, <- P2 in A, B.
  assert (forall f (p q : list happening) d, half f p q d -> forall a b, p = a ++ NotHeard :: b -> f q = None /\ words_heard a = words_said q /\ words_heard b = []) as K.
  { intros f p q d [X Y] a b E. destruct (Y a b E) as [Y1 Y2]. split; [exact Y1|]. split; [exact Y2|]. rewrite E, words_heard_app, <- Y2 in X. cbn [words_heard flat_map app] in X. rewrite <- app_assoc in X.
    rewrite <- (app_nil_r (words_heard a)) in X at 1. apply app_inv_head in X. symmetry in X. apply app_eq_nil in X. exact (proj1 X). }
  split; eapply K; eassumption.
Qed.
(*EX
Example end_after_all_ex :
  let t := ending_run leaver counter 5 (concat (repeat ending_turns 40)) (pairing_new (WithBlocking (mk_w [] [])) (WithPolling 0)) in
  let p2 := peer_past (p_server t) in
  p2 = [Heard (OText (str "one")); Heard (OBinary (str "two"))] ++ NotHeard :: [Said (OBinary (str "**"))] /\
  words_said (peer_past (p_client t)) = [OText (str "one"); OBinary (str "two")].
Proof. vm_compute. split; reflexivity. Qed.
EX*)

(** [C99] No program can tell one timing from another, or which kinds of client are used, by when and
    how its connection ends: of any two runs, what happens to a program in the one is an initial part
    of what happens to it in the other. *)
Lemma ending_unseen_proof : forall f1 f2 cap cap' s1 s2 s1' s2' acts acts', minds f1 -> minds f2 -> works s1 -> works s2 -> works s1' -> works s2' ->
  let t := ending_run f1 f2 cap acts (pairing_new s1 s2) in
  let t' := ending_run f1 f2 cap' acts' (pairing_new s1' s2') in
  (prefix (peer_past (p_client t)) (peer_past (p_client t')) \/ prefix (peer_past (p_client t')) (peer_past (p_client t))) /\
  (prefix (peer_past (p_server t)) (peer_past (p_server t')) \/ prefix (peer_past (p_server t')) (peer_past (p_server t))).
Proof.
  intros f1 f2 cap cap' s1 s2 s1' s2' acts acts' M1 M2 H1 H2 H1' H2' t t'.
  destruct (ending_is_queues_proof f1 f2 cap s1 s2 acts M1 M2 H1 H2) as (a & A1 & A2 & _). destruct (ending_is_queues_proof f1 f2 cap' s1' s2' acts' M1 M2 H1' H2') as (b & B1 & B2 & _).
  fold t in A1, A2. fold t' in B1, B2. rewrite A1, A2, B1, B2. destruct (parting_confluent f1 f2 a b queues_new) as (a' & b' & E). rewrite !parting_run_app in E.
  destruct (parting_extends f1 f2 a' (parting_run f1 f2 a queues_new)) as [X1 X2]. destruct (parting_extends f1 f2 b' (parting_run f1 f2 b queues_new)) as [Y1 Y2]. rewrite E in X1, X2.
  split; eapply prefix_either; eassumption.
Qed.
(*EX
Example ending_unseen_ex :
  let t := ending_run leaver counter 1 (concat (repeat ending_turns 14)) (pairing_new (WithPolling 0) (WithPolling 0)) in
  let t' := ending_run leaver counter 100 (concat (repeat ending_turns 40)) (pairing_new (WithBlocking (mk_w [] [])) (WithBlocking (mk_w [] []))) in
  List.length (peer_past (p_server t)) = 1%nat /\ List.length (peer_past (p_server t')) = 4%nat /\
  peer_past (p_server t) = firstn 1 (peer_past (p_server t')).
Proof. vm_compute. repeat split; reflexivity. Qed.
EX*)

(** [C99] Nobody waits for a program that is done: when nothing can happen any more, each of the two
    programs is done, or waits where nothing is under way to it for a program that is not done, or has
    not finished saying something and the network is full. *)
Lemma ending_rest_proof : forall f1 f2 cap s1 s2 acts, minds f1 -> minds f2 -> works s1 -> works s2 -> (1 <= cap)%nat ->
  let t := ending_run f1 f2 cap acts (pairing_new s1 s2) in ending_rests f1 f2 cap t ->
  parted cap f1 f2 (p_client t) (p_server t) (p_up t) (p_down t) /\ parted cap f2 f1 (p_server t) (p_client t) (p_down t) (p_up t).
Proof.
  intros f1 f2 cap s1 s2 acts M1 M2 H1 H2 Hcap t HR. destruct (ending_inv_run cap f1 f2 acts _ _ M1 M2 (ending_inv_new f1 f2 cap s1 s2 H1 H2)) as [turns HI]. fold t in HI.
  destruct (ending_at_rest _ _ _ _ _ Hcap M1 M2 HI HR) as (A & B & _). auto.
Qed.
(*EX
Example ending_rest_ex :
  let t := ending_run leaver counter 7 (concat (repeat ending_turns 40)) (pairing_new (WithPolling 0) (WithBlocking (mk_w [] []))) in
  ending_rests leaver counter 7 t /\ leaver (peer_past (p_client t)) = None /\ counter (peer_past (p_server t)) = None /\ p_down t = [x82; x02; x2a; x2a].
Proof.
  split; [|vm_compute; repeat split; reflexivity]. match goal with |- ending_rests _ _ _ ?X => let v := eval vm_compute in X in assert (X = v) as -> by (vm_compute; reflexivity) end.
  intros [[[] k e|[] [|n]|[] [|n]]|[]]; reflexivity.
Qed.
EX*)

(** [C99] A run that ended with neither program in the middle of saying something ended as it had to:
    in every other run, with clients of the same or other kinds, what has happened to either program
    is an initial part of what happened to it in this one; and if the other run ended like that too,
    it is the same. *)
Lemma ending_one_end_proof : forall f1 f2 cap cap' s1 s2 s1' s2' acts acts', minds f1 -> minds f2 -> works s1 -> works s2 -> works s1' -> works s2' -> (1 <= cap)%nat ->
  let t := ending_run f1 f2 cap acts (pairing_new s1 s2) in
  let t' := ending_run f1 f2 cap' acts' (pairing_new s1' s2') in
  ending_rests f1 f2 cap t -> peer_free (p_client t) -> peer_free (p_server t) ->
  prefix (peer_past (p_client t')) (peer_past (p_client t)) /\ prefix (peer_past (p_server t')) (peer_past (p_server t)) /\
  ((1 <= cap')%nat -> ending_rests f1 f2 cap' t' -> peer_free (p_client t') -> peer_free (p_server t') ->
   peer_past (p_client t') = peer_past (p_client t) /\ peer_past (p_server t') = peer_past (p_server t)).
Proof.
  intros f1 f2 cap cap' s1 s2 s1' s2' acts acts' M1 M2 H1 H2 H1' H2' Hcap t t' HR F1 F2.
  destruct (ending_inv_run cap f1 f2 acts _ _ M1 M2 (ending_inv_new f1 f2 cap s1 s2 H1 H2)) as [a HI]. fold t in HI.
  destruct (ending_inv_run cap' f1 f2 acts' _ _ M1 M2 (ending_inv_new f1 f2 cap' s1' s2' H1' H2')) as [b HI']. fold t' in HI'.
  destruct (ending_at_rest _ _ _ _ _ Hcap M1 M2 HI HR) as (_ & _ & HF). specialize (HF F1 F2).
  destruct (parting_confluent f1 f2 a b queues_new) as (a' & b' & E). rewrite !parting_run_app in E. rewrite (parting_still _ _ a' _ HF) in E.
  destruct (parting_extends f1 f2 b' (parting_run f1 f2 b queues_new)) as [X1 X2]. rewrite <- E in X1, X2. pose proof HI as (A1 & A2 & _). pose proof HI' as (B1 & B2 & _).
  rewrite A1, B1 in X1. rewrite A2, B2 in X2. split; [exact X1|]. split; [exact X2|]. intros Hcap' HR' F1' F2'.
  destruct (ending_at_rest _ _ _ _ _ Hcap' M1 M2 HI' HR') as (_ & _ & HF'). specialize (HF' F1' F2'). rewrite (parting_still _ _ b' _ HF') in E.
  split; congruence.
Qed.
(*EX
Example ending_one_end_ex :
  let t := ending_run leaver counter 7 (concat (repeat ending_turns 40)) (pairing_new (WithPolling 0) (WithBlocking (mk_w [] []))) in
  let t' := ending_run leaver counter 9 (concat (repeat ending_turns 99)) (pairing_new (WithBlocking (mk_w [] [])) (WithPolling 0)) in
  ending_rests leaver counter 7 t /\ peer_free (p_client t) /\ peer_free (p_server t) /\
  peer_past (p_server t) = peer_past (p_server t') /\ List.length (peer_past (p_server t)) = 4%nat.
Proof.
  split; [exact (proj1 ending_rest_ex)|]. vm_compute. repeat split; reflexivity.
Qed.
EX*)
