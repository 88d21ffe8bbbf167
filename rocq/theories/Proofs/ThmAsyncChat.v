(** The asynchronous chat clients: C79. *)
From Coq Require Import NArith ZArith String Bool List Lia.
From Coq Require Import ZifyBool ZifyNat ZifyN.
From Coq.Strings Require Import Byte.
From Verif.Model Require Import Base Io Header Mask Dataframe Utf8 Text Base64 WsKey Headers
  Handshake Message Receiver Codec Framed Http Connect Examples AsyncExamples Suite AsyncChat.
From Verif.Spec Require Import RfcFrame FrameSpec Schedule Unicode Drive Session Connection Polled Fields Upgrade Builder HttpHead Wire Endpoint Echo Polls Chat Suite AsyncChat.
From Verif.Proofs Require Import BaseFacts MaskFacts HeaderFacts FrameFacts CodecFacts ScriptFacts
  Machine FramedFacts AsyncFacts Utf8Facts ThmFrames ThmStream SessionFacts RecvFacts MessageFacts
  TextFacts MapFacts ExTac ThmMessages ThmFlow ThmLimits ThmServer ThmHttp ThmConnect ThmInterop ThmSession
  ThmEcho ThmWake ThmAsyncEcho ThmChat ThmSuite.
Import ListNotations.
Local Open Scope string_scope.
Local Open Scope list_scope.
Local Open Scope N_scope.

(** ** What is left *)
Fixpoint commands (us : list uev) : list owned :=
  match us with
  | [] => []
  | Idle :: us' => commands us'
  | Typed t :: us' => if beqb t (str "/close") then [OClose None] else command t :: commands us'
  end.
Definition closes (u : uev) : bool := match u with Typed t => beqb t (str "/close") | Idle => false end.
Definition drained (c : achat) : list owned * poll owned := cdrain mc_decode (at_in c) (fr_st (at_read c)) (fr_buf (at_read c)).
Definition hleft (c : achat) : list owned := if at_rdone c then [] else fst (drained c).
Definition rleft (c : achat) : list owned := flat_map (said_to (at_prog c)) (hleft c).
Definition rend (c : achat) : poll owned := if at_rdone c then PEnd else snd (drained c).
Definition uleft (c : achat) : list owned := if at_over c then [] else commands (at_user c).
Definition will_close (c : achat) : bool := at_over c || existsb closes (at_user c).
Definition ok (c : achat) : Prop :=
  (at_rdone c = false -> fr_inv mc_decode (at_read c) /\ Forall (sendable (2 ^ 34)) (fst (drained c))) /\
  all_text (at_user c) /\ (at_udone c = true -> at_over c = true).
(** Measures. *)
Definition load (c : achat) : nat := ((if at_rdone c then 0 else weight (at_in c) (at_read c)) + length (at_user c))%nat.
Definition ticks (c : achat) : nat := ((if at_rdone c then 0 else length (at_in c)) + length (at_user c))%nat.

Definition same (c c' : achat) : Prop :=
  ok c' /\ rend c' = rend c /\ will_close c' = will_close c /\ at_out c' = at_out c /\ at_hold c' = at_hold c /\ at_keys c' = at_keys c /\
  at_prog c' = at_prog c.
(** [l] has been received, and printed. *)
Definition moved (l : list owned) (c c' : achat) : Prop := at_shown c' = at_shown c ++ l /\ hleft c = l ++ hleft c'.
Definition quiet (c c' : achat) : Prop :=
  same c c' /\ (exists l, moved l c c' /\ flat_map (said_to (at_prog c)) l = []) /\ uleft c' = uleft c.
Definition takes (m : owned) (c c' : achat) : Prop :=
  same c c' /\ sendable (2 ^ 34) m /\
  exists l, moved l c c' /\
  (flat_map (said_to (at_prog c)) l = [m] /\ uleft c' = uleft c \/ flat_map (said_to (at_prog c)) l = [] /\ uleft c = m :: uleft c').
Lemma quiet_still : forall c c', same c c' -> at_shown c' = at_shown c -> hleft c' = hleft c -> uleft c' = uleft c -> quiet c c'.
Proof.
  intros c c' A B C D. split; [exact A|]. split; [|exact D]. exists []. split; [|reflexivity]. split; [rewrite app_nil_r; exact B|cbn [app]; congruence].
Qed.

Lemma answered_poll_spec : forall pr fuel s f, fr_inv mc_decode f -> (weight s f < fuel)%nat ->
  Forall (sendable (2 ^ 34)) (fst (cdrain mc_decode s (fr_st f) (fr_buf f))) ->
  match answered_poll pr fuel s f with
  | (PItem m, f', s', l) => fr_inv mc_decode f' /\ sendable (2 ^ 34) m /\
      fst (cdrain mc_decode s (fr_st f) (fr_buf f)) = l ++ fst (cdrain mc_decode s' (fr_st f') (fr_buf f')) /\ flat_map (said_to pr) l = [m] /\
      snd (cdrain mc_decode s (fr_st f) (fr_buf f)) = snd (cdrain mc_decode s' (fr_st f') (fr_buf f')) /\
      Forall (sendable (2 ^ 34)) (fst (cdrain mc_decode s' (fr_st f') (fr_buf f'))) /\
      (weight s' f' < weight s f)%nat /\ (length s' <= length s)%nat
  | (PNotReady, f', s', l) => fr_inv mc_decode f' /\
      fst (cdrain mc_decode s (fr_st f) (fr_buf f)) = l ++ fst (cdrain mc_decode s' (fr_st f') (fr_buf f')) /\ flat_map (said_to pr) l = [] /\
      snd (cdrain mc_decode s (fr_st f) (fr_buf f)) = snd (cdrain mc_decode s' (fr_st f') (fr_buf f')) /\
      Forall (sendable (2 ^ 34)) (fst (cdrain mc_decode s' (fr_st f') (fr_buf f'))) /\
      (weight s' f' < weight s f)%nat /\ (length s' < length s)%nat
  | (PEnd, _, _, l) => fst (cdrain mc_decode s (fr_st f) (fr_buf f)) = l /\ flat_map (said_to pr) l = [] /\ snd (cdrain mc_decode s (fr_st f) (fr_buf f)) = PEnd
  | (PErr e, _, _, l) => fst (cdrain mc_decode s (fr_st f) (fr_buf f)) = l /\ flat_map (said_to pr) l = [] /\ snd (cdrain mc_decode s (fr_st f) (fr_buf f)) = PErr e
  | _ => False
  end.
Proof.
  induction fuel as [|fuel IH]; intros s f HI Hf HS; [lia|]. cbn [answered_poll].
  pose proof (framed_poll_spec _ _ mc_decode mc_some mc_none mc_total s f HI) as HP.
  destruct (framed_poll mc_decode s f) as [[p f'] s'] eqn:E. pose proof (poll_shorter _ _ _ _ _ _ _ _ E) as HL.
  destruct p as [m| | |e| |]; try contradiction.
  - destruct HP as (I' & HC & HM). fold (weight s' f') (weight s f) in HM. rewrite HC in *.
    destruct (cdrain mc_decode s' (fr_st f') (fr_buf f')) as [l e] eqn:EC. cbn [fst snd] in *.
    inversion HS as [|? ? S1 S2]; subst.
    assert (HR : match reply pr m with Some m' => said_to pr m = [m'] /\ sendable (2 ^ 34) m' | None => said_to pr m = [] end).
    { destruct m as [d|d|x|d|d]; try (destruct pr; reflexivity).
      - destruct pr; [reflexivity|]. split; [reflexivity|exact S1].
      - split; [destruct pr; reflexivity|apply pong_sendable; exact S1]. }
    destruct (reply pr m) as [m'|].
    + destruct HR as [HR1 HR2]. rewrite EC. cbn [fst snd flat_map]. rewrite HR1. split; [exact I'|]. split; [exact HR2|].
      split; [reflexivity|]. split; [reflexivity|]. auto.
    + specialize (IH s' f' I' ltac:(lia)). rewrite EC in IH. specialize (IH S2). cbn [fst snd] in IH.
      destruct (answered_poll pr fuel s' f') as [[[q f2] s2] l2]. destruct q as [m'| | |x| |]; try exact IH; cbn [flat_map]; rewrite HR; cbn [app].
      * destruct IH as (A & B & C & C' & D & F & G & H). split; [exact A|]. split; [exact B|]. split; [congruence|]. repeat (split; [assumption|]). lia.
      * destruct IH as (A & B & C). split; [congruence|]. auto.
      * destruct IH as (A & B & C & D & F & G). split; [exact A|]. split; [congruence|]. repeat (split; [assumption|]). lia.
      * destruct IH as (A & B & C). split; [congruence|]. auto.
  - rewrite HP. repeat split.
  - destruct HP as (I' & HC & HM). fold (weight s' f') (weight s f) in HM. rewrite HC in *.
    repeat (split; [assumption || reflexivity|]). apply stream_waits_proof in E as (c & ->). rewrite app_length. cbn [length]. lia.
  - rewrite HP. repeat split.
Qed.

Lemma stream_side_spec : forall c, ok c ->
  match stream_side c with
  | (PItem m, c') => takes m c c' /\ (load c' < load c)%nat /\ (ticks c' <= ticks c)%nat
  | (PNotReady, c') => quiet c c' /\ (load c' < load c)%nat /\ (ticks c' < ticks c)%nat
  | (PEnd, c') => quiet c c' /\ at_rdone c' = true /\ (load c' <= load c)%nat /\ (ticks c' <= ticks c)%nat
  | (PErr e, c') => flat_map (said_to (at_prog c)) (hleft c) = [] /\ rend c = PErr e /\ at_out c' = at_out c /\ at_hold c' = at_hold c /\ at_shown c' = at_shown c ++ hleft c
  | _ => False
  end /\ at_user (snd (stream_side c)) = at_user c /\ at_over (snd (stream_side c)) = at_over c /\
  at_udone (snd (stream_side c)) = at_udone c /\ at_flag (snd (stream_side c)) = at_flag c.
Proof.
  intros c HO. unfold stream_side. destruct (at_rdone c) eqn:Er.
  - split; [|cbn [snd]; auto]. split; [apply quiet_still; try reflexivity; split; [exact HO|]; auto 10|]. auto.
  - pose proof HO as (HR & HT & HU). specialize (HR Er). destruct HR as [HI HS]. unfold drained in HS.
    pose proof (answered_poll_spec (at_prog c) (S (length (fr_buf (at_read c)) + length (aev_bytes (at_in c)) + length (at_in c))) (at_in c) (at_read c) HI ltac:(unfold weight; lia) HS) as HP.
    destruct (answered_poll _ _ _ _) as [[[p f] s] l].
    assert (HL : hleft c = fst (cdrain mc_decode (at_in c) (fr_st (at_read c)) (fr_buf (at_read c)))) by (unfold hleft, drained; rewrite Er; reflexivity).
    destruct p as [m| | |e| |]; try contradiction; (split; [|cbn [snd at_user at_over at_udone at_flag]; auto]).
    + destruct HP as (A & B & C & C' & D & F & G & H). rewrite C in HL.
      split; [|split].
      * split; [|split; [exact B|exists l; split; [split; [reflexivity|exact HL]|left; split; [exact C'|reflexivity]]]].
        split; [split; [intros _; split; [exact A|exact F]|auto]|]. unfold rend, drained. rewrite Er. cbn [at_rdone at_in at_read].
        repeat (split; [first [reflexivity|symmetry; assumption]|]). reflexivity.
      * unfold load. rewrite Er. cbn [at_rdone at_in at_read at_user]. lia.
      * unfold ticks. rewrite Er. cbn [at_rdone at_in at_read at_user]. lia.
    + destruct HP as (A & A' & B). rewrite A in HL. split; [|split; [reflexivity|split]].
      * split; [|split; [exists l; split; [split; [reflexivity|rewrite app_nil_r; exact HL]|exact A']|reflexivity]].
        split; [split; [discriminate|auto]|]. unfold rend, drained. rewrite Er. cbn [at_rdone].
        repeat (split; [first [reflexivity|symmetry; assumption]|]). reflexivity.
      * unfold load. rewrite Er. cbn [at_rdone at_user]. lia.
      * unfold ticks. rewrite Er. cbn [at_rdone at_user]. lia.
    + destruct HP as (A & C & C' & D & F & G & H). rewrite C in HL.
      split; [|split].
      * split; [|split; [exists l; split; [split; [reflexivity|exact HL]|exact C']|reflexivity]].
        split; [split; [intros _; split; [exact A|exact F]|auto]|]. unfold rend, drained. rewrite Er. cbn [at_rdone at_in at_read].
        repeat (split; [first [reflexivity|symmetry; assumption]|]). reflexivity.
      * unfold load. rewrite Er. cbn [at_rdone at_in at_read at_user]. lia.
      * unfold ticks. rewrite Er. cbn [at_rdone at_in at_read at_user]. lia.
    + destruct HP as (A & A' & B). rewrite A in HL. rewrite HL. unfold rend, drained. rewrite Er. auto 10.
Qed.

Lemma line_message_eq : forall t, line_message t = (beqb t (str "/close"), if beqb t (str "/close") then OClose None else command t).
Proof.
  intros t. unfold line_message, command. destruct (beqb t (str "/close")); [reflexivity|]. destruct (beqb t (str "/ping")); reflexivity.
Qed.
(** The user has nothing to say now and has not closed. *)
Definition silent (c : achat) : Prop := at_user c = [] /\ at_over c = false.
Lemma user_side_spec : forall c, ok c ->
  match user_side c with
  | (PItem m, c') => takes m c c' /\ (load c' < load c)%nat /\ (ticks c' <= ticks c)%nat
  | (PNotReady, c') => quiet c c' /\ (load c' <= load c)%nat /\ (silent c' /\ ticks c' = ticks c \/ (ticks c' < ticks c)%nat)
  | (PEnd, c') => quiet c c' /\ at_udone c' = true /\ (load c' <= load c)%nat /\ (ticks c' <= ticks c)%nat
  | _ => False
  end /\ at_in (snd (user_side c)) = at_in c /\ at_read (snd (user_side c)) = at_read c /\ at_rdone (snd (user_side c)) = at_rdone c /\
  at_flag (snd (user_side c)) = at_flag c.
Proof.
  intros c HO. pose proof HO as (HR & HT & HU). unfold user_side. destruct (at_udone c) eqn:Ed.
  - split; [|cbn [snd]; auto]. split; [apply quiet_still; try reflexivity; split; [exact HO|]; auto 10|]. auto.
  - destruct (at_user c) as [|[t|] us] eqn:Eu.
    + destruct (at_over c) eqn:Eo.
      * split; [|cbn [snd at_in at_read at_rdone at_flag]; auto]. split; [apply quiet_still; [split; [split; [exact HR|split; [exact HT|auto]]|]| | |]|].
        -- unfold rend, will_close, drained. rewrite Eo. cbn. auto 10.
        -- reflexivity.
        -- reflexivity.
        -- unfold uleft. rewrite Eo. reflexivity.
        -- unfold load, ticks. rewrite Eu. cbn. auto.
      * split; [|cbn [snd]; auto]. split; [apply quiet_still; try reflexivity; split; [exact HO|]; auto 10|]. split; [auto|]. left. split; [split; assumption|reflexivity].
    + unfold all_text in HT. cbn [lines flat_map app] in HT. inversion HT as [|? ? T1 T2]; subst. destruct (at_over c) eqn:Eo.
      * split; [|cbn [snd at_in at_read at_rdone at_flag]; auto]. split; [apply quiet_still; [split; [split; [exact HR|split; [exact HT|auto]]|]| | |]|].
        -- unfold rend, will_close, drained. rewrite Eo. cbn. auto 10.
        -- reflexivity.
        -- reflexivity.
        -- unfold uleft. rewrite Eo. reflexivity.
        -- unfold load, ticks. rewrite Eu. cbn. auto.
      * rewrite line_message_eq. split; [|cbn [snd at_in at_read at_rdone at_flag]; auto].
        assert (UL : uleft c = (if beqb t (str "/close") then OClose None else command t) :: (if beqb t (str "/close") then [] else commands us)).
        { unfold uleft. rewrite Eo, Eu. cbn [commands]. destruct (beqb t (str "/close")); reflexivity. }
        split; [|split].
        -- split; [|split].
           ++ split; [split; [exact HR|split; [exact T2|discriminate]]|]. unfold rend, will_close, drained. rewrite Eo, Eu. cbn. auto 10.
           ++ destruct (beqb t (str "/close")); [apply close_sendable|apply command_sendable; exact T1].
           ++ exists []. split; [split; [cbn [at_shown]; rewrite app_nil_r; reflexivity|reflexivity]|]. right. split; [reflexivity|exact UL].
        -- unfold load. rewrite Eu. cbn [at_rdone at_in at_read at_user length]. lia.
        -- unfold ticks. rewrite Eu. cbn [at_rdone at_in at_read at_user length]. lia.
    + split; [|cbn [snd at_in at_read at_rdone at_flag]; auto]. split; [|split].
      * apply quiet_still; try reflexivity; [|unfold uleft; rewrite Eu; reflexivity].
        split; [split; [exact HR|split; [exact HT|discriminate]]|]. unfold rend, will_close, drained. rewrite Eu. cbn. auto 10.
      * unfold load. rewrite Eu. cbn [at_rdone at_in at_read at_user length]. lia.
      * right. unfold ticks. rewrite Eu. cbn [at_rdone at_in at_read at_user length]. lia.
Qed.

Lemma same_trans : forall a b c, same a b -> same b c -> same a c.
Proof. intros a b c (A1 & A2 & A3 & A4 & A5 & A6 & A7) (B1 & B2 & B3 & B4 & B5 & B6 & B7). split; [exact B1|]. repeat (split; [congruence|]). congruence. Qed.
Lemma moved_trans : forall k l a b c, moved k a b -> moved l b c -> moved (k ++ l) a c.
Proof. intros k l a b c [A1 A2] [B1 B2]. split; rewrite <- ?app_assoc; [|rewrite <- B2; exact A2]. rewrite B1, A1, <- app_assoc. reflexivity. Qed.
Lemma same_prog : forall a b, same a b -> at_prog b = at_prog a.
Proof. intros a b H. apply H. Qed.
Lemma quiet_trans : forall a b c, quiet a b -> quiet b c -> quiet a c.
Proof.
  intros a b c (A1 & (k & A2 & A3) & A4) (B1 & (l & B2 & B3) & B4). split; [eapply same_trans; eauto|]. split; [|congruence].
  rewrite (same_prog _ _ A1) in B3. exists (k ++ l). split; [eapply moved_trans; eauto|]. rewrite flat_map_app, A3, B3. reflexivity.
Qed.
Lemma quiet_takes : forall m a b c, quiet a b -> takes m b c -> takes m a c.
Proof.
  intros m a b c (A1 & (k & A2 & A3) & A4) (B1 & B2 & l & B3 & B4). split; [eapply same_trans; eauto|]. split; [exact B2|].
  rewrite (same_prog _ _ A1) in B4. exists (k ++ l). split; [eapply moved_trans; eauto|]. rewrite flat_map_app, A3. cbn [app]. rewrite <- A4. exact B4.
Qed.
Lemma takes_quiet : forall m a b c, takes m a b -> quiet b c -> takes m a c.
Proof.
  intros m a b c (B1 & B2 & l & B3 & B4) (A1 & (k & A2 & A3) & A4). split; [eapply same_trans; eauto|]. split; [exact B2|].
  rewrite (same_prog _ _ B1) in A3. exists (l ++ k). split; [eapply moved_trans; eauto|]. rewrite flat_map_app, A3, app_nil_r, A4. exact B4.
Qed.
Lemma flag_quiet : forall b c, ok c -> quiet c (with_flag b c).
Proof. intros b c H. apply quiet_still; try reflexivity. split; [exact H|]; auto 10. Qed.
Lemma quiet_fails : forall e a b c, quiet a b ->
  flat_map (said_to (at_prog b)) (hleft b) = [] /\ rend b = PErr e /\ at_out c = at_out b /\ at_hold c = at_hold b /\ at_shown c = at_shown b ++ hleft b ->
  flat_map (said_to (at_prog a)) (hleft a) = [] /\ rend a = PErr e /\ at_out c = at_out a /\ at_hold c = at_hold a /\ at_shown c = at_shown a ++ hleft a.
Proof.
  intros e a b c ((A1 & A2 & A3 & A4 & A5 & A6 & A7) & (l & (M1 & M2) & A8) & A9) (B1 & B2 & B3 & B4 & B5).
  rewrite A7 in B1. split; [rewrite M2, flat_map_app, A8; exact B1|]. repeat (split; [congruence|]). rewrite B5, M1, M2, <- app_assoc. reflexivity.
Qed.

(** Nothing will happen any more. *)
Definition stuck (c : achat) : Prop := silent c /\ at_rdone c = true.
Lemma select_poll_spec : forall c, ok c ->
  match select_poll c with
  | (PItem m, c') => takes m c c' /\ (load c' < load c)%nat /\ (ticks c' <= ticks c)%nat
  | (PNotReady, c') => quiet c c' /\ (load c' <= load c)%nat /\ (stuck c' /\ (ticks c' <= ticks c)%nat \/ (ticks c' < ticks c)%nat)
  | (PEnd, c') => quiet c c' /\ at_rdone c' = true /\ at_udone c' = true /\ (ticks c' <= ticks c)%nat
  | (PErr e, c') => flat_map (said_to (at_prog c)) (hleft c) = [] /\ rend c = PErr e /\ at_out c' = at_out c /\ at_hold c' = at_hold c /\ at_shown c' = at_shown c ++ hleft c
  | _ => False
  end.
Proof.
  intros c HO. unfold select_poll. pose proof (flag_quiet (negb (at_flag c)) c HO) as Q0.
  pose proof (proj1 (proj1 Q0)) as O0. set (c0 := with_flag (negb (at_flag c)) c) in *.
  assert (L0 : load c0 = load c) by reflexivity. assert (T0 : ticks c0 = ticks c) by reflexivity. clearbody c0.
  destruct (at_flag c).
  - pose proof (user_side_spec c0 O0) as (S1 & S2 & S3 & S4 & _). destruct (user_side c0) as [p c1]. cbn [snd] in *.
    destruct p as [m| | |e| |]; try contradiction.
    + destruct S1 as (A & B & C). split; [eapply quiet_takes; eauto|]. split; lia.
    + destruct S1 as (A & B & C & D). pose proof (quiet_trans _ _ _ Q0 A) as QA. pose proof (proj1 (proj1 QA)) as O1.
      pose proof (stream_side_spec c1 O1) as (R1 & R2 & R3 & R4 & _). destruct (stream_side c1) as [p c2]. cbn [snd] in *.
      destruct p as [m| | |e| |]; try contradiction.
      * destruct R1 as (E & F & G). split; [eapply quiet_takes; eauto|]. split; lia.
      * destruct R1 as (E & F & G & H). split; [eapply quiet_trans; eauto|]. split; [exact F|]. split; [congruence|]. lia.
      * destruct R1 as (E & F & G). split; [eapply quiet_trans; eauto|]. split; [lia|]. right. lia.
      * eapply quiet_fails; [exact QA|exact R1].
    + destruct S1 as (A & B & C). pose proof (quiet_trans _ _ _ Q0 A) as QA. pose proof (proj1 (proj1 QA)) as O1.
      pose proof (stream_side_spec c1 O1) as (R1 & R2 & R3 & R4 & _). destruct (stream_side c1) as [p c2]. cbn [snd] in *.
      destruct p as [m| | |e| |]; try contradiction.
      * destruct R1 as (E & F & G). split; [eapply takes_quiet; [eapply quiet_takes; eauto|]; apply flag_quiet; apply E|]. 
        unfold load, ticks in *. cbn [with_flag at_rdone at_in at_read at_user] in *. lia.
      * destruct R1 as (E & F & G & H). split; [eapply quiet_trans; eauto|]. split; [lia|].
        destruct C as [[C1 C2]|C]; [left|right; lia]. split; [|lia]. unfold stuck, silent in *. rewrite R2, R3. auto.
      * destruct R1 as (E & F & G). split; [eapply quiet_trans; eauto|]. split; [lia|]. right. lia.
      * eapply quiet_fails; [exact QA|exact R1].
  - pose proof (stream_side_spec c0 O0) as (S1 & S2 & S3 & S4 & _). destruct (stream_side c0) as [p c1]. cbn [snd] in *.
    destruct p as [m| | |e| |]; try contradiction.
    + destruct S1 as (A & B & C). split; [eapply quiet_takes; eauto|]. split; lia.
    + destruct S1 as (A & B & C & D). pose proof (quiet_trans _ _ _ Q0 A) as QA. pose proof (proj1 (proj1 QA)) as O1.
      pose proof (user_side_spec c1 O1) as (R1 & R2 & R3 & R4 & _). destruct (user_side c1) as [p c2]. cbn [snd] in *.
      destruct p as [m| | |e| |]; try contradiction.
      * destruct R1 as (E & F & G). split; [eapply quiet_takes; eauto|]. split; lia.
      * destruct R1 as (E & F & G & H). split; [eapply quiet_trans; eauto|]. split; [congruence|]. split; [exact F|]. lia.
      * destruct R1 as (E & F & G). split; [eapply quiet_trans; eauto|]. split; [lia|].
        destruct G as [[G1 G2]|G]; [left; split; [split; [exact G1|congruence]|lia]|right; lia].
    + destruct S1 as (A & B & C). pose proof (quiet_trans _ _ _ Q0 A) as QA. pose proof (proj1 (proj1 QA)) as O1.
      pose proof (user_side_spec c1 O1) as (R1 & R2 & R3 & R4 & _). destruct (user_side c1) as [p c2]. cbn [snd] in *.
      destruct p as [m| | |e| |]; try contradiction.
      * destruct R1 as (E & F & G). split; [eapply takes_quiet; [eapply quiet_takes; eauto|]; apply flag_quiet; apply E|].
        unfold load, ticks in *. cbn [with_flag at_rdone at_in at_read at_user] in *. lia.
      * destruct R1 as (E & F & G & H). split; [eapply quiet_trans; eauto|]. split; [lia|]. right. lia.
      * destruct R1 as (E & F & G). split; [eapply quiet_trans; eauto|]. split; [lia|]. right. destruct G as [[_ G]|G]; lia.
    + eapply quiet_fails; [exact Q0|exact S1].
Qed.

Definition kept (c : achat) : list owned := match at_hold c with Some m => [m] | None => [] end.
Definition inv (c0 c : achat) : Prop :=
  ok c /\ afails_never (at_out c) /\ rend c = rend c0 /\ will_close c = will_close c0 /\ Forall (sendable (2 ^ 34)) (kept c) /\
  at_prog c = at_prog c0 /\
  exists said l U, merge (flat_map (said_to (at_prog c0)) l) U (said ++ kept c) /\ moved l c0 c /\ uleft c0 = U ++ uleft c /\
    sofar (at_out c) = sofar (at_out c0) ++ client_says (with_keys (at_keys c0) said) /\
    (forall n, at_keys c n = at_keys c0 (length said + n)%nat).
Definition spoke (c0 c : achat) : Prop :=
  exists said hold l U, merge (flat_map (said_to (at_prog c0)) l) U (said ++ hold) /\ (length hold <= 1)%nat /\
    at_shown c = at_shown c0 ++ l /\ prefix l (hleft c0) /\ prefix U (uleft c0) /\
    sofar (at_out c) = sofar (at_out c0) ++ client_says (with_keys (at_keys c0) said).
Lemma inv_spoke : forall c0 c, inv c0 c -> spoke c0 c.
Proof.
  intros c0 c (_ & _ & _ & _ & _ & _ & said & l & U & A & (B1 & B2) & C & D & _). exists said, (kept c), l, U.
  split; [exact A|]. split; [unfold kept; destruct (at_hold c); cbn; lia|]. split; [exact B1|]. split; [eexists; exact B2|]. split; [eexists; exact C|exact D].
Qed.
Lemma inv_quiet : forall c0 c c', inv c0 c -> quiet c c' -> inv c0 c'.
Proof.
  intros c0 c c' (A & B & C & D & E & EP & said & l & U & F & G & H & I & J) ((Q1 & Q2 & Q3 & Q4 & Q5 & Q6 & QP) & (k & Q7 & Q9) & Q8).
  unfold inv, kept in *. rewrite Q2, Q3, Q4, Q5, Q6, Q8, QP. repeat (split; [assumption|]). exists said, (l ++ k), U.
  rewrite EP in Q9. rewrite flat_map_app, Q9, app_nil_r. split; [exact F|]. split; [eapply moved_trans; eauto|]. auto.
Qed.
Lemma inv_takes : forall c0 c m c', inv c0 c -> at_hold c = None -> takes m c c' ->
  (* held *) (forall w, afails_never w -> sofar w = sofar (at_out c) -> inv c0 (with_out (Some m) w c')) /\
  (* sent *) (forall w, afails_never w -> sofar w = sofar (at_out c) ++ client_says [(m, at_keys c' O)] -> inv c0 (sent_out w c')).
Proof.
  intros c0 c m c' (A & B & C & D & E & EP & said & P & U & F & G & H & I & J) HN ((Q1 & Q2 & Q3 & Q4 & Q5 & Q6 & QP) & HS & k & HM & HT).
  unfold kept in F. rewrite HN, app_nil_r in F.
  assert (exists P' U', merge (flat_map (said_to (at_prog c0)) P') U' (said ++ [m]) /\ moved P' c0 c' /\ uleft c0 = U' ++ uleft c') as (P' & U' & F' & G' & H').
  { rewrite EP in HT. destruct HT as [[T1 T2]|[T1 T2]].
    - exists (P ++ k), U. split; [rewrite flat_map_app, T1; apply merge_snoc_left; exact F|]. rewrite T2. split; [eapply moved_trans; eauto|exact H].
    - exists (P ++ k), (U ++ [m]). split; [rewrite flat_map_app, T1, app_nil_r; apply merge_snoc_right; exact F|]. split; [eapply moved_trans; eauto|]. rewrite H, T2, <- app_assoc. reflexivity. }
  rewrite <- QP in EP. split; intros w W1 W2.
  - split; [exact Q1|]. split; [exact W1|]. split; [rewrite <- C; exact Q2|]. split; [rewrite <- D; exact Q3|]. split; [constructor; [exact HS|constructor]|]. split; [exact EP|].
    exists said, P', U'. split; [exact F'|]. split; [exact G'|]. split; [exact H'|]. split; [cbn [with_out at_out]; rewrite W2; exact I|].
    cbn [with_out at_keys]. rewrite Q6. exact J.
  - split; [exact Q1|]. split; [exact W1|]. split; [rewrite <- C; exact Q2|]. split; [rewrite <- D; exact Q3|]. split; [constructor|]. split; [exact EP|].
    exists (said ++ [m]), P', U'. split; [unfold kept; cbn [sent_out at_hold]; rewrite app_nil_r; exact F'|]. split; [exact G'|]. split; [exact H'|]. split.
    + cbn [sent_out at_out]. rewrite W2, I, with_keys_app, client_says_app, <- app_assoc. do 2 f_equal. rewrite Q6. cbn [with_keys]. rewrite J. reflexivity.
    + intros n. cbn [sent_out at_keys]. unfold next_keys. rewrite Q6, J, app_length. cbn [length]. f_equal. lia.
Qed.
Lemma inv_flush : forall c0 c w, inv c0 c -> afails_never w -> sofar w = sofar (at_out c) -> at_hold c = None -> inv c0 (with_out None w c).
Proof.
  intros c0 c w (A & B & C & D & E & EP & said & P & U & F & G & H & I & J) W1 W2 HN. unfold kept in F. rewrite HN in F.
  split; [exact A|]. split; [exact W1|]. split; [exact C|]. split; [exact D|]. split; [constructor|]. split; [exact EP|]. exists said, P, U.
  split; [exact F|]. split; [exact G|]. split; [exact H|]. split; [cbn [with_out at_out]; rewrite W2; exact I|exact J].
Qed.

Definition late (c : achat) : nat := (ticks c + room (at_out c))%nat.
Definition good_poll (c0 c : achat) (r : tpoll) (c' : achat) : Prop :=
  match r with
  | TReady => inv c0 c' /\ at_rdone c' = true /\ at_udone c' = true /\ at_hold c' = None /\ bm_data (fw_buf (at_out c')) = []
  | TNotReady => inv c0 c' /\ (stuck c' \/ (late c' < late c)%nat)
  | TErr e => rend c0 = PErr e /\ spoke c0 c' /\ at_shown c' = at_shown c0 ++ hleft c0
  | _ => False
  end.
Lemma achat_loop_good : forall fuel extra c0 c, inv c0 c -> at_hold c = None -> (load c < fuel)%nat ->
  let '(r, c') := achat_loop fuel extra c in good_poll c0 c r c'.
Proof.
  induction fuel as [|fuel IH]; intros extra c0 c HI HN HL; [lia|]. cbn [achat_loop].
  pose proof (select_poll_spec c (proj1 HI)) as HP. pose proof HI as (HO & HF & _).
  destruct (select_poll c) as [p c1]. destruct p as [m| | |e| |]; try contradiction.
  - destruct HP as (T & L1 & L2). destruct (inv_takes c0 c m c1 HI HN T) as [IHold ISent].
    destruct T as ((Q1 & Q2 & Q3 & Q4 & Q5 & Q6 & QP) & HS & HT).
    destruct (start_send false (owned_ops m) (at_keys c1 O) extra (at_out c1)) as [r w] eqn:E.
    apply csend_ok in E as (F1 & [(-> & F2 & F3)|(-> & F2 & F3)]); [| |rewrite Q4; exact HF|exact HS].
    + specialize (IH extra c0 (sent_out w c1) (ISent w F1 ltac:(rewrite F2, Q4; reflexivity)) eq_refl ltac:(unfold load in *; cbn; lia)).
      destruct (achat_loop fuel extra (sent_out w c1)) as [r c']. unfold good_poll in *. destruct r; try exact IH.
      destruct IH as [A B]. split; [exact A|]. destruct B as [B|B]; [left; exact B|right]. rewrite Q4 in F3.
      unfold late, ticks in *. cbn [sent_out at_out at_rdone at_in at_user] in B. lia.
    + split; [apply IHold; [exact F1|rewrite F2, Q4; reflexivity]|]. right. rewrite Q4 in F3.
      unfold late, ticks in *. cbn [with_out at_out at_rdone at_in at_user]. lia.
  - destruct HP as (Q & A & B & C). pose proof (inv_quiet _ _ _ HI Q) as I1. pose proof Q as ((Q1 & Q2 & Q3 & Q4 & Q5 & Q6 & QP) & _).
    destruct (poll_complete (at_out c1)) as [r w] eqn:E. apply flush_ok in E as (F1 & F2 & F3); [|rewrite Q4; exact HF].
    assert (I2 : inv c0 (with_out None w c1)) by (apply inv_flush; [exact I1|exact F1|exact F2|congruence]).
    destruct F3 as [(-> & F3 & F4)|(-> & F3)].
    + split; [exact I2|]. auto.
    + split; [exact I2|]. right. rewrite Q4 in F3. unfold late, ticks in *. cbn [with_out at_out at_rdone at_in at_user]. lia.
  - destruct HP as (Q & A & B). pose proof (inv_quiet _ _ _ HI Q) as I1. pose proof Q as ((Q1 & Q2 & Q3 & Q4 & Q5 & Q6 & QP) & _).
    destruct (poll_complete (at_out c1)) as [r w] eqn:E. apply flush_ok in E as (F1 & F2 & F3); [|rewrite Q4; exact HF].
    assert (I2 : inv c0 (with_out None w c1)) by (apply inv_flush; [exact I1|exact F1|exact F2|congruence]).
    assert (G : good_poll c0 c TNotReady (with_out None w c1)).
    { split; [exact I2|]. destruct B as [[B _]|B]; [left; exact B|right]. rewrite Q4 in F3. unfold late, ticks in *.
      cbn [with_out at_out at_rdone at_in at_user]. destruct F3 as [(_ & _ & F3)|(_ & F3)]; lia. }
    destruct F3 as [(-> & F3 & F4)|(-> & F3)]; exact G.
  - destruct HP as (A & B & C & D & K). destruct HI as (_ & _ & IR & _ & _ & IP & said & l & U & F & (G1 & G2) & H & I & J).
    assert (HA : at_shown c1 = at_shown c0 ++ hleft c0) by (rewrite K, G1, G2, <- app_assoc; reflexivity).
    split; [congruence|]. split; [|exact HA]. exists said, (kept c), (hleft c0), U. rewrite IP in A. rewrite G2 at 1. rewrite flat_map_app, A, app_nil_r. split; [exact F|].
    split; [unfold kept; destruct (at_hold c); cbn; lia|]. split; [exact HA|]. split; [exists []; rewrite app_nil_r; reflexivity|]. split; [eexists; exact H|]. rewrite C. exact I.
Qed.
Lemma load_fuel : forall c, (load c < achat_fuel c)%nat.
Proof. intros c. unfold load, achat_fuel, weight. destruct (at_rdone c); lia. Qed.
Lemma achat_poll_good : forall extra c0 c, inv c0 c -> let '(r, c') := achat_poll extra c in good_poll c0 c r c'.
Proof.
  intros extra c0 c HI. unfold achat_poll. destruct (at_hold c) as [m|] eqn:Em; [|apply achat_loop_good; [exact HI|exact Em|apply load_fuel]].
  pose proof HI as (A & B & C & D & E & EP & said & P & U & F & G & H & I & J). unfold kept in E, F. rewrite Em in E, F. inversion E as [|? ? HS _]; subst.
  destruct (start_send false (owned_ops m) (at_keys c O) extra (at_out c)) as [r w] eqn:ES.
  apply csend_ok in ES as (F1 & [(-> & F2 & F3)|(-> & F2 & F3)]); [| |exact B|exact HS].
  - assert (I1 : inv c0 (sent_out w c)).
    { split; [exact A|]. split; [exact F1|]. split; [exact C|]. split; [exact D|]. split; [constructor|]. split; [exact EP|]. exists (said ++ [m]), P, U.
      split; [unfold kept; cbn [sent_out at_hold]; rewrite app_nil_r; exact F|]. split; [exact G|]. split; [exact H|]. split.
      - cbn [sent_out at_out]. rewrite F2, I, with_keys_app, client_says_app, <- app_assoc. do 2 f_equal. cbn [with_keys]. rewrite J. reflexivity.
      - intros n. cbn [sent_out at_keys]. unfold next_keys. rewrite J, app_length. cbn [length]. f_equal. lia. }
    pose proof (achat_loop_good (achat_fuel c) extra c0 (sent_out w c) I1 eq_refl (load_fuel c)) as HG.
    destruct (achat_loop (achat_fuel c) extra (sent_out w c)) as [r c']. unfold good_poll in *. destruct r; try exact HG.
    destruct HG as [K1 K2]. split; [exact K1|]. destruct K2 as [K2|K2]; [left; exact K2|right].
    unfold late, ticks in *. cbn [sent_out at_out at_rdone at_in at_user] in K2. lia.
  - split.
    + split; [exact A|]. split; [exact F1|]. split; [exact C|]. split; [exact D|]. split; [constructor; [exact HS|constructor]|]. split; [exact EP|].
      exists said, P, U. split; [exact F|]. split; [exact G|]. split; [exact H|]. split; [cbn [with_out at_out]; rewrite F2; exact I|exact J].
    + right. unfold late, ticks in *. cbn [with_out at_out at_rdone at_in at_user]. lia.
Qed.
Lemma achat_run_good : forall n extra c0 c, inv c0 c ->
  let '(r, c') := achat_run n extra c in
  match r with TNotReady => inv c0 c' | _ => good_poll c0 c r c' end.
Proof.
  induction n as [|n IH]; intros extra c0 c HI; [exact HI|]. cbn [achat_run].
  pose proof (achat_poll_good extra c0 c HI) as HG. destruct (achat_poll extra c) as [r c1]. destruct r; try exact HG.
  destruct HG as [I1 _]. specialize (IH extra c0 c1 I1). destruct (achat_run n extra c1) as [r c']. destruct r; exact IH.
Qed.
Lemma achat_run_ends : forall n extra c0 c, inv c0 c -> will_close c0 = true \/ rend c0 <> PEnd -> (late c < n)%nat -> fst (achat_run n extra c) <> TNotReady.
Proof.
  induction n as [|n IH]; intros extra c0 c HI HW HL; [lia|]. cbn [achat_run].
  pose proof (achat_poll_good extra c0 c HI) as HG. destruct (achat_poll extra c) as [r c1]. destruct r; try discriminate.
  destruct HG as [I1 [[[S1 S2] S3]|L]].
  - exfalso. destruct I1 as (_ & _ & R & W & _). destruct HW as [HW|HW].
    + rewrite HW in W. unfold will_close in W. rewrite S1, S2 in W. discriminate W.
    + apply HW. rewrite <- R. unfold rend. rewrite S3. reflexivity.
  - apply (IH extra c0 c1 I1 HW). lia.
Qed.

Lemma asks_commands : forall us cs, asks (lines us) cs <-> cs = commands us.
Proof.
  assert (A : forall us, asks (lines us) (commands us)).
  { induction us as [|[t|] us IH]; cbn [lines flat_map commands app]; [constructor| |exact IH].
    destruct (beqb t (str "/close")) eqn:E.
    - apply beqb_eq in E. subst t. apply asks_close.
    - apply asks_more; [|exact IH]. intros ->. discriminate E. }
  assert (F : forall l a b, asks l a -> asks l b -> a = b).
  { intros l a b H. revert b. induction H as [|ts|t ts us H1 H2 IH]; intros b Hb; inversion Hb as [|?|? ? us' K1 K2]; subst; auto; try congruence.
    f_equal. apply IH. exact K2. }
  intros us cs. split; [intros H; eapply F; [exact H|apply A]|]. intros ->. apply A.
Qed.
Lemma closes_in : forall us, existsb closes us = true <-> In (ascii "/close") (lines us).
Proof.
  induction us as [|[t|] us IH]; cbn [existsb closes lines flat_map app In]; [split; [discriminate|contradiction]| |exact IH].
  rewrite orb_true_iff, IH, beqb_eq. tauto.
Qed.
Lemma inv_new : forall pr a us ks, amade a -> afails_never (ac_out a) -> all_text us -> inv (achat_new pr a us ks) (achat_new pr a us ks).
Proof.
  intros pr a us ks Ha HF HT. destruct (amade_inv a Ha) as (df & msg & buf & HR & _).
  split; [split; [intros _; split|split; [exact HT|discriminate]]|].
  - cbn [achat_new at_prog at_read]. rewrite HR. apply fr_inv_new_mc.
  - unfold drained. cbn [achat_new at_prog at_read at_in]. rewrite HR. cbn [framed_new fr_st fr_buf].
    pose proof (received_sendable CtxClient df msg buf (ac_in a)) as H. rewrite run_messages_cdrain in H. exact H.
  - split; [exact HF|]. split; [reflexivity|]. split; [reflexivity|]. split; [constructor|]. split; [reflexivity|].
    exists [], [], []. split; [constructor|]. split; [split; reflexivity|]. split; [reflexivity|]. split; [|reflexivity].
    cbn [with_keys]. unfold client_says. cbn [map concat]. rewrite app_nil_r. reflexivity.
Qed.
Lemma new_parts : forall pr a us ks ms e cs, run_messages (fr_st (ac_read a)) (fr_buf (ac_read a)) (ac_in a) = (ms, e) -> asks (lines us) cs ->
  amade a -> let c0 := achat_new pr a us ks in
  hleft c0 = ms /\ rend c0 = e /\ uleft c0 = cs /\ (will_close c0 = true <-> In (ascii "/close") (lines us)) /\
  sofar (at_out c0) = octets (fw_out (ac_out a)).
Proof.
  intros pr a us ks ms e cs HM HA Ha c0. rewrite run_messages_cdrain in HM. apply asks_commands in HA.
  unfold hleft, rend, uleft, will_close, drained. cbn [c0 achat_new at_prog at_rdone at_in at_read at_over at_user orb]. rewrite HM.
  split; [reflexivity|]. split; [reflexivity|]. split; [auto|]. split; [apply closes_in|].
  destruct (amade_inv a Ha) as (df & msg & buf & _ & HB). unfold sofar. cbn [c0 achat_new at_prog at_out]. rewrite HB, app_nil_r. reflexivity.
Qed.

(** [C79] At every moment, whatever was received and typed, and however reads, writes and typing
    are interleaved: a program has printed the first of the messages received, in their order; and
    what it has written or buffered is one masked frame each for its answers to the messages
    printed and for the first of the user's messages, interleaved, each in their order, none left
    out or doubled - except that at most one more message has been taken and waits for the sink. *)
Lemma achat_says_proof : forall pr n extra a us ks ms e cs, amade a -> afails_never (ac_out a) -> all_text us ->
  run_messages (fr_st (ac_read a)) (fr_buf (ac_read a)) (ac_in a) = (ms, e) -> asks (lines us) cs ->
  let c := snd (achat_run n extra (achat_new pr a us ks)) in
  prefix (at_shown c) ms /\
  exists said wait qs, merge (flat_map (said_to pr) (at_shown c)) qs (said ++ wait) /\ (List.length wait <= 1)%nat /\ prefix qs cs /\
    octets (fw_out (at_out c) ++ bm_data (fw_buf (at_out c))) = octets (fw_out (ac_out a)) ++ client_says (with_keys ks said).
Proof.
  intros pr n extra a us ks ms e cs Ha HF HT HM HA c.
  destruct (new_parts pr a us ks ms e cs HM HA Ha) as (N1 & N2 & N3 & N4 & N5).
  pose proof (achat_run_good n extra _ _ (inv_new pr a us ks Ha HF HT)) as HG.
  assert (HS : spoke (achat_new pr a us ks) c).
  { unfold c. destruct (achat_run n extra (achat_new pr a us ks)) as [r c']. cbn [snd].
    destruct r; [apply inv_spoke; apply HG|apply inv_spoke; exact HG|apply HG|contradiction|contradiction]. }
  destruct HS as (said & hold & l & U & A & B & C & C' & D & E). rewrite N1 in C'. rewrite N3 in D. rewrite N5 in E.
  cbn [achat_new at_shown app] in C. rewrite C. split; [exact C'|]. exists said, hold, U. auto 10.
Qed.

(** [C79] When the user types "/close" and the server's stream ends, the program ends too.  It has
    then printed every message received, and written, flushed, all its answers and all the user's
    messages up to the Close. *)
Lemma achat_ends_proof : forall pr extra a us ks ms cs, amade a -> afails_never (ac_out a) -> all_text us ->
  run_messages (fr_st (ac_read a)) (fr_buf (ac_read a)) (ac_in a) = (ms, PEnd) -> asks (lines us) cs ->
  In (ascii "/close") (lines us) ->
  exists n c said, achat_run n extra (achat_new pr a us ks) = (TReady, c) /\ at_shown c = ms /\
    merge (flat_map (said_to pr) ms) cs said /\ bm_data (fw_buf (at_out c)) = [] /\
    octets (fw_out (at_out c)) = octets (fw_out (ac_out a)) ++ client_says (with_keys ks said).
Proof.
  intros pr extra a us ks ms cs Ha HF HT HM HA HC.
  destruct (new_parts pr a us ks ms PEnd cs HM HA Ha) as (N1 & N2 & N3 & N4 & N5).
  pose proof (inv_new pr a us ks Ha HF HT) as I0. set (c0 := achat_new pr a us ks) in *. set (n := S (late c0)).
  pose proof (achat_run_ends n extra c0 c0 I0 (or_introl (proj2 N4 HC)) ltac:(unfold n; lia)) as HE.
  pose proof (achat_run_good n extra c0 c0 I0) as HG. exists n.
  destruct (achat_run n extra c0) as [r c]. cbn [fst] in HE. exists c. destruct r; try contradiction.
  - destruct HG as (I1 & D1 & D2 & D3 & D4). destruct I1 as (O1 & _ & _ & _ & _ & _ & said & l & U & A & (B1 & B2) & C & D & _).
    unfold kept in A. rewrite D3, app_nil_r in A. exists said. split; [reflexivity|].
    assert (hleft c = []) as RL by (unfold hleft; rewrite D1; reflexivity).
    assert (uleft c = []) as UL by (unfold uleft; destruct O1 as (_ & _ & O1); rewrite (O1 D2); reflexivity).
    rewrite RL, app_nil_r, N1 in B2. rewrite UL, app_nil_r, N3 in C. subst l U. split; [exact B1|]. split; [exact A|]. split; [exact D4|].
    rewrite N5 in D. unfold sofar in D. rewrite D4, app_nil_r in D. exact D.
  - destruct HG as [HG _]. rewrite N2 in HG. discriminate HG.
Qed.

(** [C79] It ends in no other way but one: it is over only when the stream has ended and "/close"
    was typed; if receiving fails, it panics with that error; otherwise it waits. *)
Lemma achat_over_proof : forall pr n extra a us ks ms e r c, amade a -> afails_never (ac_out a) -> all_text us ->
  run_messages (fr_st (ac_read a)) (fr_buf (ac_read a)) (ac_in a) = (ms, e) ->
  achat_run n extra (achat_new pr a us ks) = (r, c) ->
  (r = TReady /\ e = PEnd /\ In (ascii "/close") (lines us)) \/ (exists x, r = TErr x /\ e = PErr x) \/ r = TNotReady.
Proof.
  intros pr n extra a us ks ms e r c Ha HF HT HM HR.
  destruct (new_parts pr a us ks ms e (commands us) HM (proj2 (asks_commands _ _) eq_refl) Ha) as (N1 & N2 & N3 & N4 & N5).
  pose proof (achat_run_good n extra _ _ (inv_new pr a us ks Ha HF HT)) as HG. rewrite HR in HG.
  destruct r; try contradiction; [left| |right; left].
  - destruct HG as (I1 & D1 & D2 & _). destruct I1 as (O1 & _ & R1 & W1 & _). split; [reflexivity|]. split.
    + rewrite <- N2, <- R1. unfold rend. rewrite D1. reflexivity.
    + apply N4. rewrite <- W1. unfold will_close. destruct O1 as (_ & _ & O1). rewrite (O1 D2). reflexivity.
  - right. right. reflexivity.
  - destruct HG as [HG _]. rewrite N2 in HG. eauto.
Qed.

(** [C79] A stream that fails always ends it, whatever the user does; what was received before has
    been printed. *)
Lemma achat_fails_proof : forall pr extra a us ks ms x, amade a -> afails_never (ac_out a) -> all_text us ->
  run_messages (fr_st (ac_read a)) (fr_buf (ac_read a)) (ac_in a) = (ms, PErr x) ->
  exists n c, achat_run n extra (achat_new pr a us ks) = (TErr x, c) /\ at_shown c = ms.
Proof.
  intros pr extra a us ks ms x Ha HF HT HM.
  destruct (new_parts pr a us ks ms (PErr x) (commands us) HM (proj2 (asks_commands _ _) eq_refl) Ha) as (N1 & N2 & N3 & N4 & N5).
  pose proof (inv_new pr a us ks Ha HF HT) as I0. exists (S (late (achat_new pr a us ks))).
  assert (HN : rend (achat_new pr a us ks) <> PEnd) by (rewrite N2; discriminate).
  pose proof (achat_run_ends (S (late (achat_new pr a us ks))) extra _ _ I0 (or_intror HN) ltac:(lia)) as HE.
  destruct (achat_run (S (late (achat_new pr a us ks))) extra (achat_new pr a us ks)) as [r c] eqn:E. cbn [fst] in HE. exists c.
  destruct (achat_over_proof _ _ _ _ _ _ _ _ _ _ Ha HF HT HM E) as [(_ & H & _)|[(y & -> & H)|H]]; [discriminate H| |contradiction].
  injection H as <-. split; [reflexivity|].
  pose proof (achat_run_good (S (late (achat_new pr a us ks))) extra _ _ I0) as HG. rewrite E in HG. destruct HG as (_ & _ & HG). rewrite HG, N1. reflexivity.
Qed.

(** [C79] The two take turns: a line that has been typed is the next message taken, or the one
    after it, however much is received. *)
Lemma achat_fair_proof : forall pr n extra a us ks c t us', amade a -> afails_never (ac_out a) -> all_text us ->
  achat_run n extra (achat_new pr a us ks) = (TNotReady, c) -> at_user c = Typed t :: us' -> at_over c = false ->
  let m := if beqb t (str "/close") then OClose None else command t in
  (exists c1, select_poll c = (PItem m, c1) /\ at_user c1 = us') \/
  (exists m' c1 c2, select_poll c = (PItem m', c1) /\ select_poll c1 = (PItem m, c2) /\ at_user c2 = us') \/
  (exists x c1, select_poll c = (PErr x, c1)).
Proof.
  intros pr n extra a us ks c t us' Ha HF HT HR Eu Eo m.
  pose proof (achat_run_good n extra _ _ (inv_new pr a us ks Ha HF HT)) as HG. rewrite HR in HG. destruct HG as (HO & _).
  assert (HU : forall d, at_user d = Typed t :: us' -> at_over d = false -> at_udone d = false ->
    exists d1, user_side d = (PItem m, d1) /\ at_user d1 = us').
  { intros d A B C. unfold user_side. rewrite C, A, B, line_message_eq. eexists. split; reflexivity. }
  assert (Ed : at_udone c = false).
  { destruct (at_udone c) eqn:E; [|reflexivity]. destruct HO as (_ & _ & HO). rewrite (HO E) in Eo. discriminate Eo. }
  unfold select_poll. destruct (at_flag c) eqn:Ef.
  - destruct (HU (with_flag (negb true) c) Eu Eo Ed) as (c1 & E & E1). rewrite E. left. eauto.
  - pose proof (stream_side_spec (with_flag (negb false) c) HO) as (S1 & S2 & S3 & S4 & S5).
    destruct (stream_side (with_flag (negb false) c)) as [p c1] eqn:E. cbn [snd] in *. cbn [with_flag at_user at_over at_udone at_flag negb] in S2, S3, S4, S5.
    rewrite Eu in S2. rewrite Eo in S3. rewrite Ed in S4.
    destruct p as [m'| | |e| |]; try contradiction.
    + right. left.
      destruct (HU (with_flag (negb true) c1) S2 S3 S4) as (c2 & E2 & E3). exists m', c1, c2. rewrite S5, E2. auto.
    + left. destruct (HU c1 S2 S3 S4) as (c2 & E2 & E3). rewrite E2. eauto.
    + left. destruct (HU c1 S2 S3 S4) as (c2 & E2 & E3). rewrite E2. eexists. split; [reflexivity|]. exact E3.
    + right. right. eauto.
Qed.

(** A connection whose server then sends [s]. *)
Definition sample_head : bytes := str "HTTP/1.1 101 Switching Protocols" ++ crlf ++ str "Connection: Upgrade" ++ crlf ++
    str "Upgrade: websocket" ++ crlf ++ str "Sec-WebSocket-Accept: s3pPLMBiTxaQ9kYGzzhZRbK+xOo=" ++ crlf ++ crlf.
Definition sample (s : list aev) (ws : list awev) (fs : list afev) : aclient :=
  match async_connect_on httparse_lib (ascii "the sample nonce")
      (builder_init (mk_url (ascii "ws") (Some (ascii "127.0.0.1")) (Some 2794) [] None (ascii "/"))) 0
      (apush_back sample_head s) (mk_fw (mk_bm [] 0) [] ws fs) with
  | Ok (a, _) => a
  | _ => mk_aclient (framed_new (msg_codec_with_limits CtxClient 0 0) []) [] (mk_fw (mk_bm [] 0) [] [] [])
  end.
Definition sample_keys : nat -> mkey := fun n => mk_key x00 x00 x00 (match n with O => x00 | S O => x01 | _ => xff end).

Lemma sample_made : forall s ws fs h, async_connect_on httparse_lib (ascii "the sample nonce")
      (builder_init (mk_url (ascii "ws") (Some (ascii "127.0.0.1")) (Some 2794) [] None (ascii "/"))) 0
      (apush_back sample_head s) (mk_fw (mk_bm [] 0) [] ws fs) = Ok (sample s ws fs, h) -> amade (sample s ws fs).
Proof. intros s ws fs h H. unfold amade. eauto 10. Qed.

(** [C79] Refuted: a comment in examples/async-client.rs says that it responds to a Close from the
    server.  It does not: the server closes and ends its stream, and the client, polled any
    number of times, has said nothing and is not over. *)
Lemma achat_answers_close_refuted_proof : exists a, amade a /\ afails_never (ac_out a) /\
  run_messages (fr_st (ac_read a)) (fr_buf (ac_read a)) (ac_in a) = ([OClose None], PEnd) /\
  forall ks n extra, exists c, achat_run n extra (achat_new AsyncClient a [] ks) = (TNotReady, c) /\
    octets (fw_out (at_out c) ++ bm_data (fw_buf (at_out c))) = octets (fw_out (ac_out a)).
Proof.
  exists (sample [AData x88 [x00]] [] []).
  assert (A : amade (sample [AData x88 [x00]] [] [])) by (eapply sample_made; vm_compute; reflexivity).
  assert (F : afails_never (ac_out (sample [AData x88 [x00]] [] []))) by (split; vm_compute; constructor).
  assert (R : run_messages (fr_st (ac_read (sample [AData x88 [x00]] [] []))) (fr_buf (ac_read (sample [AData x88 [x00]] [] [])))
     (ac_in (sample [AData x88 [x00]] [] [])) = ([OClose None], PEnd)) by (vm_compute; reflexivity).
  generalize dependent (sample [AData x88 [x00]] [] []). intros a A F R. split; [exact A|]. split; [exact F|]. split; [exact R|].
  intros ks n extra. destruct (achat_run n extra (achat_new AsyncClient a [] ks)) as [r c] eqn:E. exists c.
  destruct (achat_over_proof AsyncClient n extra a [] ks _ _ r c A F (Forall_nil _) R E) as [(_ & _ & [])|[(x & _ & H)|H]]; [discriminate H|]. subst r. split; [reflexivity|].
  destruct (achat_says_proof AsyncClient n extra a [] ks _ _ [] A F (Forall_nil _) R asks_none) as ([p P] & said & wait & qs & M & _ & [q Q] & O).
  rewrite E in O, P, M. cbn [snd] in O, P, M. rewrite O. symmetry in Q. apply app_eq_nil in Q as [-> _].
  assert (HP : flat_map (said_to AsyncClient) (at_shown c) = []).
  { destruct (at_shown c) as [|m [|m2 l]]; [reflexivity| |discriminate P]. injection P as <- _. reflexivity. }
  rewrite HP in M.
  assert (said = []) as -> by (remember (said ++ wait) as l eqn:G; inversion M; subst l; destruct said; [reflexivity|discriminate]). unfold client_says. cbn [with_keys map concat].
  apply app_nil_r.
Qed.

(** [C79] The end of the connection does not end a program.  Whatever the server sent
    before its stream ended, a Close or nothing, it waits for the user's "/close". *)
Lemma achat_waits_for_user_proof : forall pr n extra a us ks ms, amade a -> afails_never (ac_out a) -> all_text us ->
  run_messages (fr_st (ac_read a)) (fr_buf (ac_read a)) (ac_in a) = (ms, PEnd) -> ~ In (ascii "/close") (lines us) ->
  fst (achat_run n extra (achat_new pr a us ks)) = TNotReady.
Proof.
  intros pr n extra a us ks ms A F T R HN. destruct (achat_run n extra (achat_new pr a us ks)) as [r c] eqn:E.
  destruct (achat_over_proof pr n extra a us ks _ _ r c A F T R E) as [(_ & _ & H)|[(x & _ & H)|H]]; [contradiction|discriminate H|exact H].
Qed.

(** [C79] Refuted: the Close of a program is not the last thing it says.  It goes on answering
    pings, up to the end of the server's stream; and examples/ssl-client.rs also sends a second
    Close, in answer to the server's. *)
Lemma achat_close_last_refuted_proof :
  (forall pr, exists a us ks n c d k, amade a /\ afails_never (ac_out a) /\ all_text us /\
    achat_run n 0 (achat_new pr a us ks) = (TReady, c) /\
    octets (fw_out (at_out c)) = octets (fw_out (ac_out a)) ++ client_says [(OClose None, ks O); (OPong d, k)]) /\
  (exists a us ks n c k, amade a /\ afails_never (ac_out a) /\ all_text us /\
    achat_run n 0 (achat_new SslClient a us ks) = (TReady, c) /\
    octets (fw_out (at_out c)) = octets (fw_out (ac_out a)) ++ client_says [(OClose None, ks O); (OClose None, k)]).
Proof.
  split.
  - intros pr. exists (sample [ANotReady; AData x89 [x01; x61]] [] []), [Typed (ascii "/close")], sample_keys, 9%nat.
    destruct pr; (eexists _, [x61], (mk_key x00 x00 x00 x01); split; [eapply sample_made; vm_compute; reflexivity|]; split; [split; vm_compute; constructor|];
    split; [repeat constructor; [apply utf8_valid_iff; reflexivity|vm_compute; discriminate]|]; split; [vm_compute; reflexivity|vm_compute; reflexivity]).
  - exists (sample [ANotReady; AData x88 [x00]] [] []), [Typed (ascii "/close")], sample_keys, 9%nat.
    eexists _, (mk_key x00 x00 x00 x01). split; [eapply sample_made; vm_compute; reflexivity|]. split; [split; vm_compute; constructor|].
    split; [repeat constructor; [apply utf8_valid_iff; reflexivity|vm_compute; discriminate]|]. split; [vm_compute; reflexivity|vm_compute; reflexivity].
Qed.

(*EX
(** The server pings, pauses, pings again and ends; the user says "hi", pings and closes. *)
Definition chatting_head : bytes := str "HTTP/1.1 101 Switching Protocols" ++ crlf ++ str "Connection: Upgrade" ++ crlf ++
    str "Upgrade: websocket" ++ crlf ++ str "Sec-WebSocket-Accept: s3pPLMBiTxaQ9kYGzzhZRbK+xOo=" ++ crlf ++ crlf.
Definition chatting (s : list aev) (ws : list awev) (fs : list afev) : aclient :=
  match async_connect_on httparse_lib (ascii "the sample nonce")
      (builder_init (mk_url (ascii "ws") (Some (ascii "127.0.0.1")) (Some 2794) [] None (ascii "/"))) 0
      (apush_back chatting_head s) (mk_fw (mk_bm [] 0) [] ws fs) with
  | Ok (a, _) => a
  | _ => mk_aclient (framed_new (msg_codec_with_limits CtxClient 0 0) []) [] (mk_fw (mk_bm [] 0) [] [] [])
  end.
Definition chatting_keys : nat -> mkey := fun n => mk_key x00 x00 x00 (match n with O => x00 | S O => x01 | _ => xff end).
Definition a_server : list aev := [AData x89 [x01; x61]; ANotReady; AData x81 [x00; x89; x01]; AData x62 []].
Definition a_user : list uev := [Typed (ascii "hi"); Idle; Typed (ascii "/ping"); Typed (ascii "/close"); Typed (ascii "late")].
Definition a_chat : aclient := chatting a_server [AwAccept 5; AwNotReady; AwAccept 1000; AwAccept 2; AwNotReady] [AfReady; AfNotReady].
Example achat_ex : amade a_chat /\ afails_never (ac_out a_chat) /\ all_text a_user /\
  run_messages (fr_st (ac_read a_chat)) (fr_buf (ac_read a_chat)) (ac_in a_chat) = ([OPing [x61]; OText []; OPing [x62]], PEnd) /\
  asks (lines a_user) [OText (ascii "hi"); OPing (ascii "PING"); OClose None] /\ In (ascii "/close") (lines a_user) /\
  (exists c, achat_run 9 0 (achat_new AsyncClient a_chat a_user chatting_keys) = (TReady, c) /\
    at_shown c = [OPing [x61]; OText []; OPing [x62]] /\
    octets (fw_out (at_out c)) = octets (fw_out (ac_out a_chat)) ++
      client_says (with_keys chatting_keys [OPong [x61]; OText (ascii "hi"); OPing (ascii "PING"); OPong [x62]; OClose None])).
Proof.
  split; [|split; [|split; [|split; [|split; [|split]]]]].
  - destruct (async_connect_on httparse_lib (ascii "the sample nonce")
      (builder_init (mk_url (ascii "ws") (Some (ascii "127.0.0.1")) (Some 2794) [] None (ascii "/"))) 0
      (apush_back chatting_head a_server) (mk_fw (mk_bm [] 0) [] [AwAccept 5; AwNotReady; AwAccept 1000; AwAccept 2; AwNotReady] [AfReady; AfNotReady])) as [[a h]|e| |] eqn:E;
      try (vm_compute in E; discriminate E). unfold a_chat, chatting. rewrite E. unfold amade. eauto 10.
  - split; vm_compute; repeat constructor.
  - unfold all_text. cbn [lines flat_map a_user app]. repeat (constructor; [split; [apply ExTac.good_text; reflexivity|vm_compute; discriminate]|]). constructor.
  - vm_compute. reflexivity.
  - apply asks_more; [discriminate|]. apply (asks_more (ascii "/ping")); [discriminate|]. apply asks_close.
  - right. right. left. reflexivity.
  - eexists. split; [vm_compute; reflexivity|]. split; vm_compute; reflexivity.
Qed.
(** Halfway, and when the stream fails. *)
Example achat_waiting_ex : exists c, achat_run 1 0 (achat_new AsyncClient a_chat a_user chatting_keys) = (TNotReady, c) /\
  at_user c = [Typed (ascii "/ping"); Typed (ascii "/close"); Typed (ascii "late")] /\ at_over c = false.
Proof. eexists. split; [vm_compute; reflexivity|]. split; reflexivity. Qed.
Example achat_fails_ex : exists x, let a := chatting [AData x89 [x01; x61]; AData xff [xff]] [] [] in
  run_messages (fr_st (ac_read a)) (fr_buf (ac_read a)) (ac_in a) = ([OPing [x61]], PErr x) /\
  exists c, achat_run 1 0 (achat_new SslClient a [] chatting_keys) = (TErr x, c).
Proof. eexists. split; [vm_compute; reflexivity|]. eexists. vm_compute. reflexivity. Qed.
(** The other program answers a Close, with its reason. *)
Example achat_ssl_ex : exists c, let a := chatting [AData x89 [x01; x61]; ANotReady; AData x88 [x04; x03; xe8; x6f; x6b]] [] [] in
  run_messages (fr_st (ac_read a)) (fr_buf (ac_read a)) (ac_in a) = ([OPing [x61]; OClose (Some (mk_close 1000 [x6f; x6b]))], PEnd) /\
  achat_run 9 0 (achat_new SslClient a [Idle; Idle; Idle; Typed (ascii "/close")] chatting_keys) = (TReady, c) /\
  octets (fw_out (at_out c)) = octets (fw_out (ac_out a)) ++
    client_says (with_keys chatting_keys [OPong [x61]; OClose (Some (mk_close 1000 [x6f; x6b])); OClose None]).
Proof. eexists. split; [vm_compute; reflexivity|]. split; vm_compute; reflexivity. Qed.
EX*)
