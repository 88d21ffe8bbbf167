(** Two programs on a connection that may break: C100. *)
From Coq Require Import NArith ZArith String Bool List Lia.
From Coq Require Import ZifyBool ZifyNat ZifyN.
From Coq.Strings Require Import Byte.
From Verif.Model Require Import Base Io Header Mask Dataframe Utf8 Text Headers
  Message Receiver Codec Framed Connect Examples AsyncExamples ChatClient Talk Narrow AsyncChat AsyncTalk Errand Dialogue Programs Kinds Endings Breaking.
From Verif.Spec Require Import RfcFrame FrameSpec Schedule Unicode Drive Session Connection Polled Fields Echo Chat Talking AsyncChat Errands Dialogues Queues Pairings Partings Breaks.
From Verif.Proofs Require Import BaseFacts MaskFacts HeaderFacts FrameFacts CodecFacts ScriptFacts
  Machine Utf8Facts FramedFacts AsyncFacts ThmFrames ThmStream SessionFacts RecvFacts MessageFacts
  TextFacts ExTac ThmMessages ThmFlow ThmLimits ThmInterop ThmEcho ThmChat ThmTalk ThmNarrow AsyncTalkFacts ThmCrossed ThmErrand ThmDialogue ThmPrograms ThmKinds ThmEndings.
From Verif.Proofs Require ThmErrors.
Import ListNotations.
Local Open Scope string_scope.
Local Open Scope list_scope.
Local Open Scope nat_scope.

(** ** The end, where bytes are missing *)
Definition short_of (c : bool) (q : bytes) (l : list (owned * mkey)) : Prop :=
  l = [] \/ exists m k l', l = (m, k) :: l' /\ length (encs (masked_frames c l)) < length (encs (masked_frames c [(m, k)])) + length q.
Lemma pipe_stops : forall c r q l, pipe c r q l ->
  (exists m k l' r', l = (m, k) :: l' /\ reader_recv r = (Ok m, r') /\ pipe c r' q l') \/
  (exists r', reader_recv r = (Err NoDataAvailable, r') /\ pipe c r' [] [] /\ short_of c q l).
Proof.
  intros c r q l H. destruct (pipe_read _ _ _ _ H) as [(m & k & l' & r' & E1 & E2 & E3 & _)|(E1 & E2)]; [left; eauto 8|]. right. clear E2.
  destruct (reader_recv r) as [z r'] eqn:ER. cbn [fst] in E1. subst z. exists r'. split; [reflexivity|].
  destruct H as (P1 & P2 & P3 & P4). unfold reader_recv in ER. rewrite P1 in ER. set (s := push_back (rd_buf r) (rd_in r)) in *. set (rc := default_receiver (negb c)) in *.
  assert (clean s) as Hc by (apply clean_push_back; exact P2). assert (flat s = rd_buf r ++ flat (rd_in r)) as Hf by apply flat_push_back. rewrite <- Hf in *.
  assert (r_mask rc = c) as Hm by (unfold rc; destruct c; reflexivity). assert (r_max_df rc = big) as Hd by (unfold rc; destruct c; reflexivity).
  assert (r_max_df rc <= u32_max)%N as Hu by (rewrite Hd; vm_compute; discriminate).
  assert (forall tl, parse_frame (r_mask rc) (r_max_df rc) (flat s) = (Err NoDataAvailable, tl) -> pipe c r' [] []) as HX.
  { intros tl HP. pose proof (ThmErrors.drains_parse _ _ _ _ HP) as ->. destruct (recv_message_exhaust [] rc s (flat s) []) as (s' & R1 & R2 & R3); auto; [constructor|exact I|].
    rewrite R1 in ER. injection ER as <-. split; [unfold rc; destruct c; reflexivity|]. split; [exact R2|]. cbn [rd_buf rd_in app]. rewrite R3. split; [reflexivity|constructor]. }
  destruct l as [|[m k] l].
  - split; [|left; reflexivity]. apply app_eq_nil in P3 as [P3 _]. apply (HX []). rewrite P3. apply parse_nil.
  - cbn [map fst] in P4. pose proof (Forall_inv P4) as HS. set (key := if c then Some k else None).
    change (masked_frames c ((m, k) :: l)) with ((whole_frame m, key) :: masked_frames c l) in P3. rewrite encs_cons in P3. cbn [fst snd] in P3.
    assert (frame_ok (whole_frame m)) as Hok by (apply (sendable_frame_ok big); [reflexivity|exact HS]).
    assert (is_some key = c) as Hk by (unfold key; destruct c; reflexivity). assert (is_some key = r_mask rc) as Hk' by (rewrite Hm; exact Hk).
    assert (r_buffer rc = []) as Hb by (unfold rc; destruct c; reflexivity). assert (llen (f_data (whole_frame m)) <= r_max_df rc)%N as Hl by (rewrite Hd; apply HS).
    assert ((exists x, flat s = enc (whole_frame m) key ++ x) \/ (exists x, enc (whole_frame m) key = flat s ++ x /\ x <> [])) as [(x & E3)|(x & E3 & E4)].
    { apply app_eq_app in P3 as (x & [[X1 X2]|[X1 X2]]); [eauto|]. destruct x as [|b x]; [left; exists []; rewrite app_nil_r in *; auto|]. right. exists (b :: x). split; [exact X1|discriminate]. }
    + exfalso. assert (rfc_legal (rfc_of_frame (whole_frame m) key)) as HL by (apply frame_ok_legal; exact Hok). destruct (recv_message_one rc s (flat s) (whole_frame m) key (enc (whole_frame m) key) x (Ok m) []) as (s' & R1 & R2); auto.
      * apply carries_iff. split; [exact Hc|reflexivity].
      * exact (enc_rfc (whole_frame m) key).
      * rewrite Hb. apply (step_whole big). exact HS.
      * rewrite R1 in ER. discriminate ER.
    + destruct (parse_prefix (whole_frame m) key (r_max_df rc) (flat s) x Hok Hl E3 E4) as [tl HP]. rewrite Hk, <- Hm in HP. split; [exact (HX tl HP)|]. right. exists m, k, l. split; [reflexivity|]. rewrite ThmTalk.frame_length. fold key.
      change (masked_frames c ((m, k) :: l)) with ((whole_frame m, key) :: masked_frames c l). rewrite encs_cons. cbn [fst snd]. rewrite <- P3, app_length, E3, app_length. destruct x; [contradiction E4; reflexivity|cbn [length]; lia].
Qed.
Definition stopped (c : bool) (b : bytes) : framed msg_codec := mk_framed (acodec c) b true true.
Definition stop_poll (b : bytes) : poll owned := match b with [] => PEnd | _ => PErr (of_io (OtherKind 0)) end.
Lemma poll_stopped : forall c b s, partial c b -> framed_poll mc_decode s (stopped c b) = (stop_poll b, stopped c b, s).
Proof.
  intros c b s H. unfold partial in H. assert (framed_decode mc_decode (stopped c b) = (Some (stop_poll b), stopped c b)) as E.
  { unfold framed_decode, stopped. cbn [fr_readable fr_st fr_buf fr_eof]. rewrite H. destruct b; reflexivity. }
  destruct s; cbn [framed_poll]; rewrite E; reflexivity.
Qed.
Lemma apipe_stops : forall c r q l, apipe c r [] q l ->
  (exists m k l' r', l = (m, k) :: l' /\ framed_poll mc_decode [] r = (PItem m, r', []) /\ apipe c r' [] q l') \/
  (exists b, framed_poll mc_decode [] r = (stop_poll b, stopped c b, []) /\ partial c b /\ short_of c q l).
Proof.
  intros c r q l H. pose proof H as (A1 & (A2 & A3) & A4 & A5). cbn [aev_bytes app] in A4. destruct (buf_cases c _ _ _ A4 A5) as [(m & k & l' & x & E1 & E2 & E3 & E4)|[E1 E2]].
  - left. destruct r as [st b rb eo]. cbn [fr_st fr_buf fr_eof fr_readable] in *. subst st eo b. destruct rb; [|specialize (A3 eq_refl); rewrite decode_whole in A3 by exact E2; discriminate A3].
    exists m, k, l'. eexists. split; [exact E1|]. split.
    + cbn [framed_poll]. unfold framed_decode. cbn [fr_readable fr_st fr_buf fr_eof]. rewrite decode_whole by exact E2. reflexivity.
    + split; [reflexivity|]. split; [split; [reflexivity|intros X; discriminate X]|]. split; [exact E4|]. rewrite E1 in A5. cbn [map] in A5. exact (Forall_inv_tail A5).
  - right. assert (short_of c q l) as HSh.
    { destruct l as [|[m k] l]; [left; reflexivity|]. right. exists m, k, l. split; [reflexivity|]. cbn [map fst] in A5. rewrite <- !frames_encs, <- A4, app_length. rewrite frames_cons in A4.
      destruct (Nat.lt_ge_cases (length (fr_buf r)) (length (frames (negb c) [(m, k)]))) as [HL|HL]; [lia|exfalso]. apply app_eq_app in A4 as (x & [[E3 E4]|[E3 E4]]).
      - unfold partial in E1. rewrite E3, decode_whole in E1 by exact (Forall_inv A5). discriminate E1.
      - assert (x = []) as -> by (apply length_zero_iff_nil; rewrite E3, app_length in HL; lia). rewrite app_nil_r in E3. unfold partial in E1. rewrite <- E3, <- (app_nil_r (frames _ _)), decode_whole in E1 by exact (Forall_inv A5). discriminate E1. }
    destruct r as [st b rb eo]. cbn [fr_st fr_buf fr_eof fr_readable] in *. subst st eo. exists b. split; [|auto]. unfold partial in E1. cbn [framed_poll]. unfold framed_decode at 1. cbn [fr_readable fr_st fr_buf fr_eof].
    destruct rb; [rewrite E1|]; cbn [fr_eof fr_st fr_buf]; unfold framed_decode; cbn [fr_readable fr_st fr_buf fr_eof]; rewrite E1; destruct b; reflexivity.
Qed.

(** ** A side *)
(** It has come to the end of what there is to hear. *)
Definition dead (c : bool) (p : peer) : Prop :=
  match p with Blocking u => pipe c (u_reader u) [] [] | Polling a => exists b, au_read a = stopped c b /\ partial c b end.
(** It would read as before. *)
Definition reads_as (p p' : peer) : Prop := forall c, (forall q l, takes c p q l -> takes c p' q l) /\ (dead c p -> dead c p').
Lemma reads_same : forall u u', u_reader u' = u_reader u -> reads_as (Blocking u) (Blocking u').
Proof. intros u u' E c. cbn [takes dead]. rewrite E. auto. Qed.
Lemma areads_same : forall u u', au_read u' = au_read u -> reads_as (Polling u) (Polling u').
Proof. intros u u' E c. cbn [takes dead]. rewrite E. auto. Qed.

Definition said_now (c : bool) (x x' : peer) : Prop :=
  says c x' /\ reads_as x x' /\
  ((exists m k, peer_past x' = peer_past x ++ [Said m] /\ sendable big m /\ owes x' = owes x ++ encs (masked_frames c [(m, k)])) \/
   (exists m, peer_past x' = peer_past x ++ [NotSaid m] /\ owes x' = owes x)).
Lemma b_turn : forall c f k e q x x' o, minds f -> says c x -> peer_turn c f k e q x = Some (x', o) ->
  o = [] /\ (said_now c x x' \/
    (says c x' /\ owes x' = owes x /\ forall d, (dead d x -> False) /\ forall z l, takes d x z l -> exists m j l', l = (m, j) :: l' /\ peer_past x' = peer_past x ++ [Heard m] /\ takes d x' z l')).
Proof.
  intros c f k e q [[past rd wr wt]|a] x' o HF W1 H; cbn [peer_turn] in H.
  - destruct (user_turn f k q (mk_user past rd wr wt)) as [[u' o']|] eqn:EU; [|discriminate H]. injection H as <- <-. rename EU into H. unfold user_turn in H. pcbn_in. destruct wt as [b|]; [discriminate H|].
    destruct (f past) as [[m|]|] eqn:EF; [| |discriminate H].
    + destruct (HF _ _ EF) as [HT HS]. destruct W1 as (w & HW & HN & _). pcbn_in. subst wr. destruct (goes m) eqn:EG.
      * pose proof (goes_sendable m HT HS EG) as Hm. destruct (sends c m k w HN (big_sendable m Hm)) as (w' & A1 & A2 & A3). rewrite A1 in H. injection H as <- <-.
        rewrite (written_eq (mk_sender c) (mk_sender c) w w' _ A2). pose proof (one_length c m k) as HL. split; [reflexivity|]. left. split; [|split].
        -- exists w'. split; [reflexivity|]. split; [exact A3|]. intros _ E. pcbn_in. rewrite E in HL. cbn [length] in HL. lia.
        -- apply reads_same. reflexivity.
        -- left. exists m, k. split; [reflexivity|]. split; [exact Hm|reflexivity].
      * destruct (not_sent c m k w EG) as [er E]. rewrite E in H. injection H as <- <-. rewrite written_same. split; [reflexivity|]. left. split; [|split].
        -- exists w. split; [reflexivity|]. split; [exact HN|]. intros X. contradiction X. reflexivity.
        -- apply reads_same. reflexivity.
        -- right. exists m. auto.
    + destruct (reader_recv rd) as [z r'] eqn:ER. assert (z <> Err NoDataAvailable) as NZ by (intros ->; cbn [must_wait andb negb] in H; discriminate H). destruct z as [m|er| |].
      * cbn [must_wait] in H. injection H as <- <-. split; [reflexivity|]. right. split; [exact W1|]. split; [reflexivity|]. intros d. cbn [dead takes u_reader]. split.
        -- intros X. destruct (recv_nothing _ _ X) as (r0 & E & _). rewrite ER in E. discriminate E.
        -- intros z l X. destruct (pipe_read _ _ _ _ X) as [(m0 & k0 & l' & r0 & -> & E2 & E3 & _)|(E1 & _)]; rewrite ER in *; [|discriminate E1]. injection E2 as <- <-. eauto 6.
      * destruct (must_wait _ _ _); [discriminate H|]. injection H as <- <-. split; [reflexivity|]. right. split; [exact W1|]. split; [reflexivity|]. intros d. cbn [dead takes u_reader]. split.
        -- intros X. destruct (recv_nothing _ _ X) as (r0 & E & _). rewrite ER in E. congruence.
        -- intros z l X. destruct (pipe_read _ _ _ _ X) as [(m0 & k0 & l' & r0 & -> & E2 & E3 & _)|(E1 & _)]; rewrite ER in *; [discriminate E2|]. cbn [fst] in E1. congruence.
      * injection H as <- <-. split; [reflexivity|]. right. split; [exact W1|]. split; [reflexivity|]. intros d. cbn [dead takes u_reader]. split.
        -- intros X. destruct (recv_nothing _ _ X) as (r0 & E & _). rewrite ER in E. congruence.
        -- intros z l X. destruct (pipe_read _ _ _ _ X) as [(m0 & k0 & l' & r0 & -> & E2 & E3 & _)|(E1 & _)]; rewrite ER in *; [discriminate E2|]. cbn [fst] in E1. congruence.
      * injection H as <- <-. split; [reflexivity|]. right. split; [exact W1|]. split; [reflexivity|]. intros d. cbn [dead takes u_reader]. split.
        -- intros X. destruct (recv_nothing _ _ X) as (r0 & E & _). rewrite ER in E. congruence.
        -- intros z l X. destruct (pipe_read _ _ _ _ X) as [(m0 & k0 & l' & r0 & -> & E2 & E3 & _)|(E1 & _)]; rewrite ER in *; [discriminate E2|]. cbn [fst] in E1. congruence.
  - destruct (auser_turn (negb c) f k e a) as [a'|] eqn:E; [|discriminate H]. injection H as <- <-. split; [reflexivity|]. left. pose proof E as E'. unfold auser_turn in E'.
    destruct (au_busy a) eqn:EB; [discriminate E'|]. destruct (f (au_past a)) as [[m|]|] eqn:EF; try discriminate E'. clear E'.
    cbn [says] in W1. destruct (turned c f k e m a W1 EB EF HF) as (w' & P1 & P2). rewrite P2 in E. injection E as <-. destruct (HF _ _ EF) as [HT HS].
    pose proof (proj1 W1 EB) as HP. rewrite HP in P1. cbn [app] in P1. unfold said_now. pcbn_in. rewrite HP. destruct (goes m) eqn:EG.
    + rewrite P1, frames_encs. split; [|split; [apply areads_same; reflexivity|]].
      * pose proof (one_length c m k) as HL. split; [discriminate|]. intros X. rewrite X in HL. cbn [length] in HL. lia.
      * left. exists m, k. split; [reflexivity|]. split; [apply goes_sendable; assumption|reflexivity].
    + rewrite P1. split; [split; reflexivity|]. split; [apply areads_same; reflexivity|]. right. exists m. auto.
Qed.
Lemma b_send : forall cap c n q x x' q', says c x -> length q <= cap -> peer_send cap n q x = Some (x', q') ->
  exists d, q' = q ++ d /\ owes x = d ++ owes x' /\ says c x' /\ reads_as x x' /\ peer_past x' = peer_past x /\ length q' <= cap.
Proof.
  intros cap c n out [[past rd wr wt]|a] x' q' W1 B1 H; cbn [peer_send] in H.
  - destruct (user_send cap n out (mk_user past rd wr wt)) as [[u' o']|] eqn:EU; [|discriminate H]. injection H as <- <-. rename EU into H. unfold user_send in H. pcbn_in. destruct wt as [[w' o]|]; [|discriminate H]. pose proof (firstn_skipn (Nat.min n (cap - length out)) o) as HO.
    assert (length (firstn (Nat.min n (cap - length out)) o) <= cap - length out) as HF by (rewrite firstn_length; lia).
    destruct (firstn (Nat.min n (cap - length out)) o) as [|b now]; [discriminate H|]. injection H as <- <-.
    set (later := skipn _ o) in *. clearbody later. subst o.
    assert (rest1 (match later with [] => None | y :: l => Some (w', y :: l) end) = later) as HL by (destruct later; reflexivity).
    exists (b :: now). pcbn. rewrite HL. split; [reflexivity|]. split; [reflexivity|]. split; [|split; [apply reads_same; reflexivity|split; [reflexivity|rewrite app_length; lia]]].
    destruct W1 as (w & HW & HN & HWr). pcbn_in. exists w. split; [destruct later; exact HW|]. split; [exact HN|]. rewrite ?HL. destruct later; [intros X; contradiction X; reflexivity|discriminate].
  - cbn [says] in W1. pose proof (sent cap n out a W1) as HS. destruct (auser_send cap n out a) as [[a' q]|]; [|discriminate H]. injection H as <- <-.
    destruct HS as (d & w' & -> & P1 & P2 & b & -> & P3). exists d. pcbn. split; [reflexivity|]. split; [exact P1|]. split; [exact P3|]. split; [apply areads_same; reflexivity|]. split; [reflexivity|]. rewrite app_length. lia.
Qed.
Lemma b_read : forall c f n inn rest x x' q' l, takes c x (inn ++ rest) l -> peer_read f n inn x = Some (x', q') ->
  (forall d, says d x -> says d x') /\ owes x' = owes x /\ length q' <= length inn /\
  (takes c x' (q' ++ rest) l /\ peer_past x' = peer_past x \/
   exists m k l', l = (m, k) :: l' /\ takes c x' (q' ++ rest) l' /\ peer_past x' = peer_past x ++ [Heard m]).
Proof.
  intros c f n inn rest [[past rd wr wt]|a] x' q' l H2 H; cbn [peer_read] in H.
  - destruct (user_read f n inn (mk_user past rd wr wt)) as [[u' o']|] eqn:EU; [|discriminate H]. injection H as <- <-. rename EU into H. unfold user_read in H. pcbn_in. destruct wt as [b|]; [discriminate H|].
    destruct (f past) as [[m|]|]; try discriminate H. destruct (lacks rd); [|discriminate H]. destruct (arrive n inn rd) as [[r' q0]|] eqn:EA; [|discriminate H]. injection H as <- <-.
    unfold arrive in EA. pose proof (firstn_skipn n inn) as HQ. destruct (firstn n inn) as [|b bs]; [discriminate EA|]. injection EA as <- <-.
    assert (length inn = S (length bs) + length (skipn n inn)) as HL by (rewrite <- HQ at 1; rewrite app_length; reflexivity).
    pcbn. split; [auto|]. split; [reflexivity|]. split; [lia|]. left. split; [|reflexivity].
    destruct H2 as (P1 & P2 & P3 & P4). split; [exact P1|]. cbn [rd_receiver rd_buf rd_in].
    split; [apply Forall_app; split; [exact P2|constructor; [exact I|constructor]]|]. split; [|exact P4].
    rewrite flat_app. cbn [flat]. rewrite app_nil_r, <- P3. rewrite <- HQ at 2. rewrite <- !app_assoc. reflexivity.
  - destruct (auser_read f n inn a) as [[a' q]|] eqn:E; [|discriminate H]. injection H as <- <-. pose proof E as E'. unfold auser_read in E'. destruct (au_busy a) eqn:EB; [discriminate E'|].
    destruct (f (au_past a)) as [[m|]|] eqn:EF; try discriminate E'. clear E'. cbn [takes] in H2.
    destruct (polled _ f n _ _ a _ H2 EB EF) as [(m & k & l' & q' & r' & -> & E1 & E2 & E3)|(r' & E1 & _ & E2)].
    + rewrite E1 in E. injection E as <- <-. pcbn. rewrite EB. split; [auto|]. split; [reflexivity|]. split; [exact E3|]. right. exists m, k, l'. auto.
    + rewrite E2 in E. destruct (firstn n inn) as [|b bs] eqn:EN; [discriminate E|]. injection E as <- <-. pcbn. rewrite EB. split; [auto|]. split; [reflexivity|]. split; [rewrite skipn_length; lia|]. left. auto.
Qed.
(** One that has come to the end reads nothing, and may be told again. *)
Lemma b_read_dead : forall c f n x x' q', dead c x -> peer_read f n [] x = Some (x', q') ->
  q' = [] /\ (forall d, says d x -> says d x') /\ owes x' = owes x /\ dead c x' /\ peer_past x' = peer_past x ++ [NotHeard].
Proof.
  intros c f n [[past rd wr wt]|a] x' q' H2 H; cbn [peer_read] in H.
  - exfalso. destruct (user_read f n [] (mk_user past rd wr wt)) as [[u' o']|] eqn:EU; [|discriminate H]. unfold user_read, arrive in EU. pcbn_in. destruct wt; [discriminate EU|]. destruct (f past) as [[m|]|]; try discriminate EU. rewrite firstn_nil in EU. destruct (lacks rd); discriminate EU.
  - destruct H2 as (b & E1 & E2). unfold auser_read in H. rewrite E1 in H. destruct (au_busy a) eqn:EB; [discriminate H|]. destruct (f (au_past a)) as [[m|]|] eqn:EF; try discriminate H.
    assert (apiece n [] = []) as EA by (unfold apiece; rewrite firstn_nil; reflexivity). rewrite EA, poll_stopped, skipn_nil in H by exact E2. cbn [can_read app repeat aev_bytes] in H.
    assert (x' = Polling (mk_auser (au_past a ++ [NotHeard]) (stopped c b) (au_out a) false) /\ q' = []) as [-> ->] by (destruct b; cbn [stop_poll] in H; injection H as <- <-; auto).
    pcbn. rewrite ?EB. split; [reflexivity|]. split; [auto|]. split; [reflexivity|]. split; [|reflexivity]. exists b. auto.
Qed.
Lemma b_end : forall c f rest x l x', takes c x rest l -> peer_end f true [] x = Some x' ->
  (forall d, says d x -> says d x') /\ owes x' = owes x /\
  ((exists m k l', l = (m, k) :: l' /\ takes c x' rest l' /\ peer_past x' = peer_past x ++ [Heard m]) \/
   (peer_past x' = peer_past x ++ [NotHeard] /\ dead c x' /\ short_of c rest l)).
Proof.
  intros c f rest [[past rd wr wt]|a] l x' T H; unfold peer_end in H; pcbn_in.
  - destruct wt; [discriminate H|]. destruct (f past) as [[m|]|]; try discriminate H. destruct (pipe_stops _ _ _ _ T) as [(m & k & l' & r' & -> & E & P)|(r' & E & P & Q)]; rewrite E in H; cbn [must_wait andb negb] in H; injection H as <-; pcbn; (split; [auto|]); (split; [reflexivity|]).
    + left. exists m, k, l'. auto.
    + right. auto.
  - destruct (au_busy a) eqn:EB; [discriminate H|]. destruct (f (au_past a)) as [[m|]|]; try discriminate H. cbn [can_read app] in H.
    destruct (apipe_stops _ _ _ _ T) as [(m & k & l' & r' & -> & E & P)|(b & E & P & Q)]; rewrite E in H.
    + injection H as <-. pcbn. rewrite ?EB. split; [auto|]. split; [reflexivity|]. left. exists m, k, l'. auto.
    + assert (x' = Polling (mk_auser (au_past a ++ [NotHeard]) (stopped c b) (au_out a) false)) as -> by (destruct b; cbn [stop_poll] in H; injection H as <-; reflexivity).
      pcbn. rewrite ?EB. split; [auto|]. split; [reflexivity|]. right. split; [reflexivity|]. split; [exists b; auto|exact Q].
Qed.
Lemma b_end_dead : forall c f x x', dead c x -> peer_end f true [] x = Some x' ->
  (forall d, says d x -> says d x') /\ owes x' = owes x /\ dead c x' /\ peer_past x' = peer_past x ++ [NotHeard].
Proof.
  intros c f [[past rd wr wt]|a] x' T H; unfold peer_end in H; cbn [dead u_reader] in T; pcbn_in.
  - destruct wt; [discriminate H|]. destruct (f past) as [[m|]|]; try discriminate H. destruct (recv_nothing _ _ T) as (r' & E & P). rewrite E in H. cbn [must_wait andb negb] in H. injection H as <-. pcbn. auto.
  - destruct T as (b & E1 & E2). destruct (au_busy a) eqn:EB; [discriminate H|]. destruct (f (au_past a)) as [[m|]|]; try discriminate H. cbn [can_read app] in H. rewrite E1, poll_stopped in H by exact E2.
    assert (x' = Polling (mk_auser (au_past a ++ [NotHeard]) (stopped c b) (au_out a) false)) as -> by (destruct b; cbn [stop_poll] in H; injection H as <-; reflexivity).
    pcbn. rewrite ?EB. split; [auto|]. split; [reflexivity|]. split; [exists b; auto|reflexivity].
Qed.

(** ** A direction *)
Definition told_end (past : list happening) : Prop := exists a b, past = a ++ NotHeard :: b /\ ~ In NotHeard a /\ words_heard b = [].
Definition way (cap : nat) (c cut : bool) (x y : peer) (net : bytes) : Prop :=
  says c x /\ length net <= cap /\
  ((exists lost on, takes c y (net ++ lost ++ owes x) on /\ words_said (peer_past x) = words_heard (peer_past y) ++ map fst on /\ (cut = false -> lost = []) /\ ~ In NotHeard (peer_past y)) \/
   (cut = true /\ net = [] /\ dead c y /\ (exists more, words_said (peer_past x) = words_heard (peer_past y) ++ more) /\ told_end (peer_past y))).
Lemma not_in_more : forall (h : happening) l, h <> NotHeard -> ~ In NotHeard l -> ~ In NotHeard (l ++ [h]).
Proof. intros h l H N X. apply in_app_or in X as [X|[X|[]]]; auto. Qed.
Lemma told_more : forall h l, words_heard [h] = [] -> told_end l -> told_end (l ++ [h]).
Proof. intros h l H (a & b & -> & A & B). exists a, (b ++ [h]). rewrite <- app_assoc. split; [reflexivity|]. split; [exact A|]. rewrite words_heard_app, B, H. reflexivity. Qed.
Lemma way_quiet : forall cap c cut x x' y net, says c x' -> owes x' = owes x -> words_said (peer_past x') = words_said (peer_past x) -> way cap c cut x y net -> way cap c cut x' y net.
Proof. intros cap c cut x x' y net A B C (_ & D & E). split; [exact A|]. split; [exact D|]. rewrite B, C. exact E. Qed.
Lemma way_said : forall cap c cut x x' y net, said_now c x x' -> way cap c cut x y net -> way cap c cut x' y net.
Proof.
  intros cap c cut x x' y net (A & _ & [(m & k & E1 & E2 & E3)|(m & E1 & E2)]) W.
  - destruct W as (_ & L & W). split; [exact A|]. split; [exact L|]. rewrite E1, E3, words_said_app. cbn [words_said flat_map app]. destruct W as [(lost & on & T & V & X & Y)|(X & Y & Z & (more & V) & U)].
    + left. exists lost, (on ++ [(m, k)]). split; [|split; [|split; [exact X|exact Y]]].
      * rewrite !app_assoc. apply takes_more; [rewrite <- !app_assoc; exact T|exact E2].
      * rewrite V, map_app, app_assoc. reflexivity.
    + right. split; [exact X|]. split; [exact Y|]. split; [exact Z|]. split; [|exact U]. exists (more ++ [m]). rewrite V, app_assoc. reflexivity.
  - apply (way_quiet _ _ _ x); auto. rewrite E1, words_said_app. apply app_nil_r.
Qed.
Lemma way_reads : forall cap c cut x y y' net h, reads_as y y' -> peer_past y' = peer_past y ++ h -> words_heard h = [] -> ~ In NotHeard h -> way cap c cut x y net -> way cap c cut x y' net.
Proof.
  intros cap c cut x y y' net h R E1 E2 E3 (A & B & W). split; [exact A|]. split; [exact B|]. rewrite E1, words_heard_app, E2, app_nil_r. destruct W as [(lost & on & T & V & X & Y)|(X & Y & Z & V & a & b & U1 & U2 & U3)].
  - left. exists lost, on. split; [apply R; exact T|]. split; [exact V|]. split; [exact X|]. intros I. apply in_app_or in I as [I|I]; auto.
  - right. split; [exact X|]. split; [exact Y|]. split; [apply R; exact Z|]. split; [exact V|]. exists a, (b ++ h). rewrite U1, <- app_assoc. split; [reflexivity|]. split; [exact U2|]. rewrite words_heard_app, U3, E2. reflexivity.
Qed.
Lemma way_turn : forall cap c f k e cu cd x y out inn x' o, minds f -> way cap c cu x y out -> way cap (negb c) cd y x inn -> peer_turn c f k e inn x = Some (x', o) ->
  o = [] /\ way cap c cu x' y out /\ way cap (negb c) cd y x' inn.
Proof.
  intros cap c f k e cu cd x y out inn x' o M W1 W2 H. destruct (b_turn _ _ _ _ _ _ _ _ M (proj1 W1) H) as (-> & [S|(S1 & S2 & S3)]); split; try reflexivity.
  - split; [exact (way_said _ _ _ _ _ _ _ S W1)|]. destruct S as (_ & R & [(m & k0 & E & _)|(m & E & _)]).
    + apply (way_reads _ _ _ _ x _ _ [Said m]); auto. intros [X|[]]; discriminate X.
    + apply (way_reads _ _ _ _ x _ _ [NotSaid m]); auto. intros [X|[]]; discriminate X.
  - destruct (S3 (negb c)) as [T1 T2]. destruct W2 as (A & B & [(lost & on & T & V & X & Y)|(_ & _ & Z & _)]); [|contradiction (T1 Z)]. destruct (T2 _ _ T) as (m & j & l' & -> & E & T').
    split; [apply (way_quiet _ _ _ x); auto; rewrite E, words_said_app; apply app_nil_r|]. split; [exact A|]. split; [exact B|]. left. exists lost, l'. split; [exact T'|]. split; [|split; [exact X|rewrite E; apply not_in_more; [discriminate|exact Y]]].
    rewrite V, E, words_heard_app, <- app_assoc. reflexivity.
Qed.
Lemma way_send : forall cap c n cu cd x y out inn x' q', way cap c cu x y out -> way cap (negb c) cd y x inn -> peer_send cap n (if cu then [] else out) x = Some (x', q') ->
  way cap c cu x' y (if cu then out else q') /\ way cap (negb c) cd y x' inn.
Proof.
  intros cap c n cu cd x y out inn x' q' (A & B & W) W2 H. destruct (b_send cap c n (if cu then [] else out) x x' q' A) with (2 := H) as (d & E1 & E2 & E3 & E4 & E5 & E6); [destruct cu; [cbn [length]; lia|exact B]|]. split.
  - split; [exact E3|]. split; [destruct cu; [exact B|exact E6]|]. rewrite E5. destruct W as [(lost & on & T & V & X & Y)|(X & Y & Z & V)].
    + left. destruct cu.
      * exists (lost ++ d), on. rewrite E2 in T. rewrite <- (app_assoc lost). split; [exact T|]. split; [exact V|]. split; [discriminate|exact Y].
      * rewrite (X eq_refl) in T. exists [], on. cbn [app] in *. rewrite E1, <- app_assoc, <- E2. auto.
    + right. subst cu. auto.
  - apply (way_reads _ _ _ _ x _ _ []); auto. rewrite E5, app_nil_r. reflexivity.
Qed.
Lemma heard_quiet : forall p p' h, peer_past p' = peer_past p ++ [h] -> words_said [h] = [] -> words_said (peer_past p') = words_said (peer_past p).
Proof. intros p p' h E E'. rewrite E, words_said_app, E'. apply app_nil_r. Qed.
Lemma way_read : forall cap c f n cu cd x y out inn x' q', way cap c cu x y out -> way cap (negb c) cd y x inn -> peer_read f n inn x = Some (x', q') ->
  way cap c cu x' y out /\ way cap (negb c) cd y x' q'.
Proof.
  intros cap c f n cu cd x y out inn x' q' W1 (A & B & [(lost & on & T & V & X & Y)|(X & -> & Z & (more & V) & U)]) H.
  - destruct (b_read _ _ _ _ _ _ _ _ _ T H) as (S1 & S2 & S3 & [[S4 S5]|(m & k & l' & -> & S4 & S5)]).
    + split; [apply (way_quiet _ _ _ x); auto; [apply S1; apply W1|rewrite S5; reflexivity]|]. split; [exact A|]. split; [lia|]. left. exists lost, on. rewrite S5. auto.
    + split; [apply (way_quiet _ _ _ x); auto; [apply S1; apply W1|exact (heard_quiet _ _ _ S5 eq_refl)]|]. split; [exact A|]. split; [lia|]. left. exists lost, l'. split; [exact S4|].
      split; [|split; [exact X|rewrite S5; apply not_in_more; [discriminate|exact Y]]]. rewrite V, S5, words_heard_app, <- app_assoc. reflexivity.
  - destruct (b_read_dead _ _ _ _ _ _ Z H) as (-> & S1 & S2 & S3 & S5).
    split; [apply (way_quiet _ _ _ x); auto; [apply S1; apply W1|exact (heard_quiet _ _ _ S5 eq_refl)]|]. split; [exact A|]. split; [exact B|]. right. split; [exact X|]. split; [reflexivity|]. split; [exact S3|].
    split; [exists more; rewrite S5, words_heard_app; cbn [words_heard flat_map app]; rewrite app_nil_r; exact V|]. rewrite S5. apply told_more; [reflexivity|exact U].
Qed.
Lemma end_gone : forall f gone q x x', peer_end f gone q x = Some x' -> gone = true /\ q = [].
Proof. intros f [] [|b q] x x' H; try discriminate H. auto. Qed.
Lemma way_end : forall cap c f cu cd x y out inn x', way cap c cu x y out -> way cap (negb c) cd y x inn -> peer_end f cd inn x = Some x' ->
  way cap c cu x' y out /\ way cap (negb c) cd y x' inn.
Proof.
  intros cap c f cu cd x y out inn x' W1 (A & B & W) H. destruct (end_gone _ _ _ _ _ H) as [-> ->]. destruct W as [(lost & on & T & V & X & Y)|(X & _ & Z & (more & V) & U)].
  - cbn [app] in T. destruct (b_end _ _ _ _ _ _ T H) as (S1 & S2 & [(m & k & l' & -> & S4 & S5)|(S5 & S4 & _)]).
    + split; [apply (way_quiet _ _ _ x); auto; [apply S1; apply W1|exact (heard_quiet _ _ _ S5 eq_refl)]|]. split; [exact A|]. split; [exact B|]. left. exists lost, l'. split; [exact S4|].
      split; [|split; [exact X|rewrite S5; apply not_in_more; [discriminate|exact Y]]]. rewrite V, S5, words_heard_app, <- app_assoc. reflexivity.
    + split; [apply (way_quiet _ _ _ x); auto; [apply S1; apply W1|exact (heard_quiet _ _ _ S5 eq_refl)]|]. split; [exact A|]. split; [exact B|]. right. split; [reflexivity|]. split; [reflexivity|]. split; [exact S4|].
      split; [exists (map fst on); rewrite S5, words_heard_app; cbn [words_heard flat_map app]; rewrite app_nil_r; exact V|]. exists (peer_past x), []. auto.
  - destruct (b_end_dead _ _ _ _ Z H) as (S1 & S2 & S3 & S5).
    split; [apply (way_quiet _ _ _ x); auto; [apply S1; apply W1|exact (heard_quiet _ _ _ S5 eq_refl)]|]. split; [exact A|]. split; [exact B|]. right. split; [reflexivity|]. split; [reflexivity|]. split; [exact S3|].
    split; [exists more; rewrite S5, words_heard_app; cbn [words_heard flat_map app]; rewrite app_nil_r; exact V|]. rewrite S5. apply told_more; [reflexivity|exact U].
Qed.
Lemma way_cut : forall cap c n x y net, way cap c false x y net -> way cap c true x y (firstn n net).
Proof.
  intros cap c n x y net (A & B & [(lost & on & T & V & X & Y)|(X & _)]); [|discriminate X]. split; [exact A|]. split; [rewrite firstn_length; lia|]. left. exists (skipn n net ++ lost), on.
  rewrite <- app_assoc, (app_assoc (firstn n net)), firstn_skipn. split; [exact T|]. split; [exact V|]. split; [discriminate|exact Y].
Qed.

(** ** Both *)
Definition breaking_inv (cap : nat) (t : breaking) : Prop :=
  let '(mk_breaking (mk_pairing c s u d) bu bd) := t in way cap true bu c s u /\ way cap false bd s c d.
Lemma breaking_inv_step : forall f1 f2 cap a t t', minds f1 -> minds f2 -> breaking_inv cap t -> breaking_step f1 f2 cap a t = Some t' -> breaking_inv cap t'.
Proof.
  intros f1 f2 cap a [[c s u d] bu bd] t' M1 M2 [W1 W2] H. destruct a as [[[] k e|[] n|[] n]|[] n|[]]; cbn [breaking_step pairing_step] in H.
  - destruct (peer_turn true f1 k e d c) as [[c' o]|] eqn:E; [|discriminate H]. injection H as <-. destruct (way_turn cap true f1 k e bu bd c s u d c' o M1 W1 W2 E) as (-> & A & B). rewrite app_nil_r. split; assumption.
  - destruct (peer_turn false f2 k e u s) as [[s' o]|] eqn:E; [|discriminate H]. injection H as <-. destruct (way_turn cap false f2 k e bd bu s c d u s' o M2 W2 W1 E) as (-> & A & B). rewrite app_nil_r. split; assumption.
  - destruct (peer_send cap n (if bu then [] else u) c) as [[c' q]|] eqn:E; [|discriminate H]. injection H as <-. destruct (way_send cap true n bu bd c s u d c' q W1 W2 E) as (A & B). split; assumption.
  - destruct (peer_send cap n (if bd then [] else d) s) as [[s' q]|] eqn:E; [|discriminate H]. injection H as <-. destruct (way_send cap false n bd bu s c d u s' q W2 W1 E) as (A & B). split; assumption.
  - destruct (peer_read f1 n d c) as [[c' q]|] eqn:E; [|discriminate H]. injection H as <-. destruct (way_read cap true f1 n bu bd c s u d c' q W1 W2 E) as (A & B). split; assumption.
  - destruct (peer_read f2 n u s) as [[s' q]|] eqn:E; [|discriminate H]. injection H as <-. destruct (way_read cap false f2 n bd bu s c d u s' q W2 W1 E) as (A & B). split; assumption.
  - destruct bu; [discriminate H|]. injection H as <-. split; [apply way_cut; exact W1|exact W2].
  - destruct bd; [discriminate H|]. injection H as <-. split; [exact W1|apply way_cut; exact W2].
  - destruct (peer_end f1 bd d c) as [c'|] eqn:E; [|discriminate H]. injection H as <-. destruct (way_end cap true f1 bu bd c s u d c' W1 W2 E) as (A & B). split; assumption.
  - destruct (peer_end f2 bu u s) as [s'|] eqn:E; [|discriminate H]. injection H as <-. destruct (way_end cap false f2 bd bu s c d u s' W2 W1 E) as (A & B). split; assumption.
Qed.
Lemma breaking_inv_run : forall f1 f2 cap acts t, minds f1 -> minds f2 -> breaking_inv cap t -> breaking_inv cap (breaking_run f1 f2 cap acts t).
Proof.
  intros f1 f2 cap acts. induction acts as [|a acts IH]; intros t M1 M2 H; [exact H|]. cbn [breaking_run]. apply IH; auto.
  destruct (breaking_step f1 f2 cap a t) as [t'|] eqn:E; [exact (breaking_inv_step _ _ _ _ _ _ M1 M2 H E)|exact H].
Qed.
Lemma way_new : forall cap c s1 s2, works s1 -> way cap c false (peer_new c s1) (peer_new (negb c) s2) [].
Proof.
  intros cap c s1 s2 H. destruct (path_new cap c s1 s2 H) as (A & B & C). split; [exact B|]. split; [exact C|]. left. exists [], []. split; [exact A|].
  assert (forall c s, peer_past (peer_new c s) = []) as E by (intros ? []; reflexivity). rewrite !E. split; [reflexivity|]. split; [reflexivity|]. intros [].
Qed.
Lemma breaking_inv_new : forall cap s1 s2, works s1 -> works s2 -> breaking_inv cap (breaking_new s1 s2).
Proof. intros cap s1 s2 H1 H2. split; [exact (way_new cap true s1 s2 H1)|exact (way_new cap false s2 s1 H2)]. Qed.
Lemma way_prefix : forall cap c cut x y net, way cap c cut x y net -> prefix (words_heard (peer_past y)) (words_said (peer_past x)).
Proof. intros cap c cut x y net (_ & _ & [(lost & on & _ & V & _)|(_ & _ & _ & V & _)]); [exists (map fst on); exact V|exact V]. Qed.
Lemma first_told : forall a b a' b' : list happening, a ++ NotHeard :: b = a' ++ NotHeard :: b' -> ~ In NotHeard a -> exists l, a' = a ++ l /\ NotHeard :: b = l ++ NotHeard :: b'.
Proof.
  induction a as [|h a IH]; intros b a' b' E N; [exists a'; auto|]. destruct a' as [|h' a']; [injection E as -> _; contradiction N; left; reflexivity|].
  injection E as <- E. destruct (IH _ _ _ E) as (l & -> & E'); [intros X; apply N; right; exact X|]. exists l. auto.
Qed.
Lemma way_told : forall cap c cut x y net a b, way cap c cut x y net -> peer_past y = a ++ NotHeard :: b -> cut = true /\ words_heard b = [].
Proof.
  intros cap c cut x y net a b (_ & _ & [(lost & on & _ & _ & _ & Y)|(X & _ & _ & _ & a0 & b0 & E & N & HB)]) H.
  - contradiction Y. rewrite H. apply in_elt.
  - split; [exact X|]. rewrite E in H. destruct (first_told _ _ _ _ H N) as (l & -> & E'). assert (words_heard (NotHeard :: b0) = []) as F by exact HB. rewrite E', words_heard_app in F. apply app_eq_nil in F as [_ F]. exact F.
Qed.

(** ** At rest *)
Lemma r_send : forall cap c n out x, says c x -> length out <= cap -> peer_send cap (S n) out x = None -> peer_free x \/ ~ peer_free x /\ length out = cap.
Proof.
  intros cap c n out [[past rd wr wt]|a] W1 B1 S2; cbn [peer_send] in S2.
  - assert (user_send cap (S n) out (mk_user past rd wr wt) = None) as T2 by (destruct (user_send cap (S n) out (mk_user past rd wr wt)) as [[? ?]|]; [discriminate S2|reflexivity]).
    destruct W1 as (w & HW & HN & HWr). unfold user_send in T2. unfold peer_free, free. pcbn_in. destruct wt as [[w0 o]|]; [|left; reflexivity]. right.
    split; [discriminate|]. specialize (HWr ltac:(discriminate)). pcbn_in. destruct (Nat.eq_dec (length out) cap) as [E|E]; [exact E|exfalso].
    destruct (firstn (Nat.min (S n) (cap - length out)) o) eqn:EF; [|discriminate T2]. revert EF. apply push_stuck; [lia|exact HWr].
  - cbn [says] in W1. unfold peer_free. pose proof (sent cap (S n) out a W1) as HS. destruct (auser_send cap (S n) out a) as [[? ?]|]; [discriminate S2|]. destruct (au_busy a) eqn:EB; [right|left; reflexivity].
    split; [discriminate|]. destruct HS as [HS|HS]; [discriminate HS|]. lia.
Qed.
Lemma r_say : forall c f k e q x m, minds f -> says c x -> peer_free x -> f (peer_past x) = Some (Say m) -> peer_turn c f k e q x <> None.
Proof.
  intros c f k e q [[past rd wr wt]|a] m M W F E; unfold peer_free, free in F; cbn [peer_turn]; pcbn_in.
  - unfold user_turn. pcbn. rewrite F, E. destruct (writer_send m k wr) as [[z|er| |] w1]; discriminate.
  - destruct (turned c f k e m a W F E M) as (w' & _ & EQ). rewrite EQ. discriminate.
Qed.
Lemma r_hear : forall c d f k e n inn rest x l, peer_free x -> f (peer_past x) = Some Hear -> takes c x (inn ++ rest) l -> peer_turn d f k e inn x = None -> peer_read f (S n) inn x = None ->
  inn = [] /\ (l = [] \/ rest <> []).
Proof.
  intros c d f k e n inn rest [[past rd wr wt]|a] l F E H2 S1 S3; unfold peer_free, free in F; cbn [peer_turn peer_read takes] in *; pcbn_in.
  - subst wt. unfold user_turn in S1. unfold user_read in S3. pcbn_in. rewrite E in S1, S3. destruct (pipe_read _ _ _ _ H2) as [(m & k0 & l' & r' & E1 & E2 & _)|(E1 & E2)]; [rewrite E2 in S1; discriminate S1|].
    assert (lacks rd = true) as HL by (unfold lacks; rewrite E1; reflexivity). rewrite HL in S3. destruct inn; [auto|discriminate S3].
  - destruct (polled _ f (S n) _ _ a _ H2 F E) as [(m & k0 & l' & q' & r' & _ & EQ & _)|(r' & _ & E1 & E2)]; [rewrite EQ in S3; discriminate S3|].
    rewrite E2 in S3. destruct inn as [|b inn]; [|discriminate S3]. split; [reflexivity|]. rewrite skipn_nil in E1. exact E1.
Qed.
Lemma r_end : forall c f x, peer_free x -> f (peer_past x) = Some Hear -> (dead c x \/ exists q l, takes c x q l) -> peer_end f true [] x <> None.
Proof.
  intros c f [[past rd wr wt]|a] F E H; unfold peer_free, free in F; unfold peer_end; pcbn_in.
  - subst wt. rewrite E. assert (exists z r', reader_recv rd = (z, r') /\ (z = Err NoDataAvailable \/ exists m, z = Ok m)) as (z & r' & E1 & E2).
    { destruct H as [H|(q & l & H)]; [destruct (recv_nothing _ _ H) as (r' & E1 & _); eauto|]. destruct (pipe_stops _ _ _ _ H) as [(m & k & l' & r' & _ & E1 & _)|(r' & E1 & _)]; eauto 6. }
    rewrite E1. destruct E2 as [->|[m ->]]; discriminate.
  - rewrite F, E. cbn [can_read app]. destruct H as [(b & E1 & E2)|(q & l & H)]; [rewrite E1, poll_stopped by exact E2; destruct b; discriminate|].
    destruct (apipe_stops _ _ _ _ H) as [(m & k & l' & r' & _ & E1 & _)|(b & E1 & _)]; rewrite E1; [discriminate|destruct b; discriminate].
Qed.
Lemma w_rests : forall cap c f k e n cu cd x y out inn, 1 <= cap -> minds f -> way cap c cu x y out -> way cap (negb c) cd y x inn ->
  peer_turn c f k e inn x = None -> peer_send cap (S n) (if cu then [] else out) x = None -> peer_read f (S n) inn x = None -> peer_end f cd inn x = None ->
  bk_settled cap f x y out inn cu cd.
Proof.
  intros cap c f k e n cu cd x y out inn Hcap M (A & B & W1) (A2 & B2 & W2) S1 S2 S3 S4. unfold bk_settled.
  assert (length (if cu then [] else out) <= cap) as HL by (destruct cu; [cbn [length]; lia|exact B]).
  destruct (r_send _ _ _ _ _ A HL S2) as [F|[F L]]; [|right; right; destruct cu; [cbn [length] in L; lia|auto]].
  destruct (f (peer_past x)) as [[m|]|] eqn:E; [|right; left|left; auto].
  - contradiction (r_say _ _ k e inn _ _ M A F E S1).
  - split; [reflexivity|]. destruct W2 as [(lost & on & T & V & X & Y)|(X & -> & Z & V)].
    + destruct (r_hear _ _ _ _ _ _ _ _ _ _ F E T S1 S3) as [-> HO]. split; [reflexivity|]. destruct cd.
      * exfalso. revert S4. apply (r_end (negb c)); auto. right. eauto.
      * split; [reflexivity|]. intros FY. rewrite (X eq_refl), (says_free _ _ A2 FY) in HO. destruct HO as [->|HO]; [|contradiction HO; reflexivity]. rewrite V. cbn [map]. rewrite app_nil_r. reflexivity.
    + exfalso. subst cd. revert S4. apply (r_end (negb c)); auto.
Qed.

(** ** What was not lost *)
Definition bytes_of (c : bool) : list owned -> nat := if c then up_bytes else down_bytes.
Lemma bytes_app : forall c a b, bytes_of c (a ++ b) = bytes_of c a + bytes_of c b.
Proof. intros [] a b; [apply up_app|apply down_app]. Qed.
Lemma bytes_frames : forall c l, length (encs (masked_frames c l)) = bytes_of c (map fst l).
Proof. intros c l. rewrite <- frames_encs. destruct c; [apply up_frames|apply down_frames]. Qed.
(** [h] is what can be made of [K] where the last [lost] bytes are missing. *)
Definition exactly_so (c : bool) (lost : nat) (K h : list owned) : Prop :=
  exists more, K = h ++ more /\ bytes_of c h + lost <= bytes_of c K /\ forall m more', more = m :: more' -> bytes_of c K < bytes_of c (h ++ [m]) + lost.
Lemma takes_room : forall c y q l, takes c y q l -> length q <= length (encs (masked_frames c l)).
Proof.
  intros c [u|a] q l H; cbn [takes] in H.
  - destruct H as (_ & _ & E & _). rewrite <- E, app_length. lia.
  - destruct H as (_ & _ & E & _). rewrite <- frames_encs, <- E, !app_length. lia.
Qed.
Lemma short_exact : forall c y q l h, takes c y q l -> short_of c q l -> exactly_so c (length q) (h ++ map fst l) h.
Proof.
  intros c y q l h T H. exists (map fst l). split; [reflexivity|]. pose proof (takes_room _ _ _ _ T) as L. rewrite bytes_frames in L. split; [rewrite bytes_app; lia|].
  intros m more' E. destruct H as [->|(m0 & k & l' & -> & H)]; [discriminate E|]. cbn [map fst] in E. injection E as <- _. rewrite !bytes_frames in H. rewrite !bytes_app. cbn [map fst] in *. lia.
Qed.
Definition kept (c : bool) (K : list owned) (lost : bytes) (y : peer) (net : bytes) : Prop :=
  (exists on, takes c y (net ++ lost) on /\ K = words_heard (peer_past y) ++ map fst on) /\ ~ In NotHeard (peer_past y) \/
  dead c y /\ net = [] /\ exactly_so c (length lost) K (words_heard (peer_past y)).
Lemma kept_reads : forall c K lost y y' net h, reads_as y y' -> peer_past y' = peer_past y ++ h -> words_heard h = [] -> ~ In NotHeard h -> kept c K lost y net -> kept c K lost y' net.
Proof.
  intros c K lost y y' net h R E1 E2 E3 [[(on & T & V) Y]|(Z & N & V)]; [left|right]; rewrite E1, words_heard_app, E2, app_nil_r.
  - split; [exists on; split; [apply R; exact T|exact V]|]. intros I. apply in_app_or in I as [I|I]; auto.
  - split; [apply R; exact Z|auto].
Qed.
Lemma kept_turn : forall c K lost d f k e q x x' o net, minds f -> says d x -> kept c K lost x net -> peer_turn d f k e q x = Some (x', o) -> kept c K lost x' net.
Proof.
  intros c K lost d f k e q x x' o net M S J H. destruct (b_turn _ _ _ _ _ _ _ _ M S H) as (-> & [(_ & R & [(m & k0 & E & _)|(m & E & _)])|(S1 & S2 & S3)]).
  - apply (kept_reads _ _ _ x _ _ [Said m]); auto. intros [X|[]]; discriminate X.
  - apply (kept_reads _ _ _ x _ _ [NotSaid m]); auto. intros [X|[]]; discriminate X.
  - destruct (S3 c) as [T1 T2]. destruct J as [[(on & T & V) Y]|(Z & _)]; [|contradiction (T1 Z)]. destruct (T2 _ _ T) as (m & j & l' & -> & E & T'). left.
    split; [exists l'; split; [exact T'|rewrite V, E, words_heard_app, <- app_assoc; reflexivity]|]. rewrite E. apply not_in_more; [discriminate|exact Y].
Qed.
Lemma kept_send : forall c K lost d cap n q x x' q' net, says d x -> length q <= cap -> kept c K lost x net -> peer_send cap n q x = Some (x', q') -> kept c K lost x' net.
Proof. intros c K lost d cap n q x x' q' net S L J H. destruct (b_send _ _ _ _ _ _ _ S L H) as (_ & _ & _ & _ & R & E & _). apply (kept_reads _ _ _ x _ _ []); auto. rewrite E, app_nil_r. reflexivity. Qed.
Lemma kept_read : forall c K lost f n x x' q' net, kept c K lost x net -> peer_read f n net x = Some (x', q') -> kept c K lost x' q'.
Proof.
  intros c K lost f n x x' q' net [[(on & T & V) Y]|(Z & -> & V)] H.
  - destruct (b_read _ _ _ _ _ _ _ _ _ T H) as (_ & _ & _ & [[S4 S5]|(m & k & l' & -> & S4 & S5)]); left; rewrite S5.
    + eauto.
    + split; [exists l'; split; [exact S4|rewrite V, words_heard_app, <- app_assoc; reflexivity]|apply not_in_more; [discriminate|exact Y]].
  - destruct (b_read_dead _ _ _ _ _ _ Z H) as (-> & _ & _ & S3 & S5). right. split; [exact S3|]. split; [reflexivity|]. rewrite S5, words_heard_app. cbn [words_heard flat_map]. rewrite app_nil_r. exact V.
Qed.
Lemma kept_end : forall c K lost f gone x x' net, kept c K lost x net -> peer_end f gone net x = Some x' -> kept c K lost x' net.
Proof.
  intros c K lost f gone x x' net J H. destruct (end_gone _ _ _ _ _ H) as [-> ->]. destruct J as [[(on & T & V) Y]|(Z & _ & V)].
  - destruct (b_end _ _ _ _ _ _ T H) as (_ & _ & [(m & k & l' & -> & S4 & S5)|(S5 & S4 & HO)]).
    + left. rewrite S5. split; [exists l'; split; [exact S4|rewrite V, words_heard_app, <- app_assoc; reflexivity]|apply not_in_more; [discriminate|exact Y]].
    + right. split; [exact S4|]. split; [reflexivity|]. rewrite S5, words_heard_app. cbn [words_heard flat_map]. rewrite app_nil_r, V. exact (short_exact _ _ _ _ _ T HO).
  - destruct (b_end_dead _ _ _ _ Z H) as (_ & _ & S3 & S5). right. split; [exact S3|]. split; [reflexivity|]. rewrite S5, words_heard_app. cbn [words_heard flat_map]. rewrite app_nil_r. exact V.
Qed.
Definition kept_of (up : bool) (K : list owned) (lost : bytes) (t : breaking) : Prop :=
  let '(mk_breaking (mk_pairing c s u d) bu bd) := t in if up then bu = true /\ kept true K lost s u else bd = true /\ kept false K lost c d.
Lemma kept_step : forall f1 f2 cap up K lost a t t', minds f1 -> minds f2 -> breaking_inv cap t -> kept_of up K lost t -> breaking_step f1 f2 cap a t = Some t' -> kept_of up K lost t'.
Proof.
  intros f1 f2 cap up K lost a [[c s u d] bu bd] t' M1 M2 [(A1 & B1 & _) (A2 & B2 & _)] J H.
  assert (length (if bu then [] else u) <= cap) as L1 by (destruct bu; [cbn [length]; lia|exact B1]). assert (length (if bd then [] else d) <= cap) as L2 by (destruct bd; [cbn [length]; lia|exact B2]).
  destruct a as [[[] k e|[] n|[] n]|[] n|[]]; cbn [breaking_step pairing_step] in H.
  - destruct (peer_turn true f1 k e d c) as [[z o]|] eqn:E; [|discriminate H]. injection H as <-. unfold kept_of in *; destruct up; destruct J as [EB J]; (split; [exact EB|]).
    + destruct (b_turn _ _ _ _ _ _ _ _ M1 A1 E) as (-> & _). rewrite app_nil_r. exact J.
    + exact (kept_turn _ _ _ _ _ _ _ _ _ _ _ _ M1 A1 J E).
  - destruct (peer_turn false f2 k e u s) as [[z o]|] eqn:E; [|discriminate H]. injection H as <-. unfold kept_of in *; destruct up; destruct J as [EB J]; (split; [exact EB|]).
    + exact (kept_turn _ _ _ _ _ _ _ _ _ _ _ _ M2 A2 J E).
    + destruct (b_turn _ _ _ _ _ _ _ _ M2 A2 E) as (-> & _). rewrite app_nil_r. exact J.
  - destruct (peer_send cap n (if bu then [] else u) c) as [[z o]|] eqn:E; [|discriminate H]. injection H as <-. unfold kept_of in *; destruct up; destruct J as [EB J]; (split; [exact EB|]).
    + rewrite EB. exact J.
    + exact (kept_send _ _ _ _ _ _ _ _ _ _ _ A1 L1 J E).
  - destruct (peer_send cap n (if bd then [] else d) s) as [[z o]|] eqn:E; [|discriminate H]. injection H as <-. unfold kept_of in *; destruct up; destruct J as [EB J]; (split; [exact EB|]).
    + exact (kept_send _ _ _ _ _ _ _ _ _ _ _ A2 L2 J E).
    + rewrite EB. exact J.
  - destruct (peer_read f1 n d c) as [[z o]|] eqn:E; [|discriminate H]. injection H as <-. unfold kept_of in *; destruct up; destruct J as [EB J]; (split; [exact EB|]); [exact J|exact (kept_read _ _ _ _ _ _ _ _ _ J E)].
  - destruct (peer_read f2 n u s) as [[z o]|] eqn:E; [|discriminate H]. injection H as <-. unfold kept_of in *; destruct up; destruct J as [EB J]; (split; [exact EB|]); [exact (kept_read _ _ _ _ _ _ _ _ _ J E)|exact J].
  - unfold kept_of in *. destruct bu; [discriminate H|]. injection H as <-. destruct up; destruct J as [EB J]; [discriminate EB|auto].
  - unfold kept_of in *. destruct bd; [discriminate H|]. injection H as <-. destruct up; destruct J as [EB J]; [auto|discriminate EB].
  - destruct (peer_end f1 bd d c) as [z|] eqn:E; [|discriminate H]. injection H as <-. unfold kept_of in *; destruct up; destruct J as [EB J]; (split; [exact EB|]); [exact J|exact (kept_end _ _ _ _ _ _ _ _ J E)].
  - destruct (peer_end f2 bu u s) as [z|] eqn:E; [|discriminate H]. injection H as <-. unfold kept_of in *; destruct up; destruct J as [EB J]; (split; [exact EB|]); [exact (kept_end _ _ _ _ _ _ _ _ J E)|exact J].
Qed.
Lemma kept_run : forall f1 f2 cap up K lost acts t, minds f1 -> minds f2 -> breaking_inv cap t -> kept_of up K lost t -> kept_of up K lost (breaking_run f1 f2 cap acts t).
Proof.
  intros f1 f2 cap up K lost acts. induction acts as [|a acts IH]; intros t M1 M2 H J; [exact J|]. cbn [breaking_run].
  destruct (breaking_step f1 f2 cap a t) as [t'|] eqn:E; [|apply IH; auto]. apply IH; auto; [exact (breaking_inv_step _ _ _ _ _ _ M1 M2 H E)|exact (kept_step _ _ _ _ _ _ _ _ _ M1 M2 H J E)].
Qed.
Lemma way_kept : forall cap c x y net n, way cap c false x y net -> peer_free x -> kept c (words_said (peer_past x)) (skipn n net) y (firstn n net).
Proof.
  intros cap c x y net n (A & B & [(lost & on & T & V & X & Y)|(X & _)]) F; [|discriminate X]. rewrite (X eq_refl), (says_free _ _ A F) in T. cbn [app] in T. rewrite app_nil_r in T. left. rewrite firstn_skipn. split; [eauto|exact Y].
Qed.

Lemma breaking_run_app : forall f1 f2 cap a b t, breaking_run f1 f2 cap (a ++ b) t = breaking_run f1 f2 cap b (breaking_run f1 f2 cap a t).
Proof. intros f1 f2 cap a. induction a as [|x a IH]; intros b t; [reflexivity|]. cbn [app breaking_run]. apply IH. Qed.

(** ** C100: a connection that breaks *)
(** [C100] At any moment either direction of the connection may break, and any of the bytes under way in it
    be lost from some byte on, with all that is written to it later.  Whatever the programs, the kinds of
    their clients and everything else, at every moment the messages a program has heard are the first of
    those its partner has said, in order: none altered, none out of order, none invented. *)
Lemma break_prefix_proof : forall f1 f2 cap s1 s2 acts, minds f1 -> minds f2 -> works s1 -> works s2 ->
  let t := breaking_run f1 f2 cap acts (breaking_new s1 s2) in
  prefix (words_heard (bk_client_past t)) (words_said (bk_server_past t)) /\
  prefix (words_heard (bk_server_past t)) (words_said (bk_client_past t)).
Proof.
  intros f1 f2 cap s1 s2 acts M1 M2 H1 H2 t. pose proof (breaking_inv_run f1 f2 cap acts _ M1 M2 (breaking_inv_new cap s1 s2 H1 H2)) as I. fold t in I. destruct t as [[c s u d] bu bd]. destruct I as [W1 W2].
  split; [exact (way_prefix _ _ _ _ _ _ W2)|exact (way_prefix _ _ _ _ _ _ W1)].
Qed.
(*EX
(** The client says three messages and is done; the way to the server breaks in the middle of the second.
    The other program ([hearer]) hears until it is told of the end, and then says how many it heard. *)
Definition sayer : program := fun past =>
  match past with
  | [] => Some (Say (OText (str "one")))
  | [_] => Some (Say (OText (str "two")))
  | [_; _] => Some (Say (OBinary (str "three")))
  | [_; _; _] => Some Hear
  | _ => None
  end.
Definition hearer : program := fun past =>
  match rev past with
  | NotHeard :: before => Some (Say (OBinary (firstn 100 (repeat x2a (List.length before)))))
  | Said _ :: _ => None
  | _ => Some Hear
  end.
Example break_minds : minds sayer /\ minds hearer.
Proof.
  split; intros past m H; unfold sayer, hearer in H;
    repeat match type of H with context [match ?x with _ => _ end] => destruct x; try discriminate H end;
    match type of H with Some (Say ?x) = _ => assert (m = x) as -> by congruence end;
    (split; [try exact I; apply ExTac.good_text; reflexivity|]);
    match goal with
    | |- (size (payload_of (_ (firstn ?n ?d))) <= _)%N => apply (ThmKinds.short n d); vm_compute; discriminate
    | _ => vm_compute; discriminate
    end.
Qed.
Definition client_says : list bkact := [BkGo (PTurn true (mk_key x01 x02 x03 x04) 3); BkGo (PSend true 100)].
Definition break_turns : list bkact :=
  [BkGo (PTurn true (mk_key x01 x02 x03 x04) 3); BkGo (PSend true 3); BkGo (PRead true 2); BkEnd true;
   BkGo (PTurn false (mk_key x00 x00 x00 x00) 0); BkGo (PSend false 4); BkGo (PRead false 3); BkEnd false].
Definition break_run (kept : nat) : list bkact := client_says ++ client_says ++ [BkCut true kept] ++ concat (repeat break_turns 30).
Example break_prefix_ex : forall s1 s2, In s1 [WithPolling 0; WithBlocking (mk_w [] [])] -> In s2 [WithPolling 0; WithBlocking (mk_w [] [])] ->
  let t := breaking_run sayer hearer 50 (break_run 14) (breaking_new s1 s2) in
  bk_server_past t = [Heard (OText (str "one")); NotHeard; Said (OBinary (str "*"))] /\
  bk_client_past t = [Said (OText (str "one")); Said (OText (str "two")); Said (OBinary (str "three")); Heard (OBinary (str "*"))].
Proof. intros s1 s2 [<-|[<-|[]]] [<-|[<-|[]]]; vm_compute; split; reflexivity. Qed.
EX*)

(** [C100] A program is told that there is nothing more only if the direction to it is broken, and after that it
    never hears anything: no message with a part missing is followed by another. *)
Lemma break_silence_proof : forall f1 f2 cap s1 s2 acts, minds f1 -> minds f2 -> works s1 -> works s2 ->
  let t := breaking_run f1 f2 cap acts (breaking_new s1 s2) in
  (forall a b, bk_client_past t = a ++ NotHeard :: b -> bk_down t = true /\ words_heard b = []) /\
  (forall a b, bk_server_past t = a ++ NotHeard :: b -> bk_up t = true /\ words_heard b = []).
Proof.
  intros f1 f2 cap s1 s2 acts M1 M2 H1 H2 t. pose proof (breaking_inv_run f1 f2 cap acts _ M1 M2 (breaking_inv_new cap s1 s2 H1 H2)) as I. fold t in I. destruct t as [[c s u d] bu bd]. destruct I as [W1 W2].
  split; intros a b E; [exact (way_told _ _ _ _ _ _ _ _ W2 E)|exact (way_told _ _ _ _ _ _ _ _ W1 E)].
Qed.
(*EX
Example break_silence_ex :
  let t := breaking_run sayer hearer 50 (break_run 5) (breaking_new (WithBlocking (mk_w [] [])) (WithPolling 0)) in
  bk_server_past t = [] ++ NotHeard :: [Said (OBinary [])] /\ bk_up t = true /\ bk_down t = false.
Proof. vm_compute. repeat split; reflexivity. Qed.
EX*)

(** [C100] Nobody waits for ever on a broken connection: where nothing can happen any more (but that a direction
    breaks), each of the programs is done, or waits on a direction that is not broken for a partner whose
    every finished message it has heard, or has not finished saying something where the direction is not
    broken and the network is full. *)
Lemma break_rest_proof : forall f1 f2 cap s1 s2 acts, minds f1 -> minds f2 -> works s1 -> works s2 -> (1 <= cap)%nat ->
  let t := breaking_run f1 f2 cap acts (breaking_new s1 s2) in breaking_rests f1 f2 cap t ->
  let p := bk_pair t in
  bk_settled cap f1 (p_client p) (p_server p) (p_up p) (p_down p) (bk_up t) (bk_down t) /\
  bk_settled cap f2 (p_server p) (p_client p) (p_down p) (p_up p) (bk_down t) (bk_up t).
Proof.
  intros f1 f2 cap s1 s2 acts M1 M2 H1 H2 Hcap t. pose proof (breaking_inv_run f1 f2 cap acts _ M1 M2 (breaking_inv_new cap s1 s2 H1 H2)) as I. fold t in I. destruct t as [[c s u d] bu bd]. destruct I as [W1 W2]. intros [R1 R2] p.
  unfold p. cbn [bk_pair bk_up bk_down p_client p_server p_up p_down]. set (k := mk_key x00 x00 x00 x00).
  pose proof (R1 (PTurn true k 0%N)) as A1. pose proof (R1 (PSend true 1)) as A2. pose proof (R1 (PRead true 1)) as A3. pose proof (R1 (PTurn false k 0%N)) as A4. pose proof (R1 (PSend false 1)) as A5. pose proof (R1 (PRead false 1)) as A6.
  pose proof (R2 true) as A7. pose proof (R2 false) as A8. cbn [breaking_step pairing_step] in A1, A2, A3, A4, A5, A6, A7, A8.
  destruct (peer_turn true f1 k 0%N d c) as [[? ?]|] eqn:B1; [discriminate A1|]. destruct (peer_send cap 1 (if bu then [] else u) c) as [[? ?]|] eqn:B2; [discriminate A2|]. destruct (peer_read f1 1 d c) as [[? ?]|] eqn:B3; [discriminate A3|].
  destruct (peer_turn false f2 k 0%N u s) as [[? ?]|] eqn:B4; [discriminate A4|]. destruct (peer_send cap 1 (if bd then [] else d) s) as [[? ?]|] eqn:B5; [discriminate A5|]. destruct (peer_read f2 1 u s) as [[? ?]|] eqn:B6; [discriminate A6|].
  destruct (peer_end f1 bd d c) eqn:B7; [discriminate A7|]. destruct (peer_end f2 bu u s) eqn:B8; [discriminate A8|].
  split; [exact (w_rests cap true f1 k 0%N 0 bu bd c s u d Hcap M1 W1 W2 B1 B2 B3 B7)|exact (w_rests cap false f2 k 0%N 0 bd bu s c d u Hcap M2 W2 W1 B4 B5 B6 B8)].
Qed.
(*EX
Example break_rest_ex : 
  let t := breaking_run sayer hearer 7 (break_run 4) (breaking_new (WithPolling 0) (WithBlocking (mk_w [] []))) in
  breaking_rests sayer hearer 7 t /\ hearer (bk_server_past t) = None /\ sayer (bk_client_past t) = None /\ bk_client_past t <> [].
Proof.
  split; [|vm_compute; repeat split; try reflexivity; discriminate]. match goal with |- breaking_rests _ _ _ ?X => let v := eval vm_compute in X in assert (X = v) as -> by (vm_compute; reflexivity) end.
  split; [intros [[] k e|[] [|n]|[] [|n]]|intros []]; reflexivity.
Qed.
EX*)

(** [C100] What was not lost is heard, and nothing else: where a direction breaks and the program that writes to
    it is not in the middle of a message, its partner can hear no other messages than those said before;
    and where it is told of the end it has heard exactly those of them of which no byte was lost. *)
Lemma break_exact_proof : forall f1 f2 cap s1 s2 acts up n later, minds f1 -> minds f2 -> works s1 -> works s2 ->
  let t := breaking_run f1 f2 cap acts (breaking_new s1 s2) in
  let t' := breaking_run f1 f2 cap (BkCut up n :: later) t in
  let writer (t : breaking) := if up then p_client (bk_pair t) else p_server (bk_pair t) in
  let reader (t : breaking) := if up then p_server (bk_pair t) else p_client (bk_pair t) in
  let bytes := if up then up_bytes else down_bytes in
  let lost := (List.length (if up then p_up (bk_pair t) else p_down (bk_pair t)) - n)%nat in
  let said := words_said (peer_past (writer t)) in let heard := words_heard (peer_past (reader t')) in
  (if up then bk_up t else bk_down t) = false -> peer_free (writer t) ->
  exists more, said = heard ++ more /\
    (In NotHeard (peer_past (reader t')) -> (bytes heard + lost <= bytes said)%nat /\ forall m rest, more = m :: rest -> (bytes said < bytes (heard ++ [m]) + lost)%nat).
Proof.
  intros f1 f2 cap s1 s2 acts up n later M1 M2 H1 H2 t t' w r by_ lost said heard HB HF. pose proof (breaking_inv_run f1 f2 cap acts _ M1 M2 (breaking_inv_new cap s1 s2 H1 H2)) as I. fold t in I.
  assert (exists l, length l = lost /\ kept_of up said l t') as (l & EL & J).
  { unfold t', said, lost. cbn [breaking_run]. destruct t as [[c s u d] bu bd] eqn:ET. unfold w in *. cbn [bk_pair bk_up bk_down p_client p_server p_up p_down breaking_step] in *. destruct I as [W1 W2]. destruct up; subst.
    - exists (skipn n u). split; [apply skipn_length|]. apply kept_run; auto; [split; [apply way_cut; exact W1|exact W2]|]. split; [reflexivity|]. exact (way_kept _ _ _ _ _ _ W1 HF).
    - exists (skipn n d). split; [apply skipn_length|]. apply kept_run; auto; [split; [exact W1|apply way_cut; exact W2]|]. split; [reflexivity|]. exact (way_kept _ _ _ _ _ _ W2 HF). }
  assert (exists net, kept up said l (r t') net) as (net & [[(on & _ & V) N]|(_ & _ & more & V & X & Y)]).
  { destruct t' as [[c s u d] bu bd]. unfold kept_of, r in *. cbn [bk_pair p_client p_server]. destruct up; destruct J as [_ J]; eauto. }
  - exists (map fst on). split; [exact V|]. intros X. contradiction (N X).
  - exists more. rewrite EL in X, Y. auto.
Qed.
(*EX
Example break_exact_ex : 
  let t := breaking_run sayer hearer 50 (client_says ++ client_says) (breaking_new (WithBlocking (mk_w [] [])) (WithPolling 0)) in
  let t' := breaking_run sayer hearer 50 (BkCut true 9 :: concat (repeat break_turns 30)) t in
  bk_up t = false /\ (List.length (p_up (bk_pair t)) - 9)%nat = 9%nat /\ peer_free (p_client (bk_pair t)) /\
  up_bytes (words_said (bk_client_past t)) = 18%nat /\ up_bytes (words_heard (bk_server_past t')) = 9%nat /\
  bk_server_past t' = [Heard (OText (str "one")); NotHeard; Said (OBinary (str "*"))].
Proof. vm_compute. repeat split; reflexivity. Qed.
EX*)

(** [C100] In particular, where no byte under way is lost, all that was said before the break is heard before the
    end. *)
Lemma break_keeps_proof : forall f1 f2 cap s1 s2 acts up n later, minds f1 -> minds f2 -> works s1 -> works s2 ->
  let t := breaking_run f1 f2 cap acts (breaking_new s1 s2) in
  let t' := breaking_run f1 f2 cap (BkCut up n :: later) t in
  let writer (t : breaking) := if up then p_client (bk_pair t) else p_server (bk_pair t) in
  let reader (t : breaking) := if up then p_server (bk_pair t) else p_client (bk_pair t) in
  (if up then bk_up t else bk_down t) = false -> (List.length (if up then p_up (bk_pair t) else p_down (bk_pair t)) <= n)%nat -> peer_free (writer t) ->
  In NotHeard (peer_past (reader t')) -> words_heard (peer_past (reader t')) = words_said (peer_past (writer t)).
Proof.
  intros f1 f2 cap s1 s2 acts up n later M1 M2 H1 H2 t t' w r HB HN HF HI. destruct (break_exact_proof f1 f2 cap s1 s2 acts up n later M1 M2 H1 H2 HB HF) as (more & E & X). fold t in E, X. fold t' in E, X. fold (w t) in E, X. fold (r t') in E, X.
  destruct (X HI) as [_ Y]. destruct more as [|m more]; [rewrite E; symmetry; apply app_nil_r|exfalso]. specialize (Y m more eq_refl). rewrite E in Y.
  assert (forall a b, (if up then up_bytes else down_bytes) (a ++ b) = (if up then up_bytes else down_bytes) a + (if up then up_bytes else down_bytes) b) as HA by exact (bytes_app up).
  rewrite (HA _ (m :: more)), (HA _ [m]) in Y. change (m :: more) with ([m] ++ more) in Y. rewrite (HA [m]) in Y. lia.
Qed.
(*EX
Example break_keeps_ex : 
  let t := breaking_run sayer hearer 50 (client_says ++ client_says) (breaking_new (WithBlocking (mk_w [] [])) (WithPolling 0)) in
  let t' := breaking_run sayer hearer 50 (BkCut true 18 :: concat (repeat break_turns 30)) t in
  bk_up t = false /\ List.length (p_up (bk_pair t)) = 18%nat /\ peer_free (p_client (bk_pair t)) /\
  bk_server_past t' = [Heard (OText (str "one")); Heard (OText (str "two")); NotHeard; Said (OBinary (str "**"))] /\
  words_said (bk_client_past t') = [OText (str "one"); OText (str "two"); OBinary (str "three")].
Proof. vm_compute. repeat split; reflexivity. Qed.
EX*)
