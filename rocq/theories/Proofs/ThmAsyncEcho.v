(** The asynchronous example servers: C69, C70. *)
From Coq Require Import NArith ZArith String Bool List Lia Permutation.
From Coq Require Import ZifyBool ZifyNat ZifyN.
From Coq.Strings Require Import Byte.
From Verif.Model Require Import Base Io Header Mask Dataframe Utf8 Text Base64 WsKey Headers
  Handshake Message Receiver Codec Framed Http Connect Examples AsyncExamples.
From Verif.Spec Require Import RfcFrame FrameSpec Schedule Unicode Drive Session Connection Polled Fields Upgrade Builder HttpHead Wire Endpoint Echo Polls.
From Verif.Proofs Require Import BaseFacts MaskFacts HeaderFacts FrameFacts CodecFacts ScriptFacts
  Machine FramedFacts AsyncFacts Utf8Facts ThmFrames ThmStream SessionFacts RecvFacts MessageFacts
  TextFacts MapFacts ExTac ThmMessages ThmFlow ThmLimits ThmServer ThmHttp ThmConnect ThmInterop ThmSession ThmEcho ThmWake.
Import ListNotations.
Local Open Scope string_scope.
Local Open Scope list_scope.
Local Open Scope N_scope.

Definition room (w : fwrite) : nat := (length (fw_ws w) + length (fw_fs w))%nat.
Definition sofar (w : fwrite) : list N := octets (fw_out w ++ bm_data (fw_buf w)).

Lemma flush_ok : forall w r w', afails_never w -> poll_complete w = (r, w') ->
  afails_never w' /\ sofar w' = sofar w /\
  ((r = SReady /\ bm_data (fw_buf w') = [] /\ (room w' <= room w)%nat) \/ (r = SNotReady /\ (room w' < room w)%nat)).
Proof.
  intros w r w' HF H. pose proof (poll_complete_spec _ _ _ H) as (P1 & P2 & P3 & P4).
  apply poll_complete_shape in H as (_ & _ & _ & A4). destruct (A4 HF) as [B1 B2].
  split; [exact B1|]. split; [unfold sofar; congruence|]. unfold room. destruct B2 as [->| ->]; [left|right]; auto.
  split; [reflexivity|]. apply P4. discriminate.
Qed.

Lemma send_ok : forall m k extra w r w', afails_never w -> sendable (2 ^ 34) m ->
  start_send true (owned_ops m) k extra w = (r, w') ->
  afails_never w' /\
  ((r = SReady /\ sofar w' = sofar w ++ server_says [m] /\ (room w' <= room w)%nat) \/
   (r = SNotReady /\ sofar w' = sofar w /\ (room w' < room w)%nat)).
Proof.
  intros m k extra w r w' HF (Ht & Hs & Hc) H. pose proof (owned_sendable m Ht Hc) as HO.
  pose proof (proj2 (proj2 library_frames_honest_proof) m) as HH.
  assert (concat (df_writes (owned_ops m)) = payload_of m) as HP.
  { destruct HH as [_ _]. apply owned_payload. exact Ht. }
  assert (octets (fw_out w' ++ bm_data (fw_buf w'))
    = octets (fw_out w ++ bm_data (fw_buf w)) ++ match r with SReady => server_says [m] | _ => [] end) as HS.
  { assert (N.of_nat (length (concat (df_writes (owned_ops m)))) < 2 ^ 64) as HL.
    { rewrite HP. unfold size in Hs. clear - Hs. lia. }
    rewrite (start_send_spec _ _ _ _ _ _ _ HH HL H).
    f_equal. destruct r; try reflexivity. unfold wires, server_says. cbn [map concat fst snd].
    rewrite !app_nil_r. f_equal. apply owned_rfc. exact Ht. }
  unfold start_send in H.
  assert (forall v, exists b, match codec_encode true (owned_ops m) k extra (fw_buf v) with
    | (Ok _, b) => (SReady, mk_fw b (fw_out v) (fw_ws v) (fw_fs v))
    | (Err e, b) => (SErr e, mk_fw b (fw_out v) (fw_ws v) (fw_fs v))
    | (_, b) => (SErr (OtherError "panic"), mk_fw b (fw_out v) (fw_ws v) (fw_fs v))
    end = (SReady, mk_fw b (fw_out v) (fw_ws v) (fw_fs v))) as HE.
  { intros v. destruct (encode_good true (owned_ops m) k extra (fw_buf v) HH HO) as (wire & dst & E1 & _).
    rewrite E1. eauto. }
  destruct (BACKPRESSURE <=? llen (bm_data (fw_buf w))).
  - destruct (poll_complete w) as [r1 w1] eqn:EP. apply flush_ok in EP as (F1 & F2 & F3); [|exact HF].
    assert (((if BACKPRESSURE <=? llen (bm_data (fw_buf w1)) then (SNotReady, w1) else
       match codec_encode true (owned_ops m) k extra (fw_buf w1) with
    | (Ok _, b) => (SReady, mk_fw b (fw_out w1) (fw_ws w1) (fw_fs w1))
    | (Err e, b) => (SErr e, mk_fw b (fw_out w1) (fw_ws w1) (fw_fs w1))
    | (_, b) => (SErr (OtherError "panic"), mk_fw b (fw_out w1) (fw_ws w1) (fw_fs w1))
    end) = (r, w'))) as H'.
    { destruct F3 as [[-> _]|[-> _]]; exact H. }
    clear H. destruct (HE w1) as (b & E). rewrite E in H'. clear HE E.
    destruct (N.leb_spec BACKPRESSURE (llen (bm_data (fw_buf w1)))) as [HL|HL]; injection H' as <- <-.
    + split; [exact F1|]. right. rewrite app_nil_r in HS. split; [reflexivity|]. split; [exact HS|].
      destruct F3 as [(_ & F3 & _)|(_ & F3)]; [|exact F3]. rewrite F3 in HL. unfold llen, BACKPRESSURE in HL. cbn in HL. lia.
    + split; [exact F1|]. left. split; [reflexivity|]. split; [exact HS|]. unfold room in *. cbn [fw_ws fw_fs]. lia.
  - destruct (HE w) as (b & E). rewrite E in H. injection H as <- <-. split; [exact HF|]. left.
    split; [reflexivity|]. split; [exact HS|]. unfold room. cbn [fw_ws fw_fs]. lia.
Qed.

(** ** What is left to answer *)
Fixpoint answers (l : list owned) (e : poll owned) : list owned * option ws_error :=
  match l with
  | [] => ([], match e with PErr x => Some x | _ => None end)
  | m :: l' => if is_close m then ([], None) else let '(a, b) := answers l' e in (echo m ++ a, b)
  end.
Definition todo (s : list aev) (f : framed msg_codec) : list owned * option ws_error :=
  let '(l, e) := cdrain mc_decode s (fr_st f) (fr_buf f) in answers l e.
Definition todo_ok (s : list aev) (f : framed msg_codec) : Prop :=
  fr_inv mc_decode f /\ Forall (sendable (2 ^ 34)) (fst (cdrain mc_decode s (fr_st f) (fr_buf f))).
Definition weight (s : list aev) (f : framed msg_codec) : nat :=
  (length (fr_buf f) + length (aev_bytes s) + length s)%nat.

Lemma poll_shorter : forall St Item (decode : St -> bytes -> result (option Item) ws_error * St * bytes) s f r f' s',
  framed_poll decode s f = (r, f', s') -> (length s' <= length s)%nat.
Proof.
  intros St Item decode. induction s as [|ev s IH]; intros f r f' s' H; cbn [framed_poll] in H;
    destruct (framed_decode decode f) as [[q|] f1]; try (injection H as _ _ <-; lia);
    destruct (fr_eof f1); try (injection H as _ _ <-; lia).
  - match type of H with context[framed_decode decode ?g] => destruct (framed_decode decode g) as [[q|] f2] end;
      injection H as _ _ <-; lia.
  - destruct ev as [b bs| |k].
    + apply IH in H. cbn [length]. lia.
    + injection H as _ _ <-. cbn [length]. lia.
    + injection H as _ _ <-. cbn [length]. lia.
Qed.

Lemma echo_pass : forall m, is_close m = false ->
  echo m = match pass_on m with Some m' => [m'] | None => [] end.
Proof. intros [d|d|c|d|d] H; try discriminate H; reflexivity. Qed.
Lemma pass_sendable : forall m m', pass_on m = Some m' -> sendable (2 ^ 34) m -> sendable (2 ^ 34) m'.
Proof.
  intros [d|d|c|d|d] m' H HS; cbn [pass_on] in H; try discriminate H; injection H as <-;
    exact HS.
Qed.

Lemma passed_poll_spec : forall fuel s f, todo_ok s f -> (weight s f < fuel)%nat ->
  match passed_poll fuel s f with
  | (PItem m, f', s', d) => d = false /\ todo_ok s' f' /\ sendable (2 ^ 34) m /\
      todo s f = (let '(a, b) := todo s' f' in (m :: a, b)) /\
      (length s' <= length s)%nat /\ (weight s' f' < weight s f)%nat
  | (PNotReady, f', s', d) => d = false /\ todo_ok s' f' /\ todo s f = todo s' f' /\
      (length s' < length s)%nat /\ (weight s' f' < weight s f)%nat
  | (PEnd, _, s', d) => d = true /\ todo s f = ([], None) /\ (length s' <= length s)%nat
  | (PErr e, _, _, _) => todo s f = ([], Some e)
  | _ => False
  end.
Proof.
  induction fuel as [|fuel IH]; intros s f [HI HS] HW; [lia|]. cbn [passed_poll].
  pose proof (framed_poll_spec _ _ mc_decode mc_some mc_none mc_total s f HI) as HP.
  destruct (framed_poll mc_decode s f) as [[p f'] s'] eqn:E. pose proof (poll_shorter _ _ _ _ _ _ _ _ E) as HL.
  unfold todo. destruct p as [m| | |e| |].
  - destruct HP as (I' & HC & HM). fold (weight s' f') (weight s f) in HM. rewrite HC in *.
    destruct (cdrain mc_decode s' (fr_st f') (fr_buf f')) as [l e] eqn:EC. cbn [fst] in HS.
    inversion HS as [|? ? S1 S2]; subst. cbn [answers].
    destruct (is_close m) eqn:Em; [auto|]. rewrite (echo_pass _ Em).
    destruct (pass_on m) as [m'|] eqn:Ep.
    + split; [reflexivity|]. split; [split; [exact I'|rewrite EC; exact S2]|].
      split; [eapply pass_sendable; eauto|]. split; [|auto]. rewrite EC. destruct (answers l e). reflexivity.
    + assert (todo_ok s' f') as HT by (split; [exact I'|rewrite EC; exact S2]).
      specialize (IH s' f' HT ltac:(lia)). unfold todo in IH. rewrite EC in IH.
      destruct (passed_poll fuel s' f') as [[[q f2] s2] d2].
      destruct (answers l e) as [a b] eqn:EA. cbn [app].
      destruct q as [m'| | |x| |]; try exact IH.
      * destruct IH as (A1 & A2 & A3 & A4 & A5 & A6). repeat (split; [assumption|]). split; lia.
      * destruct IH as (A1 & A2 & A3). repeat (split; [assumption|]). lia.
      * destruct IH as (A1 & A2 & A3 & A4 & A5). repeat (split; [assumption|]). split; lia.
  - rewrite HP. auto.
  - destruct HP as (I' & HC & HM). fold (weight s' f') (weight s f) in HM. rewrite HC in *.
    split; [reflexivity|]. split; [split; auto|]. split; [reflexivity|]. split; [|exact HM].
    apply stream_waits_proof in E as (c & ->). rewrite app_length. cbn [length]. lia.
  - rewrite HP. reflexivity.
  - contradiction.
  - contradiction.
Qed.

(** ** The task *)
Definition held (t : echo_task) : list owned := match et_hold t with Some m => [m] | None => [] end.
Definition left (t : echo_task) : list owned * option ws_error :=
  if et_closing t then (held t, None)
  else
    let '(a, b) := if et_done t then ([], None) else todo (et_in t) (et_read t) in
    (held t ++ a ++ match b with None => [OClose None] | Some _ => [] end, b).
Definition task_ok (t : echo_task) : Prop :=
  afails_never (et_out t) /\ Forall (sendable (2 ^ 34)) (held t) /\
  (et_closing t = false -> et_done t = false -> todo_ok (et_in t) (et_read t)).
Definition clock (t : echo_task) : nat := (length (et_in t) + room (et_out t))%nat.
Definition light (fuel : nat) (t : echo_task) : Prop :=
  et_closing t = false -> et_done t = false -> (weight (et_in t) (et_read t) < fuel)%nat.

(** What a poll of [t] does. *)
Definition polls_well (fuel : nat) (t : echo_task) (r : tpoll) (t' : echo_task) : Prop :=
  match r with
  | TReady => snd (left t) = None /\ bm_data (fw_buf (et_out t')) = [] /\
      sofar (et_out t') = sofar (et_out t) ++ server_says (fst (left t))
  | TNotReady => task_ok t' /\ light fuel t' /\ (clock t' < clock t)%nat /\ snd (left t') = snd (left t) /\
      sofar (et_out t') ++ server_says (fst (left t')) = sofar (et_out t) ++ server_says (fst (left t))
  | TErr e => snd (left t) = Some e /\
      sofar (et_out t') = sofar (et_out t) ++ server_says (fst (left t))
  | _ => False
  end.

Lemma says_cons : forall m l, server_says (m :: l) = server_says [m] ++ server_says l.
Proof. intros m l. apply (says_app [m] l). Qed.

Lemma close_polls : forall fuel k extra t, task_ok t -> et_closing t = true ->
  let '(r, t') := close_poll k extra t in polls_well fuel t r t'.
Proof.
  intros fuel k extra t (HF & HH & _) HC. unfold close_poll.
  assert (left t = (held t, None)) as HL by (unfold left; rewrite HC; reflexivity).
  assert (forall w, afails_never w -> (room w <= room (et_out t))%nat -> sofar w = sofar (et_out t) ++ server_says (held t) ->
    let '(r, t') := match poll_complete w with
    | (SReady, w') => (TReady, mk_task (et_read t) (et_in t) (et_done t) None true w')
    | (SNotReady, w') => (TNotReady, mk_task (et_read t) (et_in t) (et_done t) None true w')
    | (SErr e, w') => (TErr e, mk_task (et_read t) (et_in t) (et_done t) None true w')
    end in polls_well fuel t r t') as HFL.
  { intros w H1 H2 H3. destruct (poll_complete w) as [r w'] eqn:E. apply flush_ok in E as (F1 & F2 & F3); [|exact H1].
    destruct F3 as [(-> & F3 & F4)|(-> & F3)].
    - unfold polls_well. rewrite HL. cbn [fst snd et_out]. split; [reflexivity|]. split; [exact F3|]. congruence.
    - unfold polls_well. rewrite HL. unfold task_ok, light, clock, left, held.
      cbn [et_out et_hold et_closing et_in fst snd]. split; [split; [exact F1|split; [exact (Forall_nil _)|discriminate]]|].
      split; [discriminate|]. split; [lia|]. split; [reflexivity|]. cbn [server_says]. rewrite F2, H3.
      unfold held. rewrite app_nil_r. reflexivity. }
  unfold held in HFL, HH. destruct (et_hold t) as [m|] eqn:Em.
  - destruct (start_send true (owned_ops m) k extra (et_out t)) as [r w] eqn:E.
    inversion HH as [|? ? S1 _]; subst.
    apply send_ok in E as (F1 & [(-> & F2 & F3)|(-> & F2 & F3)]); auto.
    + apply HFL; auto.
    + unfold polls_well. rewrite HL. unfold task_ok, light, clock, left, held.
      rewrite Em. cbn [et_out et_hold et_closing et_in fst snd].
      split; [split; [exact F1|split; [exact HH|discriminate]]|]. split; [discriminate|]. split; [lia|].
      split; [reflexivity|]. rewrite F2. reflexivity.
  - apply HFL; auto. unfold server_says. cbn [map concat]. rewrite app_nil_r. reflexivity.
Qed.

Lemma forward_polls : forall full fuel k extra t, task_ok t -> et_closing t = false -> et_hold t = None ->
  light fuel t -> (fuel <= full)%nat -> fuel <> O ->
  let '(r, t') := forward_loop fuel k extra t in polls_well full t r t'.
Proof.
  intros full. induction fuel as [|fuel IH]; intros k extra t HT HC HH HW HFu H0; [congruence|].
  clear H0. pose proof HT as (HF & _ & HD). specialize (HD HC). unfold light in HW. specialize (HW HC).
  cbn [forward_loop].
  assert (left t = let '(a, b) := if et_done t then ([], None) else todo (et_in t) (et_read t) in
    (a ++ match b with None => [OClose None] | Some _ => [] end, b)) as HL.
  { unfold left, held. rewrite HC, HH. reflexivity. }
  destruct (et_done t) eqn:Ed.
  2: specialize (HD eq_refl); specialize (HW eq_refl);
     pose proof (passed_poll_spec (S fuel) _ _ HD HW) as HP;
     destruct (passed_poll (S fuel) (et_in t) (et_read t)) as [[[p f] s] d].
  2: destruct p as [m| | |e| |].
  - (* the end has been seen *)
    destruct (poll_complete (et_out t)) as [r w] eqn:E. apply flush_ok in E as (F1 & F2 & F3); [|exact HF].
    destruct F3 as [(-> & F3 & F4)|(-> & F3)].
    + match goal with |- context[close_poll k extra ?t1] =>
        assert (task_ok t1) as T1 by (split; [exact F1|split; [exact (Forall_cons _ close_sendable (Forall_nil _))|discriminate]]);
        pose proof (close_polls full k extra t1 T1 eq_refl) as HCP; destruct (close_poll k extra t1) as [r t'] end.
      unfold polls_well in *. cbn [left held et_closing et_hold fst snd] in HCP. unfold left in HCP.
      cbn [et_closing held et_hold fst snd et_out clock et_in] in HCP. rewrite HL. cbn [fst snd app].
      rewrite F2 in HCP. destruct r; auto.
      destruct HCP as (C1 & C2 & C3 & C4 & C5). split; [exact C1|]. split; [exact C2|].
      split; [unfold clock in *; cbn [et_in et_out] in C3; lia|]. auto.
    + unfold polls_well. rewrite HL. cbn [fst snd app].
      split; [split; [exact F1|split; [exact (Forall_nil _)|cbn; discriminate]]|]. split; [intros ? ?; discriminate|].
      split; [unfold clock; cbn [et_in et_out]; lia|]. unfold left, held. cbn [et_closing et_done et_hold app fst snd et_out].
      rewrite F2. auto.
  - (* an item *)
    destruct HP as (-> & P1 & P2 & P3 & P4 & P5).
    destruct (start_send true (owned_ops m) k extra (et_out t)) as [r w] eqn:E.
    rewrite P3 in HL. destruct (todo s f) as [a b] eqn:ET. rewrite <- app_comm_cons in HL.
    apply send_ok in E as (F1 & [(-> & F2 & F3)|(-> & F2 & F3)]); auto.
    + match goal with |- context[forward_loop fuel k extra ?t1] =>
        assert (task_ok t1) as T1 by (split; [exact F1|split; [exact (Forall_nil _)|intros _ _; exact P1]]);
        specialize (IH k extra t1 T1 eq_refl eq_refl);
        assert (left t1 = (a ++ match b with None => [OClose None] | Some _ => [] end, b)) as HL1
          by (unfold left, held; cbn [et_closing et_done et_hold et_in et_read app]; rewrite ET; reflexivity);
        assert (sofar (et_out t1) = sofar (et_out t) ++ server_says [m]) as HS1 by exact F2;
        assert (clock t1 <= clock t)%nat as HK1 by (unfold clock; cbn [et_in et_out]; lia);
        specialize (IH ltac:(intros _ _; cbn [et_in et_read]; lia) ltac:(lia) ltac:(lia));
        destruct (forward_loop fuel k extra t1) as [r t']
      end.
      unfold polls_well in *. rewrite HL1 in IH. rewrite HL. cbn [fst snd] in *. rewrite says_cons.
      rewrite HS1, <- app_assoc in IH. destruct r; auto.
      destruct IH as (C1 & C2 & C3 & C4 & C5). repeat (split; [assumption|]). split; [lia|]. auto.
    + unfold polls_well. rewrite HL. unfold left, held, clock.
      cbn [et_closing et_done et_hold et_in et_read et_out]. rewrite ET. cbn [fst snd app].
      split; [split; [exact F1|split; [exact (Forall_cons _ P2 (Forall_nil _))|intros _ _; exact P1]]|].
      split; [intros _ _; cbn [et_in et_read]; lia|]. split; [lia|]. split; [reflexivity|]. rewrite F2. reflexivity.
  - (* the end *)
    destruct HP as (-> & P1 & P2). rewrite P1 in HL. cbn [app] in HL.
    destruct (poll_complete (et_out t)) as [r w] eqn:E. apply flush_ok in E as (F1 & F2 & F3); [|exact HF].
    destruct F3 as [(-> & F3 & F4)|(-> & F3)].
    + match goal with |- context[close_poll k extra ?t1] =>
        assert (task_ok t1) as T1 by (split; [exact F1|split; [exact (Forall_cons _ close_sendable (Forall_nil _))|discriminate]]);
        pose proof (close_polls full k extra t1 T1 eq_refl) as HCP; destruct (close_poll k extra t1) as [r t'] end.
      unfold polls_well in *. unfold left in HCP at 1 2 3 4 5 6.
      cbn [et_closing held et_hold fst snd et_out clock et_in] in HCP. rewrite HL. cbn [fst snd app].
      rewrite F2 in HCP. destruct r; auto.
      destruct HCP as (C1 & C2 & C3 & C4 & C5). split; [exact C1|]. split; [exact C2|].
      split; [unfold clock in *; cbn [et_in et_out] in C3; lia|]. auto.
    + unfold polls_well. rewrite HL. cbn [fst snd app].
      split; [split; [exact F1|split; [exact (Forall_nil _)|cbn; discriminate]]|]. split; [intros ? ?; discriminate|].
      split; [unfold clock; cbn [et_in et_out]; lia|]. unfold left, held. cbn [et_closing et_done et_hold app fst snd et_out].
      rewrite F2. auto.
  - (* wait *)
    destruct HP as (-> & P1 & P2 & P3 & P4). rewrite P2 in HL.
    destruct (poll_complete (et_out t)) as [r w] eqn:E. apply flush_ok in E as (F1 & F2 & F3); [|exact HF].
    assert (polls_well full t TNotReady (mk_task f s false None false w)) as HG.
    { unfold polls_well. rewrite HL. unfold left, held, clock. cbn [et_closing et_done et_hold et_in et_read et_out app].
      split; [split; [exact F1|split; [exact (Forall_nil _)|intros _ _; exact P1]]|].
      split; [intros _ _; cbn [et_in et_read]; lia|].
      assert (room w <= room (et_out t))%nat by (destruct F3 as [(_ & _ & F3)|(_ & F3)]; lia).
      split; [lia|]. rewrite F2. auto. }
    destruct F3 as [(-> & _)|(-> & _)]; exact HG.
  - (* an error *)
    rewrite HP in HL. cbn [app] in HL. unfold polls_well. rewrite HL. cbn [fst snd et_out]. split; [reflexivity|].
    unfold server_says. cbn [map concat]. rewrite app_nil_r. reflexivity.
  - contradiction.
  - contradiction.
Qed.

Lemma task_polls_well : forall fuel k extra t, task_ok t -> light fuel t -> fuel <> O ->
  let '(r, t') := task_poll fuel k extra t in polls_well fuel t r t'.
Proof.
  intros fuel k extra t HT HW H0. unfold task_poll. destruct (et_closing t) eqn:HC; [apply close_polls; auto|].
  destruct (et_hold t) as [m|] eqn:Em; [|apply forward_polls; auto].
  pose proof HT as (HF & HS & HD). unfold held in HS. rewrite Em in HS. inversion HS as [|? ? S1 _]; subst.
  destruct (start_send true (owned_ops m) k extra (et_out t)) as [r w] eqn:E.
  assert (left t = let '(a, b) := if et_done t then ([], None) else todo (et_in t) (et_read t) in
    (m :: a ++ match b with None => [OClose None] | Some _ => [] end, b)) as HL.
  { unfold left, held. rewrite HC, Em. reflexivity. }
  apply send_ok in E as (F1 & [(-> & F2 & F3)|(-> & F2 & F3)]); auto.
  - match goal with |- context[forward_loop fuel k extra ?t1] =>
      assert (task_ok t1) as T1 by (split; [exact F1|split; [exact (Forall_nil _)|intros _; exact (HD HC)]]);
      pose proof (forward_polls fuel fuel k extra t1 T1 eq_refl eq_refl
        (fun _ => HW HC) (le_n _) H0) as IH;
      assert (left t1 = let '(a, b) := if et_done t then ([], None) else todo (et_in t) (et_read t) in
        (a ++ match b with None => [OClose None] | Some _ => [] end, b)) as HL1 by reflexivity;
      assert (sofar (et_out t1) = sofar (et_out t) ++ server_says [m]) as HS1 by exact F2;
      assert (clock t1 <= clock t)%nat as HK1 by (unfold clock; cbn [et_in et_out]; lia);
      destruct (forward_loop fuel k extra t1) as [r t']
    end.
    unfold polls_well in *. rewrite HL1 in IH. rewrite HL.
    destruct (if et_done t then ([], None) else todo (et_in t) (et_read t)) as [a b]. cbn [fst snd] in *.
    rewrite says_cons. rewrite HS1, <- app_assoc in IH. destruct r; auto.
    destruct IH as (C1 & C2 & C3 & C4 & C5). repeat (split; [assumption|]). split; [lia|]. auto.
  - unfold polls_well. rewrite HL. unfold left, held, clock.
    cbn [et_closing et_done et_hold et_in et_read et_out].
    destruct (if et_done t then ([], None) else todo (et_in t) (et_read t)) as [a b]. cbn [fst snd app].
    split; [split; [exact F1|split; [exact HS|intros _; exact (HD HC)]]|].
    split; [intros _; exact (HW HC)|]. split; [lia|]. split; [reflexivity|]. rewrite F2. reflexivity.
Qed.

Lemma task_runs : forall n fuel k extra t, task_ok t -> light fuel t -> fuel <> O -> (clock t < n)%nat ->
  let '(r, t') := task_run n fuel k extra t in
  sofar (et_out t') = sofar (et_out t) ++ server_says (fst (left t)) /\
  match snd (left t) with
  | None => r = TReady /\ bm_data (fw_buf (et_out t')) = []
  | Some e => r = TErr e
  end.
Proof.
  induction n as [|n IH]; intros fuel k extra t HT HW H0 HK; [lia|]. cbn [task_run].
  pose proof (task_polls_well fuel k extra t HT HW H0) as HP.
  destruct (task_poll fuel k extra t) as [r t1]. destruct r as [| |e| |]; try contradiction.
  - destruct HP as (-> & P2 & P3). auto.
  - destruct HP as (P1 & P2 & P3 & P4 & P5). specialize (IH fuel k extra t1 P1 P2 H0 ltac:(lia)).
    destruct (task_run n fuel k extra t1) as [r t2]. rewrite P4, P5 in IH. exact IH.
  - destruct HP as (-> & P2). auto.
Qed.

(** ** What arrives can be sent *)
Lemma cdrain_sizes : forall ctx df msg n s c src,
  (length src + length (aev_bytes s) + length s < n)%nat ->
  decoding (msg_codec_with_limits ctx df msg) c ->
  Forall (fun m => size (payload_of m) <= 2 ^ 34) (fst (cdrain mc_decode s c src)).
Proof.
  intros ctx df msg. induction n as [|n IH]; intros s c src Hn HD; [lia|].
  pose proof (mc_some c src) as HL1. pose proof (mc_none c src) as HL2.
  pose proof (mc_decode_sound c src) as HT.
  destruct (mc_decode c src) as [[[[m|]|e1| |] c1] s1] eqn:E; try contradiction.
  - rewrite (cdrain_item _ _ _ mc_some _ _ _ _ _ _ E).
    destruct (cdrain mc_decode s c1 s1) as [ms1 e1] eqn:EC. cbn [fst].
    specialize (HL1 _ _ _ eq_refl). constructor.
    + pose proof (memory_bounded_async_proof _ _ _ _ _ _ _ _ HD E) as (_ & _ & HB). specialize (HB m eq_refl).
      unfold capped in HB. lia.
    + change ms1 with (fst (ms1, e1)). rewrite <- EC. apply IH; [lia|]. econstructor; eauto.
  - rewrite (cdrain_none _ _ _ mc_some mc_none _ _ _ _ _ E).
    specialize (HL2 _ _ eq_refl) as [HL HQ]. rewrite (cdrain_quiet _ _ _ mc_some _ _ _ HQ).
    assert (decoding (msg_codec_with_limits ctx df msg) c1) as HD1 by (econstructor; eauto).
    destruct s as [|[b bs| |k] s]; cbn [aev_bytes length] in *.
    + constructor.
    + apply IH; [|exact HD1]. rewrite ?app_length in *. cbn [length] in *. rewrite ?app_length in *. lia.
    + apply IH; [lia|exact HD1].
    + constructor.
  - rewrite (cdrain_err _ _ _ mc_some _ _ _ _ _ _ E). constructor.
Qed.

Lemma received_sendable : forall ctx df msg buf s,
  Forall (sendable (2 ^ 34)) (fst (run_messages (msg_codec_with_limits ctx df msg) buf s)).
Proof.
  intros ctx df msg buf s. pose proof (delivered_well_formed_stream_proof (msg_codec_with_limits ctx df msg) buf s) as H1.
  assert (Forall (fun m => size (payload_of m) <= 2 ^ 34) (fst (run_messages (msg_codec_with_limits ctx df msg) buf s))) as H2.
  { rewrite run_messages_cdrain. eapply cdrain_sizes; [apply Nat.lt_succ_diag_r|constructor]. }
  destruct (run_messages (msg_codec_with_limits ctx df msg) buf s) as [ms e] eqn:E. cbn [fst] in *.
  destruct (received_only_legal_async_proof ctx df msg buf s (aev_bytes s) ms e) as (fs & ws & rest & p & _ & _ & HF & HD & _); auto.
  { apply acontains_iff. reflexivity. }
  pose proof (delivers_control _ _ _ _ _ HD HF) as H3. clear - H1 H2 H3.
  induction ms as [|m ms IH]; constructor; inversion H1; inversion H2; inversion H3; subst; auto. split; auto.
Qed.

Lemma answers_split : forall ms rest e, Forall (fun m => ~ closing m) ms ->
  (rest = [] \/ exists c more, rest = OClose c :: more) ->
  answers (ms ++ rest) e
  = (flat_map echo ms, match rest, e with [], PErr x => Some x | _, _ => None end).
Proof.
  intros ms rest e H HR. induction H as [|m ms Hm H IH].
  - cbn [app flat_map]. destruct HR as [->|(c & more & ->)]; [|reflexivity]. cbn [answers]. destruct e; reflexivity.
  - cbn [app answers flat_map]. rewrite IH. destruct m; try reflexivity. destruct (Hm I).
Qed.

Lemma up_to_close : forall l : list owned, exists ms rest, l = ms ++ rest /\ Forall (fun m => ~ closing m) ms /\
  (rest = [] \/ exists c more, rest = OClose c :: more).
Proof.
  induction l as [|m l (ms & rest & -> & HN & HR)]; [exists [], []; auto|].
  destruct (is_close m) eqn:Em.
  - destruct m; try discriminate Em. exists [], (OClose c :: ms ++ rest). split; [reflexivity|]. split; [constructor|]. eauto.
  - exists (m :: ms), rest. split; [reflexivity|]. split; [|exact HR]. constructor; [|exact HN].
    destruct m; try discriminate Em; intros [].
Qed.

Lemma echo_runs : forall k extra df msg buf s w ms rest e, afails_never w ->
  run_messages (msg_codec_with_limits CtxServer df msg) buf s = (ms ++ rest, e) ->
  Forall (fun m => ~ closing m) ms -> (rest = [] \/ exists c more, rest = OClose c :: more) ->
  let '(r, w') := async_echo k extra (mk_aclient (framed_new (msg_codec_with_limits CtxServer df msg) buf) s w) in
  let stop := match rest, e with [], PErr x => Some x | _, _ => None end in
  sofar w' = sofar w ++ server_says (flat_map echo ms ++ match stop with None => [OClose None] | Some _ => [] end) /\
  match stop with None => r = TReady /\ bm_data (fw_buf w') = [] | Some x => r = TErr x end.
Proof.
  intros k extra df msg buf s w ms rest e HF HM HN HR. unfold async_echo.
  set (a := mk_aclient _ s w).
  assert (left (echo_task_new a) = let stop := match rest, e with [], PErr x => Some x | _, _ => None end in
    (flat_map echo ms ++ match stop with None => [OClose None] | Some _ => [] end, stop)) as HL.
  { unfold left, held, todo, echo_task_new, a. cbn [et_closing et_done et_hold et_in et_read ac_in ac_read app framed_new fr_st fr_buf].
    rewrite <- run_messages_cdrain, HM, answers_split by auto. reflexivity. }
  assert (task_ok (echo_task_new a)) as HT.
  { split; [exact HF|]. split; [exact (Forall_nil _)|]. intros _ _. split; [apply fr_inv_new_mc|].
    unfold echo_task_new, a. cbn [et_in et_read ac_in ac_read framed_new fr_st fr_buf].
    rewrite <- run_messages_cdrain. apply received_sendable. }
  assert (light (task_fuel (echo_task_new a)) (echo_task_new a)) as HW.
  { intros _ _. unfold weight, task_fuel. lia. }
  assert (clock (echo_task_new a) < task_polls (echo_task_new a))%nat as HK.
  { unfold clock, task_polls, room. lia. }
  assert (task_fuel (echo_task_new a) <> O) as H0 by (unfold task_fuel; lia).
  pose proof (task_runs _ _ k extra _ HT HW H0 HK) as HP.
  destruct (task_run _ _ k extra _) as [r t']. rewrite HL in HP. cbv zeta in *. cbn [fst snd] in HP. exact HP.
Qed.

(** ** The handshake *)
Lemma http_send_ok : forall data extra w, afails_never w ->
  exists w', http_send data extra w = (SReady, w') /\ afails_never w' /\ bm_data (fw_buf w') = [] /\
    fw_out w' = fw_out w ++ bm_data (fw_buf w) ++ data.
Proof.
  intros data extra w HF. unfold http_send.
  set (w0 := mk_fw (http_encode data extra (fw_buf w)) (fw_out w) (fw_ws w) (fw_fs w)).
  pose proof (flush_all_shape (S (length (fw_ws w) + length (fw_fs w))) w0) as H.
  specialize (H ltac:(subst w0; cbn [fw_ws fw_fs]; lia)).
  destruct (flush_all _ w0) as [r w']. destruct H as (A1 & A2 & A3 & A4).
  destruct (A4 HF) as [B1 ->]. exists w'. specialize (A3 eq_refl). split; [reflexivity|]. split; [exact B1|].
  split; [exact A3|]. rewrite A3, app_nil_r in A1. rewrite <- A1. subst w0. cbn [fw_out fw_buf]. rewrite encode_all. reflexivity.
Qed.
Lemma async_accept_ok : forall df msg extra u, typed_items (au_headers u) -> afails_never (au_out u) ->
  validate (rq_method (au_request u)) (rq_version (au_request u)) (rq_headers (au_request u)) = Ok tt ->
  exists w' h, async_accept None df msg extra u
      = Ok (mk_aclient (framed_new (msg_codec_with_limits CtxServer df msg) (au_buffer u)) (au_in u) w', h) /\
    afails_never w' /\ bm_data (fw_buf w') = [].
Proof.
  intros df msg extra u HT HW HV. destruct (validate_key _ _ _ HV) as (k & HK).
  unfold async_accept, prepare_headers. rewrite HK. cbn [rbind]. unfold print_response, print_headers.
  match goal with |- context[forallb ?f ?h] => assert (forallb f h = true) as -> end.
  { repeat apply typed_set. exact HT. }
  cbn [rbind]. match goal with |- context[http_send ?d ?x ?w] => destruct (http_send_ok d x w HW) as (w' & -> & H1 & H2 & _) end.
  exists w'. eexists. split; [reflexivity|]. auto.
Qed.
Lemma async_into_ws_inv : forall X s w u, sound_lib X -> async_into_ws X s w = Ok u ->
  exists q buf s' m t fs, u = mk_aupgrade [] q buf s' w /\
    validate (rq_method q) (rq_version q) (rq_headers q) = Ok tt /\
    q = mk_req (method_named m) t Http11 (from_raw fs).
Proof.
  intros X s w u HX H. unfold async_into_ws, await_head in H.
  assert (G : forall n s f, fr_eof f = false -> (length s < n)%nat ->
    match first_item (http_decode (try_request X)) n s f with
    | (PItem (inl q), _, _) => exists h r, try_request X h = Done q r
    | _ => True end).
  { clear H. induction n as [|n IH]; intros s0 f Hf Hn; [lia|]. cbn [first_item].
    pose proof (http_poll _ (try_request X) s0 f Hf) as H.
    destruct (framed_poll (http_decode (try_request X)) s0 f) as [[[[q|e]| | |e| |] f'] s']; auto.
    destruct H. apply IH; [assumption|lia]. }
  specialize (G (S (length s)) s (framed_new tt []) eq_refl ltac:(lia)).
  destruct (first_item (http_decode (try_request X)) (S (length s)) s (framed_new tt [])) as [[[[q|e]| | |e| |] f'] s'];
    cbn [finish_into_ws] in H; try discriminate H.
  destruct (validate _ _ _) as [[]|e| |] eqn:EV; try discriminate H. injection H as <-.
  destruct G as (h & r & G). apply request_exact_proof in G as (head & m & t & v & fs & _ & HH & _ & _ & Hq); [|exact HX].
  assert (v = Http11) as ->.
  { destruct HH as (? & vt & ? & ? & _ & _ & _ & _ & Hv & _). rewrite Hq in EV. cbn [rq_method rq_version] in EV.
    unfold validate in EV. inversion Hv; subst; [|reflexivity]. destruct (method_named m); discriminate EV. }
  exists q, (fr_buf f'), s', m, t, fs. auto.
Qed.

(** ** The theorems *)

(** [C69] The task of a connection of the asynchronous echo server, on a transport whose writes
    do not fail (they may be cut and delayed in any way): if a Close comes, or the stream ends,
    it completes, and has written the answer to every message before the Close, in order, and
    one Close, flushed. *)
Lemma async_echo_ends_proof : forall k extra df msg buf s w ms rest e, afails_never w ->
  run_messages (msg_codec_with_limits CtxServer df msg) buf s = (ms ++ rest, e) ->
  Forall (fun m => ~ closing m) ms ->
  (exists c more, rest = OClose c :: more) \/ rest = [] /\ e = PEnd ->
  exists w', async_echo k extra (mk_aclient (framed_new (msg_codec_with_limits CtxServer df msg) buf) s w) = (TReady, w') /\
    bm_data (fw_buf w') = [] /\
    octets (fw_out w') = octets (fw_out w ++ bm_data (fw_buf w)) ++ server_says (flat_map echo ms ++ [OClose None]).
Proof.
  intros k extra df msg buf s w ms rest e HF HM HN HR.
  assert (match rest, e with [], PErr x => Some x | _, _ => None end = None) as HE.
  { destruct HR as [(c & more & ->)|[-> ->]]; reflexivity. }
  pose proof (echo_runs k extra df msg buf s w ms rest e HF HM HN) as H. cbv zeta in H. rewrite HE in H.
  specialize (H ltac:(destruct HR as [HR|[HR _]]; auto)).
  destruct (async_echo _ _ _) as [r w']. destruct H as (H1 & -> & H2). exists w'. split; [reflexivity|].
  split; [exact H2|]. unfold sofar in H1. rewrite H2, app_nil_r in H1. exact H1.
Qed.
(*EX
Definition server_codec : msg_codec := msg_codec_with_limits CtxServer 100 100.
Definition zeros : bytes := [x00; x00; x00; x00].
Definition no_key : mkey := mk_key x00 x00 x00 x00.
(** A text, a ping and a pong in pieces, a Close, and after it what is not a frame; the
    transport takes one byte, waits, and so on. *)
Example async_echo_ends_ex :
  let s := [ANotReady; AData x81 [x82]; AData x00 [x00; x00; x00; x68; x69; x89; x81]; ANotReady;
            AData x00 [x00; x00; x00; x70; x8a; x80; x00; x00; x00; x00; x88; x80; x00; x00; x00; x00; xff]] in
  let w := mk_fw (mk_bm [] 0) [] [AwNotReady; AwAccept 1; AwNotReady; AwAccept 2] [AfNotReady; AfReady] in
  run_messages server_codec [] s = ([OText (str "hi"); OPing (str "p"); OPong []] ++ [OClose None], PErr (IoError (OtherKind 0))) /\
  async_echo no_key 0 (mk_aclient (framed_new server_codec []) s w)
  = (TReady, mk_fw (mk_bm [] 0) ([x81; x02; x68; x69] ++ [x8a; x01; x70] ++ [x88; x00]) [] []).
Proof. split; vm_compute; reflexivity. Qed.
EX*)

(** [C69] If reading fails first - a broken transport, a violation of the protocol, a stream
    that ends inside a frame - the task ends with that error.  What was written is the
    beginning of the answers; the rest of them is in the buffer, and there is no Close. *)
Lemma async_echo_breaks_proof : forall k extra df msg buf s w ms err, afails_never w ->
  run_messages (msg_codec_with_limits CtxServer df msg) buf s = (ms, PErr err) ->
  Forall (fun m => ~ closing m) ms ->
  exists w', async_echo k extra (mk_aclient (framed_new (msg_codec_with_limits CtxServer df msg) buf) s w) = (TErr err, w') /\
    octets (fw_out w') ++ octets (bm_data (fw_buf w'))
    = octets (fw_out w ++ bm_data (fw_buf w)) ++ server_says (flat_map echo ms).
Proof.
  intros k extra df msg buf s w ms err HF HM HN.
  pose proof (echo_runs k extra df msg buf s w ms [] (PErr err) HF) as H. cbv zeta in H. rewrite !app_nil_r in H.
  specialize (H HM HN (or_introl eq_refl)).
  destruct (async_echo _ _ _) as [r w']. destruct H as (H1 & ->). exists w'. split; [reflexivity|].
  unfold sofar in H1. rewrite <- octets_app. exact H1.
Qed.
(*EX
(** A text, and in the next chunk a ping and then a frame that is not masked. *)
Example async_echo_breaks_ex :
  let s := [AData x81 [x81; x00; x00; x00; x00; x61]; ANotReady; AData x89 [x80; x00; x00; x00; x00; x81; x00]] in
  run_messages server_codec [] s = ([OText (str "a"); OPing []], PErr (DataFrameError "Expected masked data frame")) /\
  async_echo no_key 0 (mk_aclient (framed_new server_codec []) s (mk_fw (mk_bm [] 0) [] [AwAccept 0; AwNotReady] []))
  = (TErr (DataFrameError "Expected masked data frame"),
     mk_fw (mk_bm [x01; x61; x8a; x00] 4) [x81] [] []).
Proof. split; vm_compute; reflexivity. Qed.
EX*)

(** [C69] Refuted: the answers to the messages before the error are not all written.  Here a
    text message and an illegal frame arrive together; the message is lost with the buffer.
    (The blocking echo server answers it, C66.) *)
Lemma async_echo_loses_refuted_proof : exists s m err w' w2,
  run_messages (msg_codec_with_limits CtxServer 100 100) [] s = ([m], PErr err) /\ echo m = [m] /\
  async_echo (mk_key x00 x00 x00 x00) 0
      (mk_aclient (framed_new (msg_codec_with_limits CtxServer 100 100) []) s (mk_fw (mk_bm [] 0) [] [] []))
    = (TErr err, w') /\ fw_out w' = [] /\
  (let s' := map (fun e => match e with AData b bs => RData b bs | _ => RIntr end) s in
   autobahn_loop 100 (mk_key x00 x00 x00 x00) (mk_reader (receiver_with_limits true 100 100) [] s')
     (mk_writer (mk_sender false) (mk_w [] [])) = (Returned, mk_writer (mk_sender false) w2)) /\
  w_out w2 = [x81; x01; x61; x88; x00].
Proof.
  exists [AData x81 [x81; x00; x00; x00; x00; x61; xff; xff; x00; x00; x00; x00]].
  eexists _, _, _, _. split; [vm_compute; reflexivity|]. split; [vm_compute; reflexivity|].
  split; [vm_compute; reflexivity|]. split; [vm_compute; reflexivity|]. split; [vm_compute; reflexivity|].
  vm_compute. reflexivity.
Qed.

(** [C69] The whole connection: after a valid request the asynchronous echo server accepts it,
    and from then on it is as above. *)
Lemma async_echo_server_proof : forall X k extra s w u, sound_lib X -> afails_never w ->
  async_into_ws X s w = Ok u ->
  exists a h ms rest e r w',
    async_accept None 104857600 209715200 extra u = Ok (a, h) /\
    run_messages (fr_st (ac_read a)) (fr_buf (ac_read a)) (ac_in a) = (ms ++ rest, e) /\
    Forall (fun m => ~ closing m) ms /\
    async_autobahn_server k extra u = Ok (r, w') /\
    (((exists c more, rest = OClose c :: more) \/ rest = [] /\ e = PEnd) /\
     r = TReady /\ bm_data (fw_buf w') = [] /\
     octets (fw_out w') = octets (fw_out (ac_out a)) ++ server_says (flat_map echo ms ++ [OClose None])
     \/
     (exists err, rest = [] /\ e = PErr err /\ r = TErr err) /\
     octets (fw_out w') ++ octets (bm_data (fw_buf w'))
       = octets (fw_out (ac_out a)) ++ server_says (flat_map echo ms)).
Proof.
  intros X k extra s w u HX HW HI. apply async_into_ws_inv in HI as (q & buf & s' & m & t & fs & -> & HV & Hq); [|exact HX].
  destruct (async_accept_ok 104857600 209715200 extra (mk_aupgrade [] q buf s' w) eq_refl HW HV) as (w1 & h & HA & HF & HB).
  cbn [au_buffer au_in] in HA. set (c := msg_codec_with_limits CtxServer 104857600 209715200) in *.
  destruct (run_messages c buf s') as [l e] eqn:ER.
  destruct (up_to_close l) as (ms & rest & -> & HN & HR).
  pose proof (echo_runs k extra 104857600 209715200 buf s' w1 ms rest e HF ER HN HR) as HE. fold c in HE.
  exists (mk_aclient (framed_new c buf) s' w1), h, ms, rest, e.
  destruct (async_echo k extra (mk_aclient (framed_new c buf) s' w1)) as [r w'] eqn:EA. exists r, w'.
  split; [exact HA|]. split; [exact ER|]. split; [exact HN|]. split.
  { unfold async_autobahn_server. change SERVER_MAX_DATAFRAME_SIZE with 104857600.
    change SERVER_MAX_MESSAGE_SIZE with 209715200. rewrite HA. cbn [rbind fst]. rewrite EA. reflexivity. }
  cbv zeta in HE. unfold sofar in HE. rewrite HB, app_nil_r in HE. cbn [ac_out].
  destruct HR as [->|HR].
  - pose proof (message_stream_ends_proof c buf s') as HEnd. rewrite ER in HEnd. cbn [snd] in HEnd.
    destruct HEnd as [->|(err & ->)]; [left|right].
    + destruct HE as (H1 & -> & H2). rewrite H2, app_nil_r in H1. auto.
    + destruct HE as (H1 & ->). rewrite !app_nil_r in H1. split; [eauto|]. rewrite <- octets_app. exact H1.
  - left. assert (match rest, e with [], PErr x => Some x | _, _ => None end = None) as Hs.
    { destruct HR as (cl & more & ->). reflexivity. }
    rewrite Hs in HE. destruct HE as (H1 & -> & H2). rewrite H2, app_nil_r in H1. auto.
Qed.
(*EX
Definition an_async_request : bytes := str "GET / HTTP/1.1" ++ crlf ++ str "Upgrade: websocket" ++ crlf ++ str "Connection: upgrade" ++ crlf ++
  str "Sec-WebSocket-Key: dGhlIHNhbXBsZSBub25jZQ==" ++ crlf ++ crlf.
Example async_echo_server_ex :
  let s := apush_back (an_async_request ++ [x89]) [ANotReady; AData x80 zeros; ANotReady] in
  exists u w', async_into_ws httparse_lib s (mk_fw (mk_bm [] 0) [] [AwNotReady] []) = Ok u /\
    async_autobahn_server no_key 0 u = Ok (TReady, w') /\
    exists a h, async_accept None 104857600 209715200 0 u = Ok (a, h) /\
      fw_out w' = fw_out (ac_out a) ++ [x8a; x00] ++ [x88; x00].
Proof.
  cbv zeta. eexists _, _. split; [vm_compute; reflexivity|]. split; [vm_compute; reflexivity|].
  eexists _, _. split; [vm_compute; reflexivity|]. vm_compute. reflexivity.
Qed.
EX*)

(** [C69] So a legal session of frames within the limits, cut in any way, with any delays, gets
    the answer to each of its messages and then a Close, whatever follows its Close. *)
Lemma async_echo_session_proof : forall k extra df msg s w fs ms p ws, afails_never w ->
  delivers [] fs ms p -> under (capped msg) [] fs -> fits (capped df) fs -> on_wire true fs ws -> acarries s ws ->
  exists w', async_echo k extra (mk_aclient (framed_new (msg_codec_with_limits CtxServer df msg) []) s w) = (TReady, w') /\
    bm_data (fw_buf w') = [] /\
    forall before, (ms = before \/ exists c more, ms = before ++ OClose c :: more) ->
      Forall (fun m => ~ closing m) before ->
      octets (fw_out w') = octets (fw_out w ++ bm_data (fw_buf w)) ++ server_says (flat_map echo before ++ [OClose None]).
Proof.
  intros k extra df msg s w fs ms p ws HF HD HU HFi HW HS.
  pose proof (legal_frames_received_async_proof CtxServer df msg fs ms p ws s HD HU HFi HW HS) as HM.
  destruct (up_to_close ms) as (b & rest & -> & HN & HR).
  destruct (async_echo_ends_proof k extra df msg [] s w b rest PEnd HF HM HN) as (w' & E1 & E2 & E3).
  { destruct HR as [->|HR]; auto. }
  exists w'. split; [exact E1|]. split; [exact E2|]. intros before HB HN'.
  assert (b = before) as ->; [|exact E3]. clear - HB HN' HR HN.
  assert (G : forall b before r1 r2, b ++ r1 = before ++ r2 -> Forall (fun m => ~ closing m) b -> Forall (fun m => ~ closing m) before ->
    (r1 = [] \/ exists c more, r1 = OClose c :: more) -> (r2 = [] \/ exists c more, r2 = OClose c :: more) -> b = before).
  { clear. induction b as [|m b IH]; intros [|m' before] r1 r2 E H1 H2 H3 H4; cbn [app] in E; auto.
    - exfalso. destruct H3 as [->|(c & more & ->)]; [discriminate E|].
      injection E as <- _. inversion H2 as [|? ? HC _]; subst. apply HC. exact I.
    - exfalso. destruct H4 as [->|(c & more & ->)]; [discriminate E|].
      injection E as -> _. inversion H1 as [|? ? HC _]; subst. apply HC. exact I.
    - injection E as <- E. inversion H1; inversion H2; subst. f_equal. eapply IH; eauto. }
  destruct HB as [HB|(c & more & HB)].
  - apply (G b before rest []); auto. rewrite app_nil_r. exact HB.
  - apply (G b before rest (OClose c :: more)); eauto.
Qed.
(*EX Example async_echo_session_ex :
  let f := mk_df false no_rsv Text (str "f") in
  let fs := [f; whole_frame (OPing [])] in
  let ws := ([x01; x81] ++ zeros ++ str "f") ++ [x89; x80] ++ zeros in
  delivers [] fs [OPing []] [f] /\ under 100 [] fs /\ fits 100 fs /\ on_wire true fs ws /\
  acarries [ANotReady; AData x01 (tl ws)] ws /\ Forall (fun m => ~ closing m) [OPing []].
Proof.
  cbv zeta. split; [|split; [|split; [|split; [|split]]]].
  - apply del_fragment; [reflexivity|reflexivity|split; [discriminate|reflexivity]|].
    apply del_control; [exact I|exact I|]. constructor.
  - vm_compute. repeat split.
  - unfold fits. facts.
  - apply (wire_cons _ _ (Some no_key) ([x01; x81] ++ zeros ++ str "f")); [reflexivity|reflexivity|].
    rewrite <- app_nil_r. apply (wire_cons _ _ (Some no_key) ([x89; x80] ++ zeros) []); [reflexivity|reflexivity|]. constructor.
  - constructor. rewrite <- app_nil_r. apply (acarries_data x01). constructor.
  - repeat constructor. intros [].
Qed. EX*)

(** ** Which connections are served *)
Lemma serves_outcomes : forall l : list (N * result aupgrade arefusal + io_kind), async_server_serves l = completed (outcomes l).
Proof.
  induction l as [|[[p r]|k] l IH]; [reflexivity| |exact IH]. cbn [async_server_serves outcomes completed flat_map fst snd].
  destruct r; cbn [app]; rewrite IH; reflexivity.
Qed.
Lemma completed_perm : forall l l', Permutation l l' -> Permutation (completed l) (completed l').
Proof. intros l l' H. apply Permutation_flat_map. exact H. Qed.

(** [C70] The server of examples/async-server.rs serves, whatever else happens - bad clients,
    clients that never finish their handshake, errors of the listener - only clients whose
    handshake succeeded, none twice; and once the handshakes have been polled often enough it
    has served all of those. *)
Lemma good_clients_served_proof : forall X es,
  (exists later, Permutation (completed (map (alone X) (arrived es)))
     (async_server_serves (in_yielded (incoming_run X es)) ++ later)) /\
  exists polls, only_polls polls /\
    Permutation (completed (map (alone X) (arrived es)))
      (async_server_serves (in_yielded (incoming_run X (es ++ polls)))).
Proof.
  intros X es. split.
  - destruct (one_outcome_each_proof X es) as (o & _ & H & _). exists (completed o).
    apply completed_perm in H. unfold completed at 2 in H. rewrite flat_map_app in H.
    rewrite serves_outcomes. exact H.
  - destruct (all_complete_proof X es) as (polls & HP & _ & H). exists polls. split; [exact HP|].
    rewrite serves_outcomes. apply completed_perm, H.
Qed.
(*EX
Definition quiet_out : fwrite := mk_fw (mk_bm [] 0) [] [] [].
(** A bad client, a listener error, a good client. *)
Definition three_events : list incoming_event :=
  [NewConnection 1 (apush_back (str "HELLO" ++ crlf ++ crlf) []) quiet_out; PollFuture 0; ListenerError WouldBlock;
   NewConnection 2 (apush_back an_async_request []) quiet_out].
Example good_clients_served_ex :
  map fst (async_server_serves (in_yielded (incoming_run httparse_lib (three_events ++ [PollFuture 0])))) = [2].
Proof. vm_compute. reflexivity. Qed.
EX*)

(** [C70] The server of examples/async-autobahn-server.rs does the same as long as no handshake
    fails and the listener does not. *)
Lemma autobahn_clients_served_proof : forall X es, listener_errors es = [] ->
  Forall (fun c => exists u, snd c = Ok u) (map (alone X) (arrived es)) ->
  exists polls, only_polls polls /\
    Permutation (completed (map (alone X) (arrived es)))
      (async_autobahn_serves (in_yielded (incoming_run X (es ++ polls)))).
Proof.
  intros X es HL HG. destruct (all_complete_proof X es) as (polls & HP & _ & H). exists polls. split; [exact HP|].
  destruct (one_outcome_each_proof X (es ++ polls)) as (_ & _ & _ & HE).
  assert (listener_errors (es ++ polls) = []) as HL'.
  { clear - HL HP. induction es as [|e es IH]; cbn [app].
    - induction HP as [|e l He HP IH]; [reflexivity|]. destruct e; try contradiction. exact IH.
    - destruct e; cbn [listener_errors] in *; auto. discriminate HL. }
  rewrite HL' in HE. eapply Permutation_Forall in HG; [|exact H]. apply completed_perm in H. rewrite H.
  replace (async_autobahn_serves _) with (completed (outcomes (in_yielded (incoming_run X (es ++ polls))))); [reflexivity|].
  clear - HE HG. induction (in_yielded (incoming_run X (es ++ polls))) as [|[[p r]|k] l IH]; [reflexivity| |discriminate HE].
  cbn [outcomes failures completed flat_map fst snd async_autobahn_serves] in *. inversion HG as [|? ? (u & Hu) HG']; subst.
  cbn [snd] in Hu. subst r. cbn [app]. f_equal. apply IH; auto.
Qed.
(*EX
(** Two good clients, the second of which is complete first. *)
Definition two_clients : list incoming_event :=
  [NewConnection 1 (ANotReady :: ANotReady :: apush_back an_async_request []) quiet_out;
   NewConnection 2 (apush_back an_async_request []) quiet_out].
Example autobahn_clients_served_ex :
  listener_errors two_clients = [] /\
  Forall (fun c => exists u, snd c = Ok u) (map (alone httparse_lib) (arrived two_clients)) /\
  map fst (async_autobahn_serves (in_yielded (incoming_run httparse_lib (two_clients ++ [PollFuture 1; PollFuture 0; PollFuture 0; PollFuture 0])))) = [2; 1].
Proof.
  split; [reflexivity|]. split; [|vm_compute; reflexivity].
  repeat constructor; eexists; vm_compute; reflexivity.
Qed.
EX*)

(** [C70] Refuted in general: one client that sends a bad request stops the server for
    everyone. *)
Lemma async_autobahn_survives_refuted_proof : exists es u,
  In (2, Ok u) (outcomes (in_yielded (incoming_run httparse_lib es))) /\
  async_autobahn_serves (in_yielded (incoming_run httparse_lib es)) = [] /\
  async_server_serves (in_yielded (incoming_run httparse_lib es)) = [(2, u)].
Proof.
  exists [NewConnection 1 (apush_back (str "HELLO" ++ crlf ++ crlf) []) (mk_fw (mk_bm [] 0) [] [] []); PollFuture 0;
    NewConnection 2 (apush_back (str "GET / HTTP/1.1" ++ crlf ++ str "Upgrade: websocket" ++ crlf ++ str "Connection: upgrade" ++ crlf ++
      str "Sec-WebSocket-Key: dGhlIHNhbXBsZSBub25jZQ==" ++ crlf ++ crlf) []) (mk_fw (mk_bm [] 0) [] [] []); PollFuture 0].
  eexists. split; [vm_compute; right; left; reflexivity|]. split; [vm_compute; reflexivity|]. vm_compute. reflexivity.
Qed.

(** ** The server of examples/async-server.rs *)
Lemma send_run_ok : forall m k extra n w, afails_never w -> sendable (2 ^ 34) m -> (room w < n)%nat ->
  exists w', send_run n m k extra w = (SReady, w') /\ afails_never w' /\ bm_data (fw_buf w') = [] /\
    octets (fw_out w') = sofar w ++ server_says [m].
Proof.
  intros m k extra. induction n as [|n IH]; intros w HF HS Hn; [lia|]. cbn [send_run].
  destruct (start_send true (owned_ops m) k extra w) as [r w1] eqn:E.
  apply send_ok in E as (F1 & [(-> & F2 & F3)|(-> & F2 & F3)]); auto.
  - pose proof (flush_all_shape (S (length (fw_ws w1) + length (fw_fs w1))) w1 ltac:(lia)) as H.
    destruct (flush_all _ w1) as [r w']. destruct H as (A1 & A2 & A3 & A4). destruct (A4 F1) as [B1 ->].
    specialize (A3 eq_refl). exists w'. split; [reflexivity|]. split; [exact B1|]. split; [exact A3|].
    rewrite A3, app_nil_r in A1. rewrite <- A1. exact F2.
  - destruct (IH w1 F1 HS ltac:(lia)) as (w' & E1 & E2 & E3 & E4). exists w'. rewrite F2 in E4. auto.
Qed.
Lemma async_reject_ok : forall extra u, au_headers u = [] -> afails_never (au_out u) ->
  exists w', async_reject None extra u = Ok (framed_new tt (au_buffer u), au_in u, w') /\ bm_data (fw_buf w') = [] /\
    fw_out w' = fw_out (au_out u) ++ bm_data (fw_buf (au_out u)) ++
      print_version_http (rq_version (au_request u)) ++ str " 400 Bad Request" ++ crlf ++ crlf.
Proof.
  intros extra u HU HW. unfold async_reject, reject_headers. rewrite HU. unfold print_response, print_headers.
  cbn [forallb rbind]. match goal with |- context[http_send ?d ?x ?w] => destruct (http_send_ok d x w HW) as (w' & -> & H1 & H2 & H3) end.
  exists w'. split; [reflexivity|]. split; [exact H2|]. rewrite H3. do 2 f_equal.
Qed.

(** [C70] A client of the server of examples/async-server.rs whose handshake succeeded: if it
    does not offer the protocol "rust-websocket" it gets a rejection and nothing else; otherwise
    it gets the acceptance, the message "Hello World!", and the answers of C69. *)
Lemma async_example_answers_proof : forall X k extra s w u, sound_lib X -> afails_never w ->
  async_into_ws X s w = Ok u ->
  exists ps, @seen_protocols ws_error (au_request u) = Ok ps /\
  (~ In (ascii "rust-websocket") ps ->
   exists w', async_example_server k extra u = Ok (TReady, w') /\ bm_data (fw_buf w') = [] /\
     fw_out w' = fw_out w ++ bm_data (fw_buf w) ++ ascii "HTTP/1.1 400 Bad Request" ++ crlf ++ crlf) /\
  (In (ascii "rust-websocket") ps ->
   exists h a h' ms rest e r w',
    @use_protocol ws_error (ascii "rust-websocket") [] = Ok h /\
    async_accept None 104857600 209715200 extra
      (mk_aupgrade h (au_request u) (au_buffer u) (au_in u) (au_out u)) = Ok (a, h') /\
    run_messages (fr_st (ac_read a)) (fr_buf (ac_read a)) (ac_in a) = (ms ++ rest, e) /\
    Forall (fun m => ~ closing m) ms /\
    async_example_server k extra u = Ok (r, w') /\
    (((exists c more, rest = OClose c :: more) \/ rest = [] /\ e = PEnd) /\
     r = TReady /\ bm_data (fw_buf w') = [] /\
     octets (fw_out w') = octets (fw_out (ac_out a)) ++
       server_says (OText (ascii "Hello World!") :: flat_map echo ms ++ [OClose None])
     \/
     (exists err, rest = [] /\ e = PErr err /\ r = TErr err) /\
     octets (fw_out w') ++ octets (bm_data (fw_buf w'))
       = octets (fw_out (ac_out a)) ++ server_says (OText (ascii "Hello World!") :: flat_map echo ms))).
Proof.
  intros X k extra s w u HX HW HI. apply async_into_ws_inv in HI as (q & buf & s' & m & t & fs & -> & HV & Hq); [|exact HX].
  cbn [au_request au_buffer au_in au_out].
  assert (exists ps, @seen_protocols ws_error q = Ok ps) as (ps & HP).
  { rewrite Hq. unfold seen_protocols, protocols, get_protocols. cbn [rq_headers].
    rewrite hget_from_raw. cbn [rbind]. eexists. reflexivity. }
  exists ps. split; [exact HP|].
  pose proof (existsb_beqb (ascii "rust-websocket") ps) as HB'.
  change (ascii "rust-websocket") with example_protocol in *.
  unfold async_example_server. cbn [au_request au_buffer au_in au_out au_headers]. rewrite HP. cbn [rbind].
  destruct (existsb (beqb example_protocol) ps) eqn:EP; split; intros HIn.
  - exfalso. apply HIn, HB'. reflexivity.
  - clear HB'. cbn [negb]. set (h := [(n_protocol, Typed (VProtocol [example_protocol]))]).
    assert (@use_protocol ws_error example_protocol [] = Ok h) as HU by reflexivity.
    rewrite HU. cbn [rbind]. change SERVER_MAX_DATAFRAME_SIZE with 104857600. change SERVER_MAX_MESSAGE_SIZE with 209715200.
    destruct (async_accept_ok 104857600 209715200 extra (mk_aupgrade h q buf s' w) eq_refl HW HV) as (w1 & h' & HA & HF & HB).
    cbn [au_buffer au_in] in HA. rewrite HA. cbn [rbind fst ac_out ac_read ac_in].
    set (c := msg_codec_with_limits CtxServer 104857600 209715200) in *.
    destruct (send_run_ok (OText (str "Hello World!")) k extra (S (length (fw_ws w1) + length (fw_fs w1))) w1 HF)
      as (w2 & -> & HF2 & HB2 & HO2); [facts|unfold room; lia|].
    destruct (run_messages c buf s') as [l e] eqn:ER.
    destruct (up_to_close l) as (ms & rest & -> & HN & HR).
    pose proof (echo_runs k extra 104857600 209715200 buf s' w2 ms rest e HF2 ER HN HR) as HE. fold c in HE.
    exists h, (mk_aclient (framed_new c buf) s' w1), h', ms, rest, e.
    destruct (async_echo k extra (mk_aclient (framed_new c buf) s' w2)) as [r w'] eqn:EA. exists r, w'.
    split; [reflexivity|]. split; [exact HA|]. split; [exact ER|]. split; [exact HN|]. split; [reflexivity|].
    unfold sofar in HO2. rewrite HB, app_nil_r in HO2.
    cbv zeta in HE. unfold sofar in HE. rewrite HB2, app_nil_r, HO2, <- app_assoc, <- says_app in HE.
    change (ascii "Hello World!") with (str "Hello World!"). cbn [ac_out]. cbn [app] in HE.
    destruct HR as [->|HR].
    + pose proof (message_stream_ends_proof c buf s') as HEnd. rewrite ER in HEnd. cbn [snd] in HEnd.
      destruct HEnd as [->|(err & ->)]; [left|right].
      * destruct HE as (H1 & -> & H2). rewrite H2, app_nil_r in H1. auto.
      * destruct HE as (H1 & ->). rewrite !app_nil_r in H1. split; [eauto|]. rewrite <- octets_app. exact H1.
    + left. assert (match rest, e with [], PErr x => Some x | _, _ => None end = None) as Hs.
      { destruct HR as (cl & more & ->). reflexivity. }
      rewrite Hs in HE. destruct HE as (H1 & -> & H2). rewrite H2, app_nil_r in H1. auto.
  - cbn [negb]. destruct (async_reject_ok extra (mk_aupgrade [] q buf s' w) eq_refl HW) as (w' & HRj & HB & HO).
    rewrite HRj. exists w'. split; [reflexivity|]. split; [exact HB|]. rewrite HO. cbn [au_out au_request]. rewrite Hq. reflexivity.
  - apply HB' in HIn. discriminate HIn.
Qed.
(*EX
Definition b_async_request : bytes := str "GET / HTTP/1.1" ++ crlf ++ str "Upgrade: websocket" ++ crlf ++ str "Connection: upgrade" ++ crlf ++
  str "Sec-WebSocket-Key: dGhlIHNhbXBsZSBub25jZQ==" ++ crlf ++ str "Sec-WebSocket-Protocol: chat, rust-websocket" ++ crlf ++ crlf.
Example async_example_answers_ex :
  (exists u, async_into_ws httparse_lib (apush_back an_async_request []) quiet_out = Ok u /\
     @seen_protocols ws_error (au_request u) = Ok [] /\
     async_example_server no_key 0 u = Ok (TReady, mk_fw (mk_bm [] 0) (str "HTTP/1.1 400 Bad Request" ++ crlf ++ crlf) [] [])) /\
  let sent := [x89; x81] ++ zeros ++ str "p" ++ [x8a; x80] ++ zeros ++ [x88; x80] ++ zeros in
  exists u h a h' w', async_into_ws httparse_lib (apush_back (b_async_request ++ sent) [ANotReady]) quiet_out = Ok u /\
     @seen_protocols ws_error (au_request u) = Ok [ascii "chat"; ascii "rust-websocket"] /\
     @use_protocol ws_error (ascii "rust-websocket") [] = Ok h /\
     async_accept None 104857600 209715200 0 (mk_aupgrade h (au_request u) (au_buffer u) (au_in u) (au_out u)) = Ok (a, h') /\
     async_example_server no_key 0 u = Ok (TReady, w') /\
     fw_out w' = fw_out (ac_out a) ++ ([x81; x0c] ++ str "Hello World!") ++ ([x8a; x01] ++ str "p") ++ [x88; x00].
Proof.
  split.
  - eexists. split; [vm_compute; reflexivity|]. split; [vm_compute; reflexivity|]. vm_compute. reflexivity.
  - cbv zeta. eexists _, _, _, _, _. split; [vm_compute; reflexivity|]. split; [vm_compute; reflexivity|].
    split; [vm_compute; reflexivity|]. split; [vm_compute; reflexivity|]. split; [vm_compute; reflexivity|]. vm_compute. reflexivity.
Qed.
EX*)
