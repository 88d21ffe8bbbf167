(** One poll of the asynchronous example client, and one of the asynchronous example server, when
    the other is at the far end of a network with bounded room. *)
From Coq Require Import NArith ZArith String Bool List Lia.
From Coq Require Import ZifyBool ZifyNat ZifyN.
From Coq.Strings Require Import Byte.
From Verif.Model Require Import Base Io Header Mask Dataframe Utf8 Text Base64 WsKey Headers
  Handshake Message Receiver Codec Framed Http Connect Examples AsyncExamples Suite AsyncChat AsyncTalk.
From Verif.Spec Require Import RfcFrame FrameSpec Schedule Unicode Drive Session Connection Polled Fields Upgrade Builder HttpHead Wire Endpoint Echo Polls Chat Talking Suite AsyncChat AsyncTalking.
From Verif.Proofs Require Import BaseFacts MaskFacts HeaderFacts FrameFacts CodecFacts ScriptFacts
  Machine FramedFacts AsyncFacts Utf8Facts ThmFrames ThmStream SessionFacts RecvFacts MessageFacts
  TextFacts MapFacts ExTac ThmMessages ThmFlow ThmLimits ThmServer ThmHttp ThmConnect ThmInterop ThmSession
  ThmEcho ThmWake ThmAsyncEcho ThmChat ThmSuite ThmTalk ThmAsyncChat.
Import ListNotations.
Local Open Scope string_scope.
Local Open Scope list_scope.
Local Open Scope N_scope.

(** ** The sinks *)
Definition pend (w : fwrite) : bytes := bm_data (fw_buf w).
Definition sink (r k : nat) (w : fwrite) : Prop := fw_fs w = [] /\ fw_ws w = writable r k.
Definition frames (server : bool) (l : list (owned * mkey)) : bytes := encs (masked_frames (negb server) l).

Lemma flush_room : forall r k data out, 
  flush_go (writable r (S k)) data out =
  if (length data <=? r)%nat then (None, [], out ++ data, writable (r - length data) (S k))
  else (Some SNotReady, skipn r data, out ++ firstn r data, repeat AwNotReady k).
Proof.
  unfold writable. induction r as [|r IH]; intros k data out; destruct data as [|b data]; cbn [repeat app length Nat.leb Nat.sub flush_go skipn firstn];
    rewrite ?app_nil_r; try reflexivity.
  change (0 + 1) with 1. replace (drop 1 (b :: data)) with data by (rewrite drop_skipn; reflexivity).
  replace (take 1 (b :: data)) with [b] by (rewrite take_firstn; reflexivity).
  specialize (IH k). cbn [repeat] in IH. rewrite IH, <- !app_assoc. reflexivity.
Qed.

Lemma flush_sink : forall r k w x w', sink r (S k) w -> poll_complete w = (x, w') ->
  exists d r' k', sink r' k' w' /\ (k <= k')%nat /\ fw_out w' = fw_out w ++ d /\ pend w = d ++ pend w' /\ r = (length d + r')%nat /\
  (x = SReady /\ pend w' = [] \/ x = SNotReady /\ r' = O /\ pend w' <> []) /\
  (d = [] -> bm_cap (fw_buf w') = bm_cap (fw_buf w)).
Proof.
  intros r k w x w' [H1 H2] H. unfold poll_complete in H. rewrite H1, H2, flush_room in H. unfold pend, sink.
  set (data := bm_data (fw_buf w)) in *. destruct (Nat.leb_spec (length data) r) as [HL|HL]; injection H as <- <-;
    cbn [fw_out fw_buf bm_data bm_cap fw_ws fw_fs].
  - exists data, (r - length data)%nat, (S k). repeat (split; [auto; lia|]). split; [rewrite app_nil_r; reflexivity|].
    split; [lia|]. split; [auto|]. intros E. rewrite E. unfold llen. cbn. lia.
  - exists (firstn r data), O, k. split; [auto|]. split; [auto|]. split; [auto|]. split; [symmetry; apply firstn_skipn|].
    split; [rewrite firstn_length_le; lia|]. split.
    + right. split; [reflexivity|]. split; [reflexivity|]. intros E. apply (f_equal (@length byte)) in E. rewrite skipn_length in E. cbn in E. lia.
    + intros E. assert (r = O) as -> by (apply (f_equal (@length byte)) in E; rewrite firstn_length_le in E by lia; exact E).
      cbn [skipn]. lia.
Qed.

Lemma afails_sink : forall r k w, sink r k w -> afails_never w.
Proof.
  intros r k w [H1 H2]. unfold afails_never. rewrite H1, H2. unfold writable. split; [|constructor].
  apply Forall_app. split; apply Forall_forall; intros x Hx; apply repeat_spec in Hx; subst; exact I.
Qed.

Lemma send_sink : forall server m key extra r k w x w', sendable big m -> sink r (S k) w ->
  start_send server (owned_ops m) key extra w = (x, w') ->
  exists d r' k', sink r' k' w' /\ (k <= k')%nat /\ fw_out w' = fw_out w ++ d /\ r = (length d + r')%nat /\
  (x = SReady /\ pend w ++ frames server [(m, key)] = d ++ pend w' \/
   x = SNotReady /\ pend w = d ++ pend w' /\ r' = O /\ 8192 <= llen (pend w') /\ (d = [] -> bm_cap (fw_buf w') = bm_cap (fw_buf w))).
Proof.
  intros server m key extra r k w x w' HS HW H. apply big_sendable in HS. destruct HS as (Ht & Hs & Hc).
  pose proof (owned_sendable m Ht Hc) as HO. pose proof (proj2 (proj2 library_frames_honest_proof) m) as HH.
  assert (forall v, exists b, (let v := v in match codec_encode server (owned_ops m) key extra (fw_buf v) with
    | (Ok _, b) => (SReady, mk_fw b (fw_out v) (fw_ws v) (fw_fs v))
    | (Err e, b) => (SErr e, mk_fw b (fw_out v) (fw_ws v) (fw_fs v))
    | (_, b) => (SErr (OtherError "panic"), mk_fw b (fw_out v) (fw_ws v) (fw_fs v))
    end) = (SReady, mk_fw b (fw_out v) (fw_ws v) (fw_fs v)) /\ bm_data b = pend v ++ frames server [(m, key)]) as HE.
  { intros v. destruct (encode_good server (owned_ops m) key extra (fw_buf v) HH HO) as (wire & dst & E1 & E2 & E3).
    cbv zeta. rewrite E1. exists dst. split; [reflexivity|]. rewrite E2. unfold pend. f_equal.
    unfold frames, masked_frames. cbn [map fst snd]. rewrite encs_cons. cbn [encs map concat fst snd]. rewrite app_nil_r.
    pose proof (frame_bytes_ok (owned_ops m) (if server then None else Some key) HO (proj2 HH)) as E4.
    match type of E4 with _ = Ok ?x => assert (wire = x) as E5 by congruence end. rewrite E5. clear E5. apply octets_inj.
    etransitivity; [apply frame_bytes_rfc_gen; [apply HO|rewrite (proj1 HH); reflexivity]|].
    rewrite owned_rfc by exact Ht. destruct server; cbn [negb]; symmetry; apply enc_rfc. }
  cbv zeta in HE.
  assert (forall r1 k1 v, sink r1 k1 v -> 
     match codec_encode server (owned_ops m) key extra (fw_buf v) with
    | (Ok _, b) => (SReady, mk_fw b (fw_out v) (fw_ws v) (fw_fs v))
    | (Err e, b) => (SErr e, mk_fw b (fw_out v) (fw_ws v) (fw_fs v))
    | (_, b) => (SErr (OtherError "panic"), mk_fw b (fw_out v) (fw_ws v) (fw_fs v))
    end = (x, w') -> sink r1 k1 w' /\ x = SReady /\ fw_out w' = fw_out v /\ pend w' = pend v ++ frames server [(m, key)]) as HE'.
  { intros r1 k1 v [S1 S2] E. destruct (HE v) as (b & B1 & B2). rewrite B1 in E. injection E as <- <-. split; [split; assumption|]. auto. }
  clear HE. unfold start_send in H. destruct (BACKPRESSURE <=? llen (bm_data (fw_buf w))).
  - destruct (poll_complete w) as [y w1] eqn:EP. pose proof (flush_sink _ _ _ _ _ HW EP) as (d & r' & k' & F1 & F2 & F3 & F4 & F5 & F6 & F7).
    assert ((if BACKPRESSURE <=? llen (bm_data (fw_buf w1)) then (SNotReady, w1) else
       match codec_encode server (owned_ops m) key extra (fw_buf w1) with
    | (Ok _, b) => (SReady, mk_fw b (fw_out w1) (fw_ws w1) (fw_fs w1))
    | (Err e, b) => (SErr e, mk_fw b (fw_out w1) (fw_ws w1) (fw_fs w1))
    | (_, b) => (SErr (OtherError "panic"), mk_fw b (fw_out w1) (fw_ws w1) (fw_fs w1))
    end) = (x, w')) as H'.
    { destruct F6 as [[-> _]|[-> _]]; exact H. }
    clear H. destruct (N.leb_spec BACKPRESSURE (llen (bm_data (fw_buf w1)))) as [HL|HL].
    + injection H' as <- <-. exists d, r', k'. repeat (split; [assumption|]). right. split; [reflexivity|]. split; [exact F4|].
      destruct F6 as [[_ F6]|(_ & F6 & _)].
      * unfold pend in F6. rewrite F6 in HL. unfold llen, BACKPRESSURE in HL. cbn in HL. lia.
      * split; [exact F6|]. split; [exact HL|exact F7].
    + apply (HE' _ _ _ F1) in H' as (G1 & G2 & G3 & G4). exists d, r', k'. split; [exact G1|]. split; [exact F2|]. split; [congruence|]. split; [exact F5|].
      left. split; [exact G2|]. rewrite G4, F4, app_assoc. reflexivity.
  - apply (HE' _ _ _ HW) in H as (G1 & G2 & G3 & G4). exists [], r, (S k). split; [exact G1|]. split; [lia|]. rewrite app_nil_r. split; [exact G3|].
    split; [reflexivity|]. left. split; [exact G2|]. symmetry. exact G4.
Qed.

(** ** The streams *)
Definition acodec (server : bool) : msg_codec :=
  if server then msg_codec_with_limits CtxServer SERVER_MAX_DATAFRAME_SIZE SERVER_MAX_MESSAGE_SIZE else msg_codec_new CtxClient.
(** The end that reads on its own: no message is complete in [b]. *)
Definition partial (server : bool) (b : bytes) : Prop := mc_decode (acodec server) b = (Ok None, acodec server, b).
(** What is on its way to the end [server], and what it will make of it. *)
Definition apipe (server : bool) (f : framed msg_codec) (s : list aev) (q : bytes) (l : list (owned * mkey)) : Prop :=
  fr_st f = acodec server /\ fr_inv mc_decode f /\
  fr_buf f ++ aev_bytes s ++ q = frames (negb server) l /\ Forall (sendable big) (map fst l).
Definition all_data (s : list aev) : Prop := Forall (fun e => is_adata e = true) s.
Definition no_error (s : list aev) : Prop := Forall (fun e => match e with AErr _ => False | _ => True end) s.

Lemma frames_cons : forall server m k l, frames server ((m, k) :: l) = frames server [(m, k)] ++ frames server l.
Proof.
  intros. unfold frames, masked_frames. cbn [map]. rewrite !encs_cons. cbn [encs map concat]. rewrite app_nil_r. reflexivity.
Qed.
Lemma frames_app : forall server a b, frames server (a ++ b) = frames server a ++ frames server b.
Proof. intros server a b. unfold frames, masked_frames. rewrite map_app, encs_app. reflexivity. Qed.
Lemma frame_length : forall server m k, let n := length (frames server [(m, k)]) in
  (length (payload_of m) + (if server then 2 else 6) <= n <= length (payload_of m) + (if server then 10 else 14))%nat.
Proof.
  intros server m k n. subst n. unfold frames, masked_frames. cbn [map]. rewrite encs_cons. cbn [encs map concat fst snd]. rewrite app_nil_r.
  pose proof (enc_length m k (negb server)) as H. cbv zeta in H. destruct server; exact H.
Qed.

Lemma decode_whole : forall server m k rest, sendable big m ->
  mc_decode (acodec server) (frames (negb server) [(m, k)] ++ rest) = (Ok (Some m), acodec server, rest).
Proof.
  intros server m k rest HS. rewrite mc_decode_mcl, mcl_eq. unfold frames, masked_frames. rewrite negb_involutive. cbn [map].
  rewrite encs_cons. cbn [encs map concat fst snd]. rewrite app_nil_r.
  rewrite df_decode_enc.
  - assert (mc_buffer (acodec server) = []) as -> by (destruct server; reflexivity).
    rewrite (step_whole big) by exact HS. cbn [some_owned rbind]. destruct server; reflexivity.
  - apply (sendable_frame_ok big); [reflexivity|exact HS].
  - replace (dc_max (mc_df (acodec server))) with big by (destruct server; reflexivity). apply HS.
  - destruct server; reflexivity.
Qed.
Lemma decode_part : forall server m k l x, sendable big m -> frames (negb server) [(m, k)] = l ++ x -> x <> [] -> partial server l.
Proof.
  intros server m k l x HS H Hx. unfold partial. rewrite mc_decode_mcl. apply mcl_quiet.
  unfold frames, masked_frames in H. rewrite negb_involutive in H. cbn [map] in H.
  rewrite encs_cons in H. cbn [encs map concat fst snd] in H. rewrite app_nil_r in H.
  assert (frame_ok (whole_frame m)) as Hok by (apply (sendable_frame_ok big); [reflexivity|exact HS]).
  assert (llen (f_data (whole_frame m)) <= dc_max (mc_df (acodec server))) as Hl.
  { replace (dc_max (mc_df (acodec server))) with big by (destruct server; reflexivity). apply HS. }
  destruct (parse_prefix _ _ _ _ _ Hok Hl H Hx) as [r HP].
  apply decode_of_parse_nodata with (r := r). destruct server; exact HP.
Qed.
Lemma partial_nil : forall server, partial server [].
Proof. intros []; reflexivity. Qed.

Lemma buf_cases : forall server b rest l, b ++ rest = frames (negb server) l -> Forall (sendable big) (map fst l) ->
  (exists m k l' x, l = (m, k) :: l' /\ sendable big m /\ b = frames (negb server) [(m, k)] ++ x /\ x ++ rest = frames (negb server) l') \/
  (partial server b /\ (l = [] \/ rest <> [])).
Proof.
  intros server b rest l H HS. destruct l as [|[m k] l].
  - apply app_eq_nil in H as [-> _]. right. split; [apply partial_nil|left; reflexivity].
  - cbn [map fst] in HS. inversion HS as [|? ? S1 S2]; subst. rewrite frames_cons in H.
    apply app_eq_app in H as (x & [[E1 E2]|[E1 E2]]).
    + left. exists m, k, l, x. auto.
    + destruct x as [|c x].
      * left. exists m, k, l, []. rewrite app_nil_r in E1. rewrite app_nil_r. cbn [app] in *. auto.
      * right. split; [eapply decode_part; [exact S1|exact E1|discriminate]|]. right. rewrite E2. discriminate.
Qed.

Lemma apipe_poll : forall server s f q l, apipe server f s q l -> no_error s ->
  match framed_poll mc_decode s f with
  | (PItem m, f', s') => exists k l' used, l = (m, k) :: l' /\ sendable big m /\ apipe server f' s' q l' /\ s = used ++ s' /\ all_data used /\
      (length (fr_buf f) + length (aev_bytes s) = length (frames (negb server) [(m, k)]) + length (fr_buf f') + length (aev_bytes s'))%nat
  | (PNotReady, f', s') => exists used, apipe server f' s' q l /\ s = used ++ ANotReady :: s' /\ all_data used /\
      partial server (fr_buf f') /\ fr_buf f' = fr_buf f ++ aev_bytes used
  | (PEnd, _, _) => all_data s /\ (q = [] -> l = [])
  | (PErr e, _, _) => all_data s /\ q <> []
  | _ => False
  end.
Proof.
  intros server. induction s as [|ev s IH]; intros f q l (P1 & P2 & P3 & P4) HE;
    pose proof (framed_decode_cases _ _ mc_decode mc_total f P2) as HD; rewrite P1 in HD;
    (destruct (buf_cases server _ _ _ P3 P4) as [(m & k & l' & x & -> & B0 & B1 & B2)|[B1 B2]];
      [rewrite B1, (decode_whole server m k x B0) in HD|unfold partial in B1; rewrite B1 in HD]);
    cbn [framed_poll]; rewrite HD; clear HD.
  - exists k, l', []. split; [reflexivity|]. split; [exact B0|]. split.
    + split; [reflexivity|]. split; [split; [reflexivity|discriminate]|]. split; [exact B2|]. inversion P4; assumption.
    + split; [reflexivity|]. split; [constructor|]. rewrite B1, app_length. cbn [fr_buf aev_bytes length]. lia.
  - cbn [fr_eof fr_st fr_buf]. unfold framed_decode. cbn [fr_readable fr_st fr_buf fr_eof]. rewrite B1.
    destruct (fr_buf f) as [|b bs] eqn:Eb.
    + split; [constructor|]. intros ->. destruct B2 as [B2|B2]; [exact B2|]. contradiction B2. reflexivity.
    + split; [constructor|]. destruct B2 as [->|B2]; [discriminate P3|exact B2].
  - exists k, l', []. split; [reflexivity|]. split; [exact B0|]. split.
    + split; [reflexivity|]. split; [split; [reflexivity|discriminate]|]. split; [exact B2|]. inversion P4; assumption.
    + split; [reflexivity|]. split; [constructor|]. rewrite B1, app_length. cbn [fr_buf]. lia.
  - cbn [fr_eof fr_st fr_buf]. inversion HE as [|? ? E1 E2]; subst. destruct ev as [b bs| |k]; [| |contradiction E1].
    + assert (apipe server (mk_framed (acodec server) (fr_buf f ++ b :: bs) true false) s q l) as HA.
      { split; [reflexivity|]. split; [split; [reflexivity|discriminate]|]. split; [|exact P4].
        cbn [fr_buf]. rewrite <- P3. cbn [aev_bytes app]. rewrite <- !app_assoc. reflexivity. }
      specialize (IH _ _ _ HA E2).
      destruct (framed_poll mc_decode s (mk_framed (acodec server) (fr_buf f ++ b :: bs) true false)) as [[[m| | |e| |] f'] s']; try exact IH.
      * destruct IH as (k & l' & used & I1 & I2 & I3 & I4 & I5 & I6). exists k, l', (AData b bs :: used).
        split; [exact I1|]. split; [exact I2|]. split; [exact I3|]. split; [rewrite I4; reflexivity|]. split; [constructor; [reflexivity|exact I5]|].
        cbn [fr_buf] in I6. rewrite app_length in I6. cbn [aev_bytes length] in *. rewrite app_length. lia.
      * destruct IH as (I1 & I2). split; [constructor; [reflexivity|exact I1]|exact I2].
      * destruct IH as (used & I1 & I2 & I3 & I4 & I5). exists (AData b bs :: used). split; [exact I1|]. split; [rewrite I2; reflexivity|].
        split; [constructor; [reflexivity|exact I3]|]. split; [exact I4|]. rewrite I5. cbn [fr_buf aev_bytes]. rewrite <- app_assoc. reflexivity.
      * destruct IH as (I1 & I2). split; [constructor; [reflexivity|exact I1]|exact I2].
    + exists []. split; [|split; [reflexivity|split; [constructor|split; [exact B1|cbn [fr_buf aev_bytes]; rewrite app_nil_r; reflexivity]]]].
      split; [reflexivity|]. split; [split; [reflexivity|intros _; exact B1]|]. split; [exact P3|exact P4].
Qed.

(** ** The client *)
Lemma all_data_no_error : forall s, all_data s -> no_error s.
Proof. intros s H. eapply Forall_impl; [|exact H]. intros [b bs| |k] E; try exact I. discriminate E. Qed.
Lemma filter_all_data : forall s, all_data s -> filter is_adata s = s.
Proof. induction s as [|e s IH]; intros H; [reflexivity|]. inversion H as [|? ? H1 H2]; subst. cbn [filter]. rewrite H1, IH by exact H2. reflexivity. Qed.
Lemma filter_waits : forall n, filter is_adata (repeat ANotReady n) = [].
Proof. induction n as [|n IH]; [reflexivity|exact IH]. Qed.
Lemma filter_data : forall s, all_data (filter is_adata s).
Proof. intros s. apply Forall_forall. intros e H. apply filter_In in H as [_ H]. exact H. Qed.
Lemma aev_app : forall a b, aev_bytes (a ++ b) = aev_bytes a ++ aev_bytes b.
Proof. induction a as [|[b0 bs| |k] a IH]; intros b; cbn [app aev_bytes]; rewrite ?IH; try reflexivity. rewrite <- app_assoc. reflexivity. Qed.
Lemma aev_filter : forall s, aev_bytes (filter is_adata s) = aev_bytes s.
Proof. induction s as [|[b0 bs| |k] s IH]; cbn [filter is_adata aev_bytes]; rewrite ?IH; reflexivity. Qed.
Lemma aev_none : forall s, all_data s -> aev_bytes s = [] -> s = [].
Proof. intros [|[b bs| |k] s] H E; [reflexivity|discriminate E| |]; inversion H; discriminate. Qed.
Lemma waits_split : forall D n used s, all_data D -> all_data used -> D ++ repeat ANotReady n = used ++ ANotReady :: s ->
  used = D /\ s = repeat ANotReady (pred n) /\ n <> O.
Proof.
  induction D as [|e D IH]; intros n used s HD HU H.
  - cbn [app] in H. destruct used as [|u used].
    + cbn [app] in H. destruct n as [|n]; [discriminate H|]. cbn [repeat] in H. injection H as <-. auto.
    + destruct n as [|n]; [discriminate H|]. cbn [repeat app] in H. injection H as <- _. inversion HU. discriminate.
  - inversion HD as [|? ? D1 D2]; subst. destruct used as [|u used]; cbn [app] in H.
    + injection H as -> _. discriminate D1.
    + injection H as -> H. inversion HU as [|? ? U1 U2]; subst. destruct (IH _ _ _ D2 U2 H) as (-> & A & B). auto.
Qed.
Lemma no_error_waits : forall D n, all_data D -> no_error (D ++ repeat ANotReady n).
Proof. intros D n H. apply Forall_app. split; [apply all_data_no_error; exact H|]. apply Forall_forall. intros x Hx. apply repeat_spec in Hx. subst. exact I. Qed.

Definition no_ping (p : owned * mkey) : Prop := is_ping (fst p) = false.
(** [eof]: the stream ends after what has arrived. *)
Definition script (eof : bool) (n : nat) (s : list aev) : Prop :=
  exists D, all_data D /\ s = D ++ if eof then [] else repeat ANotReady n.
Lemma script_no_error : forall eof n s, script eof n s -> no_error s.
Proof. intros [] n s (D & H & ->); [rewrite app_nil_r; apply all_data_no_error; exact H|apply no_error_waits; exact H]. Qed.
Lemma script_skip : forall eof n used s, script eof n (used ++ s) -> all_data used ->
  script eof n s.
Proof.
  intros eof n. induction used as [|u used IH]; intros s H HU; [exact H|]. inversion HU as [|? ? U1 U2]; subst.
  apply IH; [|exact U2]. destruct H as ([|e D] & HD & E).
  - cbn [app] in E. destruct eof; [discriminate E|]. destruct n as [|n]; [discriminate E|]. cbn [repeat] in E. injection E as -> _. discriminate U1.
  - cbn [app] in E. injection E as _ E. exists D. inversion HD. auto.
Qed.

Lemma script_data : forall n s, script false (S n) s -> ~ all_data s.
Proof.
  intros n s (D & HD & ->) H. apply Forall_app in H as [_ H]. cbn [repeat] in H. inversion H. discriminate.
Qed.
Lemma script_wait : forall eof n used s, script eof n (used ++ ANotReady :: s) -> all_data used ->
  eof = false /\ s = repeat ANotReady (pred n) /\ n <> O.
Proof.
  intros eof n used s (D & HD & E) HU. destruct eof.
  - rewrite app_nil_r in E. rewrite <- E in HD. apply Forall_app in HD as [_ HD]. inversion HD. discriminate.
  - symmetry in E. destruct (waits_split _ _ _ _ HD HU E) as (_ & A & B). auto.
Qed.

Lemma answered_pipe : forall fuel eof n s f q l, apipe false f s q l -> script eof n s -> (eof = true -> q = []) -> (eof = false -> n <> O) ->
  Forall no_ping l -> (weight s f < fuel)%nat ->
  exists l1 l2 f' s', l = l1 ++ l2 /\
  (eof = false /\ answered_poll AsyncClient fuel s f = (PNotReady, f', s', map fst l1) /\ apipe false f' s' q l2 /\
     s' = repeat ANotReady (pred n) /\ partial false (fr_buf f') /\
     ((filter is_adata s = [] /\ fr_buf f' = fr_buf f) \/ (length (fr_buf f') < 2 * length (aev_bytes s) + length (fr_buf f))%nat)
   \/ eof = true /\ answered_poll AsyncClient fuel s f = (PEnd, f', s', map fst l1) /\ l2 = []).
Proof.
  induction fuel as [|fuel IH]; intros eof n s f q l HA HS Hq Hn HP Hf; [lia|]. cbn [answered_poll].
  pose proof (apipe_poll _ _ _ _ _ HA (script_no_error _ _ _ HS)) as H1.
  pose proof (framed_poll_spec _ _ mc_decode mc_some mc_none mc_total s f (proj1 (proj2 HA))) as H2.
  destruct (framed_poll mc_decode s f) as [[[m| | |e| |] f'] s']; try contradiction.
  - destruct H1 as (k & l' & used & -> & S1 & A' & -> & U & HB). destruct H2 as (_ & _ & H2).
    fold (weight s' f') (weight (used ++ s') f) in H2. inversion HP as [|? ? P1 P2]; subst.
    assert (reply AsyncClient m = None) as -> by (destruct m; try reflexivity; discriminate P1).
    destruct (IH eof n s' f' q l' A' (script_skip _ _ _ _ HS U) Hq Hn P2 ltac:(lia)) as (l1 & l2 & f2 & s2 & -> & R).
    exists ((m, k) :: l1), l2, f2, s2. split; [reflexivity|].
    pose proof (frame_length (negb false) m k) as HL. cbv zeta in HL. cbn [negb] in HL, HB.
    destruct R as [(-> & -> & R1 & R2 & R3 & R4)|(-> & -> & R)]; [left|right; auto].
    split; [reflexivity|]. split; [reflexivity|]. split; [exact R1|]. split; [exact R2|]. split; [exact R3|]. right.
    rewrite aev_app, app_length in *. destruct R4 as [[_ R4]|R4]; [rewrite R4|]; lia.
  - destruct H1 as [H1 H3]. destruct eof.
    + exists l, [], f', s'. split; [rewrite app_nil_r; reflexivity|]. right. rewrite (H3 (Hq eq_refl)). auto.
    + destruct n as [|n]; [destruct (Hn eq_refl); reflexivity|]. destruct (script_data _ _ HS H1).
  - destruct H1 as (used & A' & -> & U & B1 & B2). destruct (script_wait _ _ _ _ HS U) as (-> & -> & _).
    exists [], l, f', (repeat ANotReady (pred n)). split; [reflexivity|]. left. split; [reflexivity|]. split; [reflexivity|]. split; [exact A'|].
    split; [reflexivity|]. split; [exact B1|]. rewrite B2, filter_app, (filter_all_data _ U), aev_app, !app_length.
    change (ANotReady :: repeat ANotReady (pred n)) with (repeat ANotReady (S (pred n))). rewrite filter_waits, app_nil_r.
    destruct used as [|[b bs| |k] used]; [left|right|inversion U; discriminate|inversion U; discriminate].
    + cbn [aev_bytes]. rewrite app_nil_r. auto.
    + cbn [aev_bytes length]. rewrite app_length. lia.
  - destruct H1 as [H1 H3]. destruct eof; [contradiction H3; auto|].
    destruct n as [|n]; [destruct (Hn eq_refl); reflexivity|]. destruct (script_data _ _ HS H1).
Qed.

(** What matters of the client's state; and the work it stands for. *)
Definition ccore (c : achat) :=
  (at_user c, at_over c, at_udone c, at_hold c, pend (at_out c), fw_out (at_out c),
   if at_rdone c then None else Some (filter is_adata (at_in c), fr_buf (at_read c))).
Definition user_work (us : list uev) : nat :=
  fold_right (fun u n => (match u with Typed t => 11 * (length t + 14) + 2 | Idle => 0 end + n)%nat) 0%nat us.
Definition read_work (c : achat) : nat := if at_rdone c then 0 else S (2 * length (aev_bytes (at_in c)) + length (fr_buf (at_read c))).
Definition hold_work (h : option owned) : nat := match h with Some m => S (11 * (length (payload_of m) + 14)) | None => 0 end.
Definition cwork (c : achat) : nat :=
  (user_work (at_user c) + hold_work (at_hold c) + 11 * length (pend (at_out c)) + 10 * length (fw_out (at_out c)) +
   read_work c + if at_udone c then 0 else 1)%nat.
Lemma core_work : forall c c', ccore c' = ccore c -> cwork c' = cwork c.
Proof.
  intros c c' H. unfold ccore in H. injection H as H1 H2 H3 H4 H5 H6 H7. unfold cwork, read_work. rewrite H1, H3, H4, H5, H6.
  destruct (at_rdone c'), (at_rdone c); try discriminate H7; [reflexivity|]. injection H7 as H7 H8.
  rewrite H8, <- (aev_filter (at_in c')), H7, aev_filter. reflexivity.
Qed.
Definition shrinks (c c' : achat) : Prop := (cwork c' < cwork c)%nat \/ ccore c' = ccore c.
Lemma shrinks_trans : forall a b c, shrinks a b -> shrinks b c -> shrinks a c.
Proof.
  intros a b c [H|H] [K|K].
  - left. lia.
  - left. apply core_work in K. lia.
  - left. apply core_work in H. lia.
  - right. congruence.
Qed.
Lemma shrinks_refl : forall c, shrinks c c.
Proof. intros c. right. reflexivity. Qed.

(** The stream of the client. *)
Definition cread (eof : bool) (c : achat) (q : bytes) (l : list (owned * mkey)) (n : nat) : Prop :=
  (eof = true -> q = []) /\
  (at_rdone c = false /\ apipe false (at_read c) (at_in c) q l /\ script eof n (at_in c) \/ eof = true /\ at_rdone c = true /\ l = []).
Definition with_read (f : framed msg_codec) (s : list aev) (rd : bool) (sh : list owned) (c : achat) : achat :=
  mk_achat (at_prog c) f s rd (at_user c) (at_over c) (at_udone c) (at_flag c) (at_hold c) (at_out c) (at_keys c) sh.
Definition read_out (eof : bool) (c : achat) : Prop :=
  if eof then at_rdone c = true else at_rdone c = false /\ filter is_adata (at_in c) = [] /\ partial false (fr_buf (at_read c)).

Lemma stream_pipe : forall eof c q l n, at_prog c = AsyncClient -> cread eof c q l n -> (eof = false -> n <> O) -> Forall no_ping l ->
  exists l1 l2 f s rd, l = l1 ++ l2 /\
  stream_side c = (if eof then PEnd else PNotReady, with_read f s rd (at_shown c ++ map fst l1) c) /\
  cread eof (with_read f s rd (at_shown c ++ map fst l1) c) q l2 (pred n) /\
  read_out eof (with_read f s rd (at_shown c ++ map fst l1) c) /\ shrinks c (with_read f s rd (at_shown c ++ map fst l1) c).
Proof.
  intros eof c q l n Hp (Hq & [(R1 & R2 & R3)|(-> & R1 & ->)]) Hn HP.
  - destruct (answered_pipe (S (length (fr_buf (at_read c)) + length (aev_bytes (at_in c)) + length (at_in c))) eof n (at_in c) (at_read c) q l R2 R3 Hq Hn HP ltac:(unfold weight; lia))
      as (l1 & l2 & f & s & -> & [(-> & E & A1 & A2 & A3 & A4)|(-> & E & ->)]).
    + exists l1, l2, f, s, false. split; [reflexivity|]. unfold stream_side. rewrite R1, Hp, E.
      split; [unfold with_read; rewrite Hp; reflexivity|]. split; [split; [exact Hq|left; split; [reflexivity|split; [exact A1|]]]|].
      * exists []. split; [constructor|]. exact A2.
      * split; [split; [reflexivity|split; [cbn [with_read at_in]; rewrite A2; apply filter_waits|exact A3]]|].
        assert (filter is_adata s = []) as F by (rewrite A2; apply filter_waits).
        assert (aev_bytes s = []) as F2 by (rewrite <- aev_filter, F; reflexivity).
        destruct A4 as [[A4 A5]|A4]; [right|left].
        -- unfold ccore. cbn [with_read at_user at_over at_udone at_hold at_out at_rdone at_in at_read]. rewrite R1, F, A4, A5. reflexivity.
        -- unfold cwork, read_work. cbn [with_read at_user at_over at_udone at_hold at_out at_rdone at_in at_read]. rewrite R1, F2. cbn [length]. lia.
    + exists l1, [], f, s, true. split; [reflexivity|]. unfold stream_side. rewrite R1, Hp, E.
      split; [unfold with_read; rewrite Hp; reflexivity|]. split; [split; [exact Hq|right; auto]|].
      split; [reflexivity|]. left. unfold cwork, read_work. cbn [with_read at_user at_over at_udone at_hold at_out at_rdone at_in at_read]. rewrite R1. lia.
  - exists [], [], (at_read c), (at_in c), true. split; [reflexivity|]. unfold stream_side. rewrite R1.
    assert (c = with_read (at_read c) (at_in c) true (at_shown c ++ map fst (@nil (owned * mkey))) c) as E.
    { cbn [map]. rewrite app_nil_r. unfold with_read. rewrite <- R1. destruct c. reflexivity. }
    rewrite <- E. split; [reflexivity|]. split; [split; [exact Hq|right; auto]|]. split; [exact R1|apply shrinks_refl].
Qed.

Definition with_user (us : list uev) (over done : bool) (c : achat) : achat :=
  mk_achat (at_prog c) (at_read c) (at_in c) (at_rdone c) us over done (at_flag c) (at_hold c) (at_out c) (at_keys c) (at_shown c).
(** What has been typed. *)
Definition typing (c : achat) (us : list bytes) : Prop :=
  at_user c = map Typed us /\ (us <> [] -> at_over c = false) /\ (at_over c = false -> at_udone c = false).
Lemma user_pipe : forall c us, typing c us ->
  user_side c =
  match us with
  | t :: us' => (PItem (typed_as t), with_user (map Typed us') (beqb t (str "/close")) false c)
  | [] => if at_over c then (PEnd, with_user [] true true c) else (PNotReady, c)
  end.
Proof.
  intros c us (H1 & H2 & H3). unfold user_side. rewrite H1. destruct us as [|t us]; cbn [map].
  - destruct (at_over c) eqn:Eo.
    + destruct (at_udone c) eqn:Ed; [|reflexivity]. f_equal. destruct c; cbn in *; subst; reflexivity.
    + rewrite (H3 eq_refl). reflexivity.
  - specialize (H2 ltac:(discriminate)). rewrite (H3 H2), H2, line_message_eq. reflexivity.
Qed.

(** One poll of [select]. *)
Lemma select_pipe : forall eof c us q l n, at_prog c = AsyncClient -> typing c us -> cread eof c q l n -> (eof = false -> n <> O) -> Forall no_ping l ->
  exists c1 l1 l2 n1, l = l1 ++ l2 /\ at_shown c1 = at_shown c ++ map fst l1 /\ cread eof c1 q l2 n1 /\ (n <= S n1)%nat /\
  at_prog c1 = AsyncClient /\ at_hold c1 = at_hold c /\ at_out c1 = at_out c /\ at_keys c1 = at_keys c /\
  match us with
  | t :: us' => select_poll c = (PItem (typed_as t), c1) /\ at_user c1 = map Typed us' /\ at_over c1 = beqb t (str "/close") /\ at_udone c1 = false /\
      (cwork c1 + (11 * (length t + 14) + 2) <= cwork c)%nat
  | [] => at_user c1 = [] /\ at_over c1 = at_over c /\ (at_over c = false -> at_udone c1 = false) /\ read_out eof c1 /\ shrinks c c1 /\
      (select_poll c = (PNotReady, c1) /\ (eof = false \/ at_over c = false) \/
       select_poll c = (PEnd, c1) /\ eof = true /\ at_over c = true /\ at_udone c1 = true)
  end.
Proof.
  intros eof c us q l n Hp HT HR Hn HP.
  assert (forall t us' c0, us = t :: us' -> typing c0 us -> (cwork (with_user (map Typed us') (beqb t (str "/close")) false c0) + (11 * (length t + 14) + 2) <= cwork c0)%nat) as HW.
  { intros t us' c0 -> (H1 & H2 & H3). specialize (H3 (H2 ltac:(discriminate))). unfold cwork, read_work.
    cbn [with_user at_user at_hold at_out at_rdone at_in at_read at_udone]. rewrite H1, H3. cbn [map user_work fold_right]. fold (user_work (map Typed us')). lia. }
  unfold select_poll. destruct (at_flag c) eqn:Ef.
  - set (c0 := with_flag (negb true) c). assert (typing c0 us) as HT0 by exact HT. rewrite (user_pipe c0 us HT0). destruct us as [|t us'].
    + change (at_over c0) with (at_over c). destruct (at_over c) eqn:Eo.
      * set (c1 := with_user [] true true c0).
        destruct (stream_pipe eof c1 q l n Hp HR Hn HP) as (l1 & l2 & f & s & rd & -> & E & R1 & R2 & R3).
        rewrite E. set (c2 := with_read f s rd (at_shown c1 ++ map fst l1) c1) in *.
        assert (shrinks c c1) as S1.
        { destruct HT as (T1 & T2 & T3). unfold shrinks, cwork, ccore, read_work. subst c1 c0.
          cbn [with_user with_flag at_user at_over at_hold at_out at_rdone at_in at_read at_udone]. rewrite Eo, T1. cbn [map].
          destruct (at_udone c); [right|left]; [reflexivity|lia]. }
        pose proof (shrinks_trans _ _ _ S1 R3) as S2.
        assert (forall b, shrinks c (with_flag b c2)) as S3 by (intros b; exact S2).
        destruct eof.
        -- exists c2, l1, l2, (pred n). split; [reflexivity|]. split; [reflexivity|]. split; [exact R1|]. split; [lia|]. repeat (split; [assumption || reflexivity|]).
           split; [discriminate|]. split; [exact R2|]. split; [exact S2|]. right. auto.
        -- exists c2, l1, l2, (pred n). split; [reflexivity|]. split; [reflexivity|]. split; [exact R1|]. split; [lia|]. repeat (split; [assumption || reflexivity|]).
           split; [discriminate|]. split; [exact R2|]. split; [exact S2|]. left. auto.
      * destruct (stream_pipe eof c0 q l n Hp HR Hn HP) as (l1 & l2 & f & s & rd & -> & E & R1 & R2 & R3).
        rewrite E. set (c2 := with_read f s rd (at_shown c0 ++ map fst l1) c0) in *.
        assert (at_udone c = false) as Ed by (apply HT; exact Eo).
        assert (at_user c = []) as Eu by apply HT.
        exists c2, l1, l2, (pred n). split; [reflexivity|]. split; [reflexivity|]. split; [exact R1|]. split; [lia|]. repeat (split; [assumption || reflexivity|]).
        split; [intros _; exact Ed|]. split; [exact R2|]. split; [exact R3|]. left. split; [destruct eof; reflexivity|auto].
    + exists (with_user (map Typed us') (beqb t (str "/close")) false c0), [], l, n. split; [reflexivity|]. split; [cbn [map]; rewrite app_nil_r; reflexivity|].
      split; [exact HR|]. split; [lia|]. repeat (split; [assumption || reflexivity|]). exact (HW t us' c0 eq_refl HT0).
  - set (c0 := with_flag (negb false) c). assert (typing c0 us) as HT0 by exact HT.
    destruct (stream_pipe eof c0 q l n Hp HR Hn HP) as (l1 & l2 & f & s & rd & -> & E & R1 & R2 & R3).
    rewrite E. set (c2 := with_read f s rd (at_shown c0 ++ map fst l1) c0) in *.
    assert (typing c2 us) as HT2 by exact HT. destruct us as [|t us'].
    + assert (at_user c = []) as Eu by apply HT.
      assert (select_poll c = match (if eof then @PEnd owned else PNotReady) with PEnd => user_side c2 | _ => 
         match user_side c2 with (PItem m, c3) => (PItem m, with_flag false c3) | (PEnd, c3) => (PNotReady, c3) | r => r end end) as EQ.
      { unfold select_poll. rewrite Ef. fold c0. rewrite E. destruct eof; reflexivity. }
      unfold select_poll in EQ. rewrite Ef in EQ. fold c0 in EQ. rewrite E in EQ. rewrite EQ. clear EQ.
      rewrite (user_pipe c2 [] HT2). change (at_over c2) with (at_over c). destruct (at_over c) eqn:Eo.
      * set (c3 := with_user [] true true c2).
        assert (shrinks c2 c3) as S1.
        { unfold shrinks, cwork, ccore, read_work. subst c3 c2 c0.
          cbn [with_user with_read with_flag at_user at_over at_hold at_out at_rdone at_in at_read at_udone]. rewrite Eo, Eu.
          destruct (at_udone c); [right|left]; [reflexivity|lia]. }
        pose proof (shrinks_trans _ _ _ R3 S1) as S2.
        exists c3, l1, l2, (pred n). split; [reflexivity|]. split; [reflexivity|]. split; [exact R1|]. split; [lia|]. repeat (split; [assumption || reflexivity|]).
        split; [discriminate|]. split; [exact R2|]. split; [exact S2|]. destruct eof; [right|left]; auto.
      * assert (at_udone c = false) as Ed by (apply HT; exact Eo).
        exists c2, l1, l2, (pred n). split; [reflexivity|]. split; [reflexivity|]. split; [exact R1|]. split; [lia|]. repeat (split; [assumption || reflexivity|]).
        split; [intros _; exact Ed|]. split; [exact R2|]. split; [exact R3|]. left. split; [destruct eof; reflexivity|auto].
    + rewrite (user_pipe c2 (t :: us') HT2). set (c3 := with_user (map Typed us') (beqb t (str "/close")) false c2).
      assert (cwork c2 <= cwork c)%nat as W2.
      { destruct R3 as [R3|R3]; [change (cwork c0) with (cwork c) in R3; lia|apply core_work in R3; change (cwork c0) with (cwork c) in R3; lia]. }
      pose proof (HW t us' c2 eq_refl HT2) as W3. fold c3 in W3.
      exists (if eof then c3 else with_flag false c3), l1, l2, (pred n).
      split; [reflexivity|]. split; [destruct eof; reflexivity|]. split; [destruct eof; exact R1|]. split; [lia|].
      split; [destruct eof; exact Hp|]. split; [destruct eof; reflexivity|]. split; [destruct eof; reflexivity|]. split; [destruct eof; reflexivity|].
      split; [destruct eof; reflexivity|]. split; [destruct eof; reflexivity|]. split; [destruct eof; reflexivity|]. split; [destruct eof; reflexivity|].
      destruct eof; [|change (cwork (with_flag false c3)) with (cwork c3)]; lia.
Qed.

Definition unclosed (ts : list bytes) : Prop := Forall (fun t => t <> close_line) ts.
(** The client has shown [got]; of the lines typed it has taken [ts], not [us]; it has said [sent]. *)
Definition cabs (ks : nat -> mkey) (c : achat) (got : list (owned * mkey)) (ts us : list bytes) (sent : list owned) : Prop :=
  at_prog c = AsyncClient /\ at_shown c = map fst got /\ typing c us /\ map typed_as ts = sent ++ kept c /\
  (forall n, at_keys c n = ks (length sent + n)%nat) /\
  fw_out (at_out c) ++ pend (at_out c) = frames false (with_keys ks sent) /\
  Forall fit_line (ts ++ us) /\
  (at_over c = false -> unclosed ts) /\ (at_over c = true -> exists ts', ts = ts' ++ [close_line] /\ unclosed ts') /\
  (forall a b, us = a ++ close_line :: b -> b = []).
Definition cpost (eof : bool) (r : nat) (x : tpoll) (c : achat) : Prop :=
  match x with
  | TReady => eof = true /\ at_rdone c = true /\ at_over c = true /\ at_hold c = None /\ at_user c = [] /\ pend (at_out c) = []
  | TNotReady =>
      (at_hold c <> None /\ 8192 <= llen (pend (at_out c)) /\ r = O) \/
      (at_hold c = None /\ at_user c = [] /\ read_out eof c /\ (pend (at_out c) = [] \/ r = O) /\
       (eof = true -> at_over c = true -> pend (at_out c) <> []))
  | _ => False
  end.
Definition cdone (ks : nat -> mkey) (S0 : list (owned * mkey)) (T : list bytes) (q : bytes) (eof : bool) (R : nat) (c : achat) (x : tpoll) (c' : achat) : Prop :=
  exists got ungot ts us sent r k n, S0 = got ++ ungot /\ T = ts ++ us /\ cabs ks c' got ts us sent /\ cread eof c' q ungot n /\
    sink r k (at_out c') /\ (r + length (fw_out (at_out c')) = R)%nat /\ shrinks c c' /\ cpost eof r x c'.
Lemma cdone_shrinks : forall ks S0 T q eof R c c1 x c', cdone ks S0 T q eof R c1 x c' -> shrinks c c1 -> cdone ks S0 T q eof R c x c'.
Proof.
  intros ks S0 T q eof R c c1 x c' (got & ungot & ts & us & sent & r & k & n & A & B & C & D & E & F & G & H) HS.
  exists got, ungot, ts, us, sent, r, k, n. repeat (split; [assumption|]). split; [eapply shrinks_trans; eauto|exact H].
Qed.
(** After a flush. *)
Lemma flushed : forall c w d r r' k, sink r k (at_out c) -> at_hold c = None -> fw_out w = fw_out (at_out c) ++ d -> pend (at_out c) = d ++ pend w ->
  shrinks c (with_out None w c) /\ fw_out w ++ pend w = fw_out (at_out c) ++ pend (at_out c) /\
  (r = (length d + r')%nat -> (r' + length (fw_out w) = r + length (fw_out (at_out c)))%nat).
Proof.
  intros c w d r r' k HS HH H1 H2. split; [|split].
  - unfold shrinks, cwork, ccore, read_work. cbn [with_out at_user at_over at_udone at_hold at_out at_rdone at_in at_read].
    rewrite HH, H1, H2, !app_length. destruct d as [|b d]; [right|left].
    + cbn [app]. rewrite app_nil_r. reflexivity.
    + cbn [length]. lia.
  - rewrite H1, H2, app_assoc. reflexivity.
  - intros ->. rewrite H1, app_length. lia.
Qed.

Lemma over_app : forall c ts t (b : bool), (at_over c = false -> unclosed ts) -> at_over c = false -> b = beqb t (str "/close") ->
  (b = false -> unclosed (ts ++ [t])) /\ (b = true -> exists ts', ts ++ [t] = ts' ++ [close_line] /\ unclosed ts').
Proof.
  intros c ts t b H Ho ->. specialize (H Ho). split; intros E.
  - apply Forall_app. split; [exact H|]. constructor; [|constructor]. intros ->. discriminate E.
  - apply beqb_eq in E. subst t. exists ts. split; [reflexivity|exact H].
Qed.

Lemma loop_pipe : forall ks S0 T q eof R extra us fuel c got ungot ts sent r k n,
  S0 = got ++ ungot -> T = ts ++ us -> cabs ks c got ts us sent -> cread eof c q ungot n ->
  sink r k (at_out c) -> (r + length (fw_out (at_out c)) = R)%nat -> at_hold c = None -> Forall no_ping S0 ->
  (length us < fuel)%nat -> (length us < n)%nat -> (length us < k)%nat ->
  let '(x, c') := achat_loop fuel extra c in cdone ks S0 T q eof R c x c'.
Proof.
  intros ks S0 T q eof R extra. induction us as [|t us IH]; intros fuel c got ungot ts sent r k n -> ET HC HR HS Hr HH HP Hf Hn Hk;
    (destruct fuel as [|fuel]; [lia|]); cbn [achat_loop]; pose proof HC as (C1 & C2 & C3 & C4 & C5 & C6 & C7 & C8 & C9 & C10);
    (assert (Forall no_ping ungot) as HP2 by (apply Forall_app in HP; apply HP));
    destruct (select_pipe eof c _ q ungot n C1 C3 HR ltac:(intros _; lia) HP2)
      as (c1 & l1 & l2 & n1 & -> & D1 & D2 & D3 & D4 & D5 & D6 & D7 & D8).
  - destruct D8 as (U1 & U2 & U3 & U4 & U5 & U6). rewrite <- D6 in HS, Hr, C6.
    destruct (poll_complete (at_out c1)) as [y w] eqn:EP. destruct k as [|k]; [lia|].
    destruct (flush_sink _ _ _ _ _ HS EP) as (d & r' & k' & F1 & F2 & F3 & F4 & F5 & F6 & F7).
    rewrite HH in D5. destruct (flushed c1 w d r r' (S k) HS D5 F3 F4) as (G1 & G2 & G3). specialize (G3 F5).
    set (c2 := with_out None w c1) in *.
    assert (typing c2 []) as HT2.
    { split; [exact U1|]. split; [intros X; contradiction X; reflexivity|]. intros X. apply U3. cbn [with_out at_over] in X. rewrite <- U2. exact X. }
    assert (cabs ks c2 (got ++ l1) ts [] sent) as HC2.
    { unfold cabs. split; [exact D4|]. split; [unfold c2; cbn [with_out at_shown]; rewrite D1, C2, map_app; reflexivity|]. split; [exact HT2|].
      split; [unfold kept in *; rewrite HH in C4; exact C4|]. split; [unfold c2; cbn [with_out at_keys]; rewrite D7; exact C5|].
      split; [unfold c2; cbn [with_out at_out]; rewrite G2; exact C6|]. split; [exact C7|].
      unfold c2. cbn [with_out at_over]. rewrite U2. auto. }
    assert (forall x, cpost eof r' x c2 -> cdone ks (got ++ l1 ++ l2) T q eof R c x c2) as HD.
    { intros x HX. exists (got ++ l1), l2, ts, [], sent, r', k', n1. split; [apply app_assoc|]. split; [exact ET|]. split; [exact HC2|].
      split; [exact D2|]. split; [exact F1|]. split; [unfold c2; cbn [with_out at_out]; lia|]. split; [eapply shrinks_trans; [exact U5|exact G1]|exact HX]. }
    destruct U6 as [(E & U6)|(E & -> & U6 & U7)]; rewrite E, EP.
    + assert (pend w = [] \/ r' = O) as F9 by (destruct F6 as [[_ F6]|(_ & F6 & _)]; auto).
      assert (cpost eof r' TNotReady c2) as HX.
      { cbn [cpost]. right. split; [reflexivity|]. split; [exact U1|]. split; [exact U4|]. split; [exact F9|]. intros X Y. unfold c2 in Y. cbn [with_out at_over] in Y.
        rewrite U2 in Y. destruct U6; congruence. }
      destruct F6 as [[-> _]|[-> _]]; apply HD; exact HX.
    + destruct F6 as [[-> F6]|(-> & F6 & F8)]; apply HD; cbn [cpost].
      * split; [reflexivity|]. split; [exact U4|]. split; [unfold c2; cbn [with_out at_over]; congruence|]. split; [reflexivity|]. split; [exact U1|exact F6].
      * right. split; [reflexivity|]. split; [exact U1|]. split; [exact U4|]. split; [right; exact F6|]. intros _ _. exact F8.
  - destruct D8 as (U0 & U1 & U2 & U3 & U4). rewrite U0. rewrite HH in D5.
    assert (fit_line t) as Ft by (apply Forall_app in C7 as [_ C7]; inversion C7; assumption).
    pose proof (typed_as_sendable t Ft) as HSd. pose proof (typed_as_length t) as HLt.
    assert (at_over c = false) as Eo by (apply C3; discriminate).
    destruct (over_app c ts t (at_over c1) C8 Eo U2) as [O1 O2].
    assert (T = (ts ++ [t]) ++ us) as ET2 by (rewrite ET, <- app_assoc; reflexivity).
    assert (us <> [] -> at_over c1 = false) as O3.
    { intros X. destruct (at_over c1) eqn:Y; [|reflexivity]. symmetry in U2. apply beqb_eq in U2. subst t. contradiction X. apply (C10 [] us). reflexivity. }
    assert (forall a b, us = a ++ close_line :: b -> b = []) as O4 by (intros a b ->; apply (C10 (t :: a) b); reflexivity).
    rewrite <- D6 in HS, Hr, C6. destruct (start_send false (owned_ops (typed_as t)) (at_keys c1 O) extra (at_out c1)) as [y w] eqn:EP.
    destruct k as [|k]; [lia|].
    destruct (send_sink _ _ _ _ _ _ _ _ _ HSd HS EP) as (d & r' & k' & F1 & F2 & F3 & F4 & F5).
    assert (map typed_as (ts ++ [t]) = (sent ++ [typed_as t]) ++ []) as M1.
    { rewrite map_app, C4. unfold kept. rewrite HH, !app_nil_r. reflexivity. }
    destruct F5 as [(-> & F5)|(-> & F5 & F6 & F7 & _)].
    + pose proof (frame_length false (typed_as t) (at_keys c1 O)) as HL. cbv zeta iota in HL.
      assert (length (pend (at_out c1)) + length (frames false [(typed_as t, at_keys c1 O)]) = length d + length (pend w))%nat as HB.
      { rewrite <- !app_length, F5. reflexivity. }
      set (c2 := sent_out w c1) in *.
      assert (cwork c2 < cwork c)%nat as HW.
      { apply (Nat.lt_le_trans _ (cwork c1 + (11 * (length t + 14) + 2))); [|exact U4]. unfold cwork. change (read_work c2) with (read_work c1). unfold c2.
        cbn [sent_out at_user at_over at_udone at_hold at_out at_rdone at_in at_read]. rewrite D5, U3, F3, app_length. cbn [hold_work]. lia. }
      assert (cabs ks c2 (got ++ l1) (ts ++ [t]) us (sent ++ [typed_as t])) as HC2.
      { unfold cabs. split; [exact D4|]. split; [unfold c2; cbn [sent_out at_shown]; rewrite D1, C2, map_app; reflexivity|].
        split; [split; [exact U1|split; [exact O3|intros _; exact U3]]|].
        split; [exact M1|]. split.
        - intros m. unfold c2. cbn [sent_out at_keys]. unfold next_keys. rewrite D7, C5, app_length. cbn [length]. f_equal. lia.
        - split; [|split; [rewrite <- ET2, ET; exact C7|auto]]. unfold c2. cbn [sent_out at_out].
          rewrite F3, <- app_assoc, <- F5, app_assoc, C6, with_keys_app, frames_app. do 2 f_equal. cbn [with_keys]. rewrite D7, C5. reflexivity. }
      pose proof (IH fuel c2 (got ++ l1) l2 (ts ++ [t]) (sent ++ [typed_as t]) r' k' n1 (eq_trans (app_assoc _ _ _) eq_refl) ET2 HC2) as IH'.
      cbn [length] in *. unfold c2 in *. cbn [sent_out at_out at_hold] in *.
      specialize (IH' D2 F1). rewrite F3, app_length in IH'. specialize (IH' ltac:(lia) eq_refl HP ltac:(lia) ltac:(lia) ltac:(lia)).
      destruct (achat_loop fuel extra (sent_out w c1)) as [x c']. eapply cdone_shrinks; [exact IH'|]. left. exact HW.
    + set (c2 := with_out (Some (typed_as t)) w c1) in *.
      exists (got ++ l1), l2, (ts ++ [t]), us, sent, r', k', n1. split; [apply app_assoc|]. split; [exact ET2|]. split.
      { unfold cabs. split; [exact D4|]. split; [unfold c2; cbn [with_out at_shown]; rewrite D1, C2, map_app; reflexivity|].
        split; [split; [exact U1|split; [exact O3|intros _; exact U3]]|].
        split; [rewrite M1, app_nil_r; reflexivity|]. split; [unfold c2; cbn [with_out at_keys]; rewrite D7; exact C5|].
        split; [unfold c2; cbn [with_out at_out]; rewrite F3, <- app_assoc, <- F5; exact C6|].
        split; [rewrite <- ET2, ET; exact C7|auto]. }
      split; [exact D2|]. split; [exact F1|]. split; [unfold c2; cbn [with_out at_out]; rewrite F3, app_length; lia|]. split.
      { left. apply (Nat.lt_le_trans _ (cwork c1 + (11 * (length t + 14) + 2))); [|exact U4]. unfold cwork. change (read_work c2) with (read_work c1). unfold c2.
        cbn [with_out at_user at_over at_udone at_hold at_out at_rdone at_in at_read]. rewrite D5, U3, F3, F5, !app_length. cbn [hold_work]. lia. }
      cbn [cpost]. left. split; [discriminate|]. split; [exact F7|exact F6].
Qed.

Lemma cpoll_pipe : forall ks S0 T q eof R extra us c got ungot ts sent r k n,
  S0 = got ++ ungot -> T = ts ++ us -> cabs ks c got ts us sent -> cread eof c q ungot n ->
  sink r k (at_out c) -> (r + length (fw_out (at_out c)) = R)%nat -> Forall no_ping S0 ->
  (length us < n)%nat -> (S (length us) < k)%nat ->
  let '(x, c') := achat_poll extra c in cdone ks S0 T q eof R c x c'.
Proof.
  intros ks S0 T q eof R extra us c got ungot ts sent r k n ES ET HC HR HS Hr HP Hn Hk. unfold achat_poll.
  pose proof HC as (C1 & C2 & C3 & C4 & C5 & C6 & C7 & C8 & C9 & C10).
  assert (length us < achat_fuel c)%nat as Hf by (unfold achat_fuel; rewrite (proj1 C3), map_length; lia).
  destruct (at_hold c) as [m|] eqn:EH.
  - unfold kept in C4. rewrite EH in C4.
    assert (sendable big m) as HSd.
    { assert (In m (map typed_as ts)) as HI by (rewrite C4; apply in_or_app; right; left; reflexivity).
      apply in_map_iff in HI as (t & <- & HI). apply typed_as_sendable. rewrite Forall_forall in C7. apply C7. apply in_or_app. left. exact HI. }
    destruct (start_send false (owned_ops m) (at_keys c O) extra (at_out c)) as [y w] eqn:EP. destruct k as [|k]; [lia|].
    destruct (send_sink _ _ _ _ _ _ _ _ _ HSd HS EP) as (d & r' & k' & F1 & F2 & F3 & F4 & F5).
    destruct F5 as [(-> & F5)|(-> & F5 & F6 & F7 & _)].
    + pose proof (frame_length false m (at_keys c O)) as HL. cbv zeta iota in HL.
      assert (length (pend (at_out c)) + length (frames false [(m, at_keys c O)]) = length d + length (pend w))%nat as HB.
      { rewrite <- !app_length, F5. reflexivity. }
      set (c2 := sent_out w c) in *.
      assert (cwork c2 < cwork c)%nat as HW.
      { unfold cwork. change (read_work c2) with (read_work c). unfold c2.
        cbn [sent_out at_user at_over at_udone at_hold at_out at_rdone at_in at_read]. rewrite EH, F3, app_length. cbn [hold_work].
        destruct (at_udone c); lia. }
      assert (cabs ks c2 got ts us (sent ++ [m])) as HC2.
      { unfold cabs. split; [exact C1|]. split; [exact C2|]. split; [exact C3|]. split; [unfold kept; cbn [c2 sent_out at_hold]; rewrite app_nil_r; exact C4|]. split.
        - intros j. unfold c2. cbn [sent_out at_keys]. unfold next_keys. rewrite C5, app_length. cbn [length]. f_equal. lia.
        - split; [|auto]. unfold c2. cbn [sent_out at_out].
          rewrite F3, <- app_assoc, <- F5, app_assoc, C6, with_keys_app, frames_app. do 2 f_equal. cbn [with_keys]. rewrite C5. reflexivity. }
      pose proof (loop_pipe ks S0 T q eof R extra us (achat_fuel c) c2 got ungot ts (sent ++ [m]) r' k' n ES ET HC2 HR F1) as HLP.
      unfold c2 in HLP at 1. cbn [sent_out at_out at_hold] in HLP. rewrite F3, app_length in HLP.
      specialize (HLP ltac:(lia) eq_refl HP Hf Hn ltac:(lia)).
      destruct (achat_loop (achat_fuel c) extra c2) as [x c']. eapply cdone_shrinks; [exact HLP|]. left. exact HW.
    + set (c2 := with_out (Some m) w c) in *.
      exists got, ungot, ts, us, sent, r', k', n. split; [exact ES|]. split; [exact ET|]. split.
      { unfold cabs. split; [exact C1|]. split; [exact C2|]. split; [exact C3|]. split; [exact C4|]. split; [exact C5|].
        split; [unfold c2; cbn [with_out at_out]; rewrite F3, <- app_assoc, <- F5; exact C6|]. auto. }
      split; [exact HR|]. split; [exact F1|]. split; [unfold c2; cbn [with_out at_out]; rewrite F3, app_length; lia|]. split.
      { unfold shrinks, cwork, ccore. change (read_work c2) with (read_work c). unfold c2.
        cbn [with_out at_user at_over at_udone at_hold at_out at_rdone at_in at_read]. rewrite EH, F3, F5, !app_length.
        destruct d as [|b d]; [right|left].
        - cbn [app]. rewrite app_nil_r. reflexivity.
        - cbn [length]. destruct (at_udone c); lia. }
      cbn [cpost]. left. split; [discriminate|]. split; [exact F7|exact F6].
  - pose proof (loop_pipe ks S0 T q eof R extra us (achat_fuel c) c got ungot ts sent r k n ES ET HC HR HS Hr EH HP Hf Hn ltac:(lia)) as HLP. exact HLP.
Qed.

(** ** The server *)
Definition no_pong (p : owned * mkey) : Prop := is_pong (fst p) = false.
Definition agreeting : owned := OText (str "Hello World!").
Definition score (t : echo_task) :=
  (et_hold t, et_done t, et_closing t, pend (et_out t), fw_out (et_out t), filter is_adata (et_in t), fr_buf (et_read t)).
Definition shold_work (h : option owned) : nat := match h with Some m => S (4 * (length (payload_of m) + 10)) | None => 0 end.
Definition phase_work (closing done : bool) : nat := if closing then 2%nat else if done then 44%nat else 1%nat.
Definition swork (t : echo_task) : nat :=
  (shold_work (et_hold t) + 4 * length (pend (et_out t)) + 3 * length (fw_out (et_out t)) +
   9 * length (aev_bytes (et_in t)) + 8 * length (fr_buf (et_read t)) + phase_work (et_closing t) (et_done t))%nat.
Lemma score_work : forall t t', score t' = score t -> swork t' = swork t.
Proof.
  intros t t' H. unfold score in H. injection H as H1 H2 H3 H4 H5 H6 H7. unfold swork.
  rewrite H1, H2, H3, H4, H5, H7, <- (aev_filter (et_in t')), H6, aev_filter. reflexivity.
Qed.
Definition sshrinks (t t' : echo_task) : Prop := (swork t' < swork t)%nat \/ score t' = score t.
Lemma sshrinks_trans : forall a b c, sshrinks a b -> sshrinks b c -> sshrinks a c.
Proof.
  intros a b c [H|H] [K|K].
  - left. lia.
  - left. apply score_work in K. lia.
  - left. apply score_work in H. lia.
  - right. congruence.
Qed.

(** The server has read [read] and said [said]. *)
Definition sphase (t : echo_task) (read said : list (owned * mkey)) : Prop :=
  if et_closing t then exists rd p, read = rd ++ [p] /\ Forall open rd /\ closing (fst p) /\
    map fst said ++ held t = agreeting :: flat_map echo_all (map fst rd) ++ [OClose None]
  else if et_done t then held t = [] /\ exists rd p, read = rd ++ [p] /\ Forall open rd /\ closing (fst p) /\
    map fst said = agreeting :: flat_map echo_all (map fst rd)
  else Forall open read /\ map fst said ++ held t = agreeting :: flat_map echo_all (map fst read).
Definition sgreet (t : echo_task) (read said : list (owned * mkey)) : Prop :=
  et_closing t = true /\ et_done t = false /\ read = [] /\ map fst said ++ held t = [agreeting].
Definition sabs (t : echo_task) (q : bytes) (unread said : list (owned * mkey)) : Prop :=
  fw_out (et_out t) ++ pend (et_out t) = frames true said /\ Forall (sendable big) (held t) /\
  apipe true (et_read t) (et_in t) q unread.
Definition spost (r : nat) (x : tpoll) (t : echo_task) : Prop :=
  match x with
  | TReady => et_closing t = true /\ et_hold t = None /\ pend (et_out t) = []
  | TNotReady =>
      (et_hold t <> None /\ 8192 <= llen (pend (et_out t)) /\ r = O) \/
      (et_hold t = None /\ et_closing t = false /\ et_done t = false /\ filter is_adata (et_in t) = [] /\ partial true (fr_buf (et_read t)) /\
       (pend (et_out t) = [] \/ r = O)) \/
      (et_hold t = None /\ pend (et_out t) <> [] /\ r = O /\ (et_closing t = true \/ et_done t = true))
  | _ => False
  end.
Definition sdone (P : echo_task -> list (owned * mkey) -> list (owned * mkey) -> Prop) (q : bytes) (U : list (owned * mkey)) (R : nat)
    (t : echo_task) (x : tpoll) (t' : echo_task) : Prop :=
  exists read unread said r k, U = read ++ unread /\ P t' read said /\ sabs t' q unread said /\
    sink r k (et_out t') /\ (r + length (fw_out (et_out t')) = R)%nat /\ sshrinks t t' /\ spost r x t'.
Lemma sdone_shrinks : forall P q U R t t1 x t', sdone P q U R t1 x t' -> sshrinks t t1 -> sdone P q U R t x t'.
Proof.
  intros P q U R t t1 x t' (read & unread & said & r & k & A & B & C & D & E & F & G) HS.
  exists read, unread, said, r, k. repeat (split; [assumption|]). split; [eapply sshrinks_trans; eauto|exact G].
Qed.

(** Sending one message and flushing. *)
Lemma close_pipe : forall (P : echo_task -> list (owned * mkey) -> list (owned * mkey) -> Prop) q U R key extra t read unread said r k,
  (forall t1 m, et_closing t1 = true -> et_done t1 = et_done t -> held t = [m] -> held t1 = [] -> P t1 read (said ++ [(m, key)])) ->
  (forall t1, et_closing t1 = true -> et_done t1 = et_done t -> held t1 = held t -> P t1 read said) ->
  et_closing t = true -> U = read ++ unread -> sabs t q unread said -> sink r k (et_out t) -> (r + length (fw_out (et_out t)) = R)%nat ->
  (2 <= k)%nat ->
  let '(x, t') := close_poll key extra t in sdone P q U R t x t'.
Proof.
  intros P q U R key extra t read unread said r k H1 H2 HC EU (A1 & A2 & A3) HS Hr Hk. unfold close_poll.
  assert (forall said1 r1 k1 w, sink r1 (S k1) w -> (r1 + length (fw_out w) = R)%nat -> fw_out w ++ pend w = frames true said1 ->
    (forall t1, et_closing t1 = true -> et_done t1 = et_done t -> held t1 = [] -> P t1 read said1) ->
    sshrinks t (mk_task (et_read t) (et_in t) (et_done t) None true w) ->
    let '(x, t') := match poll_complete w with
    | (SReady, w') => (TReady, mk_task (et_read t) (et_in t) (et_done t) None true w')
    | (SNotReady, w') => (TNotReady, mk_task (et_read t) (et_in t) (et_done t) None true w')
    | (SErr e, w') => (TErr e, mk_task (et_read t) (et_in t) (et_done t) None true w')
    end in sdone P q U R t x t') as HF.
  { intros said1 r1 k1 w S1 S2 S3 S4 S5. destruct (poll_complete w) as [y w'] eqn:EP.
    destruct (flush_sink _ _ _ _ _ S1 EP) as (d & r' & k' & F1 & F2 & F3 & F4 & F5 & F6 & F7).
    set (t' := mk_task (et_read t) (et_in t) (et_done t) None true w').
    assert (forall x, spost r' x t' -> sdone P q U R t x t') as HD.
    { intros x HX. exists read, unread, said1, r', k'. split; [exact EU|]. split; [apply S4; reflexivity|].
      split; [split; [cbn [t' et_out]; rewrite F3, <- app_assoc, <- F4; exact S3|split; [constructor|exact A3]]|].
      split; [exact F1|]. split; [cbn [t' et_out]; rewrite F3, app_length; lia|]. split; [|exact HX].
      eapply sshrinks_trans; [exact S5|]. unfold sshrinks, swork, score. subst t'. cbn [et_hold et_done et_closing et_out et_in et_read].
      rewrite F3, F4, !app_length. destruct d as [|b d]; [right|left].
      - cbn [app]. rewrite app_nil_r. reflexivity.
      - cbn [length]. lia. }
    destruct F6 as [[-> F6]|(-> & F6 & F8)]; apply HD; cbn [spost].
    - auto.
    - right. right. auto. }
  unfold held in A2, H1, H2. destruct (et_hold t) as [m|] eqn:EH.
  - inversion A2 as [|? ? HSd _]; subst.
    destruct (start_send true (owned_ops m) key extra (et_out t)) as [y w] eqn:EP. destruct k as [|k]; [lia|].
    destruct (send_sink _ _ _ _ _ _ _ _ _ HSd HS EP) as (d & r' & k' & F1 & F2 & F3 & F4 & F5).
    destruct F5 as [(-> & F5)|(-> & F5 & F6 & F7 & _)].
    + destruct k' as [|k']; [lia|].
      apply (HF (said ++ [(m, key)]) r' k' w F1).
      * rewrite F3, app_length. lia.
      * rewrite F3, <- app_assoc, <- F5, app_assoc, A1, frames_app. reflexivity.
      * intros t1 X Y Z. apply H1; auto.
      * pose proof (frame_length true m key) as HL. cbv zeta iota in HL.
        assert (length (pend (et_out t)) + length (frames true [(m, key)]) = length d + length (pend w))%nat as HB.
        { rewrite <- !app_length, F5. reflexivity. }
        left. unfold swork. cbn [et_hold et_done et_closing et_out et_in et_read]. rewrite EH, F3, HC, app_length. cbn [shold_work]. lia.
    + exists read, unread, said, r', k'. split; [reflexivity|]. split; [apply H2; reflexivity|].
      split; [split; [cbn [et_out]; rewrite F3, <- app_assoc, <- F5; exact A1|split; [exact A2|exact A3]]|].
      split; [exact F1|]. split; [cbn [et_out]; rewrite F3, app_length; lia|]. split.
      * unfold sshrinks, swork, score. cbn [et_hold et_done et_closing et_out et_in et_read].
        rewrite EH, HC, F3, F5, !app_length. destruct d as [|b d]; [right|left].
        -- cbn [app]. rewrite app_nil_r. reflexivity.
        -- cbn [length]. lia.
      * cbn [spost]. left. split; [discriminate|]. auto.
  - destruct k as [|k]; [lia|]. apply (HF said r k (et_out t) HS Hr A1).
    + intros t1 X Y Z. apply H2; auto.
    + right. unfold score. cbn [et_hold et_done et_closing et_out et_in et_read]. rewrite EH, HC. reflexivity.
Qed.
Lemma pass_pipe : forall m m', is_pong m = false -> is_close m = false -> sendable big m -> pass_on m = Some m' ->
  sendable big m' /\ echo_all m = [m'] /\ length (payload_of m') = length (payload_of m).
Proof. intros [d|d|c|d|d] m' H1 H2 HS H; try discriminate; injection H as <-; split; try exact HS; split; reflexivity. Qed.

Lemma forward_pipe : forall q R key extra fuel t U read unread said r k n,
  U = read ++ unread -> sphase t read said -> sabs t q unread said -> et_closing t = false -> et_hold t = None ->
  sink r k (et_out t) -> (r + length (fw_out (et_out t)) = R)%nat -> script false n (et_in t) -> n <> O ->
  Forall no_pong U -> (weight (et_in t) (et_read t) < fuel)%nat -> (fuel + 2 <= k)%nat ->
  let '(x, t') := forward_loop fuel key extra t in sdone sphase q U R t x t'.
Proof.
  intros q R key extra. induction fuel as [|fuel IH]; intros t U read unread said r k n EU HP HA HC HH HS Hr HI Hn HU Hf Hk; [lia|].
  pose proof HA as (A1 & A2 & A3). unfold sphase in HP. rewrite HC in HP. cbn [forward_loop].
  assert (forall f s read1 unread1, U = read1 ++ unread1 -> apipe true f s q unread1 ->
    (exists rd p, read1 = rd ++ [p] /\ Forall open rd /\ closing (fst p) /\ map fst said = agreeting :: flat_map echo_all (map fst rd)) ->
    sshrinks t (mk_task f s true None false (et_out t)) ->
    let '(x, t') := match poll_complete (et_out t) with
          | (SReady, w) => close_poll key extra (mk_task f s true (Some (OClose None)) true w)
          | (SNotReady, w) => (TNotReady, mk_task f s true None false w)
          | (SErr e, w) => (TErr e, mk_task f s true None false w)
          end in sdone sphase q U R t x t') as HEnd.
  { intros f s read1 unread1 EU1 AP (rd & p & E1 & E2 & E3 & E4) HSh. destruct (poll_complete (et_out t)) as [y w] eqn:EP. destruct k as [|k]; [lia|].
    destruct (flush_sink _ _ _ _ _ HS EP) as (d & r' & k' & F1 & F2 & F3 & F4 & F5 & F6 & F7).
    assert (sshrinks t (mk_task f s true None false w)) as HSh2.
    { eapply sshrinks_trans; [exact HSh|]. unfold sshrinks, swork, score. cbn [et_hold et_done et_closing et_out et_in et_read].
      rewrite F3, F4, !app_length. destruct d as [|b d]; [right|left].
      - cbn [app]. rewrite app_nil_r. reflexivity.
      - cbn [length]. lia. }
    destruct F6 as [[-> F6]|(-> & F6 & F8)].
    - pose proof (close_pipe sphase q U R key extra (mk_task f s true (Some (OClose None)) true w) read1 unread1 said r' k') as HCP.
      assert (let '(x, t') := close_poll key extra (mk_task f s true (Some (OClose None)) true w) in
        sdone sphase q U R (mk_task f s true (Some (OClose None)) true w) x t') as HX.
      { apply HCP; clear HCP.
        - intros t1 m X1 X2 X3 X4. unfold sphase. rewrite X1, X4, app_nil_r, map_app. injection X3 as <-. exists rd, p. rewrite E4. auto.
        - intros t1 X1 X2 X3. unfold sphase. rewrite X1, X3, E4. exists rd, p. auto.
        - reflexivity.
        - exact EU1.
        - split; [cbn [et_out]; rewrite F3, <- app_assoc, <- F4; exact A1|]. split; [constructor; [apply close_sendable|constructor]|exact AP].
        - exact F1.
        - cbn [et_out]. rewrite F3, app_length. lia.
        - lia. }
      destruct (close_poll key extra (mk_task f s true (Some (OClose None)) true w)) as [x t']. eapply sdone_shrinks; [exact HX|].
      eapply sshrinks_trans; [exact HSh2|]. left. unfold swork. cbn [et_hold et_done et_closing et_out et_in et_read shold_work payload_of length phase_work]. lia.
    - exists read1, unread1, said, r', k'. split; [exact EU1|]. split.
      { unfold sphase. cbn [et_closing et_done]. split; [reflexivity|]. exists rd, p. auto. }
      split; [split; [cbn [et_out]; rewrite F3, <- app_assoc, <- F4; exact A1|split; [constructor|exact AP]]|].
      split; [exact F1|]. split; [cbn [et_out]; rewrite F3, app_length; lia|]. split; [exact HSh2|]. cbn [spost]. right. right. auto. }
  destruct (et_done t) eqn:ED.
  - destruct HP as (HP0 & HP). apply (HEnd _ _ read unread EU A3 HP).
    right. unfold score. cbn [et_hold et_done et_closing et_out et_in et_read]. rewrite HH, HC, ED. reflexivity.
  - destruct HP as (HP0 & HP). unfold held in HP. rewrite HH, app_nil_r in HP. cbn [passed_poll].
    pose proof (apipe_poll _ _ _ _ _ A3 (script_no_error _ _ _ HI)) as H1.
    pose proof (framed_poll_spec _ _ mc_decode mc_some mc_none mc_total (et_in t) (et_read t) (proj1 (proj2 A3))) as H2.
    destruct (framed_poll mc_decode (et_in t) (et_read t)) as [[[m| | |e| |] f'] s']; try contradiction.
    + destruct H1 as (km & l' & used & -> & S1 & A' & EI & HUs & HB). destruct H2 as (_ & _ & H2).
      fold (weight s' f') (weight (et_in t) (et_read t)) in H2.
      assert (U = (read ++ [(m, km)]) ++ l') as EU2 by (rewrite EU, <- app_assoc; reflexivity).
      assert (is_pong m = false) as NP.
      { rewrite EU, Forall_app in HU. destruct HU as [_ HU]. inversion HU as [|? ? U1 U2]; subst. exact U1. }
      pose proof (frame_length (negb true) m km) as HL. cbn [negb] in HL, HB. cbv zeta iota in HL.
      assert (length (aev_bytes s') <= length (aev_bytes (et_in t)))%nat as HL2 by (rewrite EI, aev_app, app_length; lia).
      destruct (is_close m) eqn:EC.
      * apply (HEnd f' s' (read ++ [(m, km)]) l' EU2 A').
        -- exists read, (m, km). split; [reflexivity|]. split; [exact HP0|]. split; [destruct m; try discriminate EC; exact I|exact HP].
        -- left. unfold swork. cbn [et_hold et_done et_closing et_out et_in et_read shold_work phase_work]. rewrite HH, HC, ED. cbn [shold_work phase_work]. lia.
      * destruct (pass_on m) as [m'|] eqn:EM; [|destruct m; discriminate].
        destruct (pass_pipe m m' NP EC S1 EM) as (Q1 & Q2 & Q3).
        assert (Forall open (read ++ [(m, km)])) as HP1.
        { apply Forall_app. split; [exact HP0|]. constructor; [|constructor]. unfold open. cbn [fst]. destruct m; try discriminate EC; intros []. }
        assert (map fst said ++ [m'] = agreeting :: flat_map echo_all (map fst (read ++ [(m, km)]))) as HP2.
        { rewrite HP, map_app, flat_map_app. cbn [map fst flat_map]. rewrite Q2, app_nil_r. reflexivity. }
        destruct (start_send true (owned_ops m') key extra (et_out t)) as [y w] eqn:EP. destruct k as [|k]; [lia|].
        destruct (send_sink _ _ _ _ _ _ _ _ _ Q1 HS EP) as (d & r' & k' & F1 & F2 & F3 & F4 & F5).
        destruct F5 as [(-> & F5)|(-> & F5 & F6 & F7 & _)].
        -- pose proof (frame_length true m' key) as HL3. cbv zeta iota in HL3.
           assert (length (pend (et_out t)) + length (frames true [(m', key)]) = length d + length (pend w))%nat as HB2.
           { rewrite <- !app_length, F5. reflexivity. }
           pose proof (IH (mk_task f' s' false None false w) U (read ++ [(m, km)]) l' (said ++ [(m', key)]) r' k' n EU2) as IH'.
           cbn [et_closing et_hold et_out et_in et_read] in IH'.
           assert (sphase (mk_task f' s' false None false w) (read ++ [(m, km)]) (said ++ [(m', key)])) as X1.
           { unfold sphase, held. cbn [et_closing et_done et_hold]. split; [exact HP1|]. rewrite app_nil_r, map_app. exact HP2. }
           assert (sabs (mk_task f' s' false None false w) q l' (said ++ [(m', key)])) as X2.
           { split; [cbn [et_out]; rewrite F3, <- app_assoc, <- F5, app_assoc, A1, frames_app; reflexivity|]. split; [constructor|exact A']. }
           assert (script false n s') as X3 by (rewrite EI in HI; exact (script_skip _ _ _ _ HI HUs)).
           specialize (IH' X1 X2 eq_refl eq_refl F1). rewrite F3, app_length in IH'. specialize (IH' ltac:(lia) X3 Hn HU ltac:(lia) ltac:(lia)).
           destruct (forward_loop fuel key extra (mk_task f' s' false None false w)) as [x t'].
           eapply sdone_shrinks; [exact IH'|]. left. unfold swork. cbn [et_hold et_done et_closing et_out et_in et_read].
           rewrite HH, HC, ED, F3, app_length. cbn [shold_work phase_work]. lia.
        -- exists (read ++ [(m, km)]), l', said, r', k'. split; [exact EU2|]. split.
           { unfold sphase, held. cbn [et_closing et_done et_hold]. split; [exact HP1|exact HP2]. }
           split; [split; [cbn [et_out]; rewrite F3, <- app_assoc, <- F5; exact A1|split; [constructor; [exact Q1|constructor]|exact A']]|].
           split; [exact F1|]. split; [cbn [et_out]; rewrite F3, app_length; lia|]. split.
           { left. unfold swork. cbn [et_hold et_done et_closing et_out et_in et_read].
             rewrite HH, HC, ED, F3, F5, !app_length. cbn [shold_work phase_work]. lia. }
           cbn [spost et_hold et_out]. left. split; [discriminate|]. auto.
    + destruct H1 as [H1 H3]. destruct n as [|n]; [destruct (Hn eq_refl)|]. destruct (script_data _ _ HI H1).
    + destruct H1 as (used & A' & EI & HUs & B1 & B2). rewrite EI in HI. destruct (script_wait _ _ _ _ HI HUs) as (_ & -> & _).
      destruct (poll_complete (et_out t)) as [y w] eqn:EP. destruct k as [|k]; [lia|].
      destruct (flush_sink _ _ _ _ _ HS EP) as (d & r' & k' & F1 & F2 & F3 & F4 & F5 & F6 & F7).
      set (t' := mk_task f' (repeat ANotReady (pred n)) false None false w).
      assert (sdone sphase q U R t TNotReady t') as HD.
      { exists read, unread, said, r', k'. split; [exact EU|]. split.
        { unfold sphase, held, t'. cbn [et_closing et_done et_hold]. rewrite app_nil_r. auto. }
        split; [split; [cbn [t' et_out]; rewrite F3, <- app_assoc, <- F4; exact A1|split; [constructor|exact A']]|].
        split; [exact F1|]. split; [cbn [t' et_out]; rewrite F3, app_length; lia|]. split.
        { assert (aev_bytes (et_in t) = aev_bytes used) as E1.
          { rewrite EI, aev_app. change (ANotReady :: repeat ANotReady (pred n)) with (repeat ANotReady (S (pred n))).
            rewrite <- (aev_filter (repeat _ _)), filter_waits. apply app_nil_r. }
          assert (filter is_adata (et_in t) = used) as E2.
          { rewrite EI, filter_app, (filter_all_data _ HUs). change (ANotReady :: repeat ANotReady (pred n)) with (repeat ANotReady (S (pred n))).
            rewrite filter_waits. apply app_nil_r. }
          assert (aev_bytes (repeat ANotReady (pred n)) = []) as E3 by (rewrite <- aev_filter, filter_waits; reflexivity).
          unfold sshrinks, swork, score, t'. cbn [et_hold et_done et_closing et_out et_in et_read].
          rewrite HH, HC, ED, E1, E2, E3, filter_waits, F3, F4, B2, !app_length. cbn [shold_work phase_work length].
          destruct used as [|[b bs| |kk] used]; [|left; cbn [aev_bytes length]; rewrite app_length; lia|inversion HUs; discriminate|inversion HUs; discriminate].
          cbn [aev_bytes length]. rewrite app_nil_r. destruct d as [|b d]; [right|left].
          - cbn [app]. rewrite app_nil_r. reflexivity.
          - cbn [length]. lia. }
        cbn [spost]. right. left. unfold t'. cbn [et_hold et_done et_closing et_out et_in et_read]. split; [reflexivity|]. split; [reflexivity|]. split; [reflexivity|].
        split; [apply filter_waits|]. split; [exact B1|]. destruct F6 as [[_ F6]|(_ & F6 & _)]; auto. }
      destruct F6 as [[-> _]|[-> _]]; exact HD.
    + destruct H1 as [H1 H3]. destruct n as [|n]; [destruct (Hn eq_refl)|]. destruct (script_data _ _ HI H1).
Qed.

Lemma task_pipe : forall q R key extra fuel t U read unread said r k n,
  U = read ++ unread -> sphase t read said -> sabs t q unread said -> 
  sink r k (et_out t) -> (r + length (fw_out (et_out t)) = R)%nat -> script false n (et_in t) -> n <> O ->
  Forall no_pong U -> (weight (et_in t) (et_read t) < fuel)%nat -> (fuel + 3 <= k)%nat ->
  let '(x, t') := task_poll fuel key extra t in sdone sphase q U R t x t'.
Proof.
  intros q R key extra fuel t U read unread said r k n EU HP HA HS Hr HI Hn HU Hf Hk. unfold task_poll.
  destruct (et_closing t) eqn:HC.
  - apply (close_pipe sphase q U R key extra t read unread said r k); auto; try lia; unfold sphase in HP; rewrite HC in HP; destruct HP as (rd & p & E1 & E2 & E3 & E4).
    + intros t1 m X1 X2 X3 X4. unfold sphase. rewrite X1, X4, app_nil_r, map_app. cbn [map fst]. rewrite <- X3. exists rd, p. auto.
    + intros t1 X1 X2 X3. unfold sphase. rewrite X1, X3. exists rd, p. auto.
  - destruct (et_hold t) as [m|] eqn:HH.
    + pose proof HA as (A1 & A2 & A3). unfold held in A2. rewrite HH in A2. inversion A2 as [|? ? HSd _]; subst x l.
      pose proof HP as HP'. unfold sphase in HP'. rewrite HC in HP'. destruct (et_done t) eqn:ED.
      { destruct HP' as [HP' _]. unfold held in HP'. rewrite HH in HP'. discriminate HP'. }
      destruct HP' as [HP0 HP1]. unfold held in HP1. rewrite HH in HP1.
      destruct (start_send true (owned_ops m) key extra (et_out t)) as [y w] eqn:EP. destruct k as [|k]; [lia|].
      destruct (send_sink _ _ _ _ _ _ _ _ _ HSd HS EP) as (d & r' & k' & F1 & F2 & F3 & F4 & F5).
      destruct F5 as [(-> & F5)|(-> & F5 & F6 & F7 & _)].
      * pose proof (frame_length true m key) as HL3. cbv zeta iota in HL3.
        assert (length (pend (et_out t)) + length (frames true [(m, key)]) = length d + length (pend w))%nat as HB2.
        { rewrite <- !app_length, F5. reflexivity. }
        pose proof (forward_pipe q R key extra fuel (mk_task (et_read t) (et_in t) false None false w) U read unread (said ++ [(m, key)]) r' k' n EU) as HX.
        cbn [et_closing et_hold et_out et_in et_read] in HX.
        assert (sphase (mk_task (et_read t) (et_in t) false None false w) read (said ++ [(m, key)])) as X1.
        { unfold sphase, held. cbn [et_closing et_done et_hold]. split; [exact HP0|]. rewrite app_nil_r, map_app. exact HP1. }
        assert (sabs (mk_task (et_read t) (et_in t) false None false w) q unread (said ++ [(m, key)])) as X2.
        { split; [cbn [et_out]; rewrite F3, <- app_assoc, <- F5, app_assoc, A1, frames_app; reflexivity|]. split; [constructor|exact A3]. }
        specialize (HX X1 X2 eq_refl eq_refl F1). rewrite F3, app_length in HX. specialize (HX ltac:(lia) HI Hn HU Hf ltac:(lia)).
        destruct (forward_loop fuel key extra (mk_task (et_read t) (et_in t) false None false w)) as [x t'].
        eapply sdone_shrinks; [exact HX|]. left. unfold swork. cbn [et_hold et_done et_closing et_out et_in et_read].
        rewrite HH, HC, ED, F3, app_length. cbn [shold_work phase_work]. lia.
      * exists read, unread, said, r', k'. split; [exact EU|]. split.
        { unfold sphase, held. cbn [et_closing et_done et_hold]. auto. }
        split; [split; [cbn [et_out]; rewrite F3, <- app_assoc, <- F5; exact A1|split; [constructor; [exact HSd|constructor]|exact A3]]|].
        split; [exact F1|]. split; [cbn [et_out]; rewrite F3, app_length; lia|]. split.
        { unfold sshrinks, swork, score. cbn [et_hold et_done et_closing et_out et_in et_read].
          rewrite HH, HC, ED, F3, F5, !app_length. destruct d as [|b d]; [right|left].
          - cbn [app]. rewrite app_nil_r. reflexivity.
          - cbn [length shold_work phase_work]. lia. }
        cbn [spost et_hold et_out]. left. split; [discriminate|]. auto.
    + apply (forward_pipe q R key extra fuel t U read unread said r k n); auto. lia.
Qed.

Lemma close_left : forall key extra t r k, Forall (sendable big) (held t) -> sink r k (et_out t) -> (2 <= k)%nat ->
  let '(x, t') := close_poll key extra t in
  et_read t' = et_read t /\ et_in t' = et_in t /\ exists r' k', sink r' k' (et_out t') /\ (k <= k' + 2)%nat /\
    (r' + length (fw_out (et_out t')) = r + length (fw_out (et_out t)))%nat.
Proof.
  intros key extra t r k A2 HS Hk. unfold close_poll.
  assert (forall r1 k1 w, sink r1 (S k1) w -> (k <= S k1 + 1)%nat -> (r1 + length (fw_out w) = r + length (fw_out (et_out t)))%nat ->
    let '(x, t') := match poll_complete w with
    | (SReady, w') => (TReady, mk_task (et_read t) (et_in t) (et_done t) None true w')
    | (SNotReady, w') => (TNotReady, mk_task (et_read t) (et_in t) (et_done t) None true w')
    | (SErr e, w') => (TErr e, mk_task (et_read t) (et_in t) (et_done t) None true w')
    end in et_read t' = et_read t /\ et_in t' = et_in t /\ exists r' k', sink r' k' (et_out t') /\ (k <= k' + 2)%nat /\
      (r' + length (fw_out (et_out t')) = r + length (fw_out (et_out t)))%nat) as HF.
  { intros r1 k1 w S1 S2 S3. destruct (poll_complete w) as [y w'] eqn:EP.
    destruct (flush_sink _ _ _ _ _ S1 EP) as (d & r' & k' & F1 & F2 & F3 & F4 & F5 & F6 & F7).
    destruct y; cbn [et_read et_in et_out]; (split; [reflexivity|]; split; [reflexivity|]; exists r', k'; split; [exact F1|]; split; [lia|]);
      rewrite F3, app_length; lia. }
  unfold held in A2. destruct (et_hold t) as [m|] eqn:EH.
  - inversion A2 as [|? ? HSd _]; subst.
    destruct (start_send true (owned_ops m) key extra (et_out t)) as [y w] eqn:EP. destruct k as [|k]; [lia|].
    destruct (send_sink _ _ _ _ _ _ _ _ _ HSd HS EP) as (d & r' & k' & F1 & F2 & F3 & F4 & F5).
    destruct F5 as [(-> & F5)|(-> & F5 & F6 & F7 & _)].
    + destruct k' as [|k']; [lia|]. apply (HF r' k' w F1); [lia|]. rewrite F3, app_length. lia.
    + cbn [et_read et_in et_out]. split; [reflexivity|]. split; [reflexivity|]. exists r', k'. split; [exact F1|]. split; [lia|]. rewrite F3, app_length. lia.
  - destruct k as [|k]; [lia|]. apply (HF r k (et_out t) HS); lia.
Qed.

(** The server's task with what it has said: the greeting first. *)
Definition sstate (a : aserver) (t : echo_task) (read said : list (owned * mkey)) : Prop :=
  match a with
  | AGreeting => sgreet t read said
  | AServing => sphase t read said
  | AServed r => r = TReady /\ sphase t read said /\ et_closing t = true /\ et_hold t = None /\ pend (et_out t) = []
  end.
Definition at_work (a : aserver) : nat := match a with AGreeting => 4 | AServing => 1 | AServed _ => 0 end.
Definition sgdone (q : bytes) (U : list (owned * mkey)) (R : nat) (a : aserver) (t : echo_task) (a' : aserver) (t' : echo_task) : Prop :=
  exists read unread said r k, U = read ++ unread /\ sstate a' t' read said /\ sabs t' q unread said /\
    sink r k (et_out t') /\ (r + length (fw_out (et_out t')) = R)%nat /\
    ((swork t' + at_work a' < swork t + at_work a)%nat \/ score t' = score t /\ a' = a) /\
    match a' with AServed _ => True | _ => spost r TNotReady t' end.

Lemma aserver_pipe : forall q R key extra a t U read unread said r k n,
  U = read ++ unread -> sstate a t read said -> sabs t q unread said ->
  match a with AServed _ => False | _ => True end ->
  sink r k (et_out t) -> (r + length (fw_out (et_out t)) = R)%nat -> script false n (et_in t) -> n <> O ->
  Forall no_pong U -> (task_fuel t + 5 <= k)%nat ->
  let '(x, a', t') := aserver_poll a key extra t in sgdone q U R a t a' t'.
Proof.
  intros q R key extra a t U read unread said r k n EU HP HA Ha HS Hr HI Hn HU Hk.
  assert (forall t1 read unread said r k, U = read ++ unread -> sphase t1 read said -> sabs t1 q unread said -> sink r k (et_out t1) ->
    (r + length (fw_out (et_out t1)) = R)%nat -> script false n (et_in t1) -> (task_fuel t1 + 3 <= k)%nat ->
    let '(x, a', t') := match task_poll (task_fuel t1) key extra t1 with
    | (TNotReady, t') => (TNotReady, AServing, t')
    | (r, t') => (r, AServed r, t')
    end in sgdone q U R AServing t1 a' t') as HSv.
  { clear - Hn HU. intros t1 read unread said r k EU HP HA HS Hr HI Hk.
    pose proof (task_pipe q R key extra (task_fuel t1) t1 U read unread said r k n EU HP HA HS Hr HI Hn HU) as HX.
    specialize (HX ltac:(unfold task_fuel, weight; lia) Hk).
    destruct (task_poll (task_fuel t1) key extra t1) as [x t']. destruct HX as (rd & ur & sd & r' & k' & X1 & X2 & X3 & X4 & X5 & X6 & X7).
    destruct x; cbn [spost] in X7; try contradiction; exists rd, ur, sd, r', k'; (split; [exact X1|]).
    - split; [split; [reflexivity|split; [exact X2|exact X7]]|]. split; [exact X3|]. split; [exact X4|]. split; [exact X5|]. split; [|exact I].
      left. cbn [at_work]. destruct X6 as [X6|X6]; [|apply score_work in X6]; lia.
    - split; [exact X2|]. split; [exact X3|]. split; [exact X4|]. split; [exact X5|]. split; [|exact X7].
      destruct X6 as [X6|X6]; [left; lia|auto]. }
  unfold aserver_poll. destruct a as [| |x]; [| |contradiction].
  - destruct HP as (G1 & G2 & G3 & G4). subst read.
    pose proof (close_pipe (fun t read said => sgreet t read said) q U R key extra t [] unread said r k) as HX.
    assert (let '(x, t') := close_poll key extra t in sdone (fun t read said => sgreet t read said) q U R t x t') as HY.
    { apply HX; auto; try lia.
      - intros t1 m X1 X2 X3 X4. split; [exact X1|]. split; [congruence|]. split; [reflexivity|]. rewrite X4, app_nil_r, map_app. cbn [map fst]. rewrite <- X3. exact G4.
      - intros t1 X1 X2 X3. split; [exact X1|]. split; [congruence|]. split; [reflexivity|]. rewrite X3. exact G4. }
    clear HX. pose proof (close_left key extra t r k (proj1 (proj2 HA)) HS ltac:(lia)) as HZ.
    destruct (close_poll key extra t) as [x t'] eqn:EC. destruct HY as (rd & ur & sd & r1 & k1 & X1 & X2 & X3 & X4 & X5 & X6 & X7).
    destruct HZ as (Z1 & Z2 & r2 & k2 & Z3 & Z4 & Z5). destruct X2 as (G5 & G6 & -> & G7).
    destruct x; cbn [spost] in X7; try contradiction.
    + destruct X7 as (_ & Y2 & Y3). unfold held in G7. rewrite Y2, app_nil_r in G7.
      set (t1 := mk_task (et_read t') (et_in t') false None false (et_out t')).
      assert (swork t1 + at_work AServing < swork t + at_work AGreeting)%nat as W1.
      { assert (swork t1 < swork t')%nat by (unfold swork, t1; cbn [et_hold et_done et_closing et_out et_in et_read]; rewrite Y2, G5; cbn [phase_work]; lia).
        cbn [at_work]. destruct X6 as [X6|X6]; [|apply score_work in X6]; lia. }
      pose proof (HSv t1 [] ur sd r2 k2 X1) as HX.
      assert (sphase t1 [] sd) as P1.
      { unfold sphase, t1, held. cbn [et_closing et_done et_hold]. split; [constructor|]. rewrite app_nil_r. exact G7. }
      assert (sabs t1 q ur sd) as P2 by (destruct X3 as (B1 & _ & B3); split; [exact B1|split; [constructor|exact B3]]).
      assert (script false n (et_in t1)) as HI1 by (unfold t1; cbn [et_in]; rewrite Z2; exact HI).
      assert (r2 + length (fw_out (et_out t1)) = R)%nat as Hr1 by (unfold t1; cbn [et_out]; lia).
      specialize (HX P1 P2 Z3 Hr1 HI1).
      assert (task_fuel t1 = task_fuel t) as E1 by (unfold task_fuel, t1; cbn [et_read et_in]; rewrite Z1, Z2; reflexivity).
      rewrite E1 in HX. specialize (HX ltac:(lia)). rewrite E1.
      destruct (task_poll (task_fuel t) key extra t1) as [x t2].
      assert (forall a2, sgdone q U R AServing t1 a2 t2 -> sgdone q U R AGreeting t a2 t2) as HT.
      { intros a2 (b1 & b2 & b3 & b4 & b5 & Q1 & Q2 & Q3 & Q4 & Q5 & Q6 & Q7). exists b1, b2, b3, b4, b5. repeat (split; [assumption|]). split; [|exact Q7].
        left. destruct Q6 as [Q6|[Q6 ->]]; [|apply score_work in Q6]; lia. }
      destruct x; apply HT; exact HX.
    + exists [], ur, sd, r1, k1. split; [exact X1|]. split; [split; [exact G5|auto]|]. split; [exact X3|]. split; [exact X4|]. split; [exact X5|]. split; [|exact X7].
      destruct X6 as [X6|X6]; [left; lia|auto].
  - apply HSv with (r := r) (k := k) (read := read) (unread := unread) (said := said); auto. lia.
Qed.
