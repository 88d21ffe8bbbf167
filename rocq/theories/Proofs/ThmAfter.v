(** What a connection does after its stream has ended and after a Close, and what the
    predicates of a message say: C59, C60, C64. *)
From Coq Require Import NArith ZArith String Bool List Lia.
From Coq Require Import ZifyBool ZifyNat ZifyN.
From Coq.Strings Require Import Byte.
From Verif.Model Require Import Base Io Header Mask Dataframe Utf8 Text Base64 WsKey Headers
  Handshake Message Receiver Codec Framed Http Connect.
From Verif.Spec Require Import RfcFrame FrameSpec Schedule Unicode Drive Session Connection Polled.
From Verif.Proofs Require Import BaseFacts MaskFacts HeaderFacts FrameFacts CodecFacts ScriptFacts
  Machine FramedFacts AsyncFacts Utf8Facts ThmFrames ThmStream SessionFacts RecvFacts MessageFacts
  ThmMessages ThmFlow.
Import ListNotations.
Local Open Scope string_scope.
Local Open Scope list_scope.
Local Open Scope N_scope.

(** ** After the end *)

Lemma carries_empty : forall s n, 0 < n -> carries s [] -> rd_exact n s = (Err UnexpectedEof, []).
Proof.
  intros s n Hn H. remember (@nil byte) as l.
  induction H as [|b bs s l H IH|s l H IH]; [| |]; cbn [rd_exact];
    (destruct (N.eqb_spec n 0); [lia|]); [reflexivity|discriminate|auto].
Qed.
Lemma empty_frame : forall masked limit s, carries s [] ->
  read_dataframe_with_limit masked limit s = (Err NoDataAvailable, []).
Proof.
  intros masked limit s H. unfold read_dataframe_with_limit, read_header, read_uint.
  rewrite carries_empty by (auto; lia). reflexivity.
Qed.
Lemma empty_message : forall r s, carries s [] -> recv_message r s = (Err NoDataAvailable, r, []).
Proof.
  intros r s H. unfold recv_message, recv_message_dataframes. cbn [recv_loop].
  unfold recv_dataframe. rewrite empty_frame by exact H. destruct (r_buffer r); reflexivity.
Qed.

(** [C59] Once the stream of a blocking receiver is at its end, every further message asked
    for is reported as [NoDataAvailable], without end; the receiver does not change (an
    unfinished message stays unfinished). *)
Lemma nothing_more_blocking_proof : forall n r s, carries s [] ->
  exists s', recv_n n r s = (repeat (Err NoDataAvailable) n, r, s') /\ carries s' [].
Proof.
  induction n as [|n IH]; intros r s H; cbn [recv_n repeat]; [eauto|].
  rewrite empty_message by exact H. destruct (IH r [] carries_nil) as (s' & -> & H'). eauto.
Qed.
(*EX Example nothing_more_blocking_ex :
  carries [RIntr; RIntr] [] /\
  fst (fst (recv_n 4 (receiver_with_limits false 100 1000) [RData x01 [x01; x61; x89; x00]; RIntr; RIntr]))
  = [Ok (OPing []); Err NoDataAvailable; Err NoDataAvailable; Err NoDataAvailable].
Proof. split; [repeat constructor|reflexivity]. Qed. EX*)
(** [C59] So an iteration over the messages of a connection sees all that was sent and then
    errors for ever. *)
Lemma iterator_never_ends_proof : forall masked max_df max_msg fs ms ws s n,
  delivers [] fs ms [] ->
  under (capped max_msg) [] fs -> fits (capped max_df) fs ->
  on_wire masked fs ws -> carries s ws ->
  let r := receiver_with_limits masked max_df max_msg in
  exists s', recv_n (length ms + n) r s = (map Ok ms ++ repeat (Err NoDataAvailable) n, r, s').
Proof.
  intros masked max_df max_msg fs ms ws s n HD HU HF HW Hs r.
  apply delivers_results in HD. apply under_iff in HU.
  destruct (recv_n_complete r s fs ws [] (map Ok ms)) as (s1 & E1 & E2); auto.
  - rewrite app_nil_r. exact Hs.
  - apply (capped_u32 max_df).
  - destruct (nothing_more_blocking_proof n r s1 E2) as (s2 & E3 & _).
    exists s2. rewrite map_length in E1.
    assert (forall a b r s, recv_n (a + b) r s =
      let '(x, r1, s1) := recv_n a r s in let '(y, r2, s2) := recv_n b r1 s1 in (x ++ y, r2, s2)) as HA.
    { clear. induction a as [|a IH]; intros b r s.
      - cbn [Nat.add recv_n app]. destruct (recv_n b r s) as [[? ?] ?]; reflexivity.
      - cbn [Nat.add recv_n]. destruct (recv_message r s) as [[x r1] s1]. rewrite IH.
        destruct (recv_n a r1 s1) as [[xs r2] s2]. destruct (recv_n b r2 s2) as [[ys r3] s3]. reflexivity. }
    rewrite HA, E1. replace (with_buffer r []) with r by reflexivity. rewrite E3. reflexivity.
Qed.
(*EX Example iterator_never_ends_ex :
  delivers [] [whole_frame (OPing [])] [OPing []] [] /\
  fst (fst (recv_n (1 + 2) (receiver_with_limits true 100 1000)
    [RData x89 [x80]; RData x01 [x02; x03; x04]]))
  = [Ok (OPing []); Err NoDataAvailable; Err NoDataAvailable].
Proof. split; [apply del_control; [exact I|exact I|constructor]|reflexivity]. Qed. EX*)

Section Ended.
  Variables St Item : Type.
  Variable decode : St -> bytes -> result (option Item) ws_error * St * bytes.
  Hypothesis H_none : forall st src st' src',
    decode st src = (Ok None, st', src') ->
    (length src' <= length src)%nat /\ decode st' src' = (Ok None, st', src').
  Hypothesis H_err : forall st src st' src', decode st src <> (Err remaining, st', src').

  Definition stopped (r : poll Item) : Prop := r = PEnd \/ r = PErr remaining.

  Lemma decode_stop : forall f r f', framed_decode decode f = (Some r, f') -> stopped r ->
    framed_decode decode f' = (Some r, f').
  Proof using H_none H_err.
    intros f r f' H Hr. unfold framed_decode in H.
    destruct (fr_readable f); [|discriminate].
    destruct (decode (fr_st f) (fr_buf f)) as [[x st'] buf'] eqn:E.
    destruct x as [[i|]|e| |].
    - injection H as <- _. destruct Hr; discriminate.
    - destruct (fr_eof f); [|discriminate]. apply H_none in E as [_ E].
      destruct buf' as [|b buf']; injection H as <- <-; unfold framed_decode;
        cbn [fr_readable fr_st fr_buf fr_eof]; rewrite E; reflexivity.
    - injection H as <- _. destruct Hr as [|Hr]; [discriminate|]. injection Hr as ->. now apply H_err in E.
    - injection H as <- _. destruct Hr; discriminate.
    - injection H as <- _. destruct Hr; discriminate.
  Qed.
  Lemma poll_stop : forall s f r f' s', a_clean s -> framed_poll decode s f = (r, f', s') ->
    (stopped r -> forall s2, framed_poll decode s2 f' = (r, f', s2)) /\ a_clean s'.
  Proof using H_none H_err.
    assert (forall f r f', framed_decode decode f = (Some r, f') -> stopped r ->
              forall s2, framed_poll decode s2 f' = (r, f', s2)) as HS.
    { intros f r f' H Hr s2. apply decode_stop in H; [|exact Hr].
      destruct s2; cbn [framed_poll]; rewrite H; reflexivity. }
    induction s as [|ev s IH]; intros f r f' s' Hc H; cbn [framed_poll] in H;
      destruct (framed_decode decode f) as [[x|] f1] eqn:E.
    - injection H as <- <- <-. split; [eauto|exact Hc].
    - destruct (fr_eof f1); [injection H as <- <- <-; split; [intros []; discriminate|exact Hc]|].
      destruct (framed_decode decode (mk_framed (fr_st f1) (fr_buf f1) true true)) as [[x|] f3] eqn:E3.
      + injection H as <- <- <-. split; [eauto|exact Hc].
      + injection H as <- <- <-. split; [intros []; discriminate|exact Hc].
    - injection H as <- <- <-. split; [eauto|exact Hc].
    - inversion Hc as [|? ? Hev Hc']; subst.
      destruct (fr_eof f1); [injection H as <- <- <-; split; [intros []; discriminate|exact Hc]|].
      destruct ev as [b bs| |k]; [|injection H as <- <- <-; split; [intros []; discriminate|exact Hc']|contradiction].
      eapply IH; eauto.
  Qed.
  Lemma poll_stopped : forall n s f r, stopped r -> framed_poll decode s f = (r, f, s) ->
    poll_n decode n s f = repeat r n.
  Proof using. clear H_none H_err.
    induction n as [|n IH]; intros s f r Hr H; cbn [poll_n repeat]; [reflexivity|].
    rewrite H, IH with (r := r); auto.
  Qed.
  Lemma run_stop : forall fuel s f ms r, a_clean s -> stopped r ->
    framed_run decode fuel s f = (ms, r) ->
    exists l, items l = ms /\ going l /\
      forall k, poll_n decode (length l + k) s f = l ++ repeat r k.
  Proof using H_none H_err.
    induction fuel as [|fuel IH]; intros s f ms r Hc Hr H; cbn [framed_run] in H.
    { injection H as <- <-. destruct Hr; discriminate. }
    destruct (framed_poll decode s f) as [[x f'] s'] eqn:E.
    destruct (poll_stop _ _ _ _ _ Hc E) as [H1 H2].
    assert (stopped x -> (ms, r) = ([], x) -> exists l, items l = ms /\ going l /\
      forall k, poll_n decode (length l + k) s f = l ++ repeat r k) as HZ.
    { intros Hx HE. injection HE as -> ->. exists []. split; [reflexivity|]. split; [constructor|].
      intros [|k]; [reflexivity|]. cbn [length Nat.add poll_n app repeat]. rewrite E. f_equal.
      apply poll_stopped; auto. }
    destruct x as [i| | |e| |].
    - destruct (framed_run decode fuel s' f') as [l0 e0] eqn:ER. injection H as <- <-.
      destruct (IH _ _ _ _ H2 Hr ER) as (l & L1 & L2 & L3).
      exists (PItem i :: l). cbn [items length Nat.add poll_n app]. rewrite E. split; [congruence|].
      split; [constructor; [exact I|exact L2]|]. intros k. rewrite L3. reflexivity.
    - apply HZ; [left; reflexivity|congruence].
    - destruct (IH _ _ _ _ H2 Hr H) as (l & L1 & L2 & L3).
      exists (PNotReady :: l). cbn [items length Nat.add poll_n app]. rewrite E. split; [congruence|].
      split; [constructor; [exact I|exact L2]|]. intros k. rewrite L3. reflexivity.
    - apply HZ; [|congruence]. injection H as <- <-. exact Hr.
    - injection H as <- <-. destruct Hr; discriminate.
    - injection H as <- <-. destruct Hr; discriminate.
  Qed.
  Lemma poll_end_stays : forall s f f' s', framed_poll decode s f = (PEnd, f', s') ->
    forall n s2, poll_n decode n s2 f' = repeat PEnd n.
  Proof using H_none. clear H_err.
    intros s f f' s' H n s2.
    assert (forall f f', framed_decode decode f = (Some PEnd, f') ->
              forall s2, framed_poll decode s2 f' = (PEnd, f', s2)) as HS.
    { clear - H_none. intros f f' H s2.
      assert (framed_decode decode f' = (Some PEnd, f')) as HE.
      { unfold framed_decode in H. destruct (fr_readable f); [|discriminate].
        destruct (decode (fr_st f) (fr_buf f)) as [[[[i|]|e| |] st'] buf'] eqn:E; try discriminate.
        destruct (fr_eof f); [|discriminate]. destruct buf'; [|discriminate].
        apply H_none in E as [_ E]. injection H as <-. unfold framed_decode.
        cbn [fr_readable fr_st fr_buf fr_eof]. rewrite E. reflexivity. }
      destruct s2; cbn [framed_poll]; rewrite HE; reflexivity. }
    apply poll_stopped; [left; reflexivity|]. revert s2.
    revert f H. induction s as [|ev s IH]; intros f H; cbn [framed_poll] in H;
      destruct (framed_decode decode f) as [[x|] f1] eqn:E; try (injection H as -> <- <-; eauto; fail);
      (destruct (fr_eof f1); [discriminate|]).
    - destruct (framed_decode decode (mk_framed (fr_st f1) (fr_buf f1) true true)) as [[x|] f3] eqn:E3;
        [|discriminate]. injection H as -> <- <-. eauto.
    - destruct ev as [b bs| |k]; try discriminate. eauto.
  Qed.
End Ended.

Lemma df_decode_no_io : forall c src src' k, df_decode c src <> (Err (IoError k), src').
Proof.
  intros c src src' k H. rewrite df_decode_eq in H. pose proof (read_header_total src) as HT.
  destruct (read_header lst_exact src) as [[h|e| |] r] eqn:E; cbn [fst] in HT; try contradiction.
  - destruct (dc_max c <? h_len h); [discriminate|]. destruct (llen r <? h_len h); [discriminate|].
    apply read_header_inv in E. destruct E as (_ & (_ & Hop & _) & _).
    destruct (read_body_total h (take (h_len h) r) (dc_is_server c) Hop) as [[f Eb]|[x Eb]];
      rewrite Eb in H; discriminate.
  - destruct e; try contradiction; discriminate.
Qed.
Lemma gather_no_io : forall fs i d k, gather i d fs <> Err (IoError k).
Proof.
  induction fs as [|f fs IH]; intros i d k; cbn [gather]; [discriminate|].
  destruct (_ && _); [discriminate|]. destruct (df_reserved f) as [[[] []] []]; try discriminate. apply IH.
Qed.
Lemma owned_no_io : forall fs k, owned_from_dataframes fs <> Err (IoError k).
Proof.
  intros fs k. unfold owned_from_dataframes, from_dataframes. destruct fs as [|f fs]; [discriminate|].
  pose proof (gather_no_io (f :: fs) 0 [] k) as HG.
  destruct (gather 0 [] (f :: fs)) as [data|e| |]; cbn [rbind]; try discriminate; [|congruence].
  destruct (opcode_new (df_opcode f)) as [[]|]; try discriminate.
  - destruct (utf8_valid data); discriminate.
  - destruct data as [|a [|b rest]]; try discriminate. destruct (utf8_valid rest); discriminate.
Qed.
Lemma mc_no_io : forall fuel c cur src c' src' k, mc_loop fuel c cur src <> (Err (IoError k), c', src').
Proof.
  assert (forall fs k, some_owned (owned_from_dataframes fs) <> Err (IoError k)) as HO.
  { intros fs k. pose proof (owned_no_io fs k). unfold some_owned.
    destruct (owned_from_dataframes fs); cbn [rbind]; congruence. }
  induction fuel as [|fuel IH]; intros c cur src c' src' k H; cbn [mc_loop] in H; [discriminate|].
  destruct (df_decode (mc_df c) src) as [[[f|]|e| |] src1] eqn:E; try discriminate.
  - destruct (_ && _); [discriminate|].
    destruct (_ && _); [injection H as H _ _; now apply HO in H|].
    destruct (_ && _); [discriminate|].
    destruct (f_finished f); [injection H as H _ _; now apply HO in H|].
    destruct (_ <=? _); [discriminate|]. destruct (_ <? _); [discriminate|]. now apply IH in H.
  - injection H as -> _ _. now apply df_decode_no_io in E.
Qed.

(** [C59] An asynchronous connection that has ended stays ended however often it is polled. *)
Lemma end_stays_proof : forall s f f' s', framed_poll mc_decode s f = (PEnd, f', s') ->
  forall n s2, poll_n mc_decode n s2 f' = repeat PEnd n.
Proof. apply poll_end_stays. exact mc_none. Qed.
(*EX Example end_stays_ex :
  poll_n mc_decode 4 [AData x89 [x00]; ANotReady] (framed_new (msg_codec_with_limits CtxClient 100 1000) [])
  = [PItem (OPing []); PNotReady; PEnd; PEnd].
Proof. reflexivity. Qed. EX*)

Lemma acarries_clean : forall s l, acarries s l -> a_clean s.
Proof. induction 1; constructor; auto; exact I. Qed.

(** [C59] One whose stream ended inside a frame delivers the messages before it, and then
    reports the same error at every poll. *)
Lemma broken_off_stays_proof : forall ctx max_df max_msg fs ms p ws f key w1 w2 s,
  delivers [] fs ms p ->
  under (capped max_msg) [] fs -> fits (capped max_df) fs ->
  on_wire (receives_masked ctx) fs ws ->
  rfc_legal (rfc_of_frame f key) -> size (f_data f) <= capped max_df ->
  octets (w1 ++ w2) = rfc_encode (rfc_of_frame f key) -> w1 <> [] -> w2 <> [] ->
  acarries s (ws ++ w1) ->
  exists l, items l = ms /\ going l /\
    forall n, poll_n mc_decode (length l + n) s
                (framed_new (msg_codec_with_limits ctx max_df max_msg) [])
              = l ++ repeat (PErr (IoError (OtherKind 0))) n.
Proof.
  intros ctx max_df max_msg fs ms p ws f key w1 w2 s HD HU HF HW HL Hd Ho H1 H2 Hs.
  pose proof (closed_inside_frame_proof _ _ _ _ _ _ _ _ _ _ _ _ HD HU HF HW HL Hd Ho H1 H2 Hs) as HR.
  unfold run_messages in HR. eapply run_stop; try exact HR.
  - exact mc_none.
  - intros st src st' src'. apply mc_no_io.
  - eapply acarries_clean, Hs.
  - right. reflexivity.
Qed.
(*EX Example broken_off_stays_ex :
  poll_n mc_decode 4 [AData x89 [x00; x81]; ANotReady; AData x02 [x61]]
    (framed_new (msg_codec_with_limits CtxClient 100 1000) [])
  = [PItem (OPing []); PNotReady; PErr (IoError (OtherKind 0)); PErr (IoError (OtherKind 0))].
Proof. reflexivity. Qed. EX*)
(** [C59] One whose stream ended between frames delivers its messages, and then is at its end
    at every poll. *)
Lemma ended_stays_proof : forall ctx max_df max_msg fs ms p ws s,
  delivers [] fs ms p ->
  under (capped max_msg) [] fs -> fits (capped max_df) fs ->
  on_wire (receives_masked ctx) fs ws -> acarries s ws ->
  exists l, items l = ms /\ going l /\
    forall n, poll_n mc_decode (length l + n) s
                (framed_new (msg_codec_with_limits ctx max_df max_msg) [])
              = l ++ repeat PEnd n.
Proof.
  intros ctx max_df max_msg fs ms p ws s HD HU HF HW Hs.
  pose proof (closed_between_frames_proof _ _ _ _ _ _ _ _ HD HU HF HW Hs) as HR.
  unfold run_messages in HR. eapply run_stop; try exact HR.
  - exact mc_none.
  - intros st src st' src'. apply mc_no_io.
  - eapply acarries_clean, Hs.
  - left. reflexivity.
Qed.
(*EX Example ended_stays_ex :
  poll_n mc_decode 5 [AData x89 [x00; x82]; ANotReady; AData x01 [x61]]
    (framed_new (msg_codec_with_limits CtxClient 100 1000) [])
  = [PItem (OPing []); PNotReady; PItem (OBinary [x61]); PEnd; PEnd].
Proof. reflexivity. Qed. EX*)

(** ** After a Close *)

(** [C60] Receiving writes nothing, whatever arrives: no Ping is answered by the library, no
    Close either. *)
Lemma receiving_writes_nothing_proof : forall us c l c',
  Forall (fun u => receives u = true) us -> client_run us c = (l, c') -> c_out c' = c_out c.
Proof.
  induction us as [|u us IH]; intros c l c' HF H; cbn [client_run] in H; [congruence|].
  inversion HF as [|? ? Hu HF']; subst.
  destruct (use_client u c) as [a c1] eqn:E1. destruct (client_run us c1) as [l2 c2] eqn:E2.
  injection H as _ <-. rewrite (IH _ _ _ HF' E2).
  destruct u; try discriminate; cbn [use_client] in E1; unfold client_recv, client_recv_frame in E1.
  - destruct (recv_message _ _) as [[? ?] ?]. injection E1 as _ <-. reflexivity.
  - destruct (recv_dataframe _ _) as [? ?]. injection E1 as _ <-. reflexivity.
Qed.
(*EX Example receiving_writes_nothing_ex :
  let c := mk_client [] (mk_sender true) (receiver_with_limits false 100 1000) [x89]
             [RData x00 [x88; x00]] (mk_w [] []) in
  let '(l, c') := client_run [RecvMessage; RecvMessage; RecvMessage] c in
  l = [Message (Ok (OPing [])); Message (Ok (OClose None)); Message (Err NoDataAvailable)] /\
  w_out (c_out c') = [].
Proof. vm_compute. split; reflexivity. Qed. EX*)

(** [C60] RFC 6455, 5.5.1 (nothing is sent, and nothing has to be read, after a Close) is
    left to the application: every message after a Close is written ... *)
Lemma sends_after_close_proof : forall s (pre post : list (owned * mkey)) c k script,
  Forall (fun p => sendable (2 ^ 32) (fst p)) (pre ++ (OClose c, k) :: post) ->
  let l := map (fun p => (owned_ops (fst p), snd p)) (pre ++ (OClose c, k) :: post) in
  let '(rs, w) := send_all s l (mk_w [] script) in
  Forall (fun r => r = Ok tt) rs ->
  octets (w_out w)
  = concat (map (fun p => rfc_encode (rfc_of_frame (whole_frame (fst p))
                                        (if s_mask s then Some (snd p) else None)))
              (pre ++ (OClose c, k) :: post)).
Proof.
  intros s pre post c k script. remember (pre ++ (OClose c, k) :: post) as ms eqn:EM.
  clear EM pre post c k. intros HL l.
  pose proof (sends_in_order_proof s l (mk_w [] script)) as HS.
  destruct (send_all _ _ _) as [rs w]. intros Hrs. cbn [w_out octets map app] in HS.
  assert (Forall (fun p => typed (fst p)) ms) as HT
    by (eapply Forall_impl; [|exact HL]; intros p Hp; apply Hp).
  rewrite HS; auto; unfold l.
  - rewrite map_map. f_equal. apply map_ext_in. intros p Hp. cbn [fst snd].
    f_equal. apply owned_rfc. rewrite Forall_forall in HT. auto.
  - apply Forall_map. apply Forall_forall. intros p _. cbn [fst].
    apply library_frames_honest_proof.
  - apply Forall_map. apply Forall_forall. intros p Hp. cbn [fst].
    rewrite Forall_forall in HT, HL. rewrite owned_payload by auto.
    destruct (HL p Hp) as (_ & H2 & _). unfold size in H2.
    assert (2 ^ 32 < 2 ^ 64) by reflexivity. lia.
Qed.
(*EX Example sends_after_close_ex :
  let k := mk_key x00 x00 x00 x00 in
  sendable (2 ^ 32) (OClose None) /\
  send_all (mk_sender false) [(owned_ops (OClose None), k); (owned_ops (OText (str "a")), k)] (mk_w [] [])
  = ([Ok tt; Ok tt], mk_w [x88; x00; x81; x01; x61] []).
Proof. cbv zeta. split; [facts|reflexivity]. Qed. EX*)

(** [C60] ... and every message that arrives after a Close is delivered. *)
Lemma receives_after_close_proof : forall masked max_df max_msg pre c post ws s,
  Forall (sendable (capped max_df)) (pre ++ OClose c :: post) ->
  on_wire masked (map whole_frame (pre ++ OClose c :: post)) ws -> carries s ws ->
  let r := receiver_with_limits masked max_df max_msg in
  exists s', recv_n (length pre + 1 + length post) r s
             = (map Ok pre ++ [Ok (OClose c)] ++ map Ok post, r, s').
Proof.
  intros masked max_df max_msg pre c post ws s HL HW Hs r.
  destruct (recv_n_complete r s (map whole_frame (pre ++ OClose c :: post)) ws []
              (map Ok (pre ++ OClose c :: post))) as (s' & E1 & _); auto.
  - rewrite app_nil_r. exact Hs.
  - assert (capped max_df < 2 ^ 64) as Hcap by (unfold capped; lia).
    assert (Forall (fun p => sendable (capped max_df) (fst p))
              (map (fun m => (m, mk_key x00 x00 x00 x00)) (pre ++ OClose c :: post))) as HL'
      by (apply Forall_map; exact HL).
    pose proof (wire_ok_fits _ _ _ (masked_frames_ok masked _ _ Hcap HL')) as HO.
    unfold masked_frames in HO. rewrite !map_map in HO. exact HO.
  - apply (capped_u32 max_df).
  - apply whole_within.
  - apply delivers_results. eapply whole_results, HL.
  - exists s'. rewrite map_app in E1. cbn [map] in E1.
    rewrite app_length in E1. cbn [length] in E1. rewrite !map_length in E1.
    replace (length pre + 1 + length post)%nat with (length pre + S (length post))%nat by lia.
    exact E1.
Qed.
(*EX Example receives_after_close_ex :
  Forall (sendable (capped 100)) ([] ++ OClose None :: [OText (str "a")]) /\
  on_wire false (map whole_frame ([] ++ OClose None :: [OText (str "a")])) [x88; x00; x81; x01; x61] /\
  fst (fst (recv_n 2 (receiver_with_limits false 100 1000) [RData x88 [x00; x81; x01; x61]]))
  = [Ok (OClose None); Ok (OText (str "a"))].
Proof.
  split; [facts|]. split; [|reflexivity].
  apply (wire_cons _ _ None [x88; x00] _ [x81; x01; x61]); [reflexivity|reflexivity|].
  apply (wire_cons _ _ None [x81; x01; x61] _ []); [reflexivity|reflexivity|constructor].
Qed. EX*)

(** [C60] So the library does not keep RFC 6455, 5.5.1 by itself: a connection on which a Close
    was sent and one was received still sends and delivers data. *)
Lemma nothing_after_close_refuted_proof : exists c k l c',
  client_run [SendMessage (OClose None) k; RecvMessage; SendMessage (OText (str "a")) k; RecvMessage] c
  = (l, c') /\
  l = [Sent (Ok tt); Message (Ok (OClose None)); Sent (Ok tt); Message (Ok (OText (str "b")))] /\
  w_out (c_out c) = [] /\ w_out (c_out c') <> [x88; x80; x00; x00; x00; x00].
Proof.
  exists (mk_client [] (mk_sender true) (receiver_with_limits false 100 1000) []
            [RData x88 [x00; x81; x01; x62]] (mk_w [] [])), (mk_key x00 x00 x00 x00).
  eexists _, _. split; [vm_compute; reflexivity|]. split; [reflexivity|]. split; [reflexivity|].
  vm_compute. discriminate.
Qed.

(** ** Kinds of messages *)

(** [C64] What the predicates of a message say is what the first octet it is sent with says
    (RFC 6455, 5.2: the opcode; 5.5: control frames have its highest bit set). *)
Lemma kinds_proof : forall (s : sender) (m : owned) k w w', typed m ->
  send_message s m k w = (Ok tt, w') ->
  exists b rest, w_out w' = w_out w ++ b :: rest /\
    let op := Byte.to_N b mod 16 in
    (is_control m = true <-> 8 <= op) /\ (is_data m = true <-> op < 8) /\
    (is_close m = true <-> op = 8) /\ (is_ping m = true <-> op = 9) /\ (is_pong m = true <-> op = 10).
Proof.
  intros s m k w w' Ht H. unfold send_message, send_frame, write_to in H.
  set (key := if s_mask s then Some k else None) in *.
  destruct (frame_bytes (owned_ops m) key) as [data|e| |] eqn:EF; try discriminate.
  unfold write_all in H.
  destruct (write_all_go_spec (w_script w) (w_out w) data) as [n Hn].
  destruct (write_all_go (w_script w) (w_out w) data) as [r w1]. destruct Hn as (_ & N2 & _).
  injection H as Hr <-. assert (r = Ok tt) as Hr' by (destruct r as [[]|e| |]; cbn in Hr; congruence).
  apply N2 in Hr'. rewrite Hr'. clear - EF.
  assert (exists rest, data = n2b (128 + mtype_u8 match m with
              | OText _ => TText | OBinary _ => TBinary | OClose _ => TClose
              | OPing _ => TPing | OPong _ => TPong end) :: rest) as [rest ->].
  { destruct (ops_sendable_dec (owned_ops m)) as [HS|HS].
    - rewrite frame_bytes_ok in EF by (auto; destruct m; reflexivity). injection EF as <-.
      unfold header_bytes. cbn [ops_header h_flags h_opcode]. destruct m; eexists; reflexivity.
    - destruct (frame_bytes_refused (owned_ops m) key HS) as [x Hx]. congruence. }
  eexists _, _. split; [reflexivity|].
  destruct m; vm_compute; repeat split; congruence.
Qed.
(*EX
(** A server sends a Pong: the first octet ends in 10. *)
Example kinds_ex :
  typed (OPong (str "a")) /\
  send_message (mk_sender false) (OPong (str "a")) (mk_key x00 x00 x00 x00) (mk_w [x01] [])
  = (Ok tt, mk_w ([x01] ++ x8a :: [x01; x61]) []) /\
  Byte.to_N x8a mod 16 = 10 /\ is_control (OPong (str "a")) = true /\ is_pong (OPong (str "a")) = true /\
  is_ping (OPong (str "a")) = false /\ is_close (OPong (str "a")) = false /\ is_data (OPong (str "a")) = false.
Proof. repeat split. Qed.
EX*)
