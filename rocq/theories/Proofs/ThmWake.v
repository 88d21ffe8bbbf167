(** An asynchronous connection waits only for its transport: C68. *)
From Coq Require Import NArith ZArith String Bool List Lia.
From Coq Require Import ZifyBool ZifyNat ZifyN.
From Coq.Strings Require Import Byte.
From Verif.Model Require Import Base Io Header Mask Dataframe Utf8 Text Base64 WsKey Headers
  Handshake Message Receiver Codec Framed Http Connect.
From Verif.Spec Require Import RfcFrame FrameSpec Schedule Unicode Drive Session Fields HttpHead Connection Polled Polls.
From Verif.Proofs Require Import BaseFacts MaskFacts HeaderFacts FrameFacts CodecFacts ScriptFacts
  Machine FramedFacts AsyncFacts Utf8Facts ThmFrames ThmStream SessionFacts RecvFacts MessageFacts
  ThmMessages ThmFlow.
Import ListNotations.
Local Open Scope string_scope.
Local Open Scope list_scope.
Local Open Scope N_scope.


(** ** Reading *)

(** [C68] Whatever the codec - frames, messages, HTTP requests and responses: a poll of the
    stream that is not ready has read all the transport had and was told, last, to wait.  So
    the task that polls is woken when there is more. *)
Lemma stream_waits_proof : forall St Item
  (decode : St -> bytes -> result (option Item) ws_error * St * bytes) s f f' s',
  framed_poll decode s f = (PNotReady, f', s') -> read_waits s s'.
Proof.
  intros St Item decode s. induction s as [|ev s IH]; intros f f' s' H; cbn [framed_poll] in H.
  - assert (forall g : framed St, fst (framed_decode decode g) <> Some PNotReady) as HN.
    { intros g. unfold framed_decode. destruct (fr_readable g); [|discriminate].
      destruct (decode (fr_st g) (fr_buf g)) as [[[[i|]|e| |] st] b]; try discriminate.
      destruct (fr_eof g); [destruct b|]; discriminate. }
    pose proof (HN f) as H1. destruct (framed_decode decode f) as [[r|] f1]; cbn [fst] in H1.
    + congruence.
    + destruct (fr_eof f1); [congruence|].
      match type of H with context[framed_decode decode ?g] => pose proof (HN g) as H2; destruct (framed_decode decode g) as [[r|] f2] end;
        cbn [fst] in H2; congruence.
  - assert (forall g : framed St, fst (framed_decode decode g) <> Some PNotReady) as HN.
    { intros g. unfold framed_decode. destruct (fr_readable g); [|discriminate].
      destruct (decode (fr_st g) (fr_buf g)) as [[[[i|]|e| |] st] b]; try discriminate.
      destruct (fr_eof g); [destruct b|]; discriminate. }
    pose proof (HN f) as H1. destruct (framed_decode decode f) as [[r|] f1]; cbn [fst] in H1.
    + congruence.
    + destruct (fr_eof f1); [congruence|]. destruct ev as [b bs| |k].
      * apply IH in H as (chunks & ->). exists ((b, bs) :: chunks). reflexivity.
      * exists []. cbn [map app]. congruence.
      * congruence.
Qed.
(*EX Example stream_waits_ex :
  framed_poll mc_decode [AData x01 []; ANotReady; AData x61 []]
    (framed_new (msg_codec_with_limits CtxClient 100 100) [x81])
  = (PNotReady, mk_framed (msg_codec_with_limits CtxClient 100 100) [x81; x01] false false, [AData x61 []]).
Proof. vm_compute. reflexivity. Qed. EX*)

Section Quiet.
  Variables St Item : Type.
  Variable decode : St -> bytes -> result (option Item) ws_error * St * bytes.
  Hypothesis H_some : forall st src i st' src',
    decode st src = (Ok (Some i), st', src') -> (length src' < length src)%nat.
  Hypothesis H_none : forall st src st' src',
    decode st src = (Ok None, st', src') ->
    (length src' <= length src)%nat /\ decode st' src' = (Ok None, st', src').
  Hypothesis H_total : forall st src st' src',
    decode st src <> (Panic, st', src') /\ decode st src <> (OutOfFuel, st', src').

  Lemma polled_inv : forall s f s' f', fr_inv decode f -> polled decode s f s' f' -> fr_inv decode f'.
  Proof.
    intros s f s' f' HI H. induction H as [s f|s f i s1 f1 s2 f2 H _ IH|s f s1 f1 s2 f2 H _ IH]; auto;
      apply IH; pose proof (framed_poll_spec _ _ _ H_some H_none H_total s f HI) as HS; rewrite H in HS; apply HS.
  Qed.
  Lemma wait_unreadable : forall s f f' s', fr_inv decode f -> framed_poll decode s f = (PNotReady, f', s') ->
    fr_readable f' = false.
  Proof.
    induction s as [|ev s IH]; intros f f' s' HI H; cbn [framed_poll] in H;
      pose proof (framed_decode_cases _ _ _ H_total f HI) as HD;
      destruct (decode (fr_st f) (fr_buf f)) as [[[[i|]|e| |] st] b]; try contradiction; rewrite HD in H; try discriminate H;
      cbn [fr_eof fr_st fr_buf] in H.
    - match type of H with context[framed_decode decode ?g] => remember (framed_decode decode g) as z eqn:Ez; destruct z as [[r|] f2] end;
        [|discriminate H].
      assert (r = PNotReady) as -> by congruence. clear H.
      unfold framed_decode in Ez. cbn [fr_readable fr_st fr_buf fr_eof] in Ez.
      destruct (decode st b) as [[[[i|]|e| |] st'] b']; try discriminate Ez. destruct b'; discriminate Ez.
    - destruct ev as [b1 bs| |k].
      + eapply IH; [|exact H]. split; [reflexivity|discriminate].
      + injection H as <- <-. reflexivity.
      + discriminate H.
  Qed.
  Lemma wait_quiet : forall s f s1 f1 f2 s2, fr_inv decode f -> polled decode s f s1 f1 ->
    framed_poll decode s1 f1 = (PNotReady, f2, s2) ->
    decode (fr_st f2) (fr_buf f2) = (Ok None, fr_st f2, fr_buf f2).
  Proof.
    intros s f s1 f1 f2 s2 HI HP H. pose proof (polled_inv _ _ _ _ HI HP) as HI1.
    pose proof (framed_poll_spec _ _ _ H_some H_none H_total s1 f1 HI1) as HS.
    pose proof (wait_unreadable _ _ _ _ HI1 H) as HU. rewrite H in HS.
    destruct HS as ((_ & HS) & _). auto.
  Qed.
End Quiet.

(** [C68] And while it waits it sits on nothing it could have given out: in what it has read
    and kept there is no whole message.  (If the stream ended here, no message would come.) *)
Lemma nothing_held_messages_proof : forall c buf s s1 f1 s2 f2,
  polled mc_decode s (framed_new c buf) s1 f1 ->
  framed_poll mc_decode s1 f1 = (PNotReady, f2, s2) ->
  fst (run_messages (fr_st f2) (fr_buf f2) []) = [].
Proof.
  intros c buf s s1 f1 s2 f2 HP H.
  pose proof (wait_quiet _ _ _ mc_some mc_none mc_total _ _ _ _ _ _ (fr_inv_new_mc c buf) HP H) as HQ.
  rewrite run_messages_cdrain, (cdrain_quiet _ _ _ mc_some) by exact HQ. reflexivity.
Qed.
(*EX (** A ping comes out at the second poll; the third waits, having kept the beginning of a text. *)
Example nothing_held_ex :
  let c := msg_codec_with_limits CtxClient 100 100 in
  let s := [ANotReady; AData x89 [x00; x81; x02; x61]; ANotReady; AData x62 []] in
  exists s1 f1 f2, polled mc_decode s (framed_new c []) s1 f1 /\
    framed_poll mc_decode s1 f1 = (PNotReady, f2, [AData x62 []]) /\ fr_buf f2 = [x81; x02; x61].
Proof.
  cbv zeta. eexists _, _, _. split.
  - eapply polled_wait; [vm_compute; reflexivity|]. eapply polled_item; [vm_compute; reflexivity|]. apply polled_not.
  - split; vm_compute; reflexivity.
Qed. EX*)

(** [C68] Likewise for a stream of frames. *)
Lemma nothing_held_frames_proof : forall c buf s s1 f1 s2 f2,
  polled df_decoder s (framed_new c buf) s1 f1 ->
  framed_poll df_decoder s1 f1 = (PNotReady, f2, s2) ->
  fst (run_frames (fr_st f2) (fr_buf f2) []) = [].
Proof.
  intros c buf s s1 f1 s2 f2 HP H.
  pose proof (wait_quiet _ _ _ df_decoder_some df_decoder_none df_decoder_total _ _ _ _ _ _ (fr_inv_new_df c buf) HP H) as HQ.
  rewrite run_frames_cdrain, (cdrain_quiet _ _ _ df_decoder_some) by exact HQ. reflexivity.
Qed.
(*EX
Example nothing_held_frames_ex :
  let c := mk_dfc false 100 in
  let s := [AData x01 [x01; x61; x80]; ANotReady; AData x00 []] in
  exists s1 f1 f2, polled df_decoder s (framed_new c []) s1 f1 /\
    framed_poll df_decoder s1 f1 = (PNotReady, f2, [AData x00 []]) /\ fr_buf f2 = [x80].
Proof.
  cbv zeta. eexists _, _, _. split.
  - eapply polled_item; [vm_compute; reflexivity|]. apply polled_not.
  - split; vm_compute; reflexivity.
Qed.
EX*)

(** [C68] Refuted of the handshake: two empty lines before a request (a client may send them,
    RFC 7230 3.5 asks servers to skip at least one; the blocking server skips them) and the
    asynchronous server waits with the whole request in its buffer.  It answers when the
    client sends something more, which a client that waits for the answer does not. *)
Lemma nothing_held_handshake_refuted_proof : exists request f u,
  framed_poll (http_decode (try_request httparse_lib)) [AData CR ([LF; CR; LF] ++ request); ANotReady] (framed_new tt [])
    = (PNotReady, f, []) /\ fr_buf f = request /\
  async_into_ws httparse_lib (apush_back request []) (mk_fw (mk_bm [] 0) [] [] []) = Ok u /\
  exists u', into_ws httparse_lib (push_back ([CR; LF; CR; LF] ++ request) []) (mk_w [] []) = Ok u' /\
    up_request u' = au_request u.
Proof.
  exists (str "GET / HTTP/1.1" ++ crlf ++ str "Upgrade: websocket" ++ crlf ++ str "Connection: upgrade" ++ crlf ++
    str "Sec-WebSocket-Key: dGhlIHNhbXBsZSBub25jZQ==" ++ crlf ++ crlf).
  eexists _, _. split; [vm_compute; reflexivity|]. split; [vm_compute; reflexivity|].
  split; [vm_compute; reflexivity|]. eexists. split; [vm_compute; reflexivity|]. vm_compute. reflexivity.
Qed.

(** ** Writing *)

Lemma flush_go_waits : forall ws data out data' out' ws',
  flush_go ws data out = (Some SNotReady, data', out', ws') -> write_waits ws ws'.
Proof.
  induction ws as [|w ws IH]; intros data out data' out' ws' H; cbn [flush_go] in H; destruct data as [|b bs]; try discriminate H.
  destruct w as [n| | |k]; try discriminate H.
  - apply IH in H as (took & ->). exists (n :: took). reflexivity.
  - injection H as <- <- <-. exists []. reflexivity.
Qed.

(** [C68] A flush that is not ready was told to wait: by the transport's write, or, everything
    being written, by its flush. *)
Lemma flush_waits_proof : forall w w', poll_complete w = (SNotReady, w') ->
  write_waits (fw_ws w) (fw_ws w') \/
  (bm_data (fw_buf w') = [] /\ fw_out w' = fw_out w ++ bm_data (fw_buf w) /\ fw_fs w = AfNotReady :: fw_fs w').
Proof.
  intros w w' H. pose proof (poll_complete_spec _ _ _ H) as (HS & _). unfold poll_complete in H.
  destruct (flush_go (fw_ws w) (bm_data (fw_buf w)) (fw_out w)) as [[[r data] out] ws] eqn:E.
  destruct r as [r|].
  - injection H as -> <-. left. cbn [fw_ws]. eapply flush_go_waits, E.
  - right. apply flush_go_spec in E as (_ & E & _). specialize (E eq_refl). subst data.
    destruct (fw_fs w) as [|[| |k] fs]; try discriminate H. injection H as <-.
    cbn [bm_data fw_buf fw_fs fw_out] in *. rewrite app_nil_r in HS. auto.
Qed.
(*EX Example flush_waits_ex :
  poll_complete (mk_fw (mk_bm [x61; x62] 8) [] [AwAccept 0; AwNotReady; AwZero] [AfNotReady])
  = (SNotReady, mk_fw (mk_bm [x62] 7) [x61] [AwZero] [AfNotReady]) /\
  poll_complete (mk_fw (mk_bm [x61] 8) [] [] [AfNotReady]) = (SNotReady, mk_fw (mk_bm [] 7) [x61] [] []).
Proof. split; reflexivity. Qed. EX*)

(** [C68] A sink that does not take a frame was told to wait, in the same call, by the
    transport's write. *)
Lemma sink_waits_proof : forall is_server d k extra w w',
  start_send is_server d k extra w = (SNotReady, w') ->
  write_waits (fw_ws w) (fw_ws w') /\ fw_out w' ++ bm_data (fw_buf w') = fw_out w ++ bm_data (fw_buf w).
Proof.
  intros is_server d k extra w w' H. unfold start_send in H.
  assert (forall w, match codec_encode is_server d k extra (fw_buf w) with
    | (Ok _, b) => (SReady, mk_fw b (fw_out w) (fw_ws w) (fw_fs w))
    | (Err e, b) => (SErr e, mk_fw b (fw_out w) (fw_ws w) (fw_fs w))
    | (_, b) => (SErr (OtherError "panic"), mk_fw b (fw_out w) (fw_ws w) (fw_fs w))
    end <> (SNotReady, w')) as HN.
  { intros v. destruct (codec_encode is_server d k extra (fw_buf v)) as [[x|e| |] b]; discriminate. }
  destruct (BACKPRESSURE <=? llen (bm_data (fw_buf w))); [|exfalso; exact (HN w H)].
  destruct (poll_complete w) as [r w1] eqn:E. pose proof (poll_complete_spec _ _ _ E) as (E1 & E2 & _).
  destruct r as [| |e]; [| |discriminate H];
    (destruct (BACKPRESSURE <=? llen (bm_data (fw_buf w1))) eqn:EB; [|exfalso; exact (HN w1 H)]); injection H as <-.
  - rewrite E2 in EB by reflexivity. discriminate EB.
  - split; [|exact E1]. apply flush_waits_proof in E as [E|(E & _)]; [exact E|]. rewrite E in EB. discriminate EB.
Qed.
(*EX Example sink_waits_ex :
  start_send true (owned_ops (OPing [])) (mk_key x00 x00 x00 x00) 0 (mk_fw (mk_bm (repeat x61 (N.to_nat 8192)) 8192) [] [AwNotReady] [])
  = (SNotReady, mk_fw (mk_bm (repeat x61 (N.to_nat 8192)) 8192) [] [] []).
Proof. vm_compute. reflexivity. Qed. EX*)
