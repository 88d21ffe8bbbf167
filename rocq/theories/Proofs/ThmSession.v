(** After the handshake: messages between any client and any server: C09, C16, C36. *)
From Coq Require Import NArith ZArith String Bool List Lia Permutation.
From Coq Require Import ZifyBool ZifyNat ZifyN.
From Coq.Strings Require Import Byte.
From Verif.Model Require Import Base Io Header Mask Dataframe Utf8 Text Base64 Sha1 WsKey Headers
  Handshake Message Receiver Codec Framed Http Connect.
From Verif.Spec Require Import RfcFrame FrameSpec Unicode Schedule Drive Session Sink Rfc4648 Fields Upgrade Builder
  HttpHead Connection Endpoint.
From Verif.Proofs Require Import BaseFacts MaskFacts HeaderFacts FrameFacts CodecFacts ScriptFacts
  Machine FramedFacts AsyncFacts Utf8Facts ThmFrames ThmStream SessionFacts RecvFacts MessageFacts
  ThmMessages ThmFlow HttpFacts ThmHttp SpreadFacts ThmConnect.
Import ListNotations.
Local Open Scope string_scope.
Local Open Scope list_scope.
Local Open Scope N_scope.

(** ** The bytes sent *)
Lemma client_run_sends : forall l c,
  let '(answers, c') := client_run (map (fun p : owned * mkey => SendMessage (fst p) (snd p)) l) c in
  let '(rs, w) := send_all (c_sender c) (map (fun p => (owned_ops (fst p), snd p)) l) (c_out c) in
  answers = map Sent rs /\ c_out c' = w.
Proof.
  induction l as [|[m k] l IH]; intros c; [cbn; auto|].
  cbn [map client_run send_all use_client fst snd]. unfold client_send, client_send_frame.
  destruct (send_frame (c_sender c) (owned_ops m) k (c_out c)) as [r w1].
  specialize (IH (mk_client (c_headers c) (c_sender c) (c_receiver c) (c_buf c) (c_in c) w1)).
  cbn [c_sender c_out] in IH.
  destruct (client_run _ _) as [an c'], (send_all _ _ w1) as [rs w]. destruct IH as [-> ->]. auto.
Qed.
Lemma blocking_wire : forall c l wire max, max < 2 ^ 64 -> Forall (fun p => sendable max (fst p)) l ->
  puts (Blocking c) l wire -> wire = encs (masked_frames (s_mask (c_sender c)) l).
Proof.
  intros c l wire max Hmax HL H. inversion H as [? ? answers c' ? E HA HW|]; subst.
  pose proof (client_run_sends l c) as HS. rewrite E in HS.
  pose proof (sends_in_order_proof (c_sender c) (map (fun p => (owned_ops (fst p), snd p)) l) (c_out c)) as HO.
  destruct (send_all _ _ _) as [rs w]. destruct HS as [-> HC]. rewrite HC in HW.
  assert (Forall (fun p => typed (fst p)) l) as HT by (eapply Forall_impl; [|exact HL]; intros p Hp; apply Hp).
  assert (Forall (fun r => r = Ok tt) rs) as HR.
  { apply Forall_map in HA. eapply Forall_impl; [|exact HA]. intros r Hr. injection Hr as ->. reflexivity. }
  apply sent_encs; auto.
  assert (octets (w_out w) = octets (w_out (c_out c)) ++ octets wire) as HX by (rewrite HW; apply octets_app).
  rewrite HO in HX; auto.
  - apply app_inv_head in HX. rewrite <- HX, map_map. f_equal. apply map_ext_in. intros p Hp. cbn [fst snd].
    f_equal. apply owned_rfc. rewrite Forall_forall in HT. auto.
  - apply Forall_map. apply Forall_forall. intros p _. cbn [fst]. apply library_frames_honest_proof.
  - apply Forall_map. apply Forall_forall. intros p Hp. cbn [fst].
    rewrite Forall_forall in HT, HL. rewrite owned_payload by auto.
    destruct (HL p Hp) as (_ & H2 & _). unfold size in H2. lia.
Qed.
Lemma async_wire : forall a l wire max, max < 2 ^ 64 -> Forall (fun p => sendable max (fst p)) l ->
  puts (Async a) l wire -> wire = encs (masked_frames (negb (dc_is_server (mc_df (fr_st (ac_read a))))) l).
Proof.
  intros a l wire max Hmax HL H. inversion H as [|? ? ops rs w ? HO E HA HB HW]; subst.
  pose proof (sink_order_proof (dc_is_server (mc_df (fr_st (ac_read a)))) ops (ac_out a)) as HS.
  rewrite E in HS.
  assert (Forall (fun p => typed (fst p)) l) as HT by (eapply Forall_impl; [|exact HL]; intros p Hp; apply Hp).
  apply sent_encs; auto. rewrite HB, app_nil_r, HW, octets_app in HS.
  assert (octets wire = concat (map (fun p : dataframe_ops * mkey =>
      rfc_encode (rfc_of (df_is_last (fst p)) (df_reserved (fst p)) (df_opcode (fst p))
        (concat (df_writes (fst p))) (if dc_is_server (mc_df (fr_st (ac_read a))) then None else Some (snd p)))) (accepted ops rs))) as HX.
  { eapply app_inv_head, HS. eapply Forall_impl; [|exact HO]. intros d (m & -> & Hm & Ht).
    split; [apply library_frames_honest_proof|]. rewrite owned_payload by exact Ht.
    unfold size in Hm. lia. }
  rewrite HX, HA, map_map. f_equal. apply map_ext_in.
  intros p Hp. cbn [fst snd]. f_equal. rewrite Forall_forall in HT.
  rewrite owned_rfc by auto. destruct (dc_is_server _); reflexivity.
Qed.

(** ** The messages received *)
Lemma blocking_gets : forall c masked max_df max_msg l, c_receiver c = receiver_with_limits masked max_df max_msg ->
  Forall (fun p => sendable (capped max_df) (fst p)) l ->
  gets (Blocking c) (encs (masked_frames masked l)) (map fst l).
Proof.
  intros c masked max_df max_msg l HR HL Hs.
  assert (capped max_df < 2 ^ 64) as Hcap by (unfold capped; lia).
  rewrite (client_recv_alike _ c (push_back (c_buf c) (c_in c))) by (rewrite spread_push_back; reflexivity).
  rewrite HR. set (r := receiver_with_limits masked max_df max_msg).
  assert (Forall (sendable (capped max_df)) (map fst l)) as HL' by (apply Forall_map; exact HL).
  replace (length (map fst l)) with (length (map (@Ok owned ws_error) (map fst l))) by (rewrite !map_length; reflexivity).
  assert (exists s', recv_n (length (map (@Ok owned ws_error) (map fst l))) r (push_back (c_buf c) (c_in c))
    = (map (@Ok owned ws_error) (map fst l), r, s') /\ carries s' []) as (s' & E & _).
  { apply (recv_n_complete r _ (map whole_frame (map fst l)) (encs (masked_frames masked l)) []); auto.
    - rewrite app_nil_r. exact Hs.
    - pose proof (encs_on_wire _ _ _ (masked_frames_ok masked _ l Hcap HL)) as HO.
      unfold masked_frames in HO at 1. rewrite map_map in HO. cbn [fst] in HO. rewrite map_map. exact HO.
    - pose proof (wire_ok_fits _ _ _ (masked_frames_ok masked _ l Hcap HL)) as HO.
      unfold masked_frames in HO. rewrite map_map in HO. cbn [fst] in HO. rewrite map_map. exact HO.
    - apply (capped_u32 max_df).
    - apply whole_within.
    - apply delivers_results. eapply whole_results, HL'. }
  rewrite E. reflexivity.
Qed.
Lemma acarries_push : forall b s l, acarries (apush_back b s) l -> exists l', l = b ++ l' /\ acarries s l'.
Proof.
  intros [|x b] s l H; [exists l; auto|]. cbn [apush_back] in H. inversion H; subst. eexists. split; [reflexivity|assumption].
Qed.
Lemma acarries_mk : forall b s l, acarries s l -> acarries (apush_back b s) (b ++ l).
Proof. intros [|x b] s l H; [exact H|]. apply (acarries_data x b). exact H. Qed.
Lemma async_gets : forall a ctx max_df max_msg l, fr_st (ac_read a) = msg_codec_with_limits ctx max_df max_msg ->
  Forall (fun p => sendable (capped max_df) (fst p)) l ->
  gets (Async a) (encs (masked_frames (receives_masked ctx) l)) (map fst l).
Proof.
  intros a ctx max_df max_msg l HR HL Hs. rewrite HR. cbn [gets] in *.
  set (masked := receives_masked ctx) in *.
  assert (capped max_df < 2 ^ 64) as Hcap by (unfold capped; lia).
  assert (Forall (sendable (capped max_df)) (map fst l)) as HL' by (apply Forall_map; exact HL).
  set (c := msg_codec_with_limits ctx max_df max_msg).
  set (ws := encs (masked_frames masked l)) in *.
  assert (forall s, acarries s ws -> run_messages c [] s = (map fst l, PEnd)) as HM.
  { intros s Hs'.
    apply (run_messages_tail c (map whole_frame (map fst l)) (map fst l) [] ws []); auto.
    - eapply whole_results, HL'.
    - apply whole_within.
    - pose proof (wire_ok_fits _ _ _ (masked_frames_ok masked _ l Hcap HL)) as HO.
      unfold masked_frames in HO. rewrite map_map in HO. cbn [fst] in HO. rewrite map_map. exact HO.
    - pose proof (encs_on_wire _ _ _ (masked_frames_ok masked _ l Hcap HL)) as HO.
      unfold masked_frames in HO at 1. rewrite map_map in HO. cbn [fst] in HO. rewrite map_map. exact HO.
    - rewrite app_nil_r. exact Hs'. }
  destruct (acarries_push _ _ _ Hs) as (l' & E & Hl).
  assert (run_messages c (fr_buf (ac_read a) ++ l') [] = (map fst l, PEnd)) as HB.
  { rewrite <- E. assert (acarries (apush_back ws []) ws) as HC.
    { rewrite <- (app_nil_r ws) at 2. apply acarries_mk. constructor. }
    pose proof (HM _ HC) as HX.
    destruct ws as [|x w'] eqn:EW; [exact HX|].
    rewrite run_messages_cdrain in *. cbn [apush_back] in HX.
    rewrite (cdrain_quiet _ _ _ mc_some) in HX by reflexivity. exact HX. }
  rewrite (run_messages_chunks c _ _ l' Hl); [exact HB|]. rewrite HB. discriminate.
Qed.

(** ** Ends *)
Lemma client_end_blocking : forall X d c, client_end X d (Blocking c) ->
  s_mask (c_sender c) = true /\ c_receiver c = receiver_with_limits false d d.
Proof.
  intros X d c H. inversion H as [rnd b s w ? b' w' E|]; subst. unfold connect_on in E.
  destruct (print_request (build_request rnd b)) as [t| | |]; try discriminate E.
  destruct (write_all t w) as [[[]|k| |] w1]; try discriminate E.
  destruct (parse_response X s) as [[[q|e| |] rest] s2] eqn:E1; try discriminate E.
  destruct (client_validate (build_request rnd b) q) as [[]|e| |] eqn:E2; try discriminate E.
  injection E as <- <- <-. split; reflexivity.
Qed.
Lemma client_end_async : forall X d a, client_end X d (Async a) ->
  exists msg, fr_st (ac_read a) = msg_codec_with_limits CtxClient d msg.
Proof.
  intros X d a H. inversion H as [|rnd b extra s w ? h E]; subst. unfold async_connect_on in E.
  destruct (print_request (build_request rnd b)) as [t| | |]; try discriminate E. cbn [rbind] in E.
  destruct (http_send t extra w) as [[| |e] w']; try discriminate E.
  destruct (await_head (try_response X) s) as [[p f] s']. destruct p as [[q|e]| | | | |]; try discriminate E.
  destruct (client_validate (build_request rnd b) q) as [[]|e| |] eqn:E2; try discriminate E.
  cbn [rbind] in E. injection E as <- <-. exists (b_max_msg b). reflexivity.
Qed.
Lemma server_end_blocking : forall d c, server_end d (Blocking c) ->
  s_mask (c_sender c) = false /\ exists msg, c_receiver c = receiver_with_limits true d msg.
Proof.
  intros d c H. inversion H as [custom df msg up ? E|]; subst.
  apply accept_inv in E as (h & data & w' & _ & _ & _ & ->). split; [reflexivity|]. exists msg. reflexivity.
Qed.
Lemma server_end_async : forall d a, server_end d (Async a) ->
  exists msg, fr_st (ac_read a) = msg_codec_with_limits CtxServer d msg.
Proof.
  intros d a H. inversion H as [|custom df msg extra up ? h E]; subst.
  apply async_accept_inv in E as (data & w' & _ & _ & _ & ->). exists msg. reflexivity.
Qed.
Lemma codec_side : forall ctx d msg, dc_is_server (mc_df (msg_codec_with_limits ctx d msg)) = receives_masked ctx.
Proof. intros [] d msg; reflexivity. Qed.

Lemma client_wire : forall X d e l wire max, client_end X d e -> max < 2 ^ 64 ->
  Forall (fun p => sendable max (fst p)) l -> puts e l wire -> wire = encs (masked_frames true l).
Proof.
  intros X d [c|a] l wire max HE Hm HL HP.
  - destruct (client_end_blocking _ _ _ HE) as [HM _]. rewrite <- HM. eapply blocking_wire; eassumption.
  - destruct (client_end_async _ _ _ HE) as [msg HC].
    rewrite (async_wire a l wire max Hm HL HP), HC, codec_side. reflexivity.
Qed.
Lemma server_wire : forall d e l wire max, server_end d e -> max < 2 ^ 64 ->
  Forall (fun p => sendable max (fst p)) l -> puts e l wire -> wire = encs (masked_frames false l).
Proof.
  intros d [c|a] l wire max HE Hm HL HP.
  - destruct (server_end_blocking _ _ HE) as [HM _]. rewrite <- HM. eapply blocking_wire; eassumption.
  - destruct (server_end_async _ _ HE) as [msg HC].
    rewrite (async_wire a l wire max Hm HL HP), HC, codec_side. reflexivity.
Qed.

(** ** Conversations *)

(** [C36] What any client (blocking or asynchronous) that made it through the handshake sends
    is received by any server that accepted a handshake: the same messages, in the same order,
    whatever the transports do, if no frame is larger than the server takes. *)
Lemma client_to_server_proof : forall X dc ds ce se l wire,
  client_end X dc ce -> server_end ds se ->
  Forall (fun p => sendable (capped ds) (fst p)) l ->
  puts ce l wire -> gets se wire (map fst l).
Proof.
  intros X dc ds ce se l wire HC HS HL HP.
  assert (capped ds < 2 ^ 64) as Hcap by (unfold capped; lia).
  rewrite (client_wire X dc ce l wire _ HC Hcap HL HP). destruct se as [c|a].
  - destruct (server_end_blocking _ _ HS) as (_ & msg & HR). eapply blocking_gets; eassumption.
  - destruct (server_end_async _ _ HS) as (msg & HR).
    exact (async_gets a CtxServer ds msg l HR HL).
Qed.

(*EX
(** An asynchronous client puts a text on the wire; a server that accepted receives it. *)
Example client_to_server_ex :
  let u := mk_url (ascii "ws") (Some (ascii "h")) None [] None (ascii "/") in
  let head := str "HTTP/1.1 101 Switching Protocols" ++ crlf ++ str "Connection: Upgrade" ++ crlf ++
    str "Upgrade: websocket" ++ crlf ++ str "Sec-WebSocket-Accept: s3pPLMBiTxaQ9kYGzzhZRbK+xOo=" ++ crlf ++ crlf in
  let req := str "GET / HTTP/1.1" ++ crlf ++ str "Upgrade: websocket" ++ crlf ++ str "Connection: upgrade" ++ crlf ++
    str "Sec-WebSocket-Key: dGhlIHNhbXBsZSBub25jZQ==" ++ crlf ++ crlf in
  let wire := [x81; x82; x01; x02; x03; x04; x69; x6b] in
  exists a h up sc,
    async_connect_on httparse_lib (ascii "the sample nonce") (builder_init u) 0 (apush_back head [])
      (mk_fw (mk_bm [] 0) [] [] []) = Ok (a, h) /\
    puts (Async a) [(OText (str "hi"), mk_key x01 x02 x03 x04)] wire /\
    into_ws httparse_lib (push_back req [RData x81 [x82; x01]; RData x02 [x03; x04; x69; x6b]]) (mk_w [] []) = Ok up /\
    internal_accept None 100 100 up = Ok sc /\ fst (client_recv_n 1 sc) = [Ok (OText (str "hi"))].
Proof.
  cbv zeta. do 4 eexists. split; [vm_compute; reflexivity|]. split.
  - eapply (async_puts _ _ [Send (owned_ops (OText (str "hi"))) (mk_key x01 x02 x03 x04) 0; Flush]).
    + repeat constructor. exists (OText (str "hi")). split; [reflexivity|]. facts.
    + vm_compute; reflexivity.
    + reflexivity.
    + reflexivity.
    + vm_compute; reflexivity.
  - split; [vm_compute; reflexivity|]. split; [vm_compute; reflexivity|]. vm_compute; reflexivity.
Qed.
EX*)

(** [C36] And the other way round. *)
Lemma server_to_client_proof : forall X dc ds ce se l wire,
  client_end X dc ce -> server_end ds se ->
  Forall (fun p => sendable (capped dc) (fst p)) l ->
  puts se l wire -> gets ce wire (map fst l).
Proof.
  intros X dc ds ce se l wire HC HS HL HP.
  assert (capped dc < 2 ^ 64) as Hcap by (unfold capped; lia).
  rewrite (server_wire ds se l wire _ HS Hcap HL HP). destruct ce as [c|a].
  - destruct (client_end_blocking _ _ _ HC) as (_ & HR). eapply blocking_gets; eassumption.
  - destruct (client_end_async _ _ _ HC) as (msg & HR).
    exact (async_gets a CtxClient dc msg l HR HL).
Qed.
(*EX Example conversation_ex :
  let req := str "GET / HTTP/1.1" ++ crlf ++ str "Upgrade: websocket" ++ crlf ++ str "Connection: upgrade" ++ crlf ++
    str "Sec-WebSocket-Key: dGhlIHNhbXBsZSBub25jZQ==" ++ crlf ++ crlf in
  exists up sc c',
    into_ws httparse_lib (push_back req []) (mk_w [] [WAccept 100; WIntr]) = Ok up /\
    internal_accept None 100 100 up = Ok sc /\
    client_run [SendMessage (OText (str "hello")) (mk_key x01 x02 x03 x04);
                SendMessage (OClose None) (mk_key x00 x00 x00 x00)] sc = ([Sent (Ok tt); Sent (Ok tt)], c') /\
    w_out (c_out c') = w_out (c_out sc) ++ [x81; x05] ++ str "hello" ++ [x88; x00].
Proof.
  eexists _, _, _. split; [vm_compute; reflexivity|]. split; [vm_compute; reflexivity|].
  split; vm_compute; reflexivity.
Qed. EX*)

(** [C09] A client masks every frame with the key drawn for it, a server none: the bytes on the
    wire are the RFC's encoding of those frames. *)
Lemma client_masks_proof : forall X d e l wire max, client_end X d e -> max < 2 ^ 64 ->
  Forall (fun p => sendable max (fst p)) l -> puts e l wire ->
  octets wire = concat (map (fun p : owned * mkey =>
    rfc_encode (rfc_of_frame (whole_frame (fst p)) (Some (snd p)))) l).
Proof.
  intros X d e l wire max HE Hm HL HP. rewrite (client_wire X d e l wire max HE Hm HL HP).
  clear. unfold masked_frames. induction l as [|p l IH]; [reflexivity|].
  cbn [map concat]. rewrite encs_cons, octets_app, IH. cbn [fst snd]. f_equal. rewrite enc_rfc. reflexivity.
Qed.
(*EX
(** A blocking client, after its handshake, says "hi". *)
Example client_masks_ex :
  let u := mk_url (ascii "ws") (Some (ascii "h")) None [] None (ascii "/") in
  let head := str "HTTP/1.1 101 Switching Protocols" ++ crlf ++ str "Connection: Upgrade" ++ crlf ++
    str "Upgrade: websocket" ++ crlf ++ str "Sec-WebSocket-Accept: s3pPLMBiTxaQ9kYGzzhZRbK+xOo=" ++ crlf ++ crlf in
  exists c, client_end httparse_lib (b_max_df (builder_init u)) (Blocking c) /\
    sendable 100 (OText (str "hi")) /\
    puts (Blocking c) [(OText (str "hi"), mk_key x01 x02 x03 x04)] [x81; x82; x01; x02; x03; x04; x69; x6b].
Proof.
  cbv zeta. eexists. split; [|split].
  - eapply (blocking_client _ (ascii "the sample nonce") (builder_init (mk_url (ascii "ws") (Some (ascii "h")) None [] None (ascii "/")))
      (push_back (str "HTTP/1.1 101 Switching Protocols" ++ crlf ++ str "Connection: Upgrade" ++ crlf ++
    str "Upgrade: websocket" ++ crlf ++ str "Sec-WebSocket-Accept: s3pPLMBiTxaQ9kYGzzhZRbK+xOo=" ++ crlf ++ crlf) []) (mk_w [] [WAccept 9])).
    vm_compute. reflexivity.
  - facts.
  - eapply blocking_puts; [vm_compute; reflexivity|repeat constructor|vm_compute; reflexivity].
Qed.
EX*)
(** [C09] *)
Lemma server_does_not_mask_proof : forall d e l wire max, server_end d e -> max < 2 ^ 64 ->
  Forall (fun p => sendable max (fst p)) l -> puts e l wire ->
  octets wire = concat (map (fun p : owned * mkey =>
    rfc_encode (rfc_of_frame (whole_frame (fst p)) None)) l).
Proof.
  intros d e l wire max HE Hm HL HP. rewrite (server_wire d e l wire max HE Hm HL HP).
  clear. unfold masked_frames. induction l as [|p l IH]; [reflexivity|].
  cbn [map concat]. rewrite encs_cons, octets_app, IH. cbn [fst snd]. f_equal. rewrite enc_rfc. reflexivity.
Qed.
(*EX
Example server_does_not_mask_ex :
  let req := str "GET / HTTP/1.1" ++ crlf ++ str "Upgrade: websocket" ++ crlf ++ str "Connection: upgrade" ++ crlf ++
    str "Sec-WebSocket-Key: dGhlIHNhbXBsZSBub25jZQ==" ++ crlf ++ crlf in
  exists up c, into_ws httparse_lib (push_back req []) (mk_w [] []) = Ok up /\ internal_accept None 100 100 up = Ok c /\
    puts (Blocking c) [(OPing [x61], mk_key x01 x02 x03 x04)] [x89; x01; x61].
Proof.
  cbv zeta. eexists _, _. split; [vm_compute; reflexivity|]. split; [vm_compute; reflexivity|].
  eapply blocking_puts; [vm_compute; reflexivity|repeat constructor|vm_compute; reflexivity].
Qed.
EX*)
