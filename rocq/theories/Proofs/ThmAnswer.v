(** The answer a server writes: C34. *)
From Coq Require Import NArith ZArith String Bool List Lia.
From Coq Require Import ZifyBool ZifyNat ZifyN.
From Coq.Strings Require Import Byte.
From Verif.Model Require Import Base Io Header Mask Dataframe Utf8 Text Base64 Sha1 WsKey Headers
  Handshake Message Receiver Codec Framed Http Connect.
From Verif.Spec Require Import RfcFrame FrameSpec Unicode Rfc4648 Accept Fields Upgrade Builder HttpHead Connection Wire
  Answer.
From Verif.Proofs Require Import BaseFacts Utf8Facts Base64Facts ThmKeys TextFacts MapFacts ThmServer ThmClient
  HttpFacts ThmHttp SpreadFacts ThmStream ThmConnect ThmInterop ThmEcho.
Import ListNotations.
Local Open Scope string_scope.
Local Open Scope list_scope.
Local Open Scope N_scope.

Lemma printed_lines : forall h,
  flat_map (fun p : bytes * item => flat_map (print_line (fst p)) (item_lines (snd p))) h
  = concat (map (fun f : field => fst f ++ ascii ": " ++ one_line (snd f) ++ [CR; LF]) (fields h)).
Proof.
  induction h as [|[n i] h IH]; [reflexivity|]. unfold fields in *. cbn [flat_map fst snd] in *.
  rewrite map_app, concat_app, IH. f_equal. clear.
  induction (item_lines i) as [|v ls IL]; [reflexivity|]. cbn [flat_map map concat fst snd].
  rewrite IL. unfold print_line. rewrite one_line_model. rewrite <- ?app_assoc. reflexivity.
Qed.
Lemma printed : forall E v st h,
  (@print_response E v st h = Ok (answer_text v st (fields h)) /\ ~ unwritable h) \/
  (@print_response E v st h = Panic /\ unwritable h).
Proof.
  intros E v st h. pose proof (print_response_panics_iff_proof v st h) as HP. fold (unwritable h) in HP.
  unfold print_response in *. unfold print_headers in *.
  destruct (forallb _ h); cbn [rbind] in *.
  - left. split; [|intros HU; apply HP in HU; discriminate HU]. rewrite printed_lines. unfold answer_text.
    destruct v; reflexivity.
  - right. split; [reflexivity|]. apply HP. reflexivity.
Qed.
Lemma reject_unique : forall custom h, unique_names h -> unique_names (reject_headers custom h).
Proof. intros [c|] h HU; [apply unique_extend|]; exact HU. Qed.

(** [C34] The blocking server's answer to a request it found valid, whatever headers were chosen
    and are added and whatever the transport does.  Accepting writes a response with the
    request's version and status 101, whose headers complete the handshake for the request's key
    and are otherwise the chosen and the custom ones; the connection holds these headers.  If
    the transport fails, a proper beginning of that response was written, and the stream is
    handed back.  It panics exactly if a header cannot be written. *)
Lemma accept_written_proof : forall m t v fs custom max_df max_msg h0 buffer s w,
  unique_names h0 -> all_unique custom -> validate m v (from_raw fs) = Ok tt ->
  exists k h, key_field fs k /\ accepting custom h0 k h /\
    let text := answer_text v (ascii "101 Switching Protocols") (fields h) in
    match internal_accept custom max_df max_msg (mk_upgrade h0 (mk_req m t v (from_raw fs)) buffer s w) with
    | Ok c => c_headers c = h /\ w_out (c_out c) = w_out w ++ text /\ ~ unwritable h
    | Err (s', w', e) => s' = s /\ ~ unwritable h /\ ~ never_fails w /\
        exists n, w_out w' = w_out w ++ firstn n text /\ firstn n text <> text
    | Panic => unwritable h
    | OutOfFuel => False
    end.
Proof.
  intros m t v fs custom df msg h0 buffer s w HU HC HV.
  destruct (accept_headers_proof m v fs custom h0 HU HC HV) as (k & h & HK & HP & HU' & HCo & HO).
  exists k, h. split; [exact HK|]. split; [repeat split; try apply HCo; try assumption; apply HO; assumption|].
  unfold internal_accept. cbn [up_headers up_request up_out up_buffer up_in rq_headers rq_version].
  rewrite (prepare_any _ (script * wstream * io_kind) _ _ _ _ HP). cbn [rbind].
  destruct (printed (script * wstream * io_kind) v switching_protocols h) as [[-> HW]|[-> HW]]; cbn [rbind]; [|exact HW].
  change (ascii "101 Switching Protocols") with switching_protocols.
  generalize (answer_text v switching_protocols (fields h)). intros text.
  unfold write_all. pose proof (write_all_go_spec (w_script w) (w_out w) text) as (n & H).
  destruct (write_all_go (w_script w) (w_out w) text) as [r w'] eqn:EW. destruct H as (H1 & H2 & H3).
  destruct H3 as [-> | [e ->]].
  - cbn [unchecked_with_limits c_headers c_out]. split; [reflexivity|]. split; [apply H2; reflexivity|exact HW].
  - split; [reflexivity|]. split; [exact HW|]. split.
    + intros HN. destruct (never_fails_write w text HN) as (w2 & E & _). unfold write_all in E. congruence.
    + exists n. split; [exact H1|]. intros E. rewrite E in H1. apply H2 in H1. discriminate H1.
Qed.
(*EX
(** The example of RFC 6455, 1.3; and a transport that breaks after twenty bytes. *)
Example accept_written_ex :
  let fs := [(ascii "Upgrade", ascii "websocket"); (ascii "Connection", ascii "Upgrade");
             (ascii "Sec-WebSocket-Key", ascii "dGhlIHNhbXBsZSBub25jZQ==")] in
  let u w := mk_upgrade [(ascii "Sec-WebSocket-Protocol", Typed (VProtocol [ascii "chat"]))]
               (mk_req Get (ascii "/") Http11 (from_raw fs)) None [] w in
  validate Get Http11 (from_raw fs) = Ok tt /\
  (exists c, accept (u (mk_w [] [])) = Ok c /\
     w_out (c_out c) = ascii "HTTP/1.1 101 Switching Protocols" ++ [CR; LF] ++ ascii "Sec-WebSocket-Protocol: chat" ++ [CR; LF] ++
       ascii "Sec-WebSocket-Accept: s3pPLMBiTxaQ9kYGzzhZRbK+xOo=" ++ [CR; LF] ++
       ascii "Connection: Upgrade" ++ [CR; LF] ++ ascii "Upgrade: websocket" ++ [CR; LF; CR; LF]) /\
  accept (u (mk_w [] [WAccept 19; WErr ConnectionReset]))
  = Err ([], mk_w (ascii "HTTP/1.1 101 Switchi") [], ConnectionReset).
Proof. split; [reflexivity|]. split; [eexists; split; [reflexivity|]; vm_compute; reflexivity|]. vm_compute. reflexivity. Qed.
EX*)

(** [C34] Rejecting writes a response with the request's version and status 400, whose headers
    are the chosen and the custom ones and nothing else, and hands the stream back. *)
Lemma reject_written_proof : forall m t v req custom h0 buffer s w,
  unique_names h0 -> all_unique custom ->
  exists h, rejecting custom h0 h /\
    let text := answer_text v (ascii "400 Bad Request") (fields h) in
    match reject custom (mk_upgrade h0 (mk_req m t v req) buffer s w) with
    | Ok (s', w') => s' = s /\ w_out w' = w_out w ++ text /\ ~ unwritable h
    | Err (s', w', e) => s' = s /\ ~ unwritable h /\ ~ never_fails w /\
        exists n, w_out w' = w_out w ++ firstn n text /\ firstn n text <> text
    | Panic => unwritable h
    | OutOfFuel => False
    end.
Proof.
  intros m t v req custom h0 buffer s w HU HC. exists (reject_headers custom h0).
  split; [split; [apply reject_unique, HU|intros; apply reject_adds_nothing_proof; assumption]|].
  unfold reject. cbn [up_headers up_request up_out up_buffer up_in rq_headers rq_version].
  generalize (reject_headers custom h0) as h. intros h.
  destruct (printed (script * wstream * io_kind) v bad_request h) as [[-> HW]|[-> HW]]; cbn [rbind]; [|exact HW].
  change (ascii "400 Bad Request") with bad_request.
  generalize (answer_text v bad_request (fields h)). intros text.
  unfold write_all. pose proof (write_all_go_spec (w_script w) (w_out w) text) as (n & H).
  destruct (write_all_go (w_script w) (w_out w) text) as [r w'] eqn:EW. destruct H as (H1 & H2 & H3).
  destruct H3 as [-> | [e ->]].
  - split; [reflexivity|]. split; [apply H2; reflexivity|exact HW].
  - split; [reflexivity|]. split; [exact HW|]. split.
    + intros HN. destruct (never_fails_write w text HN) as (w2 & E & _). unfold write_all in E. congruence.
    + exists n. split; [exact H1|]. intros E. rewrite E in H1. apply H2 in H1. discriminate H1.
Qed.
(*EX Example reject_written_ex :
  exists w', reject (Some [(ascii "Server", Raw [ascii "x"])])
    (mk_upgrade [] (mk_req Get (ascii "/") Http11 []) (Some (ascii "more")) (push_back (ascii "later") []) (mk_w [] []))
  = Ok (push_back (ascii "later") [], w') /\
  w_out w' = ascii "HTTP/1.1 400 Bad Request" ++ [CR; LF] ++ ascii "Server: x" ++ [CR; LF; CR; LF].
Proof. eexists. split; reflexivity. Qed. EX*)

(** [C34] The same for the asynchronous server: behind what was buffered for the transport
    before, accepting writes the response with status 101, and rejecting the one with status
    400; and they fail only if the transport does. *)
Lemma async_answer_written_proof : forall m t v fs custom max_df max_msg extra h0 buffer s w,
  unique_names h0 -> all_unique custom -> validate m v (from_raw fs) = Ok tt ->
  let u := mk_aupgrade h0 (mk_req m t v (from_raw fs)) buffer s w in
  let sent text w' := fw_out w' = fw_out w ++ bm_data (fw_buf w) ++ text /\ bm_data (fw_buf w') = [] in
  (exists k h, key_field fs k /\ accepting custom h0 k h /\
    match async_accept custom max_df max_msg extra u with
    | Ok (a, h') => h' = h /\ sent (answer_text v (ascii "101 Switching Protocols") (fields h)) (ac_out a) /\ ~ unwritable h
    | Err e => ~ afails_never w /\ ~ unwritable h
    | Panic => unwritable h
    | OutOfFuel => False
    end) /\
  (exists h, rejecting custom h0 h /\
    match async_reject custom extra u with
    | Ok (f, s', w') => s' = s /\ sent (answer_text v (ascii "400 Bad Request") (fields h)) w' /\ ~ unwritable h
    | Err e => ~ afails_never w /\ ~ unwritable h
    | Panic => unwritable h
    | OutOfFuel => False
    end).
Proof.
  intros m t v fs custom df msg extra h0 buffer s w HU HC HV u sent. split.
  - destruct (accept_headers_proof m v fs custom h0 HU HC HV) as (k & h & HK & HP & HU' & HCo & HO).
    exists k, h. split; [exact HK|]. split; [repeat split; try apply HCo; try assumption; apply HO; assumption|].
    unfold async_accept, u. cbn [au_headers au_request au_out au_buffer au_in rq_headers rq_version].
    rewrite (prepare_any _ ws_error _ _ _ _ HP). cbn [rbind].
    destruct (printed ws_error v switching_protocols h) as [[-> HW]|[-> HW]]; cbn [rbind]; [|exact HW].
    change (ascii "101 Switching Protocols") with switching_protocols. unfold sent.
    generalize (answer_text v switching_protocols (fields h)). intros text.
    destruct (head_sent_proof text extra w) as [(w' & -> & H1 & H2)|(e & w' & -> & HF)]; [|auto].
    cbn [update_framed_codec ac_out]. auto.
  - exists (reject_headers custom h0).
    split; [split; [apply reject_unique, HU|intros; apply reject_adds_nothing_proof; assumption]|].
    unfold async_reject, u. cbn [au_headers au_request au_out au_buffer au_in rq_headers rq_version].
    generalize (reject_headers custom h0) as h. intros h.
    destruct (printed ws_error v bad_request h) as [[-> HW]|[-> HW]]; cbn [rbind]; [|exact HW].
    change (ascii "400 Bad Request") with bad_request. unfold sent.
    generalize (answer_text v bad_request (fields h)). intros text.
    destruct (head_sent_proof text extra w) as [(w' & -> & H1 & H2)|(e & w' & -> & HF)]; auto.
Qed.
(*EX Example async_answer_written_ex :
  let fs := [(ascii "Upgrade", ascii "websocket"); (ascii "Connection", ascii "Upgrade");
             (ascii "Sec-WebSocket-Key", ascii "dGhlIHNhbXBsZSBub25jZQ==")] in
  let w := mk_fw (mk_bm [] 0) [] [] [] in
  let u := mk_aupgrade [] (mk_req Get (ascii "/") Http11 (from_raw fs)) [] [] w in
  exists a h, async_accept_plain 0 u = Ok (a, h) /\
    fw_out (ac_out a) = ascii "HTTP/1.1 101 Switching Protocols" ++ [CR; LF] ++
      ascii "Sec-WebSocket-Accept: s3pPLMBiTxaQ9kYGzzhZRbK+xOo=" ++ [CR; LF] ++
      ascii "Connection: Upgrade" ++ [CR; LF] ++ ascii "Upgrade: websocket" ++ [CR; LF; CR; LF].
Proof. do 2 eexists. split; [vm_compute; reflexivity|]. vm_compute. reflexivity. Qed. EX*)
