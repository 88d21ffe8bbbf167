(** What the clients do with a response and with a message, from the outside: C35, C08. *)
From Coq Require Import NArith ZArith String Bool List Lia.
From Coq Require Import ZifyBool ZifyNat ZifyN.
From Coq.Strings Require Import Byte.
From Verif.Model Require Import Base Io Header Mask Dataframe Utf8 Text Base64 WsKey Headers
  Handshake Message Receiver Codec Framed Http Connect.
From Verif.Spec Require Import RfcFrame FrameSpec Fields Upgrade Builder HttpHead Connection Wire Sides Accept.
From Verif.Proofs Require Import BaseFacts FrameFacts TextFacts MapFacts ThmKeys ThmStream ThmServer ThmClient HttpFacts ThmHttp ThmConnect ThmInterop.
Import ListNotations.
Local Open Scope string_scope.
Local Open Scope list_scope.
Local Open Scope N_scope.

(** ** The response, for a whole client *)
(** [C35] A blocking client that has sent its request gets the head of a response, with whatever comes after it
    and however it comes: it is connected exactly when the status is 101, the accept field is the token of
    its key and the Upgrade field names websocket and nothing else; otherwise it reports the first of these
    that is wrong, or a redirection, or the status. *)
Lemma client_checks_proof : forall X rnd b data k d v code r fs head after s w, sound_lib X -> sound_room X ->
  @print_request client_error (build_request rnd b) = Ok data -> never_fails w ->
  key_held (b_headers (build_request rnd b)) k -> rfc_token k d ->
  response_head X v code r fs head -> (length fs <= 100)%nat -> llen head <= 417792 -> first_come head after s ->
  let outcome := fst (fst (connect_on X rnd b s w)) in
  ((exists c, outcome = Ok c) <-> code = 101 /\ Forall (fun c => fst c) (response_conditions d fs)) /\
  (code = 101 -> forall e, outcome = Err e <-> first_failing (response_conditions d fs) e) /\
  (code <> 101 -> forall loc, 300 <= code < 400 -> location_field fs loc -> outcome = Err (RedirectError code loc)) /\
  (code <> 101 -> ~ (300 <= code < 400) \/ ~ (exists loc, location_field fs loc) -> outcome = Err (StatusCodeError code)).
Proof.
  intros X rnd b data k d v code r fs head after s w HX HR EP HW HK HT HH HN HL HF outcome.
  destruct (sync_response_read_proof X v code r fs head after s HX HR HH HN HL HF) as (rest & s2 & E1 & _).
  assert (exists c0, outcome = rbind (client_validate (build_request rnd b) (mk_resp v code r (from_raw fs))) (fun _ => Ok c0)) as [c0 E].
  { unfold outcome, connect_on. rewrite EP. destruct (write_never_fails (w_script w) (w_out w) data HW) as (t' & EW & _). unfold write_all. rewrite EW, E1.
    destruct (client_validate (build_request rnd b) (mk_resp v code r (from_raw fs))) as [[]|e| |]; cbn [fst rbind]; try (eexists; reflexivity);
      exists (mk_client (from_raw fs) (mk_sender true) (receiver_new false) [] [] w); reflexivity. }
  clearbody outcome. subst outcome.
  pose proof (client_validate_iff_proof rnd b fs k d v code r HK HT) as A.
  split.
  { rewrite <- A. destruct (client_validate (build_request rnd b) (mk_resp v code r (from_raw fs))) as [[]|e| |]; cbn [rbind]; split; try (intros [c X0]; discriminate X0); try discriminate; eauto. }
  split.
  { intros ->. intros e. rewrite <- (client_validate_error_proof rnd b fs k d v r e HK HT).
    destruct (client_validate (build_request rnd b) (mk_resp v 101 r (from_raw fs))) as [[]|e0| |]; cbn [rbind]; split; try discriminate; congruence. }
  split; intros HC; [intros loc H1 H2|intros H1]; destruct (client_status_proof (build_request rnd b) fs v code r HC) as [B1 B2].
  - rewrite (B1 loc H1 H2). reflexivity.
  - rewrite (B2 H1). reflexivity.
Qed.
(*EX
(** A response without an accept field, and one that is in order. *)
Example client_checks_ex :
  let u := mk_url (ascii "ws") (Some (ascii "h")) None [] None (ascii "/") in
  let bad := str "HTTP/1.1 101 Switching Protocols" ++ crlf ++ str "Upgrade: websocket" ++ crlf ++ crlf in
  let good := str "HTTP/1.1 101 Switching Protocols" ++ crlf ++ str "Upgrade: websocket" ++ crlf ++
    str "Sec-WebSocket-Accept: s3pPLMBiTxaQ9kYGzzhZRbK+xOo=" ++ crlf ++ crlf in
  let go head := fst (fst (connect_on httparse_lib (ascii "the sample nonce") (builder_init u) (push_back head []) (mk_w [] []))) in
  go bad = Err (ResponseError "Sec-WebSocket-Accept is invalid") /\ exists c, go good = Ok c.
Proof. cbv zeta. split; [vm_compute; reflexivity|eexists; vm_compute; reflexivity]. Qed.
EX*)

(** [C35] The asynchronous client, likewise. *)
Lemma async_client_checks_proof : forall X rnd b data k d v code r fs head s s' w extra, sound_lib X ->
  @print_request client_error (build_request rnd b) = Ok data -> afails_never w ->
  key_held (b_headers (build_request rnd b)) k -> rfc_token k d ->
  response_head X v code r fs head -> (length fs <= 100)%nat -> ends_first head -> aflows s head s' ->
  let outcome := async_connect_on X rnd b extra s w in
  ((exists c, outcome = Ok c) <-> code = 101 /\ Forall (fun c => fst c) (response_conditions d fs)) /\
  (code = 101 -> forall e, outcome = Err e <-> first_failing (response_conditions d fs) e) /\
  (code <> 101 -> forall loc, 300 <= code < 400 -> location_field fs loc -> outcome = Err (RedirectError code loc)) /\
  (code <> 101 -> ~ (300 <= code < 400) \/ ~ (exists loc, location_field fs loc) -> outcome = Err (StatusCodeError code)).
Proof.
  intros X rnd b data k d v code r fs head s s' w extra HX EP HW HK HT HH HN HE HF outcome.
  destruct (async_response_read_proof X v code r fs head s s' HX HH HN HE HF) as (rest & s2 & E1 & _).
  assert (exists c0, outcome = rbind (client_validate (build_request rnd b) (mk_resp v code r (from_raw fs))) (fun _ => Ok c0)) as [c0 E].
  { unfold outcome, async_connect_on. rewrite EP. cbn [rbind]. destruct (head_sent_proof data extra w) as [(w' & EH & _)|(e & w' & _ & C)]; [|contradiction]. rewrite EH, E1. eexists. reflexivity. }
  clearbody outcome. subst outcome.
  pose proof (client_validate_iff_proof rnd b fs k d v code r HK HT) as A.
  split.
  { rewrite <- A. destruct (client_validate (build_request rnd b) (mk_resp v code r (from_raw fs))) as [[]|e| |]; cbn [rbind]; split; try (intros [c X0]; discriminate X0); try discriminate; eauto. }
  split.
  { intros ->. intros e. rewrite <- (client_validate_error_proof rnd b fs k d v r e HK HT).
    destruct (client_validate (build_request rnd b) (mk_resp v 101 r (from_raw fs))) as [[]|e0| |]; cbn [rbind]; split; try discriminate; congruence. }
  split; intros HC; [intros loc H1 H2|intros H1]; destruct (client_status_proof (build_request rnd b) fs v code r HC) as [B1 B2].
  - rewrite (B1 loc H1 H2). reflexivity.
  - rewrite (B2 H1). reflexivity.
Qed.
(*EX
Example async_client_checks_ex :
  let u := mk_url (ascii "ws") (Some (ascii "h")) None [] None (ascii "/") in
  let moved := str "HTTP/1.1 302 Found" ++ crlf ++ str "Location: ws://b/" ++ crlf ++ crlf in
  let good := str "HTTP/1.1 101 Switching Protocols" ++ crlf ++ str "Upgrade: websocket" ++ crlf ++
    str "Sec-WebSocket-Accept: s3pPLMBiTxaQ9kYGzzhZRbK+xOo=" ++ crlf ++ crlf in
  let go head := async_connect_on httparse_lib (ascii "the sample nonce") (builder_init u) 0 (ANotReady :: apush_back head []) (mk_fw (mk_bm [] 0) [] [] []) in
  go moved = Err (RedirectError 302 (ascii "ws://b/")) /\ exists c, go good = Ok c.
Proof. cbv zeta. split; [vm_compute; reflexivity|eexists; vm_compute; reflexivity]. Qed.
EX*)

(** ** A message, for a whole client *)
(** [C08] One send by a blocking client, whole or split: whatever the transport does, what was written is a
    prefix of that one frame, [Ok] is returned exactly when it is all of it, and nothing else of the client
    changes. *)
Lemma client_send_prefix_proof : forall (c : client) (d : dataframe_ops) (k : mkey), honest d ->
  let key := if s_mask (c_sender c) then Some k else None in
  let frame := rfc_of (df_is_last d) (df_reserved d) (df_opcode d) (concat (df_writes d)) key in
  rfc_sendable frame ->
  exists n emitted, let '(r, c') := client_send_frame d k c in
    w_out (c_out c') = w_out (c_out c) ++ emitted /\ octets emitted = firstn n (rfc_encode frame) /\
    (r = Ok tt <-> octets emitted = rfc_encode frame) /\ (r = Ok tt \/ exists e, r = Err e) /\
    (c_headers c', c_sender c', c_receiver c', c_buf c', c_in c') = (c_headers c, c_sender c, c_receiver c, c_buf c, c_in c) /\
    writer_send_frame d k (mk_writer (c_sender c) (c_out c)) = (r, mk_writer (c_sender c) (c_out c')).
Proof.
  intros c d k H key frame HF. destruct (send_prefix_proof (c_sender c) d k (c_out c) H HF) as (n & P). exists n. unfold client_send_frame, writer_send_frame. cbn [wr_sender wr_out].
  destruct (send_frame (c_sender c) d k (c_out c)) as [r w']. destruct P as ((em & P1 & P2 & P3) & P4). exists em. cbn [c_out c_headers c_sender c_receiver c_buf c_in]. auto 8.
Qed.
(*EX
(** The transport takes three bytes and breaks: they stay, and there is no second attempt. *)
Example client_send_prefix_ex :
  let c := mk_client (from_raw []) (mk_sender false) (receiver_new false) [] [] (mk_w [] [WIntr; WAccept 2; WErr ConnectionReset]) in
  honest (owned_ops (OText (str "hello"))) /\
  w_out (c_out (snd (client_send_frame (owned_ops (OText (str "hello"))) (mk_key x00 x00 x00 x00) c))) = [x81; x05; x68].
Proof. cbv zeta. split; [split; reflexivity|vm_compute; reflexivity]. Qed.
EX*)
