(** What the clients do with a response and with a message, from the outside: C35, C08. *)
From Coq Require Import NArith ZArith String Bool List Lia.
From Coq.Strings Require Import Byte.
From Verif.Model Require Import Base Io Header Mask Dataframe Utf8 Text Base64 WsKey Headers
  Handshake Message Receiver Codec Framed Http Connect.
From Verif.Spec Require Import RfcFrame FrameSpec Fields Upgrade Builder HttpHead Connection Wire Sides Accept.
From Verif.Proofs Require Import ExTac.
From Verif.Proofs Require ThmChecks.
Import ListNotations.
Local Open Scope string_scope.
Local Open Scope list_scope.
Local Open Scope N_scope.

(** ** The response, for a whole client *)

(** [C35] A blocking client that has sent its request gets the head of a response, with whatever comes after it
    and however it comes: it is connected exactly when the status is 101, the accept field is the token of
    its key and the Upgrade field names websocket and nothing else; otherwise it reports the first of these
    that is wrong, or a redirection, or the status. *)
Theorem client_checks : forall X rnd b data k d v code r fs head after s w, sound_lib X -> sound_room X ->
  @print_request client_error (build_request rnd b) = Ok data -> never_fails w ->
  key_held (b_headers (build_request rnd b)) k -> rfc_token k d ->
  response_head X v code r fs head -> (length fs <= 100)%nat -> llen head <= 417792 -> first_come head after s ->
  let outcome := fst (fst (connect_on X rnd b s w)) in
  ((exists c, outcome = Ok c) <-> code = 101 /\ Forall (fun c => fst c) (response_conditions d fs)) /\
  (code = 101 -> forall e, outcome = Err e <-> first_failing (response_conditions d fs) e) /\
  (code <> 101 -> forall loc, 300 <= code < 400 -> location_field fs loc -> outcome = Err (RedirectError code loc)) /\
  (code <> 101 -> ~ (300 <= code < 400) \/ ~ (exists loc, location_field fs loc) -> outcome = Err (StatusCodeError code)).
Proof. exact ThmChecks.client_checks_proof. Qed.
Print Assumptions client_checks.

(** A response without an accept field, and one that is in order. *)
Example client_checks_ex :
  let u := mk_url (ascii "ws") (Some (ascii "h")) None [] None (ascii "/") in
  let bad := str "HTTP/1.1 101 Switching Protocols" ++ crlf ++ str "Upgrade: websocket" ++ crlf ++ crlf in
  let good := str "HTTP/1.1 101 Switching Protocols" ++ crlf ++ str "Upgrade: websocket" ++ crlf ++
    str "Sec-WebSocket-Accept: s3pPLMBiTxaQ9kYGzzhZRbK+xOo=" ++ crlf ++ crlf in
  let go head := fst (fst (connect_on httparse_lib (ascii "the sample nonce") (builder_init u) (push_back head []) (mk_w [] []))) in
  go bad = Err (ResponseError "Sec-WebSocket-Accept is invalid") /\ exists c, go good = Ok c.
Proof. cbv zeta. split; [vm_compute; reflexivity|eexists; vm_compute; reflexivity]. Qed.

(** [C35] The asynchronous client, likewise. *)
Theorem async_client_checks : forall X rnd b data k d v code r fs head s s' w extra, sound_lib X ->
  @print_request client_error (build_request rnd b) = Ok data -> afails_never w ->
  key_held (b_headers (build_request rnd b)) k -> rfc_token k d ->
  response_head X v code r fs head -> (length fs <= 100)%nat -> ends_first head -> aflows s head s' ->
  let outcome := async_connect_on X rnd b extra s w in
  ((exists c, outcome = Ok c) <-> code = 101 /\ Forall (fun c => fst c) (response_conditions d fs)) /\
  (code = 101 -> forall e, outcome = Err e <-> first_failing (response_conditions d fs) e) /\
  (code <> 101 -> forall loc, 300 <= code < 400 -> location_field fs loc -> outcome = Err (RedirectError code loc)) /\
  (code <> 101 -> ~ (300 <= code < 400) \/ ~ (exists loc, location_field fs loc) -> outcome = Err (StatusCodeError code)).
Proof. exact ThmChecks.async_client_checks_proof. Qed.
Print Assumptions async_client_checks.

Example async_client_checks_ex :
  let u := mk_url (ascii "ws") (Some (ascii "h")) None [] None (ascii "/") in
  let moved := str "HTTP/1.1 302 Found" ++ crlf ++ str "Location: ws://b/" ++ crlf ++ crlf in
  let good := str "HTTP/1.1 101 Switching Protocols" ++ crlf ++ str "Upgrade: websocket" ++ crlf ++
    str "Sec-WebSocket-Accept: s3pPLMBiTxaQ9kYGzzhZRbK+xOo=" ++ crlf ++ crlf in
  let go head := async_connect_on httparse_lib (ascii "the sample nonce") (builder_init u) 0 (ANotReady :: apush_back head []) (mk_fw (mk_bm [] 0) [] [] []) in
  go moved = Err (RedirectError 302 (ascii "ws://b/")) /\ exists c, go good = Ok c.
Proof. cbv zeta. split; [vm_compute; reflexivity|eexists; vm_compute; reflexivity]. Qed.

(** ** A message, for a whole client *)

(** [C08] One send by a blocking client, whole or split: whatever the transport does, what was written is a
    prefix of that one frame, [Ok] is returned exactly when it is all of it, and nothing else of the client
    changes. *)
Theorem client_send_prefix : forall (c : client) (d : dataframe_ops) (k : mkey), honest d ->
  let key := if s_mask (c_sender c) then Some k else None in
  let frame := rfc_of (df_is_last d) (df_reserved d) (df_opcode d) (concat (df_writes d)) key in
  rfc_sendable frame ->
  exists n emitted, let '(r, c') := client_send_frame d k c in
    w_out (c_out c') = w_out (c_out c) ++ emitted /\ octets emitted = firstn n (rfc_encode frame) /\
    (r = Ok tt <-> octets emitted = rfc_encode frame) /\ (r = Ok tt \/ exists e, r = Err e) /\
    (c_headers c', c_sender c', c_receiver c', c_buf c', c_in c') = (c_headers c, c_sender c, c_receiver c, c_buf c, c_in c) /\
    writer_send_frame d k (mk_writer (c_sender c) (c_out c)) = (r, mk_writer (c_sender c) (c_out c')).
Proof. exact ThmChecks.client_send_prefix_proof. Qed.
Print Assumptions client_send_prefix.

(** The transport takes three bytes and breaks: they stay, and there is no second attempt. *)
Example client_send_prefix_ex :
  let c := mk_client (from_raw []) (mk_sender false) (receiver_new false) [] [] (mk_w [] [WIntr; WAccept 2; WErr ConnectionReset]) in
  honest (owned_ops (OText (str "hello"))) /\
  w_out (c_out (snd (client_send_frame (owned_ops (OText (str "hello"))) (mk_key x00 x00 x00 x00) c))) = [x81; x05; x68].
Proof. cbv zeta. split; [split; reflexivity|vm_compute; reflexivity]. Qed.
