(** The server side of the handshake: which requests are accepted, and what is answered:
    C33, C34. *)
From Coq Require Import NArith ZArith String Bool List Lia.
From Coq.Strings Require Import Byte.
From Verif.Model Require Import Base Utf8 Text Base64 Sha1 WsKey Headers Handshake.
From Verif.Spec Require Import FrameSpec Unicode Rfc4648 Accept Fields Upgrade.
From Verif.Proofs Require Import ExTac.
From Verif.Proofs Require ThmServer.
Import ListNotations.
Local Open Scope string_scope.
Local Open Scope list_scope.
Local Open Scope N_scope.

(** ** Which requests are accepted *)

(** [C33] A request is accepted exactly when it meets all the conditions. *)
Theorem server_validate_iff : forall m v fs,
  validate m v (from_raw fs) = Ok tt <-> Forall (fun c => fst c) (request_conditions m v fs).
Proof. exact ThmServer.server_validate_iff_proof. Qed.
Print Assumptions server_validate_iff.

Example server_validate_ex : validate Get Http11 (from_raw
    [(ascii "Host", ascii "example.com"); (ascii "upgrade", ascii "h2c , WebSocket/1");
     (ascii "CONNECTION", ascii "keep-alive"); (ascii "Connection", ascii "x, uPgrade ");
     (ascii "Sec-WebSocket-Key", ascii "  dGhlIHNhbXBsZSBub25jZQ==")]) = Ok tt.
Proof. reflexivity. Qed.

(** [C33] Otherwise the error names the first condition, in the order of the list, that the
    request does not meet; the server never panics on a request. *)
Theorem server_validate_error : forall m v fs e,
  validate m v (from_raw fs) = Err e <-> first_failing (request_conditions m v fs) e.
Proof. exact ThmServer.server_validate_error_proof. Qed.
Print Assumptions server_validate_error.

Example server_validate_error_ex : validate Get Http11 (from_raw
    [(ascii "Upgrade", ascii "websockets"); (ascii "Sec-WebSocket-Key", ascii "dGhlIHNhbXBsZSBub25jZQ==")])
  = Err NoWsUpgradeHeader.
Proof. reflexivity. Qed.

(** [C33] Every answer is one of the two: no panic. *)
Theorem server_validate_total : forall m v fs,
  validate m v (from_raw fs) = Ok tt \/ exists e, validate m v (from_raw fs) = Err e.
Proof. exact ThmServer.server_validate_total_proof. Qed.
Print Assumptions server_validate_total.

Example server_validate_total_ex :
  validate Get Http11 (from_raw [(ascii "Upgrade", [xff; x00])]) = Err NoSecWsKeyHeader.
Proof. reflexivity. Qed.

(** [C33] Every request RFC 6455 (4.2.1) calls valid is accepted, provided its Upgrade and
    Connection fields are UTF-8. *)
Theorem server_accepts_rfc : forall m v fs,
  rfc_request m v fs ->
  Forall utf8_text (values (ascii "Upgrade") fs) ->
  Forall utf8_text (values (ascii "Connection") fs) ->
  validate m v (from_raw fs) = Ok tt.
Proof. exact ThmServer.server_accepts_rfc_proof. Qed.
Print Assumptions server_accepts_rfc.

Example server_accepts_rfc_ex : validate Get Http11 (from_raw
    [(ascii "Host", ascii "server.example.com"); (ascii "Upgrade", ascii "websocket");
     (ascii "Connection", ascii "Upgrade"); (ascii "Sec-WebSocket-Key", ascii "dGhlIHNhbXBsZSBub25jZQ==");
     (ascii "Origin", ascii "http://example.com"); (ascii "Sec-WebSocket-Protocol", ascii "chat, superchat");
     (ascii "Sec-WebSocket-Version", ascii "13")]) = Ok tt.
Proof. reflexivity. Qed.

(** [C33] The converse fails: requests the RFC calls invalid are accepted.  Here: without a
    version; with two version fields, none of them 13; without Host; and, although the
    error for it is documented as "unsupported HTTP version", with HTTP/2.0. *)
Theorem server_validate_refuted :
  let base := [(ascii "Upgrade", ascii "websocket"); (ascii "Connection", ascii "Upgrade");
               (ascii "Sec-WebSocket-Key", ascii "dGhlIHNhbXBsZSBub25jZQ==")] in
  let host := (ascii "Host", ascii "example.com") in
  let version s := (ascii "Sec-WebSocket-Version", s) in
  (forall fs, In fs [host :: base;
                     host :: version (ascii "7") :: version (ascii "8") :: base;
                     version (ascii "13") :: base;
                     host :: version [xff] :: base] ->
     validate Get Http11 (from_raw fs) = Ok tt /\ ~ rfc_request Get Http11 fs) /\
  validate Get Http20 (from_raw (host :: version (ascii "13") :: base)) = Ok tt.
Proof. exact ThmServer.server_validate_refuted_proof. Qed.
Print Assumptions server_validate_refuted.

(** ** The response *)

(** [C34] For a validated request, whatever headers were chosen before and whichever custom
    headers are added: no panic; the response carries exactly one of each handshake field,
    the accept field being the token of the request's key; every other header is the custom
    one, or else the one chosen before. *)
Theorem accept_headers : forall m v fs custom h,
  unique_names h -> all_unique custom -> validate m v (from_raw fs) = Ok tt ->
  exists k h', key_field fs k /\
    @prepare_headers unit custom h (from_raw fs) = Ok h' /\ unique_names h' /\
    completes k (fields h') /\
    (forall n i, ~ handshake_name n -> (stored n i h' <-> overlaid custom h n i)).
Proof. exact ThmServer.accept_headers_proof. Qed.
Print Assumptions accept_headers.

Example accept_headers_ex :
  let req := from_raw [(ascii "Upgrade", ascii "websocket"); (ascii "Connection", ascii "Upgrade");
               (ascii "Sec-WebSocket-Key", ascii "dGhlIHNhbXBsZSBub25jZQ==")] in
  validate Get Http11 req = Ok tt /\
  exists h', @prepare_headers unit (Some [(ascii "connection", Raw [ascii "close"]); (ascii "Server", Raw [ascii "x"])])
               [(ascii "Server", Raw [ascii "y"])] req = Ok h' /\
    fields h' = [(ascii "Server", ascii "x"); (ascii "Connection", ascii "Upgrade");
                 (ascii "Sec-WebSocket-Accept", ascii "s3pPLMBiTxaQ9kYGzzhZRbK+xOo=");
                 (ascii "Upgrade", ascii "websocket")].
Proof. split; [reflexivity|]. eexists. split; [reflexivity|]. vm_compute. reflexivity. Qed.

(** [C34] Rejecting adds nothing: the headers are the custom ones and those chosen before. *)
Theorem reject_adds_nothing : forall custom h n i,
  unique_names h -> all_unique custom ->
  (stored n i (reject_headers custom h) <-> overlaid custom h n i).
Proof. exact ThmServer.reject_adds_nothing_proof. Qed.
Print Assumptions reject_adds_nothing.

Example reject_ex : fields (reject_headers (Some [(ascii "Server", Raw [ascii "x"])]) []) = [(ascii "Server", ascii "x")].
Proof. reflexivity. Qed.

(** [C34] Sending panics exactly when a raw header line is not UTF-8 (which only a caller's
    own header can be). *)
Theorem print_response_panics_iff : forall v st h,
  @print_response unit v st h = Panic <->
  Exists (fun p : bytes * item => exists ls, snd p = Raw ls /\ ~ Forall utf8_text ls) h.
Proof. exact ThmServer.print_response_panics_iff_proof. Qed.
Print Assumptions print_response_panics_iff.

(** [C34] Refuted for such headers: accepting a valid request panics. *)
Theorem accept_panic_refuted : exists custom req h',
  unique_names custom /\ validate Get Http11 (from_raw req) = Ok tt /\
  @prepare_headers unit (Some custom) [] (from_raw req) = Ok h' /\
  @print_response unit Http11 switching_protocols h' = Panic.
Proof. exact ThmServer.accept_panic_refuted_proof. Qed.
Print Assumptions accept_panic_refuted.
