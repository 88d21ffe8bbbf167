(** The client side of the handshake: what the builder sends, which responses it accepts, where
    it connects to: C35, C37, C38, C40, C41. *)
From Coq Require Import NArith ZArith String Bool List Lia.
From Coq.Strings Require Import Byte.
From Verif.Model Require Import Base Utf8 Text Base64 Sha1 WsKey Headers Handshake.
From Verif.Spec Require Import FrameSpec Unicode Rfc4648 Accept Fields Upgrade Builder.
From Verif.Proofs Require Import ExTac.
From Verif.Proofs Require ThmClient.
Import ListNotations.
Local Open Scope string_scope.
Local Open Scope list_scope.
Local Open Scope N_scope.

(** ** The builder's lists *)

(** [C37] After any history of calls the builder holds exactly the protocols added since the
    last [clear_protocols], in order (custom headers and [clear_header] not naming the
    field). *)
Theorem builder_protocols : forall u cs b,
  Forall (leaves_alone (ascii "Sec-WebSocket-Protocol")) cs ->
  run_calls cs (builder_init u) = Ok b ->
  holds_list VProtocol (ascii "Sec-WebSocket-Protocol") (asked_protocols (rev cs)) (b_headers b).
Proof. exact ThmClient.builder_protocols_proof. Qed.
Print Assumptions builder_protocols.

Example builder_protocols_ex :
  let cs := [AddProtocol (ascii "a"); ClearProtocols; AddProtocol (ascii "b"); Key (ascii "0123456789abcdef");
             AddProtocols [ascii "c"; ascii "d"]; CustomHeaders [(ascii "X", Raw [ascii "1"])]] in
  Forall (leaves_alone (ascii "Sec-WebSocket-Protocol")) cs /\
  asked_protocols (rev cs) = [ascii "b"; ascii "c"; ascii "d"] /\
  exists b, run_calls cs (builder_init (mk_url (ascii "ws") None None [] None (ascii "/"))) = Ok b.
Proof.
  cbv zeta. split; [|split; [reflexivity|eexists; reflexivity]].
  repeat constructor. discriminate.
Qed.

(** [C37] The same for extensions. *)
Theorem builder_extensions : forall u cs b,
  Forall (leaves_alone (ascii "Sec-WebSocket-Extensions")) cs ->
  run_calls cs (builder_init u) = Ok b ->
  holds_list VExtensions (ascii "Sec-WebSocket-Extensions") (asked_extensions (rev cs)) (b_headers b).
Proof. exact ThmClient.builder_extensions_proof. Qed.
Print Assumptions builder_extensions.

Example builder_extensions_ex :
  asked_extensions [AddExtensions [mk_ext (ascii "b") []]; AddProtocol (ascii "x"); AddExtension (mk_ext (ascii "a") []); ClearExtensions;
                    AddExtension (mk_ext (ascii "c") [])] = [mk_ext (ascii "a") []; mk_ext (ascii "b") []].
Proof. reflexivity. Qed.

(** [C37] No history that leaves the two list fields to the builder panics. *)
Theorem builder_never_panics : forall u cs,
  Forall (fun c => leaves_alone (ascii "Sec-WebSocket-Protocol") c /\
                   leaves_alone (ascii "Sec-WebSocket-Extensions") c) cs ->
  exists b, run_calls cs (builder_init u) = Ok b.
Proof. exact ThmClient.builder_never_panics_proof. Qed.
Print Assumptions builder_never_panics.

Example builder_never_panics_ex :
  Forall (fun c => leaves_alone (ascii "Sec-WebSocket-Protocol") c /\ leaves_alone (ascii "Sec-WebSocket-Extensions") c)
    [CustomHeaders [(ascii "X", Typed (VOther []))]; ClearHeader (ascii "Host"); AddProtocol (ascii "p")].
Proof. repeat constructor; discriminate. Qed.

(** [C37] Refuted when a raw protocol header that is not UTF-8 was set first: the added
    protocol is silently dropped.  And a header of a foreign type makes the call panic. *)
Theorem builder_protocols_refuted : forall u,
  (exists b, run_calls [CustomHeaders [(ascii "Sec-WebSocket-Protocol", Raw [[xff]])]; AddProtocol (ascii "chat")]
               (builder_init u) = Ok b /\
     b_headers b = [(ascii "Sec-WebSocket-Protocol", Raw [[xff]])]) /\
  run_calls [CustomHeaders [(ascii "Sec-WebSocket-Protocol", Typed (VOther [ascii "a"]))]; AddProtocol (ascii "chat")]
    (builder_init u) = Panic.
Proof. exact ThmClient.builder_protocols_refuted_proof. Qed.
Print Assumptions builder_protocols_refuted.

(** ** The request *)

(** [C38] Whatever calls were made, the request carries Connection: Upgrade and
    Upgrade: websocket, once each, and Host once with the URL's host, and its port unless that
    is 80 or 443. *)
Theorem request_fixed_fields : forall u cs b rnd,
  run_calls cs (builder_init u) = Ok b ->
  let fs := fields (b_headers (build_request rnd b)) in
  values (ascii "Connection") fs = [ascii "Upgrade"] /\
  values (ascii "Upgrade") fs = [ascii "websocket"] /\
  (forall host, u_host u = Some host ->
     exists v, values (ascii "Host") fs = [v] /\
       (u_port u = None \/ u_port u = Some 80 \/ u_port u = Some 443 -> v = host) /\
       (forall p, u_port u = Some p -> p <> 80 -> p <> 443 -> v = host ++ ascii ":" ++ dec p)).
Proof. exact ThmClient.request_fixed_fields_proof. Qed.
Print Assumptions request_fixed_fields.

Example request_fixed_fields_ex : exists b,
  run_calls [CustomHeaders [(ascii "Connection", Raw [ascii "close"])]; ClearHeader (ascii "Upgrade")]
    (builder_init (mk_url (ascii "ws") (Some (ascii "h")) (Some 8080) [] None (ascii "/"))) = Ok b /\
  values (ascii "Host") (fields (b_headers (build_request [] b))) = [ascii "h:8080"].
Proof. eexists. split; [reflexivity|]. vm_compute. reflexivity. Qed.

(** [C38] The key field is the key last given (and not cleared), else the fresh random key,
    encoded as in RFC 4648; custom headers and [clear_header] not naming the field. *)
Theorem request_key : forall u cs b rnd,
  Forall (leaves_alone (ascii "Sec-WebSocket-Key")) cs -> run_calls cs (builder_init u) = Ok b ->
  values (ascii "Sec-WebSocket-Key") (fields (b_headers (build_request rnd b)))
  = [base64_text (or_else (asked_key (rev cs)) rnd)].
Proof. exact ThmClient.request_key_proof. Qed.
Print Assumptions request_key.

Example request_key_ex :
  let cs := [Key (ascii "0123456789abcdef"); ClearKey; Key (ascii "the sample nonce"); ClearHeader (ascii "Origin")] in
  Forall (leaves_alone (ascii "Sec-WebSocket-Key")) cs /\ asked_key (rev cs) = Some (ascii "the sample nonce") /\
  base64_text (ascii "the sample nonce") = ascii "dGhlIHNhbXBsZSBub25jZQ==".
Proof. cbv zeta. split; [repeat constructor; discriminate|split; reflexivity]. Qed.

(** [C38] The version field is the version last given, else 13. *)
Theorem request_version : forall u cs b rnd,
  Forall (leaves_alone (ascii "Sec-WebSocket-Version")) cs -> run_calls cs (builder_init u) = Ok b ->
  values (ascii "Sec-WebSocket-Version") (fields (b_headers (build_request rnd b)))
  = [match or_else (asked_version (rev cs)) WebSocket13 with
     | WebSocket13 => ascii "13" | UnknownVersion s => s end].
Proof. exact ThmClient.request_version_proof. Qed.
Print Assumptions request_version.

Example request_version_ex : asked_version (rev [Version (UnknownVersion (ascii "8")); AddProtocol []; ClearVersion]) = None /\
  asked_version (rev [Version (UnknownVersion (ascii "8")); AddProtocol []]) = Some (UnknownVersion (ascii "8")).
Proof. split; reflexivity. Qed.

(** [C38] Refuted with [clear_header]: after [key()] (or [version()]) it removes the header
    but not the mark that it was set, so the request goes out without it. *)
Theorem request_key_refuted : forall u k v rnd,
  (exists b, run_calls [Key k; ClearHeader (ascii "Sec-WebSocket-Key")] (builder_init u) = Ok b /\
     values (ascii "Sec-WebSocket-Key") (fields (b_headers (build_request rnd b))) = []) /\
  (exists b, run_calls [Version v; ClearHeader (ascii "Sec-WebSocket-Version")] (builder_init u) = Ok b /\
     values (ascii "Sec-WebSocket-Version") (fields (b_headers (build_request rnd b))) = []).
Proof. exact ThmClient.request_key_refuted_proof. Qed.
Print Assumptions request_key_refuted.

(** [C38] The origin, likewise. *)
Theorem request_origin : forall u cs b rnd,
  Forall (leaves_alone (ascii "Origin")) cs -> run_calls cs (builder_init u) = Ok b ->
  values (ascii "Origin") (fields (b_headers (build_request rnd b)))
  = match asked_origin (rev cs) with Some o => [o] | None => [] end.
Proof. exact ThmClient.request_origin_proof. Qed.
Print Assumptions request_origin.

Example request_origin_ex : asked_origin (rev [SetOrigin (ascii "http://a"); SetOrigin (ascii "http://b")]) = Some (ascii "http://b").
Proof. reflexivity. Qed.

(** ** The response *)

(** [C35] With the key the request was sent with, the client accepts a response exactly when
    its status is 101, its accept field is the token of that key, and its Upgrade field names
    websocket and nothing else. *)
Theorem client_validate_iff : forall rnd b fs k d v st reason,
  key_held (b_headers (build_request rnd b)) k -> rfc_token k d ->
  (client_validate (build_request rnd b) (mk_resp v st reason (from_raw fs)) = Ok tt <->
   st = 101 /\ Forall (fun c => fst c) (response_conditions d fs)).
Proof. exact ThmClient.client_validate_iff_proof. Qed.
Print Assumptions client_validate_iff.

Example client_validate_ex : forall u,
  let b := set_key (ascii "the sample nonce") (builder_init u) in
  key_held (b_headers (build_request [] b)) (ascii "the sample nonce") /\
  client_validate (build_request [] b) (mk_resp Http11 101 (ascii "Switching Protocols") (from_raw
    [(ascii "sec-websocket-accept", ascii " s3pPLMBiTxaQ9kYGzzhZRbK+xOo= "); (ascii "Upgrade", ascii "WebSocket");
     (ascii "Connection", ascii "Upgrade")])) = Ok tt.
Proof.
  intros u. cbv zeta. assert (key_held (b_headers (build_request [] (set_key (ascii "the sample nonce") (builder_init u)))) (ascii "the sample nonce")).
  { left. destruct u as [s [h|] p [|c us] pw r]; vm_compute;
    repeat ((apply stored_here; reflexivity) || (apply stored_next; [discriminate|])). }
  split; [assumption|]. destruct u as [s [h|] p [|c us] pw r]; vm_compute; reflexivity.
Qed.

(** [C35] A 101 response that is refused: the error names the first field that is wrong. *)
Theorem client_validate_error : forall rnd b fs k d v reason e,
  key_held (b_headers (build_request rnd b)) k -> rfc_token k d ->
  (client_validate (build_request rnd b) (mk_resp v 101 reason (from_raw fs)) = Err e <->
   first_failing (response_conditions d fs) e).
Proof. exact ThmClient.client_validate_error_proof. Qed.
Print Assumptions client_validate_error.

Example client_validate_error_ex : forall u,
  client_validate (build_request [] (set_key (ascii "the sample nonce") (builder_init u)))
    (mk_resp Http11 101 [] (from_raw [(ascii "Sec-WebSocket-Accept", ascii "s3pPLMBiTxaQ9kYGzzhZRbK+xOo=");
       (ascii "Upgrade", ascii "websocket, h2c")])) = Err (ResponseError "Upgrade field must be WebSocket").
Proof. intros [s [h|] p [|c us] pw r]; vm_compute; reflexivity. Qed.

(** [C35] Any other status is reported: as a redirection if it is one and there is a Location,
    otherwise as it is. *)
Theorem client_status : forall b fs v st reason, st <> 101 ->
  (forall loc, 300 <= st < 400 -> location_field fs loc ->
     client_validate b (mk_resp v st reason (from_raw fs)) = Err (RedirectError st loc)) /\
  (~ (300 <= st < 400) \/ ~ (exists loc, location_field fs loc) ->
     client_validate b (mk_resp v st reason (from_raw fs)) = Err (StatusCodeError st)).
Proof. exact ThmClient.client_status_proof. Qed.
Print Assumptions client_status.

Example client_status_ex : forall b,
  client_validate b (mk_resp Http11 302 [] (from_raw [(ascii "Location", ascii " ws://b/ ")])) = Err (RedirectError 302 (ascii "ws://b/")) /\
  client_validate b (mk_resp Http11 302 [] (from_raw [])) = Err (StatusCodeError 302) /\
  client_validate b (mk_resp Http11 404 [] (from_raw [(ascii "Location", ascii "x")])) = Err (StatusCodeError 404).
Proof. intros b. repeat split. Qed.

(** [C35] Without a key in the request no response is accepted. *)
Theorem client_validate_no_key : forall b fs v reason,
  unset (ascii "Sec-WebSocket-Key") (b_headers b) ->
  client_validate b (mk_resp v 101 reason (from_raw fs)) = Err (RequestError "Request Sec-WebSocket-Key was invalid").
Proof. exact ThmClient.client_validate_no_key_proof. Qed.
Print Assumptions client_validate_no_key.

Example client_no_key_ex : forall u, unset (ascii "Sec-WebSocket-Key") (b_headers (builder_init u)).
Proof. intros u. constructor. Qed.

(** [C35] Every response RFC 6455 (4.1) calls valid is accepted, if it carries the token and
    its Upgrade field is UTF-8. *)
Theorem client_accepts_rfc : forall rnd b fs k d v st reason,
  key_held (b_headers (build_request rnd b)) k -> rfc_token k d ->
  rfc_response st fs -> accept_field fs d -> Forall utf8_text (values (ascii "Upgrade") fs) ->
  client_validate (build_request rnd b) (mk_resp v st reason (from_raw fs)) = Ok tt.
Proof. exact ThmClient.client_accepts_rfc_proof. Qed.
Print Assumptions client_accepts_rfc.

Example client_accepts_rfc_ex :
  rfc_response 101 [(ascii "Upgrade", ascii " websocket"); (ascii "Connection", ascii "Upgrade")].
Proof.
  split; [reflexivity|]. split.
  - exists (ascii " websocket"). split; [reflexivity|]. exists (ascii "websocket"). split; [|reflexivity].
    apply MapFacts.element_trim. reflexivity.
  - exists (ascii "Upgrade"), [ascii "Upgrade"], (ascii "Upgrade"), (ascii "Upgrade").
    assert (pieces (ascii "Upgrade") [ascii "Upgrade"]) by (apply TextFacts.pieces_split; reflexivity).
    assert (element (ascii "Upgrade") (ascii "Upgrade")) by (apply MapFacts.element_trim; reflexivity).
    split; [left; reflexivity|]. split; [assumption|]. split; [left; reflexivity|]. split; [assumption|reflexivity].
Qed.

(** [C35] The converse fails: a response without any Connection field is accepted. *)
Theorem client_validate_refuted : forall u, exists fs,
  client_validate (build_request [] (set_key (ascii "the sample nonce") (builder_init u)))
    (mk_resp Http11 101 (ascii "Switching Protocols") (from_raw fs)) = Ok tt /\
  values (ascii "Connection") fs = [] /\ ~ rfc_response 101 fs.
Proof. exact ThmClient.client_validate_refuted_proof. Qed.
Print Assumptions client_validate_refuted.

(** ** Lists on the wire *)

(** [C37] A protocol list as a client sends it (or a server answers it) is read back by the
    other side exactly. *)
Theorem protocols_round_trip : forall l, Forall list_word l ->
  parse_protocols [join (ascii ", ") l] = Some l.
Proof. exact ThmClient.protocols_round_trip_proof. Qed.
Print Assumptions protocols_round_trip.

Example protocols_round_trip_ex : Forall list_word [ascii "chat"; ascii "soap.v2"] /\
  parse_protocols [ascii "chat, soap.v2"] = Some [ascii "chat"; ascii "soap.v2"].
Proof. split; [|reflexivity]. repeat constructor; discriminate. Qed.

(** ** Extensions *)

(** [C40] What printing and parsing an extension list does to it, exactly: the names are kept
    and every parameter comes back as one without a value, its name being the printed text. *)
Theorem extensions_reparsed : forall l, Forall simple_extension l ->
  parse_extensions [join (ascii ", ") (map print_ext l)] = Some (map without_values l).
Proof. exact ThmClient.extensions_reparsed_proof. Qed.
Print Assumptions extensions_reparsed.

Example extensions_reparsed_ex : let l := [mk_ext (ascii "foo") [mk_param (ascii "bar") None; mk_param (ascii "baz") (Some (ascii "1"))]; mk_ext (ascii "q") []] in
  Forall simple_extension l /\ join (ascii ", ") (map print_ext l) = ascii "foo; bar; baz=1, q".
Proof. cbv zeta. split; [|reflexivity]. repeat constructor; discriminate. Qed.

(** [C40] So lists whose parameters have no values survive. *)
Theorem extensions_round_trip : forall l, Forall simple_extension l ->
  Forall (fun e => Forall (fun p => p_value p = None) (x_params e)) l ->
  parse_extensions [join (ascii ", ") (map print_ext l)] = Some l.
Proof. exact ThmClient.extensions_round_trip_proof. Qed.
Print Assumptions extensions_round_trip.

Example extensions_round_trip_ex : let l := [mk_ext (ascii "permessage-deflate") [mk_param (ascii "client_max_window_bits") None]] in
  Forall simple_extension l /\ Forall (fun e => Forall (fun p => p_value p = None) (x_params e)) l.
Proof. cbv zeta. split; repeat constructor; discriminate. Qed.

(** [C40] Printing what was parsed and parsing again gives the same list. *)
Theorem extensions_stable : forall l, Forall simple_extension l ->
  parse_extensions [join (ascii ", ") (map print_ext (map without_values l))] = Some (map without_values l) /\
  map print_ext (map without_values l) = map print_ext l.
Proof. exact ThmClient.extensions_stable_proof. Qed.
Print Assumptions extensions_stable.

Example extensions_stable_ex : parse_extensions [ascii "foo; bar=1"] = Some [mk_ext (ascii "foo") [mk_param (ascii "bar=1") None]].
Proof. reflexivity. Qed.

(** [C40] Refuted for every extension that has a parameter with a value: it does not come
    back. *)
Theorem extensions_refuted : forall e, simple_extension e ->
  Exists (fun p => p_value p <> None) (x_params e) ->
  exists e', parse_extensions [print_ext e] = Some [e'] /\ e' <> e.
Proof. exact ThmClient.extensions_refuted_proof. Qed.
Print Assumptions extensions_refuted.

Example extensions_refuted_ex : let e := mk_ext (ascii "foo") [mk_param (ascii "qux") (Some (ascii "quux"))] in
  simple_extension e /\ parse_extensions [ascii "foo; qux=quux"] = Some [mk_ext (ascii "foo") [mk_param (ascii "qux=quux") None]].
Proof. cbv zeta. split; [|reflexivity]. repeat constructor; discriminate. Qed.

(** ** Where to connect *)

(** [C41] An explicit port is used as it is; a URL without a host is refused; the default port
    follows the scheme, whichever of [connect], [connect_secure], [connect_insecure] is
    called. *)
Theorem connect_address : forall secure u,
  (u_host u = None -> extract_host_port secure u = Err NoHostName) /\
  forall host, u_host u = Some host ->
    (forall p, u_port u = Some p -> extract_host_port secure u = Ok (host, p)) /\
    (u_port u = None -> In (u_scheme u) [ascii "ws"; ascii "http"] -> extract_host_port secure u = Ok (host, 80)) /\
    (u_port u = None -> In (u_scheme u) [ascii "wss"; ascii "https"] -> extract_host_port secure u = Ok (host, 443)) /\
    (u_port u = None -> ~ In (u_scheme u) [ascii "ws"; ascii "http"; ascii "wss"; ascii "https"; ascii "ftp"; ascii "gopher"] ->
       extract_host_port secure u = Ok (host, match secure with Some true => 443 | _ => 80 end)).
Proof. exact ThmClient.connect_address_proof. Qed.
Print Assumptions connect_address.

Example connect_address_ex :
  extract_host_port None (mk_url (ascii "wss") (Some (ascii "h")) None [] None (ascii "/")) = Ok (ascii "h", 443) /\
  extract_host_port (Some true) (mk_url (ascii "foo") (Some (ascii "h")) None [] None (ascii "/")) = Ok (ascii "h", 443) /\
  extract_host_port (Some true) (mk_url (ascii "ws") (Some (ascii "h")) (Some 9) [] None (ascii "/")) = Ok (ascii "h", 9).
Proof. repeat split. Qed.

(** [C41] [connect] encrypts exactly for wss and https. *)
Theorem connect_secure_iff : forall u,
  is_secure_url u = true <-> u_scheme u = ascii "wss" \/ u_scheme u = ascii "https".
Proof. exact ThmClient.connect_secure_iff_proof. Qed.
Print Assumptions connect_secure_iff.

Example connect_secure_ex : is_secure_url (mk_url (ascii "https") None None [] None []) = true.
Proof. reflexivity. Qed.

(** [C41] Refuted: asking for a secure connection to a ws URL goes to the plain-text port, and
    for an insecure one to a wss URL goes to the TLS port. *)
Theorem connect_secure_port_refuted : forall host,
  extract_host_port (Some true) (mk_url (ascii "ws") (Some host) None [] None (ascii "/")) = Ok (host, 80) /\
  extract_host_port (Some false) (mk_url (ascii "wss") (Some host) None [] None (ascii "/")) = Ok (host, 443).
Proof. exact ThmClient.connect_secure_port_refuted_proof. Qed.
Print Assumptions connect_secure_port_refuted.
