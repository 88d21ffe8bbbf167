(** The handshake logic: server side validation and response (src/server/upgrade/mod.rs),
    client side builder, request and validation (src/client/builder.rs). *)
From Coq Require Import NArith String Bool List.
From Coq.Strings Require Import Byte.
From Verif.Model Require Import Base Text Base64 WsKey Headers.
Import ListNotations.
Local Open Scope string_scope.
Local Open Scope list_scope.
Local Open Scope N_scope.

(** External (hyper 0.10): [Method], [HttpVersion].  Methods other than GET are kept as text. *)
Inductive http_method : Type := Get | OtherMethod (s : bytes).
Inductive http_version : Type := Http09 | Http10 | Http11 | Http20.
(** External (hyper 0.10 http::h1::Incoming). *)
Record request : Type :=
  mk_req { rq_method : http_method; rq_uri : bytes; rq_version : http_version; rq_headers : headers }.
Record response : Type :=
  mk_resp { rs_version : http_version; rs_status : N; rs_reason : bytes; rs_headers : headers }.

(** ** Server *)

(** src/server/upgrade/mod.rs:169-190 [HyperIntoWsError].  [Parsing] keeps a tag of hyper's
    error. *)
Inductive parse_error : Type :=
| PEIo (k : io_kind) | PETooLarge | PEMethod | PEUri | PEVersion | PEHeader | PEStatus.
Inductive upgrade_error : Type :=
| MethodNotGet
| UnsupportedHttpVersion
| UnsupportedWebsocketVersion
| NoSecWsKeyHeader
| NoWsUpgradeHeader
| NoUpgradeHeader
| NoWsConnectionHeader
| NoConnectionHeader
| UpIo (k : io_kind)
| UpParsing (e : parse_error).

Definition is_websocket (p : protocol) : bool :=
  match pr_name p with PWebSocket => true | _ => false end.
(** src/server/upgrade/mod.rs:285-294 [check_connection_header] *)
Fixpoint check_connection_header (l : list conn_option) : bool :=
  match l with
  | [] => false
  | ConnectionHeader h :: l' => eq_nocase h (str "upgrade") || check_connection_header l'
  | _ :: l' => check_connection_header l'
  end.

(** src/server/upgrade/mod.rs:253-306 [validate] *)
Definition validate (m : http_method) (v : http_version) (h : headers)
  : result unit upgrade_error :=
  match m with
  | OtherMethod _ => Err MethodNotGet
  | Get =>
  match v with
  | Http09 | Http10 => Err UnsupportedHttpVersion
  | _ =>
  rbind (get_version h) (fun wv =>
  match wv with
  | Some (UnknownVersion _) => Err UnsupportedWebsocketVersion
  | _ =>
  rbind (get_key h) (fun k =>
  match k with
  | None => Err NoSecWsKeyHeader
  | Some _ =>
  rbind (get_upgrade h) (fun u =>
  match u with
  | None => Err NoUpgradeHeader
  | Some up =>
    if forallb (fun p => negb (is_websocket p)) up then Err NoWsUpgradeHeader else
    rbind (get_connection h) (fun c =>
    match c with
    | None => Err NoConnectionHeader
    | Some co => if check_connection_header co then Ok tt else Err NoWsConnectionHeader
    end)
  end)
  end)
  end)
  end
  end.

(** src/server/upgrade/mod.rs:60-69 [use_protocol], on the [headers] field. *)
Definition use_protocol {E} (p : bytes) (h : headers) : result headers E :=
  upsert n_protocol parse_protocols as_protocol VProtocol [p] h.
(** src/server/upgrade/mod.rs:72-78 [use_extension] *)
Definition use_extension {E} (e : extension) (h : headers) : result headers E :=
  upsert n_extensions parse_extensions as_extensions VExtensions [e] h.
(** src/server/upgrade/mod.rs:81-91 [use_extensions] *)
Definition use_extensions {E} (es : list extension) (h : headers) : result headers E :=
  upsert n_extensions parse_extensions as_extensions VExtensions es h.

(** src/server/upgrade/mod.rs:99-105 [protocols] and :108-114 [extensions], on the request's
    headers; src/client/sync.rs:217-222, 227-232, on the response's. *)
Definition protocols {E} (h : headers) : result (list bytes) E :=
  rbind (get_protocols h) (fun o => Ok (match o with Some l => l | None => [] end)).
Definition extensions {E} (h : headers) : result (list extension) E :=
  rbind (get_extensions h) (fun o => Ok (match o with Some l => l | None => [] end)).

Definition upgrade_value : hval := VUpgrade [mk_proto PWebSocket None].
Definition connection_value : hval := VConnection [ConnectionHeader (str "Upgrade")].

(** src/server/upgrade/mod.rs:147-163 [prepare_headers]: the new [headers] field; the status
    it returns is always 101.  The [unwrap] of a missing key is [Panic]. *)
Definition prepare_headers {E} (custom : option headers) (h : headers) (req : headers)
  : result headers E :=
  let h1 := match custom with Some c => hextend h c | None => h end in
  rbind (get_key req) (fun k =>
  match k with
  | None => Panic
  | Some key =>
    Ok (hset n_upgrade (Typed upgrade_value)
       (hset n_connection (Typed connection_value)
       (hset n_accept (Typed (VAccept (accept_new key))) h1)))
  end).
(** src/server/upgrade/sync.rs:110-113 and async.rs:149-151, the headers of a rejection. *)
Definition reject_headers (custom : option headers) (h : headers) : headers :=
  match custom with Some c => hextend h c | None => h end.

(** External (hyper 0.10): [Display] of [HttpVersion]. *)
Definition print_version_http (v : http_version) : bytes :=
  match v with
  | Http09 => str "HTTP/0.9" | Http10 => str "HTTP/1.0"
  | Http11 => str "HTTP/1.1" | Http20 => str "HTTP/2.0"
  end.
(** External (hyper 0.10): [Display] of the two [StatusCode]s the server sends. *)
Definition switching_protocols : bytes := str "101 Switching Protocols".
Definition bad_request : bytes := str "400 Bad Request".
(** src/server/upgrade/mod.rs:138-141, and src/codec/http.rs:175: the bytes of a response. *)
Definition print_response {E} (v : http_version) (status : bytes) (h : headers)
  : result bytes E :=
  rbind (print_headers h) (fun hs =>
    Ok (print_version_http v ++ str " " ++ status ++ crlf ++ hs ++ crlf)).

(** ** Client *)

(** External (url 1.x [Url]).  The parts the builder looks at: the scheme, [host_str], the
    explicit port ([port()], which url leaves [None] when it is the scheme's default),
    [username] (empty if absent), [password], and the text from path to query. *)
Record url : Type := mk_url {
  u_scheme : bytes; u_host : option bytes; u_port : option N;
  u_user : bytes; u_password : option bytes; u_resource : bytes }.

(** src/client/builder.rs:114-122 [ClientBuilder] *)
Record builder : Type := mk_builder {
  b_url : url; b_version : http_version; b_headers : headers;
  b_version_set : bool; b_key_set : bool; b_max_df : N; b_max_msg : N }.

(** src/client/builder.rs:13-14 *)
Definition default_max_df : N := 1024*1024*100.
Definition default_max_msg : N := 1024*1024*200.
(** src/client/builder.rs:162-172 [init] (and [new], [from_url]) *)
Definition builder_init (u : url) : builder :=
  mk_builder u Http11 [] false false default_max_df default_max_msg.

Definition with_headers (b : builder) (h : headers) : builder :=
  mk_builder (b_url b) (b_version b) h (b_version_set b) (b_key_set b) (b_max_df b) (b_max_msg b).

(** src/client/builder.rs:186-195 [add_protocol] *)
Definition add_protocol {E} (p : bytes) (b : builder) : result builder E :=
  rbind (upsert n_protocol parse_protocols as_protocol VProtocol [p] (b_headers b))
    (fun h => Ok (with_headers b h)).
(** src/client/builder.rs:210-222 [add_protocols] *)
Definition add_protocols {E} (ps : list bytes) (b : builder) : result builder E :=
  rbind (upsert n_protocol parse_protocols as_protocol VProtocol ps (b_headers b))
    (fun h => Ok (with_headers b h)).
(** src/client/builder.rs:225-228 [clear_protocols] *)
Definition clear_protocols (b : builder) : builder :=
  with_headers b (hremove n_protocol (b_headers b)).
(** src/client/builder.rs:249-255 [add_extension] *)
Definition add_extension {E} (e : extension) (b : builder) : result builder E :=
  rbind (upsert n_extensions parse_extensions as_extensions VExtensions [e] (b_headers b))
    (fun h => Ok (with_headers b h)).
(** src/client/builder.rs:281-291 [add_extensions] *)
Definition add_extensions {E} (es : list extension) (b : builder) : result builder E :=
  rbind (upsert n_extensions parse_extensions as_extensions VExtensions es (b_headers b))
    (fun h => Ok (with_headers b h)).
(** src/client/builder.rs:294-297 [clear_extensions] *)
Definition clear_extensions (b : builder) : builder :=
  with_headers b (hremove n_extensions (b_headers b)).
(** src/client/builder.rs:301-304 [max_dataframe_size] *)
Definition set_max_df (n : N) (b : builder) : builder :=
  mk_builder (b_url b) (b_version b) (b_headers b) (b_version_set b) (b_key_set b) n (b_max_msg b).
(** src/client/builder.rs:309-312 [max_message_size] *)
Definition set_max_msg (n : N) (b : builder) : builder :=
  mk_builder (b_url b) (b_version b) (b_headers b) (b_version_set b) (b_key_set b) (b_max_df b) n.
(** src/client/builder.rs:317-321 [key] *)
Definition set_key (k : ws_key) (b : builder) : builder :=
  mk_builder (b_url b) (b_version b) (hset n_key (Typed (VKey k)) (b_headers b))
    (b_version_set b) true (b_max_df b) (b_max_msg b).
(** src/client/builder.rs:324-328 [clear_key] *)
Definition clear_key (b : builder) : builder :=
  mk_builder (b_url b) (b_version b) (hremove n_key (b_headers b))
    (b_version_set b) false (b_max_df b) (b_max_msg b).
(** src/client/builder.rs:334-338 [version] *)
Definition set_version (v : ws_version) (b : builder) : builder :=
  mk_builder (b_url b) (b_version b) (hset n_version (Typed (VVersion v)) (b_headers b))
    true (b_key_set b) (b_max_df b) (b_max_msg b).
(** src/client/builder.rs:341-345 [clear_version] *)
Definition clear_version (b : builder) : builder :=
  mk_builder (b_url b) (b_version b) (hremove n_version (b_headers b))
    false (b_key_set b) (b_max_df b) (b_max_msg b).
(** src/client/builder.rs:351-354 [origin] *)
Definition set_origin (o : bytes) (b : builder) : builder :=
  with_headers b (hset n_origin (Typed (VOrigin o)) (b_headers b)).
(** src/client/builder.rs:357-360 [clear_origin] *)
Definition clear_origin (b : builder) : builder :=
  with_headers b (hremove n_origin (b_headers b)).
(** src/client/builder.rs:377-380 [custom_headers] *)
Definition custom_headers (c : headers) (b : builder) : builder :=
  with_headers b (hextend (b_headers b) c).
(** src/client/builder.rs:384-390 [clear_header::<H>], [n] being [H]'s name. *)
Definition clear_header (n : bytes) (b : builder) : builder :=
  with_headers b (hremove n (b_headers b)).

(** src/client/builder.rs:844-884 [build_request]: the builder afterwards; the resource is
    [u_resource].  [rnd] is the random key of [WebSocketKey::new()]. *)
Definition build_request (rnd : ws_key) (b : builder) : builder :=
  let u := b_url b in
  let h0 := b_headers b in
  let h1 := match u_host u with
            | Some host => hset n_host (Typed (VHost host (u_port u))) h0
            | None => h0
            end in
  let h2 := match u_user u with
            | [] => h1
            | _ => hset n_authorization (Typed (VBasic (u_user u) (u_password u))) h1
            end in
  let h3 := hset n_connection (Typed connection_value) h2 in
  let h4 := hset n_upgrade (Typed upgrade_value) h3 in
  let h5 := if b_version_set b then h4 else hset n_version (Typed (VVersion WebSocket13)) h4 in
  let h6 := if b_key_set b then h5 else hset n_key (Typed (VKey rnd)) h5 in
  with_headers b h6.

(** src/client/builder.rs:510 and src/codec/http.rs:78-81: the bytes of the request. *)
Definition print_request {E} (b : builder) : result bytes E :=
  rbind (print_headers (b_headers b)) (fun hs =>
    Ok (str "GET " ++ u_resource (b_url b) ++ str " " ++ print_version_http (b_version b)
        ++ crlf ++ hs ++ crlf)).

(** src/result.rs:37-65 [WebSocketOtherError], as far as the handshake uses it. *)
Inductive client_error : Type :=
| CWs (e : ws_error)
| RequestError (m : string)
| ResponseError (m : string)
| StatusCodeError (status : N)
| RedirectError (status : N) (location : bytes)
| NoHostName
| COtherIo (k : io_kind)
| CParsing (e : parse_error)
| CTlsError
| TlsHandshakeFailure
| TlsHandshakeInterruption.

Definition beqb_opt (a b : option bytes) : bool :=
  match a, b with
  | None, None => true
  | Some x, Some y => beqb x y
  | _, _ => false
  end.
(** External (hyper 0.10): equality with [Upgrade(vec![Protocol { WebSocket, None }])]. *)
Definition upgrade_is_websocket (o : option (list protocol)) : bool :=
  match o with
  | Some [p] => is_websocket p && match pr_version p with None => true | Some _ => false end
  | _ => false
  end.
(** External (hyper 0.10): equality with [Connection(vec![ConnectionHeader(UniCase("Upgrade"))])]. *)
Definition connection_is_upgrade (o : option (list conn_option)) : bool :=
  match o with
  | Some [ConnectionHeader s] => eq_nocase s (str "Upgrade")
  | _ => false
  end.
(** External (hyper 0.10): [StatusCode::is_redirection]. *)
Definition is_redirection (s : N) : bool := (300 <=? s) && (s <? 400).

(** src/client/builder.rs:887-940 [ClientBuilder::validate] *)
Definition client_validate (b : builder) (r : response) : result unit client_error :=
  let status := rs_status r in
  if negb (status =? 101) then
    if is_redirection status then
      rbind (get_location (rs_headers r)) (fun l =>
      match l with
      | Some x => Err (RedirectError status x)
      | None => Err (StatusCodeError status)
      end)
    else Err (StatusCodeError status)
  else
  rbind (get_key (b_headers b)) (fun k =>
  match k with
  | None => Err (RequestError "Request Sec-WebSocket-Key was invalid")
  | Some key =>
  rbind (get_accept (rs_headers r)) (fun a =>
  if negb (beqb_opt a (Some (accept_new key)))
  then Err (ResponseError "Sec-WebSocket-Accept is invalid") else
  rbind (get_upgrade (rs_headers r)) (fun u =>
  if negb (upgrade_is_websocket u)
  then Err (ResponseError "Upgrade field must be WebSocket") else
  rbind (get_connection (b_headers b)) (fun c =>
  if negb (connection_is_upgrade c)
  then Err (ResponseError "Connection field must be 'Upgrade'")
  else Ok tt)))
  end).

(** src/client/builder.rs:946-949 [is_secure_url] *)
Definition is_secure_url (u : url) : bool :=
  beqb (u_scheme u) (str "wss") || beqb (u_scheme u) (str "https").
(** External (url 1.x): [port_or_known_default]'s table of known schemes. *)
Definition known_port (scheme : bytes) : option N :=
  if beqb scheme (str "http") || beqb scheme (str "ws") then Some 80
  else if beqb scheme (str "https") || beqb scheme (str "wss") then Some 443
  else if beqb scheme (str "ftp") then Some 21
  else if beqb scheme (str "gopher") then Some 70
  else None.
(** External (url 1.x): [Url::with_default_port]: the closure is asked only if the URL has
    no port and its scheme no known default. *)
Definition with_default_port (u : url) (f : url -> N) : N :=
  match u_port u with
  | Some p => p
  | None => match known_port (u_scheme u) with Some p => p | None => f u end
  end.
(** src/client/builder.rs:952-972 [extract_host_port] *)
Definition extract_host_port (secure : option bool) (u : url) : result (bytes * N) client_error :=
  match u_host u with
  | None => Err NoHostName
  | Some h =>
    Ok (h, with_default_port u (fun u =>
      match secure with
      | None => if beqb (u_scheme u) (str "wss") then 443 else 80
      | Some true => 443
      | Some false => 80
      end))
  end.
