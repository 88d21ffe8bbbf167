(** Reaching the server: name resolution, TCP and TLS before the client's handshake
    (src/client/builder.rs), and TLS before the server's (src/server/sync.rs,
    src/server/async.rs). *)
From Coq Require Import NArith String Bool List.
From Coq.Strings Require Import Byte.
From Verif.Model Require Import Base Io Text Base64 WsKey Headers Handshake Codec Framed Http Connect.
Import ListNotations.
Local Open Scope string_scope.
Local Open Scope list_scope.
Local Open Scope N_scope.

(** External: socket addresses and native_tls [TlsConnector]s, of which the code looks at
    nothing. *)
Definition address : Type := N.
Definition connector : Type := N.
(** A connection that can be spoken on: plain TCP, or TLS over it with a connector and the
    name the certificate has to be for. *)
Inductive transport : Type :=
| Plain (a : address)
| Secured (c : connector) (name : bytes) (a : address).
(** native_tls [HandshakeError]: Failure, WouldBlock. *)
Inductive tls_failure : Type := TlsFails | TlsWouldBlock.

(** External: the network, fixed for the duration of one call.  [n_resolve] is
    [to_socket_addrs] of a host and a port; [n_dial] is connecting to one address ([None]:
    connected); [n_default_tls] is [TlsConnector::builder().build()] ([None]: it fails);
    [n_tls] is the TLS handshake ([None]: done); the last two are what the server says on a
    connection and how it takes what is written, for blocking and asynchronous use. *)
Record network : Type := mk_network {
  n_resolve : bytes -> N -> list address + io_kind;
  n_dial : address -> option io_kind;
  n_default_tls : option connector;
  n_tls : connector -> bytes -> address -> option tls_failure;
  n_stream : transport -> script * wstream;
  n_astream : transport -> list aev * fwrite }.

(** What is done to the network, in order.  [Spoken t]: the WebSocket handshake is carried
    out on [t]; nothing else of the library writes to or reads from a connection before. *)
Inductive act : Type :=
| Resolved (host : bytes) (port : N)
| Dialled (a : address)
| Negotiated (c : connector) (name : bytes) (a : address)
| Spoken (t : transport).

(** The error of std when there is no address at all: kind InvalidInput. *)
Definition no_address : io_kind := OtherKind 20.
(** External (std [TcpStream::connect]): the addresses in turn until one answers; otherwise
    the last error. *)
Fixpoint dial_each (W : network) (l : list address) (last : io_kind)
  : (address + io_kind) * list act :=
  match l with
  | [] => (inr last, [])
  | a :: l' =>
      match n_dial W a with
      | None => (inl a, [Dialled a])
      | Some k => let '(r, acts) := dial_each W l' k in (r, Dialled a :: acts)
      end
  end.
(** src/client/builder.rs:975-977 [establish_tcp] *)
Definition establish_tcp (W : network) (secure : option bool) (u : url)
  : result address client_error * list act :=
  match extract_host_port secure u with
  | Ok (host, port) =>
      match n_resolve W host port with
      | inr k => (Err (CWs (of_io k)), [Resolved host port])
      | inl l =>
          match dial_each W l no_address with
          | (inl a, acts) => (Ok a, Resolved host port :: acts)
          | (inr k, acts) => (Err (CWs (of_io k)), Resolved host port :: acts)
          end
      end
  | Err e => (Err e, [])
  | Panic => (Panic, [])
  | OutOfFuel => (OutOfFuel, [])
  end.
(** src/client/builder.rs:980-998 [extract_host_ssl_conn] *)
Definition extract_host_ssl_conn (W : network) (ssl : option connector) (u : url)
  : result (bytes * connector) client_error :=
  match u_host u with
  | None => Err NoHostName
  | Some h =>
      match ssl with
      | Some c => Ok (h, c)
      | None => match n_default_tls W with Some c => Ok (h, c) | None => Err CTlsError end
      end
  end.
(** src/client/builder.rs:1001-1009 [wrap_ssl]; the errors are src/result.rs:136-145. *)
Definition wrap_ssl (W : network) (a : address) (ssl : option connector) (u : url)
  : result transport client_error * list act :=
  match extract_host_ssl_conn W ssl u with
  | Ok (h, c) =>
      (match n_tls W c h a with
       | None => Ok (Secured c h a)
       | Some TlsFails => Err TlsHandshakeFailure
       | Some TlsWouldBlock => Err TlsHandshakeInterruption
       end, [Negotiated c h a])
  | Err e => (Err e, [])
  | Panic => (Panic, [])
  | OutOfFuel => (OutOfFuel, [])
  end.

(** [self.connect_on(stream)] at the end of each of the three; [r] is what came before. *)
Definition then_connect_on (X : http_lib) (W : network) (rnd : ws_key) (b : builder)
  (r : result transport client_error) (acts : list act)
  : result client client_error * builder * list act :=
  match r with
  | Ok t =>
      let '(s, w) := n_stream W t in
      let '(x, b', _) := connect_on X rnd b s w in (x, b', acts ++ [Spoken t])
  | Err e => (Err e, b, acts)
  | Panic => (Panic, b, acts)
  | OutOfFuel => (OutOfFuel, b, acts)
  end.
Definition then_wrap (W : network) (ssl : option connector) (u : url)
  (p : result address client_error * list act) : result transport client_error * list act :=
  match p with
  | (Ok a, acts) => let '(r, acts') := wrap_ssl W a ssl u in (r, acts ++ acts')
  | (Err e, acts) => (Err e, acts)
  | (Panic, acts) => (Panic, acts)
  | (OutOfFuel, acts) => (OutOfFuel, acts)
  end.
Definition then_plain (p : result address client_error * list act)
  : result transport client_error * list act :=
  match p with
  | (Ok a, acts) => (Ok (Plain a), acts)
  | (Err e, acts) => (Err e, acts)
  | (Panic, acts) => (Panic, acts)
  | (OutOfFuel, acts) => (OutOfFuel, acts)
  end.
(** src/client/builder.rs:420-433 [connect] *)
Definition connect (X : http_lib) (W : network) (rnd : ws_key) (ssl : option connector)
  (b : builder) : result client client_error * builder * list act :=
  let p := establish_tcp W None (b_url b) in
  let '(r, acts) := if is_secure_url (b_url b) then then_wrap W ssl (b_url b) p
                    else then_plain p in
  then_connect_on X W rnd b r acts.
(** src/client/builder.rs:450-454 [connect_insecure] *)
Definition connect_insecure (X : http_lib) (W : network) (rnd : ws_key) (b : builder)
  : result client client_error * builder * list act :=
  let '(r, acts) := then_plain (establish_tcp W (Some false) (b_url b)) in
  then_connect_on X W rnd b r acts.
(** src/client/builder.rs:461-470 [connect_secure] *)
Definition connect_secure (X : http_lib) (W : network) (rnd : ws_key) (ssl : option connector)
  (b : builder) : result client client_error * builder * list act :=
  let '(r, acts) := then_wrap W ssl (b_url b) (establish_tcp W (Some true) (b_url b)) in
  then_connect_on X W rnd b r acts.

(** ** Asynchronous.  What follows is a call together with running the future it returns. *)

(** src/client/builder.rs:815-841 [async_tcpstream].  The name is resolved at the call (it
    blocks); the future, here an address or an error, dials the first address only. *)
Definition async_tcpstream (W : network) (secure : option bool) (u : url)
  : result address client_error * list act :=
  match extract_host_port secure u with
  | Ok (host, port) =>
      (match n_resolve W host port with
       | inl (a :: _) => Ok a
       | inl [] => Err NoHostName
       | inr k => Err (CWs (of_io k))
       end, [Resolved host port])
  | Err e => (Err e, [])
  | Panic => (Panic, [])
  | OutOfFuel => (OutOfFuel, [])
  end.
(** Running that future. *)
Definition run_tcpstream (W : network) (p : result address client_error * list act)
  : result address client_error * list act :=
  match p with
  | (Ok a, acts) =>
      (match n_dial W a with None => Ok a | Some k => Err (CWs (of_io k)) end, acts ++ [Dialled a])
  | _ => p
  end.
(** [.and_then(move |s| connector.connect(&host, s).map_err(towse))]: tokio_tls polls an
    interrupted handshake again, and its error is native_tls's own [Error]. *)
Definition run_tls (W : network) (h : bytes) (c : connector)
  (p : result address client_error * list act) : result transport client_error * list act :=
  match p with
  | (Ok a, acts) =>
      (match n_tls W c h a with None => Ok (Secured c h a) | Some _ => Err CTlsError end,
       acts ++ [Negotiated c h a])
  | (Err e, acts) => (Err e, acts)
  | (Panic, acts) => (Panic, acts)
  | (OutOfFuel, acts) => (OutOfFuel, acts)
  end.
Definition then_async_connect_on (X : http_lib) (W : network) (rnd : ws_key) (extra : N)
  (b : builder) (p : result transport client_error * list act)
  : result (aclient * headers) client_error * list act :=
  match p with
  | (Ok t, acts) =>
      let '(s, w) := n_astream W t in (async_connect_on X rnd b extra s w, acts ++ [Spoken t])
  | (Err e, acts) => (Err e, acts)
  | (Panic, acts) => (Panic, acts)
  | (OutOfFuel, acts) => (OutOfFuel, acts)
  end.
(** The TLS part common to the two: without a host or a connector the future of the TCP
    connection is dropped, never having been polled. *)
Definition async_wrapped (W : network) (ssl : option connector) (u : url)
  (p : result address client_error * list act) : result transport client_error * list act :=
  match extract_host_ssl_conn W ssl u with
  | Ok (h, c) => run_tls W h c (run_tcpstream W p)
  | Err e => (Err e, snd p)
  | Panic => (Panic, snd p)
  | OutOfFuel => (OutOfFuel, snd p)
  end.
(** src/client/builder.rs:565-609 [async_connect] *)
Definition async_connect (X : http_lib) (W : network) (rnd : ws_key) (ssl : option connector)
  (extra : N) (b : builder) : result (aclient * headers) client_error * list act :=
  let p := async_tcpstream W None (b_url b) in
  then_async_connect_on X W rnd extra b
    (if is_secure_url (b_url b) then async_wrapped W ssl (b_url b) p
     else then_plain (run_tcpstream W p)).
(** src/client/builder.rs:643-674 [async_connect_secure] *)
Definition async_connect_secure (X : http_lib) (W : network) (rnd : ws_key)
  (ssl : option connector) (extra : N) (b : builder)
  : result (aclient * headers) client_error * list act :=
  then_async_connect_on X W rnd extra b
    (async_wrapped W ssl (b_url b) (async_tcpstream W (Some true) (b_url b))).
(** src/client/builder.rs:707-722 [async_connect_insecure] *)
Definition async_connect_insecure (X : http_lib) (W : network) (rnd : ws_key) (extra : N)
  (b : builder) : result (aclient * headers) client_error * list act :=
  then_async_connect_on X W rnd extra b
    (then_plain (run_tcpstream W (async_tcpstream W (Some false) (b_url b)))).

(** ** TLS on the server *)

(** src/server/sync.rs:149-184 [accept] of a server with TLS.  [tls] is the acceptor: what
    becomes of a TCP connection ([None]: the handshake fails, and the connection is gone). *)
Definition server_accept_tls (X : http_lib) (tls : script -> wstream -> option (script * wstream))
  (a : arrival) : result upgrade (option refusal * upgrade_error) :=
  match a with
  | ListenErr k => Err (None, UpIo k)
  | Arrives s w =>
      match tls s w with
      | None => Err (None, UpIo (OtherKind 0))
      | Some (s', w') =>
          match into_ws X s' w' with
          | Ok u => Ok u
          | Err f => Err (Some f, rf_error f)
          | Panic => Panic
          | OutOfFuel => OutOfFuel
          end
      end
  end.

(** src/server/async.rs:136-160: a handshake future with TLS is negotiating (some more polls,
    then an outcome) or upgrading. *)
Inductive tls_handshake : Type :=
| Negotiating (peer : N) (polls : nat) (outcome : option (list aev * fwrite))
| Upgrading (h : handshake).
(** One poll; [AndThen] polls the second future as soon as the first is done.  As an outcome
    [None] is an [InvalidConnection] without a stream. *)
Definition tls_handshake_poll (X : http_lib) (h : tls_handshake)
  : tls_handshake + (N * option (result aupgrade arefusal)) :=
  let go h' := match handshake_poll X h' with
               | inl h'' => inl (Upgrading h'')
               | inr (p, o) => inr (p, Some o)
               end in
  match h with
  | Negotiating p (S n) o => inl (Negotiating p n o)
  | Negotiating p O None => inr (p, None)
  | Negotiating p O (Some (s, w)) => go (handshake_new p s w)
  | Upgrading h' => go h'
  end.
(** src/server/async.rs:122-165 [incoming] of a server with TLS; as [incoming_step]. *)
Record tls_incoming : Type := mk_tls_incoming {
  ti_pending : list tls_handshake;
  ti_yielded : list (N * option (result aupgrade arefusal) + io_kind) }.
Inductive tls_event : Type :=
| TlsConnection (peer : N) (polls : nat) (outcome : option (list aev * fwrite))
| TlsListenerError (k : io_kind)
| TlsPoll (i : nat).
Definition tls_incoming_step (X : http_lib) (st : tls_incoming) (e : tls_event) : tls_incoming :=
  match e with
  | TlsConnection peer polls o =>
      mk_tls_incoming (ti_pending st ++ [Negotiating peer polls o]) (ti_yielded st)
  | TlsListenerError k => mk_tls_incoming (ti_pending st) (ti_yielded st ++ [inr k])
  | TlsPoll i =>
      match nth_error (ti_pending st) i with
      | None => st
      | Some h =>
          let before := firstn i (ti_pending st) in
          let after := skipn (S i) (ti_pending st) in
          match tls_handshake_poll X h with
          | inl h' => mk_tls_incoming (before ++ h' :: after) (ti_yielded st)
          | inr o => mk_tls_incoming (before ++ after) (ti_yielded st ++ [inl o])
          end
      end
  end.
Definition tls_incoming_run (X : http_lib) (es : list tls_event) : tls_incoming :=
  fold_left (tls_incoming_step X) es (mk_tls_incoming [] []).
