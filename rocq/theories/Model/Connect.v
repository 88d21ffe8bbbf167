(** Making a connection: the synchronous and asynchronous upgrade on the server
    (src/server/upgrade/{sync,async}.rs, src/server/{sync,async}.rs), the client's connect
    functions (src/client/builder.rs) and the connections they give (src/client/sync.rs;
    src/client/async.rs: [Client<S> = Framed<S, MessageCodec<OwnedMessage>>]). *)
From Coq Require Import NArith String Bool List.
From Coq.Strings Require Import Byte.
From Verif.Model Require Import Base Io Header Mask Dataframe Utf8 Text Base64 WsKey Headers
  Handshake Message Receiver Codec Framed Http.
Import ListNotations.
Local Open Scope string_scope.
Local Open Scope list_scope.
Local Open Scope N_scope.

(** ** The blocking connection *)

(** src/client/sync.rs:53-63 [Client].  The [BufReader] is the unread bytes of its buffer
    ([buf[pos..cap]]) and the stream behind it.
    Simplification: reading through it is reading the buffered bytes first and the stream
    then; how many bytes it reads ahead is not modelled, so after a read [c_buf] is empty and
    what was not used is in front of [c_in].  Props/Buffered.v proves this the same as reading
    through the buffer of Model/BufReader.v. *)
Record client : Type := mk_client {
  c_headers : headers;
  c_sender : sender;
  c_receiver : receiver;
  c_buf : bytes;
  c_in : script;
  c_out : wstream }.

(** src/client/sync.rs:137-151 [unchecked_with_limits] *)
Definition unchecked_with_limits (buf : bytes) (s : script) (w : wstream) (h : headers)
  (out_mask in_mask : bool) (max_df max_msg : N) : client :=
  mk_client h (mk_sender out_mask) (receiver_with_limits in_mask max_df max_msg) buf s w.
(** src/client/sync.rs:122-134 [unchecked] *)
Definition unchecked (buf : bytes) (s : script) (w : wstream) (h : headers)
  (out_mask in_mask : bool) : client :=
  mk_client h (mk_sender out_mask) (receiver_new in_mask) buf s w.

(** src/client/sync.rs:154-159 [send_dataframe] *)
Definition client_send_frame (d : dataframe_ops) (k : mkey) (c : client)
  : result unit ws_error * client :=
  let '(r, w) := send_frame (c_sender c) d k (c_out c) in
  (r, mk_client (c_headers c) (c_sender c) (c_receiver c) (c_buf c) (c_in c) w).
(** src/client/sync.rs:162-167 [send_message] *)
Definition client_send (m : owned) (k : mkey) (c : client) : result unit ws_error * client :=
  client_send_frame (owned_ops m) k c.
(** src/client/sync.rs:170-172 [recv_dataframe] *)
Definition client_recv_frame (c : client) : result dataframe ws_error * client :=
  let '(r, s) := recv_dataframe (c_receiver c) (push_back (c_buf c) (c_in c)) in
  (r, mk_client (c_headers c) (c_sender c) (c_receiver c) [] s (c_out c)).
(** src/client/sync.rs:193-195 [recv_message] *)
Definition client_recv (c : client) : result owned ws_error * client :=
  let '(r, rc, s) := recv_message (c_receiver c) (push_back (c_buf c) (c_in c)) in
  (r, mk_client (c_headers c) (c_sender c) rc [] s (c_out c)).

(** src/receiver.rs:22-60 [Reader] and src/sender.rs:16-48 [Writer] *)
Record reader : Type := mk_reader { rd_receiver : receiver; rd_buf : bytes; rd_in : script }.
Record writer : Type := mk_writer { wr_sender : sender; wr_out : wstream }.
(** src/client/sync.rs:386-404 [split].  [fail] is the error of the stream's own [split]
    (websocket-base/src/stream.rs:126-156: none for a ReadWritePair; that of [try_clone] for a
    TcpStream).  The two halves of a TcpStream are two handles of one socket: reading and
    writing go on as before. *)
Definition split (fail : option io_kind) (c : client) : result (reader * writer) io_kind :=
  match fail with
  | Some k => Err k
  | None => Ok (mk_reader (c_receiver c) (c_buf c) (c_in c), mk_writer (c_sender c) (c_out c))
  end.
(** src/receiver.rs:37-39 [recv_dataframe] and :47-49 [recv_message] *)
Definition reader_recv_frame (r : reader) : result dataframe ws_error * reader :=
  let '(x, s) := recv_dataframe (rd_receiver r) (push_back (rd_buf r) (rd_in r)) in
  (x, mk_reader (rd_receiver r) [] s).
Definition reader_recv (r : reader) : result owned ws_error * reader :=
  let '(x, rc, s) := recv_message (rd_receiver r) (push_back (rd_buf r) (rd_in r)) in
  (x, mk_reader rc [] s).
(** src/sender.rs:28-34 [send_dataframe] and :37-42 [send_message] *)
Definition writer_send_frame (d : dataframe_ops) (k : mkey) (w : writer)
  : result unit ws_error * writer :=
  let '(r, o) := send_frame (wr_sender w) d k (wr_out w) in (r, mk_writer (wr_sender w) o).
Definition writer_send (m : owned) (k : mkey) (w : writer) : result unit ws_error * writer :=
  writer_send_frame (owned_ops m) k w.

(** src/client/sync.rs:311-314 [into_stream]: the stream and the unread bytes
    [buf[pos..cap]]. *)
Definition into_stream (c : client) : (script * wstream) * bytes := ((c_in c, c_out c), c_buf c).

(** ** The blocking server *)

(** src/server/upgrade/mod.rs:46-54 [WsUpgrade], synchronous: the buffer is an
    [Option<Buffer>] (sync.rs:26-36), of which [buf[pos..cap]] is kept. *)
Record upgrade : Type := mk_upgrade {
  up_headers : headers; up_request : request; up_buffer : option bytes;
  up_in : script; up_out : wstream }.
(** The error of [into_ws], sync.rs:183, and src/server/mod.rs:37-49 [InvalidConnection]. *)
Record refusal : Type := mk_refusal {
  rf_in : script; rf_out : wstream; rf_request : option request; rf_buffer : option bytes;
  rf_error : upgrade_error }.

(** src/server/upgrade/sync.rs:178-207 [IntoWs for S] *)
Definition into_ws (X : http_lib) (s : script) (w : wstream) : result upgrade refusal :=
  let '(r, buf, s') := parse_request X s in
  match r with
  | Ok req =>
      match validate (rq_method req) (rq_version req) (rq_headers req) with
      | Ok _ => Ok (mk_upgrade [] req (Some buf) s' w)
      | Err e => Err (mk_refusal s' w (Some req) (Some buf) e)
      | Panic => Panic
      | OutOfFuel => OutOfFuel
      end
  | Err e => Err (mk_refusal s' w None (Some buf) (UpParsing e))
  | Panic => Panic
  | OutOfFuel => OutOfFuel
  end.
(** src/server/upgrade/sync.rs:209-227 [IntoWs for RequestStreamPair]; with [Some buf],
    :271-297 [IntoWs for HyperRequest] ([take_buf] of hyper's reader). *)
Definition into_ws_with (req : request) (buf : option bytes) (s : script) (w : wstream)
  : result upgrade refusal :=
  match validate (rq_method req) (rq_version req) (rq_headers req) with
  | Ok _ => Ok (mk_upgrade [] req buf s w)
  | Err e => Err (mk_refusal s w (Some req) buf e)
  | Panic => Panic
  | OutOfFuel => OutOfFuel
  end.

(** src/server/upgrade/mod.rs:117-119 [key], :122-124 [version], :132-134 [origin], on the
    request of an upgrade of either kind. *)
Definition seen_key {E} (q : request) : result (option ws_key) E := get_key (rq_headers q).
Definition seen_version {E} (q : request) : result (option ws_version) E :=
  get_version (rq_headers q).
Definition seen_origin {E} (q : request) : result (option bytes) E := get_origin (rq_headers q).
(** src/server/upgrade/mod.rs:127-129 [uri]: hyper prints a path and [*] as they came.
    Simplification: an absolute URI is printed as it came too (hyper prints url's
    normalisation of it). *)
Definition seen_uri (q : request) : bytes := rq_uri q.
(** src/server/upgrade/mod.rs:99-105 and :108-114, likewise. *)
Definition seen_protocols {E} (q : request) : result (list bytes) E := protocols (rq_headers q).
Definition seen_extensions {E} (q : request) : result (list extension) E :=
  extensions (rq_headers q).

(** src/server/upgrade/sync.rs:16-17, async.rs:24-25 *)
Definition SERVER_MAX_DATAFRAME_SIZE : N := 1024*1024*100.
Definition SERVER_MAX_MESSAGE_SIZE : N := 1024*1024*200.

(** src/server/upgrade/sync.rs:83-97 [internal_accept_with_limits]; [send] is
    src/server/upgrade/mod.rs:136-143.  On a write error the stream is handed back. *)
Definition internal_accept (custom : option headers) (max_df max_msg : N) (u : upgrade)
  : result client (script * wstream * io_kind) :=
  rbind (prepare_headers custom (up_headers u) (rq_headers (up_request u))) (fun h =>
  rbind (print_response (rq_version (up_request u)) switching_protocols h) (fun data =>
  match write_all data (up_out u) with
  | (Ok _, w) =>
      Ok (unchecked_with_limits (match up_buffer u with Some b => b | None => [] end)
            (up_in u) w h false true max_df max_msg)
  | (Err k, w) => Err (up_in u, w, k)
  | (Panic, _) => Panic
  | (OutOfFuel, _) => OutOfFuel
  end)).
(** src/server/upgrade/sync.rs:56-58, 63-65, 69-71, 76-78, 80-82 *)
Definition accept (u : upgrade) :=
  internal_accept None SERVER_MAX_DATAFRAME_SIZE SERVER_MAX_MESSAGE_SIZE u.
Definition accept_with (custom : headers) (u : upgrade) :=
  internal_accept (Some custom) SERVER_MAX_DATAFRAME_SIZE SERVER_MAX_MESSAGE_SIZE u.
Definition accept_with_limits (max_df max_msg : N) (u : upgrade) :=
  internal_accept None max_df max_msg u.
Definition accept_with_headers_and_limits (custom : headers) (max_df max_msg : N) (u : upgrade) :=
  internal_accept (Some custom) max_df max_msg u.

(** src/server/upgrade/sync.rs:100-118 [reject], [reject_with], [internal_reject]: only the
    stream comes back. *)
Definition reject (custom : option headers) (u : upgrade)
  : result (script * wstream) (script * wstream * io_kind) :=
  rbind (print_response (rq_version (up_request u)) bad_request
           (reject_headers custom (up_headers u))) (fun data =>
  match write_all data (up_out u) with
  | (Ok _, w) => Ok (up_in u, w)
  | (Err k, w) => Err (up_in u, w, k)
  | (Panic, _) => Panic
  | (OutOfFuel, _) => OutOfFuel
  end).

(** What the listener gives next: a stream or an error. *)
Inductive arrival : Type := Arrives (s : script) (w : wstream) | ListenErr (k : io_kind).
(** src/server/sync.rs:230-252 [accept] of a server without TLS.  [None] as the refusal: there
    is no stream (an [InvalidConnection] with three [None]s and this error). *)
Definition server_accept (X : http_lib) (a : arrival)
  : result upgrade (option refusal * upgrade_error) :=
  match a with
  | ListenErr k => Err (None, UpIo k)
  | Arrives s w =>
      match into_ws X s w with
      | Ok u => Ok u
      | Err f => Err (Some f, rf_error f)
      | Panic => Panic
      | OutOfFuel => OutOfFuel
      end
  end.

(** ** The blocking client *)

(** src/client/builder.rs:502-519 [connect_on]: the outcome, the builder (it can be used
    again) and what was written. *)
Definition connect_on (X : http_lib) (rnd : ws_key) (b : builder) (s : script) (w : wstream)
  : result client client_error * builder * wstream :=
  let b' := build_request rnd b in
  match print_request (E := client_error) b' with
  | Ok data =>
      match write_all data w with
      | (Ok _, w') =>
          let '(r, buf, s') := parse_response X s in
          match r with
          | Ok resp =>
              match client_validate b' resp with
              | Ok _ =>
                  (Ok (unchecked_with_limits buf s' w' (rs_headers resp) true false
                         (b_max_df b') (b_max_df b')), b', w')
              | Err e => (Err e, b', w')
              | Panic => (Panic, b', w')
              | OutOfFuel => (OutOfFuel, b', w')
              end
          | Err e => (Err (CParsing e), b', w')
          | Panic => (Panic, b', w')
          | OutOfFuel => (OutOfFuel, b', w')
          end
      | (Err k, w') => (Err (CWs (of_io k)), b', w')
      | (Panic, w') => (Panic, b', w')
      | (OutOfFuel, w') => (OutOfFuel, b', w')
      end
  | Err e => (Err e, b', w)
  | Panic => (Panic, b', w)
  | OutOfFuel => (OutOfFuel, b', w)
  end.

(** ** The asynchronous connection *)

(** External (tokio-codec [Framed]): the reading half with its codec, the transport's coming
    events, and the writing half. *)
Record aclient : Type := mk_aclient {
  ac_read : framed msg_codec; ac_in : list aev; ac_out : fwrite }.

(** src/codec/http.rs:76-87 and :173-181 [encode]: one [write] after a [reserve]; what [write]
    returns is ignored. *)
Definition http_encode (data : bytes) (extra : N) (dst : bytesmut) : bytesmut :=
  let dst1 := if remaining_mut dst <? llen data then bm_reserve (llen data) extra dst else dst in
  mk_bm (bm_data dst1 ++ take (N.min (remaining_mut dst1) (llen data)) data) (bm_cap dst1).

(** External (futures 0.1 [Sink::send]): after [start_send], [poll_complete] until it is
    ready.  (A fresh [Framed] has an empty buffer, so [start_send] takes the item.) *)
Fixpoint flush_all (fuel : nat) (w : fwrite) : spoll * fwrite :=
  match fuel with
  | O => (SNotReady, w)
  | S fuel' =>
      match poll_complete w with
      | (SNotReady, w') => flush_all fuel' w'
      | r => r
      end
  end.
Definition http_send (data : bytes) (extra : N) (w : fwrite) : spoll * fwrite :=
  flush_all (S (List.length (fw_ws w) + List.length (fw_fs w)))
    (mk_fw (http_encode data extra (fw_buf w)) (fw_out w) (fw_ws w) (fw_fs w)).

(** websocket-base/src/ws/util/mod.rs:20-26 [update_framed_codec]: both buffers are kept. *)
Definition update_framed_codec {A : Type} (f : framed A) (s : list aev) (w : fwrite)
  (codec : msg_codec) : aclient :=
  mk_aclient (framed_new codec (fr_buf f)) s w.

(** src/server/upgrade/mod.rs:46-54 [WsUpgrade], asynchronous: the buffer is a [BytesMut]. *)
Record aupgrade : Type := mk_aupgrade {
  au_headers : headers; au_request : request; au_buffer : bytes; au_in : list aev; au_out : fwrite }.
(** The error of the asynchronous [into_ws], async.rs:233. *)
Record arefusal : Type := mk_arefusal {
  ar_in : list aev; ar_out : fwrite; ar_request : option request; ar_buffer : bytes;
  ar_error : upgrade_error }.

(** The kind of the [io::Error] that the model of [Framed] reports ([of_io] undone): the HTTP
    codec's error type keeps it as it is. *)
Definition io_of (e : ws_error) : io_kind :=
  match e with
  | NoDataAvailable => UnexpectedEof
  | IoError k => k
  | _ => OtherKind 0
  end.

(** src/server/upgrade/async.rs:239-263: what follows once the first item of the HTTP stream
    (or its end, or an error) is there; [e.into()] is src/server/upgrade/mod.rs:242-249. *)
Definition finish_into_ws (p : poll (request + parse_error)) (f : framed unit) (s : list aev)
  (w : fwrite) : result aupgrade arefusal :=
  match p with
  | PItem (inl req) =>
      match validate (rq_method req) (rq_version req) (rq_headers req) with
      | Ok _ => Ok (mk_aupgrade [] req (fr_buf f) s w)
      | Err e => Err (mk_arefusal s w (Some req) (fr_buf f) e)
      | Panic => Panic
      | OutOfFuel => OutOfFuel
      end
  | PItem (inr e) => Err (mk_arefusal s w None (fr_buf f) (UpParsing e))
  | PEnd => Err (mk_arefusal s w None (fr_buf f) (UpIo ConnectionReset))
  | PErr e => Err (mk_arefusal s w None (fr_buf f) (UpIo (io_of e)))
  | PPanic => Panic
  | PNotReady => OutOfFuel
  | POutOfFuel => OutOfFuel
  end.
(** src/server/upgrade/async.rs:235-265 [into_ws] *)
Definition async_into_ws (X : http_lib) (s : list aev) (w : fwrite) : result aupgrade arefusal :=
  let '(p, f, s') := await_head (try_request X) s in finish_into_ws p f s' w.

(** src/server/upgrade/async.rs:105-131 [internal_accept_with_limits].  [extra] is the
    allocator's choice. *)
Definition async_accept (custom : option headers) (max_df max_msg extra : N) (u : aupgrade)
  : result (aclient * headers) ws_error :=
  rbind (prepare_headers custom (au_headers u) (rq_headers (au_request u))) (fun h =>
  rbind (print_response (rq_version (au_request u)) switching_protocols h) (fun data =>
  match http_send data extra (au_out u) with
  | (SReady, w) =>
      Ok (update_framed_codec (framed_new tt (au_buffer u)) (au_in u) w
            (msg_codec_with_limits CtxServer max_df max_msg), h)
  | (SErr e, _) => Err e
  | (SNotReady, _) => OutOfFuel
  end)).
(** src/server/upgrade/async.rs:79-103 [accept], [accept_with], [accept_with_limits],
    [accept_with_headers_and_limits], [internal_accept] *)
Definition async_accept_plain (extra : N) (u : aupgrade) :=
  async_accept None SERVER_MAX_DATAFRAME_SIZE SERVER_MAX_MESSAGE_SIZE extra u.
Definition async_accept_with (custom : headers) (extra : N) (u : aupgrade) :=
  async_accept (Some custom) SERVER_MAX_DATAFRAME_SIZE SERVER_MAX_MESSAGE_SIZE extra u.
Definition async_accept_with_limits (max_df max_msg extra : N) (u : aupgrade) :=
  async_accept None max_df max_msg extra u.
Definition async_accept_with_headers_and_limits (custom : headers) (max_df max_msg extra : N) (u : aupgrade) :=
  async_accept (Some custom) max_df max_msg extra u.
(** src/server/upgrade/async.rs:136-163 [reject], [reject_with], [internal_reject]: the stream
    comes back framed with the HTTP codec, its buffer kept. *)
Definition async_reject (custom : option headers) (extra : N) (u : aupgrade)
  : result (framed unit * list aev * fwrite) ws_error :=
  rbind (print_response (rq_version (au_request u)) bad_request
           (reject_headers custom (au_headers u))) (fun data =>
  match http_send data extra (au_out u) with
  | (SReady, w) => Ok (framed_new tt (au_buffer u), au_in u, w)
  | (SErr e, _) => Err e
  | (SNotReady, _) => OutOfFuel
  end).

(** src/client/builder.rs:767-812 [async_connect_on].  The request goes out through
    HttpClientCodec with the target as an [AbsolutePath], which prints as it is. *)
Definition async_connect_on (X : http_lib) (rnd : ws_key) (b : builder) (extra : N)
  (s : list aev) (w : fwrite) : result (aclient * headers) client_error :=
  let b' := build_request rnd b in
  rbind (print_request b') (fun data =>
  match http_send data extra w with
  | (SReady, w') =>
      let '(p, f, s') := await_head (try_response X) s in
      match p with
      | PItem (inl resp) =>
          rbind (client_validate b' resp) (fun _ =>
            Ok (update_framed_codec f s' w'
                  (msg_codec_with_limits CtxClient (b_max_df b) (b_max_msg b)),
                rs_headers resp))
      | PItem (inr e) => Err (CParsing e)
      | PEnd => Err (CWs (ProtocolError "Connection closed before handshake could complete."))
      | PErr e => Err (COtherIo (io_of e))
      | PPanic => Panic
      | PNotReady => OutOfFuel
      | POutOfFuel => OutOfFuel
      end
  | (SErr e, _) => Err (CWs e)
  | (SNotReady, _) => OutOfFuel
  end).

(** ** The asynchronous server *)

(** A handshake future of [incoming]: the connection's peer address, and the state of
    [into_ws] (async.rs:235-238). *)
Record handshake : Type := mk_hs {
  hs_peer : N; hs_framed : framed unit; hs_in : list aev; hs_out : fwrite }.
(** src/server/async.rs:76-87: the future made for a new connection. *)
Definition handshake_new (peer : N) (s : list aev) (w : fwrite) : handshake :=
  mk_hs peer (framed_new tt []) s w.
(** One poll of it: not ready yet, or its outcome. *)
Definition handshake_poll (X : http_lib) (h : handshake)
  : handshake + (N * result aupgrade arefusal) :=
  match framed_poll (http_decode (try_request X)) (hs_in h) (hs_framed h) with
  | (PNotReady, f, s) => inl (mk_hs (hs_peer h) f s (hs_out h))
  | (p, f, s) => inr (hs_peer h, finish_into_ws p f s (hs_out h))
  end.

(** src/server/async.rs:64-89 [incoming]: every connection the listener gives becomes a
    future; all of them run at once (External: futures 0.1 [buffer_unordered], no limit).  In
    one step the listener gives a connection, or fails (which is yielded at once), or some
    future is polled and yields its outcome if it has one.  Which of these happens is open:
    it depends on the network and on the executor.  An error asking for the peer's address
    is a failure of the listener, as in the code. *)
Record incoming : Type := mk_incoming {
  in_pending : list handshake;
  in_yielded : list (N * result aupgrade arefusal + io_kind) }.
Inductive incoming_event : Type :=
| NewConnection (peer : N) (s : list aev) (w : fwrite)
| ListenerError (k : io_kind)
| PollFuture (i : nat).
Definition incoming_step (X : http_lib) (st : incoming) (e : incoming_event) : incoming :=
  match e with
  | NewConnection peer s w =>
      mk_incoming (in_pending st ++ [handshake_new peer s w]) (in_yielded st)
  | ListenerError k => mk_incoming (in_pending st) (in_yielded st ++ [inr k])
  | PollFuture i =>
      match nth_error (in_pending st) i with
      | None => st
      | Some h =>
          let before := firstn i (in_pending st) in
          let after := skipn (S i) (in_pending st) in
          match handshake_poll X h with
          | inl h' => mk_incoming (before ++ h' :: after) (in_yielded st)
          | inr o => mk_incoming (before ++ after) (in_yielded st ++ [inl o])
          end
      end
  end.
Definition incoming_run (X : http_lib) (es : list incoming_event) : incoming :=
  fold_left (incoming_step X) es (mk_incoming [] []).
