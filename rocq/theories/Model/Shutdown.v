(** A blocking connection over a TCP socket that can be shut down: the methods [shutdown*] of
    src/client/sync.rs, src/receiver.rs and src/sender.rs, on a client or on its two halves. *)
From Coq Require Import NArith String Bool List.
From Coq.Strings Require Import Byte.
From Verif.Model Require Import Base Io Header Mask Dataframe Message Receiver Connect Accepting.
Import ListNotations.
Local Open Scope list_scope.
Local Open Scope N_scope.

(** External (Linux, tcp(7), shutdown(2)): the socket.  What has arrived and is not read yet,
    whether the peer's end of stream has arrived, which directions were shut down on this side,
    and what was written.
    Simplifications: resets are not modelled (the peer does not reset the connection, and
    closing a socket with unread bytes in it, or bytes arriving at one that is shut down, does
    not either); bytes that arrive after [SHUT_RD] can be read, as on Linux. *)
Record socket : Type := mk_socket {
  so_queue : bytes; so_fin : bool; so_read_shut : bool; so_write_shut : bool; so_out : wstream }.

(** std::net::Shutdown *)
Inductive how : Type := SRead | SWrite | SBoth.
(** External ([TcpStream::shutdown]).  Simplification: it does not fail. *)
Definition tcp_shutdown (h : how) (k : socket) : socket :=
  mk_socket (so_queue k) (so_fin k)
    (match h with SWrite => so_read_shut k | _ => true end)
    (match h with SRead => so_write_shut k | _ => true end) (so_out k).

(** External: what reading from the socket will give: the bytes that are there; then the end of
    the stream, if the peer has ended it or reading was shut down; or else the read waits, which
    is written as the error [forever] of Model/Accepting.v. *)
Definition tcp_in (k : socket) : script :=
  push_back (so_queue k) (if so_fin k || so_read_shut k then [] else [RErr forever]).
(** The bytes that are left of what was there. *)
Fixpoint at_hand (s : script) : bytes :=
  match s with
  | [] => []
  | RData b bs :: s' => (b :: bs) ++ at_hand s'
  | _ :: s' => at_hand s'
  end.
Definition tcp_left (s : script) (k : socket) : socket :=
  mk_socket (at_hand s) (so_fin k) (so_read_shut k) (so_write_shut k) (so_out k).
(** External (EPIPE; SIGPIPE is ignored by the Rust runtime): what writing to a socket that was
    shut down for writing gives. *)
Definition broken_pipe : io_kind := OtherKind 32.
Definition tcp_out (k : socket) : wstream :=
  if so_write_shut k then mk_w (w_out (so_out k)) [WErr broken_pipe] else so_out k.
Definition tcp_written (w : wstream) (k : socket) : socket :=
  if so_write_shut k then k
  else mk_socket (so_queue k) (so_fin k) (so_read_shut k) (so_write_shut k) w.

(** A connection: src/receiver.rs:24-32 [Reader] and src/sender.rs:16-21 [Writer], two handles of
    one socket after [split] (websocket-base/src/stream.rs:149-156), or the two sides of one
    [Client] (src/client/sync.rs:55-63).  [None]: that half was dropped.
    Simplification: the [BufReader] is the bytes in front of the socket, as in Model/Connect.v. *)
Record conn : Type := mk_conn {
  cn_reader : option (receiver * bytes); cn_writer : option sender; cn_socket : socket }.
Definition with_socket (k : socket) (c : conn) : conn := mk_conn (cn_reader c) (cn_writer c) k.

(** What can happen to it: calls of its methods, dropping a half, and the network. *)
Inductive conn_event : Type :=
| DoRecv
| DoSend (m : owned) (k : mkey)
| ReaderShutdown      (* src/receiver.rs:66-68; Client::shutdown_receiver, src/client/sync.rs:74-76 *)
| ReaderShutdownAll   (* src/receiver.rs:72-74; Client::shutdown, src/client/sync.rs:85-87 *)
| WriterShutdown      (* src/sender.rs:51-53; Client::shutdown_sender, src/client/sync.rs:68-70 *)
| WriterShutdownAll   (* src/sender.rs:57-59 *)
| DropReader
| DropWriter
| Arrive (bs : bytes)
| ArriveEnd.

(** What a call gives.  [Waits]: it has not returned; calling it again later is its going on. *)
Inductive conn_outcome : Type :=
| Got (r : result owned ws_error)
| Waits
| Wrote (r : result unit ws_error)
| Nothing
| NoSuchHalf.

(** src/receiver.rs:47-49 [recv_message] (src/client/sync.rs:193-195).  A call that waits goes on,
    once more bytes are there, as a call would that found them there at once (Props/Flow.v: how
    reads are split makes no difference). *)
Definition conn_recv (rc : receiver) (buf : bytes) (c : conn) : conn_outcome * conn :=
  let k := cn_socket c in
  let '(r, rc', s) := recv_message rc (push_back buf (tcp_in k)) in
  match r with
  | Err (IoError e) =>
      if is_forever e then (Waits, c)
      else (Got r, mk_conn (Some (rc', [])) (cn_writer c) (tcp_left s k))
  | _ => (Got r, mk_conn (Some (rc', [])) (cn_writer c) (tcp_left s k))
  end.
(** src/sender.rs:37-42 [send_message] (src/client/sync.rs:162-167) *)
Definition conn_send (sd : sender) (m : owned) (key : mkey) (c : conn) : conn_outcome * conn :=
  let '(r, w) := send_message sd m key (tcp_out (cn_socket c)) in
  (Wrote r, with_socket (tcp_written w (cn_socket c)) c).
(** src/receiver.rs:66-74, src/sender.rs:51-59, with [as_tcp] of
    websocket-base/src/stream.rs:162-164. *)
Definition conn_shut {A : Type} (half : option A) (h : how) (c : conn) : conn_outcome * conn :=
  match half with
  | Some _ => (Nothing, with_socket (tcp_shutdown h (cn_socket c)) c)
  | None => (NoSuchHalf, c)
  end.

Definition conn_step (e : conn_event) (c : conn) : conn_outcome * conn :=
  let k := cn_socket c in
  match e with
  | DoRecv => match cn_reader c with Some (rc, buf) => conn_recv rc buf c | None => (NoSuchHalf, c) end
  | DoSend m key => match cn_writer c with Some sd => conn_send sd m key c | None => (NoSuchHalf, c) end
  | ReaderShutdown => conn_shut (cn_reader c) SRead c
  | ReaderShutdownAll => conn_shut (cn_reader c) SBoth c
  | WriterShutdown => conn_shut (cn_writer c) SWrite c
  | WriterShutdownAll => conn_shut (cn_writer c) SBoth c
  | DropReader => (Nothing, mk_conn None (cn_writer c) k)
  | DropWriter => (Nothing, mk_conn (cn_reader c) None k)
  | Arrive bs =>
      (Nothing, with_socket (mk_socket (so_queue k ++ (if so_fin k then [] else bs)) (so_fin k)
                               (so_read_shut k) (so_write_shut k) (so_out k)) c)
  | ArriveEnd =>
      (Nothing, with_socket (mk_socket (so_queue k) true (so_read_shut k) (so_write_shut k) (so_out k)) c)
  end.
Fixpoint conn_run (es : list conn_event) (c : conn) : list conn_outcome * conn :=
  match es with
  | [] => ([], c)
  | e :: es' =>
      let '(o, c1) := conn_step e c in
      let '(os, c2) := conn_run es' c1 in
      (o :: os, c2)
  end.

(** External: what the peer reads: what was written; then the end, if writing was shut down or
    the last handle of the socket is gone; or else its read waits. *)
Definition half_gone {A : Type} (half : option A) : bool := match half with Some _ => false | None => true end.
Definition ended (c : conn) : bool :=
  so_write_shut (cn_socket c) || (half_gone (cn_reader c) && half_gone (cn_writer c)).
Definition peer_in (c : conn) : script :=
  push_back (w_out (so_out (cn_socket c))) (if ended c then [] else [RErr forever]).
(** A connection just made. *)
Definition conn_new (rc : receiver) (buf : bytes) (sd : sender) (queue : bytes) (w : wstream) : conn :=
  mk_conn (Some (rc, buf)) (Some sd) (mk_socket queue false false false w).
