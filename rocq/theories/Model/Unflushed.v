(** Streams whose writer keeps bytes back: what becomes of writes that are never followed by a
    flush.  Any [Read + Write] is a stream (websocket-base/src/stream.rs:9-10), and a
    [ReadWritePair] (:12-64) makes one of a reader and any writer.  The blocking code calls
    [write_all] (websocket-base/src/ws/dataframe.rs:90, src/client/builder.rs:509,
    src/server/upgrade/mod.rs:141) and never [flush]. *)
From Coq Require Import NArith Bool List.
From Coq.Strings Require Import Byte.
From Verif.Model Require Import Base Io Header Mask Dataframe Message Receiver WsKey Headers Handshake.
Import ListNotations.
Local Open Scope list_scope.
Local Open Scope N_scope.

(** External (std [BufWriter]): the bytes kept back, and those handed on.  Simplified: what it
    hands on to takes everything. *)
Record keeping : Type := mk_keeping { kp_cap : N; kp_buf : bytes; kp_on : bytes }.
Definition keeping_new (cap : N) : keeping := mk_keeping cap [] [].
(** External (std [BufWriter::flush]; also what dropping it does). *)
Definition kp_flush (b : keeping) : keeping := mk_keeping (kp_cap b) [] (kp_on b ++ kp_buf b).
(** External (std [BufWriter::write]): flush if there is no room; what is as large as the buffer
    is handed on directly. *)
Definition bufw_write (b : keeping) (d : bytes) : keeping :=
  let b := if kp_cap b <? llen (kp_buf b) + llen d then kp_flush b else b in
  if kp_cap b <=? llen d then mk_keeping (kp_cap b) (kp_buf b) (kp_on b ++ d)
  else mk_keeping (kp_cap b) (kp_buf b ++ d) (kp_on b).

(** The text up to and with the last line feed, and what follows. *)
Fixpoint upto_newline (d : bytes) : bytes * bytes :=
  match d with
  | [] => ([], [])
  | c :: r =>
      match upto_newline r with
      | ([], t) => if Byte.eqb c x0a then ([c], r) else ([], c :: r)
      | (h, t) => (c :: h, t)
      end
  end.
(** External (std [LineWriter::write], which is what [Stdout] does): everything up to the last
    line feed is written and flushed, the rest is kept as by a [BufWriter]. *)
Definition linew_write (b : keeping) (d : bytes) : keeping :=
  match upto_newline d with
  | ([], t) => bufw_write b t
  | (h, t) => bufw_write (kp_flush (bufw_write b h)) t
  end.

(** websocket-base/src/ws/sender.rs:17-35 [send_dataframe]/[send_message] to such a writer: ws/dataframe.rs:53-92
    makes one call of [write_all], which here is one [write], since all of it is taken. *)
Definition kept_send (write : keeping -> bytes -> keeping) (s : sender) (m : owned) (k : mkey) (b : keeping)
  : result unit ws_error * keeping :=
  match frame_bytes (owned_ops m) (if s_mask s then Some k else None) with
  | Ok data => (Ok tt, write b data)
  | Err e => (Err e, b)
  | Panic => (Panic, b)
  | OutOfFuel => (OutOfFuel, b)
  end.
Fixpoint kept_sends (write : keeping -> bytes -> keeping) (s : sender) (l : list (owned * mkey)) (b : keeping)
  : list (result unit ws_error) * keeping :=
  match l with
  | [] => ([], b)
  | (m, k) :: l' =>
      let '(r, b1) := kept_send write s m k b in
      let '(rs, b2) := kept_sends write s l' b1 in (r :: rs, b2)
  end.
(** src/client/builder.rs:500-511 [connect_on] up to the point where it waits for the response. *)
Definition kept_request {E} (write : keeping -> bytes -> keeping) (rnd : ws_key) (bl : builder) (b : keeping)
  : result keeping E :=
  rbind (print_request (build_request rnd bl)) (fun data => Ok (write b data)).
(** src/server/upgrade/mod.rs:136-143 [send]: the response. *)
Definition kept_response {E} (write : keeping -> bytes -> keeping) (v : http_version) (status : bytes) (h : headers)
  (b : keeping) : result keeping E :=
  rbind (print_response v status h) (fun data => Ok (write b data)).
