(** Asynchronous programs of the repository that use the library: examples/async-autobahn-server.rs
    and examples/async-server.rs. *)
From Coq Require Import NArith String Bool List.
From Coq.Strings Require Import Byte.
From Verif.Model Require Import Base Io Header Mask Dataframe Utf8 Text Base64 WsKey Headers
  Handshake Message Receiver Codec Framed Http Connect Examples.
Import ListNotations.
Local Open Scope string_scope.
Local Open Scope list_scope.
Local Open Scope N_scope.

(** The closure given to [filter_map]: examples/async-autobahn-server.rs:33-37,
    examples/async-server.rs:58-65 (printing left out). *)
Definition pass_on (m : owned) : option owned :=
  match m with
  | OPing p => Some (OPong p)
  | OPong _ => None
  | _ => Some m
  end.

(** What the task of a connection is made of, from [s.split()] on: the stream (with a flag set
    when [take_while] or [Fuse] has seen its end), the sink, the message that the sink has not
    taken yet ([Forward]'s [buffered], or the item of [Send]), and whether the stream has been
    forwarded and the Close is being sent.
    External: futures 0.1 [split] (the two halves are used by one task, so its lock is free). *)
Record echo_task : Type := mk_task {
  et_read : framed msg_codec;
  et_in : list aev;
  et_done : bool;
  et_hold : option owned;
  et_closing : bool;
  et_out : fwrite
}.

(** External (futures 0.1): one poll of [stream.take_while(..).filter_map(..)], inside a [Fuse];
    the loop is that of [FilterMap].  examples/async-autobahn-server.rs:31-37. *)
Fixpoint passed_poll (fuel : nat) (s : list aev) (f : framed msg_codec)
  : poll owned * framed msg_codec * list aev * bool :=
  match fuel with
  | O => (POutOfFuel, f, s, false)
  | S fuel' =>
      match framed_poll mc_decode s f with
      | (PItem m, f', s') =>
          if is_close m then (PEnd, f', s', true)
          else
            match pass_on m with
            | Some m' => (PItem m', f', s', false)
            | None => passed_poll fuel' s' f'
            end
      | (PEnd, f', s') => (PEnd, f', s', true)
      | (p, f', s') => (p, f', s', false)
      end
  end.

(** [Poll<(), WebSocketError>] of a task. *)
Inductive tpoll : Type := TReady | TNotReady | TErr (e : ws_error) | TPanic | TNoFuel.

(** External (futures 0.1 [Send]): take the item, then flush.  [k] is what [gen_mask] would give
    (a server does not ask for it), [extra] the allocator's choice (the same for every frame). *)
Definition close_poll (k : mkey) (extra : N) (t : echo_task) : tpoll * echo_task :=
  let flush w :=
    match poll_complete w with
    | (SReady, w') => (TReady, mk_task (et_read t) (et_in t) (et_done t) None true w')
    | (SNotReady, w') => (TNotReady, mk_task (et_read t) (et_in t) (et_done t) None true w')
    | (SErr e, w') => (TErr e, mk_task (et_read t) (et_in t) (et_done t) None true w')
    end in
  match et_hold t with
  | Some m =>
      match start_send true (owned_ops m) k extra (et_out t) with
      | (SReady, w) => flush w
      | (SNotReady, w) => (TNotReady, mk_task (et_read t) (et_in t) (et_done t) (Some m) true w)
      | (SErr e, w) => (TErr e, mk_task (et_read t) (et_in t) (et_done t) None true w)
      end
  | None => flush (et_out t)
  end.

(** External (futures 0.1 [Forward]): the loop of its [poll], nothing being held.  At the end of
    the stream the sink is closed: tokio-codec's [close] flushes, then shuts the transport down,
    which for a [TcpStream] does nothing.  Then [and_then] starts sending the Close:
    examples/async-autobahn-server.rs:38-39. *)
Fixpoint forward_loop (fuel : nat) (k : mkey) (extra : N) (t : echo_task) : tpoll * echo_task :=
  match fuel with
  | O => (TNoFuel, t)
  | S fuel' =>
      let '(p, f, s, d) :=
        if et_done t then (PEnd, et_read t, et_in t, true) else passed_poll fuel (et_in t) (et_read t) in
      match p with
      | PItem m =>
          match start_send true (owned_ops m) k extra (et_out t) with
          | (SReady, w) => forward_loop fuel' k extra (mk_task f s d None false w)
          | (SNotReady, w) => (TNotReady, mk_task f s d (Some m) false w)
          | (SErr e, w) => (TErr e, mk_task f s d None false w)
          end
      | PEnd =>
          match poll_complete (et_out t) with
          | (SReady, w) => close_poll k extra (mk_task f s d (Some (OClose None)) true w)
          | (SNotReady, w) => (TNotReady, mk_task f s d None false w)
          | (SErr e, w) => (TErr e, mk_task f s d None false w)
          end
      | PNotReady =>
          match poll_complete (et_out t) with
          | (SErr e, w) => (TErr e, mk_task f s d None false w)
          | (_, w) => (TNotReady, mk_task f s d None false w)
          end
      | PErr e => (TErr e, mk_task f s d None false (et_out t))
      | PPanic => (TPanic, mk_task f s d None false (et_out t))
      | POutOfFuel => (TNoFuel, mk_task f s d None false (et_out t))
      end
  end.

(** One poll of the task. *)
Definition task_poll (fuel : nat) (k : mkey) (extra : N) (t : echo_task) : tpoll * echo_task :=
  if et_closing t then close_poll k extra t
  else
    match et_hold t with
    | Some m =>
        match start_send true (owned_ops m) k extra (et_out t) with
        | (SReady, w) => forward_loop fuel k extra (mk_task (et_read t) (et_in t) (et_done t) None false w)
        | (SNotReady, w) => (TNotReady, mk_task (et_read t) (et_in t) (et_done t) (Some m) false w)
        | (SErr e, w) => (TErr e, mk_task (et_read t) (et_in t) (et_done t) None false w)
        end
    | None => forward_loop fuel k extra t
    end.
(** The executor polls until the task is done. *)
Fixpoint task_run (n fuel : nat) (k : mkey) (extra : N) (t : echo_task) : tpoll * echo_task :=
  match n with
  | O => (TNoFuel, t)
  | S n' =>
      match task_poll fuel k extra t with
      | (TNotReady, t') => task_run n' fuel k extra t'
      | r => r
      end
  end.

(** The task of an accepted connection, examples/async-autobahn-server.rs:28-40, and what it has
    written when it ends. *)
Definition echo_task_new (a : aclient) : echo_task :=
  mk_task (ac_read a) (ac_in a) false None false (ac_out a).
Definition task_fuel (t : echo_task) : nat :=
  S (S (length (fr_buf (et_read t)) + length (aev_bytes (et_in t)) + length (et_in t))).
Definition task_polls (t : echo_task) : nat :=
  S (length (et_in t) + length (fw_ws (et_out t)) + length (fw_fs (et_out t))).
Definition async_echo (k : mkey) (extra : N) (a : aclient) : tpoll * fwrite :=
  let t := echo_task_new a in
  let '(r, t') := task_run (task_polls t) (task_fuel t) k extra t in (r, et_out t').

(** ** A connection *)

(** examples/async-autobahn-server.rs:28-40: the future of a connection; [Err] if the response
    cannot be written. *)
Definition async_autobahn_server (k : mkey) (extra : N) (u : aupgrade) : result (tpoll * fwrite) ws_error :=
  rbind (async_accept None SERVER_MAX_DATAFRAME_SIZE SERVER_MAX_MESSAGE_SIZE extra u) (fun ah =>
  Ok (async_echo k extra (fst ah))).

(** External (futures 0.1 [Send], run to its end): the item is offered until it is taken, then
    the sink is flushed. *)
Fixpoint send_run (n : nat) (m : owned) (k : mkey) (extra : N) (w : fwrite) : spoll * fwrite :=
  match n with
  | O => (SNotReady, w)
  | S n' =>
      match start_send true (owned_ops m) k extra w with
      | (SReady, w') => flush_all (S (length (fw_ws w') + length (fw_fs w'))) w'
      | (SNotReady, w') => send_run n' m k extra w'
      | (SErr e, w') => (SErr e, w')
      end
  end.

(** examples/async-server.rs:41-68: the future of a connection. *)
Definition async_example_server (k : mkey) (extra : N) (u : aupgrade) : result (tpoll * fwrite) ws_error :=
  rbind (seen_protocols (au_request u)) (fun ps =>
  if negb (existsb (beqb example_protocol) ps) then
    rbind (async_reject None extra u) (fun r => Ok (TReady, snd r))
  else
    rbind (use_protocol example_protocol (au_headers u)) (fun h =>
    rbind (async_accept None SERVER_MAX_DATAFRAME_SIZE SERVER_MAX_MESSAGE_SIZE extra
             (mk_aupgrade h (au_request u) (au_buffer u) (au_in u) (au_out u))) (fun ah =>
    let a := fst ah in
    match send_run (S (length (fw_ws (ac_out a)) + length (fw_fs (ac_out a))))
            (OText (str "Hello World!")) k extra (ac_out a) with
    | (SReady, w) => Ok (async_echo k extra (mk_aclient (ac_read a) (ac_in a) w))
    | (SErr e, w) => Ok (TErr e, w)
    | (SNotReady, w) => Ok (TNoFuel, w)
    end))).

(** ** Which connections are served *)

(** External (futures 0.1 [for_each]): examples/async-autobahn-server.rs:21-25 ends with the
    first error of [incoming()]: the connections for which a task is started. *)
Fixpoint async_autobahn_serves (l : list (N * result aupgrade arefusal + io_kind)) : list (N * aupgrade) :=
  match l with
  | inl (p, Ok u) :: l' => (p, u) :: async_autobahn_serves l'
  | _ => []
  end.
(** examples/async-server.rs:24-37: [then(future::ok)], [filter], [and_then]: errors are taken
    out of the stream. *)
Fixpoint async_server_serves (l : list (N * result aupgrade arefusal + io_kind)) : list (N * aupgrade) :=
  match l with
  | [] => []
  | inl (p, Ok u) :: l' => (p, u) :: async_server_serves l'
  | _ :: l' => async_server_serves l'
  end.
