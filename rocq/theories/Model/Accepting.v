(** The blocking server and those who call it: the iterator of src/server/sync.rs, used by one
    thread or, after [try_clone], by several. *)
From Coq Require Import NArith String Bool List.
From Coq.Strings Require Import Byte.
From Verif.Model Require Import Base Io Headers Handshake Http Connect.
Import ListNotations.
Local Open Scope list_scope.
Local Open Scope N_scope.

(** What the listener gives: a connection, with everything its peer will ever send and whether
    the peer then keeps the connection open without sending anything ([silent]), or an error. *)
Inductive caller : Type :=
| Caller (s : script) (silent : bool) (w : wstream)
| NoCaller (k : io_kind).

(** A read that never returns is written as an error that nothing else is. *)
Definition forever : io_kind := OtherKind 4242424242.
Definition is_forever (k : io_kind) : bool :=
  match k with OtherKind n => n =? 4242424242 | _ => false end.
Definition arrival_of (c : caller) : arrival :=
  match c with
  | Caller s true w => Arrives (s ++ [RErr forever]) w
  | Caller s false w => Arrives s w
  | NoCaller k => ListenErr k
  end.

(** src/server/sync.rs:230-252 [accept], called by [next] (:267-269): the whole request head is
    read inside it.  [None]: it does not return, for it waits for bytes that do not come.
    Simplification: writing is not part of it, so it never waits for the peer to read. *)
Definition accept_returns (X : http_lib) (c : caller)
  : option (result upgrade (option refusal * upgrade_error)) :=
  match server_accept X (arrival_of c) with
  | Err (Some f, UpParsing (PEIo k)) =>
      if is_forever k then None else Some (Err (Some f, UpParsing (PEIo k)))
  | r => Some r
  end.

(** A server used by some threads, each with its own handle (src/server/sync.rs:255-261
    [try_clone]; with one thread: the server itself) in the loop
    [for request in server.filter_map(Result::ok) { thread::spawn(..) }] of examples/server.rs:10-12
    and the documentation (sync.rs:205-219): the callers the listener has not handed out yet, what
    each thread is doing ([Some c]: it is in [accept] with [c]; [None]: about to call it), and
    what the calls have given so far.
    Simplification: what a thread does with a request it starts in another thread, so it calls
    [accept] again at once; the listener's queue is not bounded. *)
Record pool : Type := mk_pool {
  po_waiting : list caller;
  po_threads : list (option caller);
  po_given : list (caller * result upgrade (option refusal * upgrade_error)) }.
Definition pool_new (n : nat) (cs : list caller) : pool := mk_pool cs (repeat None n) [].

Definition set_thread (i : nat) (x : option caller) (l : list (option caller))
  : list (option caller) := firstn i l ++ x :: skipn (S i) l.

(** What happens next: the listener hands a caller to thread [i] ([listener.accept()],
    sync.rs:231), or the [accept] of thread [i] returns.  The order is open. *)
Inductive pool_event : Type := Take (i : nat) | Return (i : nat).
Definition pool_step (X : http_lib) (p : pool) (e : pool_event) : pool :=
  match e with
  | Take i =>
      match nth_error (po_threads p) i, po_waiting p with
      | Some None, c :: q => mk_pool q (set_thread i (Some c) (po_threads p)) (po_given p)
      | _, _ => p
      end
  | Return i =>
      match nth_error (po_threads p) i with
      | Some (Some c) =>
          match accept_returns X c with
          | Some r => mk_pool (po_waiting p) (set_thread i None (po_threads p)) (po_given p ++ [(c, r)])
          | None => p
          end
      | _ => p
      end
  end.
Definition pool_run (X : http_lib) (p : pool) (es : list pool_event) : pool :=
  fold_left (pool_step X) es p.
