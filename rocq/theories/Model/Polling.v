(** The blocking server in non-blocking mode (src/server/sync.rs:41-81), used as its documentation
    shows: a single thread asks it once in a while and does something else in between. *)
From Coq Require Import NArith String Bool List.
From Coq.Strings Require Import Byte.
From Verif.Model Require Import Base Io Headers Handshake Http Connect Accepting.
Import ListNotations.
Local Open Scope list_scope.
Local Open Scope N_scope.

(** Somebody who has connected: what there is to be read from them when [accept] takes the
    connection, what comes later, and whether they then stay on the line without a word. *)
Record visitor : Type := mk_visitor {
  v_now : script; v_later : script; v_silent : bool; v_out : wstream }.
(** The connection when reading it waits for what is yet to come, *)
Definition once_there (v : visitor) : caller := Caller (v_now v ++ v_later v) (v_silent v) (v_out v).
(** and when it does not.  Simplification: nothing arrives during one call of [accept]. *)
Definition right_now (v : visitor) : arrival := Arrives (v_now v ++ RErr WouldBlock :: v_later v) (v_out v).

Definition outcome : Type := result upgrade (option refusal * upgrade_error).

(** src/server/sync.rs:229-252 [accept] after [set_nonblocking(true)] (:79-81), which is a setting
    of the listener: with nobody there [listener.accept()] fails with [WouldBlock].  Who was
    taken, what [accept] returned ([None]: it does not return), who is still waiting.
    External: whether a connection taken from a non-blocking listener is itself non-blocking
    ([inherits]); it is not on Linux ([accept4] with [SOCK_CLOEXEC] only), it is on the BSDs,
    macOS and Windows. *)
Definition poll_accept (X : http_lib) (inherits : bool) (q : list visitor)
  : option visitor * option outcome * list visitor :=
  match q with
  | [] => (None, Some (server_accept X (ListenErr WouldBlock)), [])
  | v :: q' =>
      (Some v, if inherits then Some (server_accept X (right_now v)) else accept_returns X (once_there v), q')
  end.

(** The loop of src/server/sync.rs:63-74: [accept], then the other task.  [rounds]: who has come
    before each call.  [d_done] has an entry for every call that returned, so for every time the
    other task was done; [d_stuck] is the visitor in whose [accept] the program stays. *)
Record day : Type := mk_day {
  d_done : list (option visitor * outcome); d_stuck : option visitor; d_queue : list visitor }.
Fixpoint poll_loop (X : http_lib) (inherits : bool) (q : list visitor) (rounds : list (list visitor)) : day :=
  match rounds with
  | [] => mk_day [] None q
  | new :: rounds' =>
      match poll_accept X inherits (q ++ new) with
      | (v, Some r, q') =>
          let d := poll_loop X inherits q' rounds' in
          mk_day ((v, r) :: d_done d) (d_stuck d) (d_queue d)
      | (v, None, q') => mk_day [] v (q' ++ concat rounds')
      end
  end.
