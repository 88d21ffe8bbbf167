(** External: the parts of [std::io] the crate goes through, as functions on
    scripts of what the operating system does. *)
From Coq Require Import NArith String Bool List.
From Coq.Strings Require Import Byte.
From Verif.Model Require Import Base.
Import ListNotations.
Local Open Scope N_scope.

(** One outcome of the underlying [Read::read].  [RData b bs]: bytes [b :: bs]
    (never empty) are available; a call asking for fewer gets a prefix and the
    rest stays.  [REof]: this call returns [Ok(0)].  A script that has run out
    returns [Ok(0)] forever (closed connection). *)
Inductive rd_ev : Type :=
| RData (b : byte) (bs : bytes)
| RIntr
| REof
| RErr (k : io_kind).
Definition script := list rd_ev.

(** Put unread bytes back in front. *)
Definition push_back (bs : bytes) (s : script) : script :=
  match bs with
  | [] => s
  | b :: bs' => RData b bs' :: s
  end.

(** [Read::read] with a buffer of [n] bytes. *)
Definition rd_read (n : N) (s : script) : result bytes io_kind * script :=
  if n =? 0 then (Ok [], s) else
  match s with
  | [] => (Ok [], [])
  | RData b bs :: s' => (Ok (take n (b :: bs)), push_back (drop n (b :: bs)) s')
  | RIntr :: s' => (Err Interrupted, s')
  | REof :: s' => (Ok [], s')
  | RErr k :: s' => (Err k, s')
  end.

(** [std::io::default_read_exact]: loop on [read]; [Ok(0)] before the buffer is
    full is [UnexpectedEof]; [Interrupted] is retried; other errors are returned
    and the bytes read so far are lost.  (Structural on the script: a data event
    that is not exhausted fills the buffer.) *)
Fixpoint rd_exact (n : N) (s : script) : result bytes io_kind * script :=
  if n =? 0 then (Ok [], s) else
  match s with
  | [] => (Err UnexpectedEof, [])
  | REof :: s' => (Err UnexpectedEof, s')
  | RIntr :: s' => rd_exact n s'
  | RErr k :: s' => (Err k, s')
  | RData b bs :: s' =>
      let d := b :: bs in
      if n <=? llen d then (Ok (take n d), push_back (drop n d) s')
      else match rd_exact (n - llen d) s' with
           | (Ok l, s'') => (Ok (d ++ l), s'')
           | r => r
           end
  end.

(** [reader.take(n).read_to_end(&mut v)]: read until [n] bytes were taken or
    [read] returns [Ok(0)]; [Interrupted] retried; other errors returned. *)
Fixpoint rd_take_to_end (n : N) (s : script) : result bytes io_kind * script :=
  if n =? 0 then (Ok [], s) else
  match s with
  | [] => (Ok [], [])
  | REof :: s' => (Ok [], s')
  | RIntr :: s' => rd_take_to_end n s'
  | RErr k :: s' => (Err k, s')
  | RData b bs :: s' =>
      let d := b :: bs in
      if n <=? llen d then (Ok (take n d), push_back (drop n d) s')
      else match rd_take_to_end (n - llen d) s' with
           | (Ok l, s'') => (Ok (d ++ l), s'')
           | r => r
           end
  end.

(** Number of bytes a script can still deliver. *)
Fixpoint script_bytes (s : script) : nat :=
  match s with
  | [] => 0
  | RData _ bs :: s' => S (List.length bs) + script_bytes s'
  | _ :: s' => script_bytes s'
  end.

(** [Cursor<&[u8]>]: position and unread bytes. *)
Record cursor : Type := mk_cursor { cur_pos : N; cur_rest : bytes }.

(** [Read::read_exact] on a cursor: all or [UnexpectedEof]. *)
Definition cur_exact (n : N) (c : cursor) : result bytes io_kind * cursor :=
  if n <=? llen (cur_rest c)
  then (Ok (take n (cur_rest c)), mk_cursor (cur_pos c + n) (drop n (cur_rest c)))
  else (Err UnexpectedEof, mk_cursor (cur_pos c + llen (cur_rest c)) []).

(** One outcome of the underlying [Write::write]: accept at most [n + 1] bytes,
    fail with [Interrupted], with another error, or return [Ok(0)].  A script
    that has run out accepts everything. *)
Inductive wev : Type :=
| WAccept (n : N)
| WIntr
| WZero
| WErr (k : io_kind).

(** A transport: what it has accepted so far and how it will behave. *)
Record wstream : Type := mk_w { w_out : bytes; w_script : list wev }.

(** [Write::write] *)
Definition w_write (buf : bytes) (w : wstream) : result N io_kind * wstream :=
  match w_script w with
  | [] => (Ok (llen buf), mk_w (w_out w ++ buf) [])
  | WAccept n :: t =>
      (Ok (llen (take (n + 1) buf)), mk_w (w_out w ++ take (n + 1) buf) t)
  | WIntr :: t => (Err Interrupted, mk_w (w_out w) t)
  | WZero :: t => (Ok 0, mk_w (w_out w) t)
  | WErr k :: t => (Err k, mk_w (w_out w) t)
  end.

(** [Write::write_all] (std default): loop until the buffer is empty; [Ok(0)] is
    [WriteZero]; [Interrupted] retried; other errors returned. *)
Fixpoint write_all_go (t : list wev) (out buf : bytes) : result unit io_kind * wstream :=
  match buf with
  | [] => (Ok tt, mk_w out t)
  | _ :: _ =>
      match t with
      | [] => (Ok tt, mk_w (out ++ buf) [])
      | WAccept n :: t' => write_all_go t' (out ++ take (n + 1) buf) (drop (n + 1) buf)
      | WIntr :: t' => write_all_go t' out buf
      | WZero :: t' => (Err WriteZero, mk_w out t')
      | WErr k :: t' => (Err k, mk_w out t')
      end
  end.
Definition write_all (buf : bytes) (w : wstream) : result unit io_kind * wstream :=
  write_all_go (w_script w) (w_out w) buf.
