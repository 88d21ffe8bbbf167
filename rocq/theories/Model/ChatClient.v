(** examples/client.rs: a chat client of three threads that talk over a channel. *)
From Coq Require Import NArith String Bool List.
From Coq.Strings Require Import Byte.
From Verif.Model Require Import Base Io Header Mask Dataframe Text Headers Message Receiver Connect.
Import ListNotations.
Local Open Scope string_scope.
Local Open Scope list_scope.

(** Where each thread is.  [Typing]: in the loop of lines 92-118; then the two joins of lines
    124-125.  [Waiting]: in [rx.recv()] (line 32); [Holding m]: about to send [m] (lines 39-55).
    [SendOver]: returned, and [rx] and [sender] dropped. *)
Inductive main_at : Type := Typing | JoinSend | JoinReceive | Exited.
Inductive send_at : Type := Waiting | Holding (m : owned) | SendOver.
Inductive recv_at : Type := Listening | ReceiveOver.
(** The state of the program.  [ch_lines]: what the user will type, line by line, as
    [input.trim()] leaves it (line 97); after that standard input is at its end, and
    [read_line] gives the empty string for ever.  (A standard input that fails ends the
    program in a panic, line 95; left out.)  [ch_queue]: the channel. *)
Record chat : Type := mk_chat {
  ch_main : main_at; ch_lines : list bytes; ch_queue : list owned;
  ch_send : send_at; ch_writer : writer;
  ch_recv : recv_at; ch_reader : reader
}.
(** examples/client.rs:12-27, after the connection was made and split. *)
Definition chat_new (lines : list bytes) (r : reader) (w : writer) : chat :=
  mk_chat Typing lines [] Waiting w Listening r.

(** [Sender::send] of std::sync::mpsc (External): it fails if the receiving end is gone. *)
Definition put (m : owned) (c : chat) : bool * chat :=
  match ch_send c with
  | SendOver => (false, c)
  | _ => (true, mk_chat (ch_main c) (ch_lines c) (ch_queue c ++ [m]) (ch_send c) (ch_writer c)
                  (ch_recv c) (ch_reader c))
  end.
Definition at_main (a : main_at) (c : chat) : chat :=
  mk_chat a (ch_lines c) (ch_queue c) (ch_send c) (ch_writer c) (ch_recv c) (ch_reader c).
Definition at_send (a : send_at) (c : chat) : chat :=
  mk_chat (ch_main c) (ch_lines c) (ch_queue c) a (ch_writer c) (ch_recv c) (ch_reader c).
Definition at_recv (a : recv_at) (c : chat) : chat :=
  mk_chat (ch_main c) (ch_lines c) (ch_queue c) (ch_send c) (ch_writer c) a (ch_reader c).
Definition set_writer (w : writer) (c : chat) : chat :=
  mk_chat (ch_main c) (ch_lines c) (ch_queue c) (ch_send c) w (ch_recv c) (ch_reader c).
Definition set_reader (r : reader) (c : chat) : chat :=
  mk_chat (ch_main c) (ch_lines c) (ch_queue c) (ch_send c) (ch_writer c) (ch_recv c) r.
Definition next_line (c : chat) : bytes * chat :=
  match ch_lines c with
  | [] => ([], c)
  | t :: ts => (t, mk_chat (ch_main c) ts (ch_queue c) (ch_send c) (ch_writer c) (ch_recv c) (ch_reader c))
  end.

(** examples/client.rs:92-125.  [None]: the thread waits, or is over.  One step is what a thread
    does up to and including its next use of the channel. *)
Definition main_step (c : chat) : option chat :=
  match ch_main c with
  | Typing =>
      let '(t, c1) := next_line c in
      if beqb t (str "/close") then
        let '(_, c2) := put (OClose None) c1 in Some (at_main JoinSend c2)
      else
        let m := if beqb t (str "/ping") then OPing (str "PING") else OText t in
        match put m c1 with
        | (true, c2) => Some c2
        | (false, c2) => Some (at_main JoinSend c2)
        end
  | JoinSend => match ch_send c with SendOver => Some (at_main JoinReceive c) | _ => None end
  | JoinReceive => match ch_recv c with ReceiveOver => Some (at_main Exited c) | _ => None end
  | Exited => None
  end.

(** examples/client.rs:29-57.  [ks]: the masking keys drawn.  [tx] lives until [main] is over,
    [tx_1] until the receive loop is. *)
Definition send_step (ks : mkey * mkey) (c : chat) : option chat :=
  match ch_send c with
  | Waiting =>
      match ch_queue c with
      | m :: q =>
          Some (mk_chat (ch_main c) (ch_lines c) q (Holding m) (ch_writer c) (ch_recv c) (ch_reader c))
      | [] =>
          match ch_main c, ch_recv c with
          | Exited, ReceiveOver => Some (at_send SendOver c)
          | _, _ => None
          end
      end
  | Holding m =>
      let '(x, w1) := writer_send m (fst ks) (ch_writer c) in
      match m with
      | OClose _ => Some (at_send SendOver (set_writer w1 c))
      | _ =>
          match x with
          | Ok _ => Some (at_send Waiting (set_writer w1 c))
          | Err _ =>
              let '(_, w2) := writer_send_frame (msg_ops msg_close) (snd ks) w1 in
              Some (at_send SendOver (set_writer w2 c))
          | _ => Some (at_send SendOver (set_writer w1 c))
          end
      end
  | SendOver => None
  end.

(** examples/client.rs:59-90 *)
Definition recv_step (c : chat) : option chat :=
  match ch_recv c with
  | Listening =>
      let '(x, r) := reader_recv (ch_reader c) in
      let c1 := set_reader r c in
      match x with
      | Ok (OClose _) => let '(_, c2) := put (OClose None) c1 in Some (at_recv ReceiveOver c2)
      | Ok (OPing data) =>
          match put (OPong data) c1 with
          | (true, c2) => Some c2
          | (false, c2) => Some (at_recv ReceiveOver c2)
          end
      | Ok _ => Some c1
      | Err _ => let '(_, c2) := put (OClose None) c1 in Some (at_recv ReceiveOver c2)
      | _ => Some (at_recv ReceiveOver c1)
      end
  | ReceiveOver => None
  end.

(** The scheduler: which thread goes next, with the keys it would draw.  A thread that cannot
    go on is passed over. *)
Inductive who : Type := Main | SendLoop (ks : mkey * mkey) | ReceiveLoop.
Definition chat_step (p : who) (c : chat) : option chat :=
  match p with
  | Main => main_step c
  | SendLoop ks => send_step ks c
  | ReceiveLoop => recv_step c
  end.
Fixpoint chat_run (sched : list who) (c : chat) : chat :=
  match sched with
  | [] => c
  | p :: sched' => chat_run sched' (match chat_step p c with Some c' => c' | None => c end)
  end.
