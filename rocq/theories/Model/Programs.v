(** Two programs that use the blocking library and decide what to do next by what has happened so
    far, one with the client ([websocket::sync::Client]) a [ClientBuilder] gave it, the other with the
    one [accept] gave it.  Both have finished the handshake; the network carries bytes, in order, in
    pieces of any size, after any delay, and holds at most so many of them in either direction. *)
From Coq Require Import NArith String Bool List.
From Coq.Strings Require Import Byte.
From Verif.Model Require Import Base Io Header Mask Dataframe Text Headers Message Receiver Connect Talk Narrow Errand Dialogue.
Import ListNotations.
Local Open Scope list_scope.

(** What a program gets to know: a [send_message] returned [Ok] or an error (src/client/sync.rs:162-167),
    a [recv_message] returned a message or an error (src/client/sync.rs:192-194).  Simplified: [Said] is
    noted when the message is handed to the stream, though the program is stopped until it is written;
    which error it was is left out. *)
Inductive happening : Type := Said (m : owned) | NotSaid (m : owned) | Heard (m : owned) | NotHeard.
(** What it does next, [Say] or [Hear] (Model/Errand.v), or nothing any more; from what has happened,
    in the order of time. *)
Definition program : Type := list happening -> option deed.

(** A program and its client, as in Model/Dialogue.v ([party]). *)
Record user : Type := mk_user { u_past : list happening; u_reader : reader; u_writer : writer; u_write : option (writer * bytes) }.

(** The next deed is begun or done; [q] is what the network holds for the program. *)
Definition user_turn (f : program) (k : mkey) (q : bytes) (u : user) : option (user * bytes) :=
  match u_write u, f (u_past u) with
  | Some _, _ | _, None => None
  | None, Some (Say m) =>
      match writer_send m k (u_writer u) with
      | (Ok _, w') => Some (mk_user (u_past u ++ [Said m]) (u_reader u) (u_writer u) (Some (w', written (u_writer u) w')), [])
      | (_, w') => Some (mk_user (u_past u ++ [NotSaid m]) (u_reader u) w' None, written (u_writer u) w')
      end
  | None, Some Hear =>
      let (x, r') := reader_recv (u_reader u) in
      if must_wait x false q then None
      else
        match x with
        | Ok m => Some (mk_user (u_past u ++ [Heard m]) r' (u_writer u) None, [])
        | _ => Some (mk_user (u_past u ++ [NotHeard]) r' (u_writer u) None, [])
        end
  end.
(** The network, which holds [q] of what the program has written, takes up to [n] bytes more, if there
    is room; with the last one, the write is over (External: a blocking [TcpStream]). *)
Definition user_send (cap n : nat) (q : bytes) (u : user) : option (user * bytes) :=
  match u_write u with
  | None => None
  | Some (w, out) =>
      let j := Nat.min n (cap - length q) in
      match firstn j out with
      | [] => None
      | now =>
          Some (mk_user (u_past u) (u_reader u)
                  (match skipn j out with [] => w | _ => u_writer u end)
                  (match skipn j out with [] => None | later => Some (w, later) end), q ++ now)
      end
  end.
(** The program is in a read and takes up to [n] bytes of what the network holds for it
    (websocket-base/src/ws/receiver.rs:40-46). *)
Definition user_read (f : program) (n : nat) (q : bytes) (u : user) : option (user * bytes) :=
  match u_write u, f (u_past u) with
  | None, Some Hear =>
      if lacks (u_reader u) then
        match arrive n q (u_reader u) with
        | Some (r', q') => Some (mk_user (u_past u) r' (u_writer u) None, q')
        | None => None
        end
      else None
  | _, _ => None
  end.

(** [l_up]: what the network holds for the server side; [l_down]: for the client side.  What may
    happen is as in Model/Dialogue.v ([dact]). *)
Record link : Type := mk_link { l_client : user; l_server : user; l_up : bytes; l_down : bytes }.
Definition link_step (f1 f2 : program) (cap : nat) (a : dact) (t : link) : option link :=
  let '(mk_link c s u d) := t in
  match a with
  | DTurn true k => match user_turn f1 k d c with Some (c', o) => Some (mk_link c' s (u ++ o) d) | None => None end
  | DTurn false k => match user_turn f2 k u s with Some (s', o) => Some (mk_link c s' u (d ++ o)) | None => None end
  | DSend true n => match user_send cap n u c with Some (c', q) => Some (mk_link c' s q d) | None => None end
  | DSend false n => match user_send cap n d s with Some (s', q) => Some (mk_link c s' u q) | None => None end
  | DRead true n => match user_read f1 n d c with Some (c', q) => Some (mk_link c' s u q) | None => None end
  | DRead false n => match user_read f2 n u s with Some (s', q) => Some (mk_link c s' q d) | None => None end
  end.
Fixpoint link_run (f1 f2 : program) (cap : nat) (acts : list dact) (t : link) : link :=
  match acts with
  | [] => t
  | a :: acts' => link_run f1 f2 cap acts' (match link_step f1 f2 cap a t with Some t' => t' | None => t end)
  end.
(** Both sides have default limits and nothing was read ahead; [w1] and [w2] are the streams they
    write to. *)
Definition user_new (client : bool) (w : wstream) : user :=
  mk_user [] (mk_reader (default_receiver client) [] []) (mk_writer (mk_sender client) w) None.
Definition link_new (w1 w2 : wstream) : link := mk_link (user_new true w1) (user_new false w2) [] [].
