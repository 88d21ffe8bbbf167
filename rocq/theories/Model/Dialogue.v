(** Two programs of one's own that use the blocking library the plain way: each sends and receives in
    an order laid down beforehand and [unwrap]s every result (see Model/Errand.v), one with the client
    ([websocket::sync::Client]) a [ClientBuilder] gave it, the other with the one [accept] gave it.
    Both have finished the handshake; the network carries bytes, in order, in pieces of any size, after
    any delay, and holds at most so many of them in either direction. *)
From Coq Require Import NArith String Bool List.
From Coq.Strings Require Import Byte.
From Verif.Model Require Import Base Io Header Mask Dataframe Text Headers Message Receiver Connect Talk Narrow Errand.
Import ListNotations.
Local Open Scope list_scope.

(** A program: [p_todo] is what it has not begun, [p_heard] what it received; [p_failed] that an
    [unwrap] failed.  [p_reader], [p_writer]: its [Client], as its two halves ([split] changes nothing,
    see C44).  [p_write]: it is in a write; the writer as it will be, and the bytes not taken yet.
    Simplified: a program keeps the [Client] when it has done everything. *)
Record party : Type := mk_party {
  p_todo : list deed; p_heard : list owned; p_failed : bool;
  p_reader : reader; p_writer : writer; p_write : option (writer * bytes)
}.

(** The next deed is begun ([send_message(&m).unwrap()], src/client/sync.rs:162-167) or done
    ([recv_message().unwrap()], src/client/sync.rs:192-194); [q] is what the network holds for the
    program.  Also the bytes that a send that fails leaves in the network. *)
Definition party_turn (k : mkey) (q : bytes) (p : party) : option (party * bytes) :=
  match p_failed p, p_write p, p_todo p with
  | true, _, _ | _, Some _, _ | _, _, [] => None
  | false, None, Say m :: l =>
      match writer_send m k (p_writer p) with
      | (Ok _, w') =>
          Some (mk_party l (p_heard p) false (p_reader p) (p_writer p) (Some (w', written (p_writer p) w')), [])
      | (_, w') => Some (mk_party l (p_heard p) true (p_reader p) w' None, written (p_writer p) w')
      end
  | false, None, Hear :: l =>
      let (x, r') := reader_recv (p_reader p) in
      if must_wait x false q then None
      else
        match x with
        | Ok m => Some (mk_party l (p_heard p ++ [m]) false r' (p_writer p) None, [])
        | _ => Some (mk_party l (p_heard p) true r' (p_writer p) None, [])
        end
  end.
(** The network, which holds [q] of what the program has written, takes up to [n] bytes more, if there
    is room; with the last one, the write is over (External: a blocking [TcpStream]). *)
Definition party_send (cap n : nat) (q : bytes) (p : party) : option (party * bytes) :=
  match p_write p with
  | None => None
  | Some (w, out) =>
      let j := Nat.min n (cap - length q) in
      match firstn j out with
      | [] => None
      | now =>
          Some (mk_party (p_todo p) (p_heard p) (p_failed p) (p_reader p)
                  (match skipn j out with [] => w | _ => p_writer p end)
                  (match skipn j out with [] => None | later => Some (w, later) end), q ++ now)
      end
  end.
(** The program is in a read and takes up to [n] bytes of what the network holds for it
    (websocket-base/src/ws/receiver.rs:40-46). *)
Definition party_read (n : nat) (q : bytes) (p : party) : option (party * bytes) :=
  match p_failed p, p_write p, p_todo p with
  | false, None, Hear :: _ =>
      if lacks (p_reader p) then
        match arrive n q (p_reader p) with
        | Some (r', q') => Some (mk_party (p_todo p) (p_heard p) false r' (p_writer p) None, q')
        | None => None
        end
      else None
  | _, _, _ => None
  end.

(** [d_up]: what the network holds for the server side; [d_down]: for the client side. *)
Record dialogue : Type := mk_dialogue { d_client : party; d_server : party; d_up : bytes; d_down : bytes }.
(** [client]: is it the client's turn, or does it concern the network at its end? *)
Inductive dact : Type := DTurn (client : bool) (k : mkey) | DSend (client : bool) (n : nat) | DRead (client : bool) (n : nat).
Definition dialogue_step (cap : nat) (a : dact) (t : dialogue) : option dialogue :=
  let '(mk_dialogue c s u d) := t in
  match a with
  | DTurn true k => match party_turn k d c with Some (c', o) => Some (mk_dialogue c' s (u ++ o) d) | None => None end
  | DTurn false k => match party_turn k u s with Some (s', o) => Some (mk_dialogue c s' u (d ++ o)) | None => None end
  | DSend true n => match party_send cap n u c with Some (c', q) => Some (mk_dialogue c' s q d) | None => None end
  | DSend false n => match party_send cap n d s with Some (s', q) => Some (mk_dialogue c s' u q) | None => None end
  | DRead true n => match party_read n d c with Some (c', q) => Some (mk_dialogue c' s u q) | None => None end
  | DRead false n => match party_read n u s with Some (s', q) => Some (mk_dialogue c s' q d) | None => None end
  end.
Fixpoint dialogue_run (cap : nat) (acts : list dact) (t : dialogue) : dialogue :=
  match acts with
  | [] => t
  | a :: acts' => dialogue_run cap acts' (match dialogue_step cap a t with Some t' => t' | None => t end)
  end.
(** Both sides have default limits and nothing was read ahead; [w1] and [w2] are the streams they
    write to. *)
Definition party_new (client : bool) (plan : list deed) (w : wstream) : party :=
  mk_party plan [] false (mk_reader (default_receiver client) [] []) (mk_writer (mk_sender client) w) None.
Definition dialogue_new (plan1 plan2 : list deed) (w1 w2 : wstream) : dialogue :=
  mk_dialogue (party_new true plan1 w1) (party_new false plan2 w2) [] [].
