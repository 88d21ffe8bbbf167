(** A program that uses a blocking client the plain way, without threads: it sends messages and
    receives messages in an order laid down beforehand, [unwrap]ping every result, with the server
    of examples/server.rs at the other end.  Both have finished the handshake; the network carries
    bytes, in order, in pieces of any size, after any delay, and holds at most so many of them in
    either direction. *)
From Coq Require Import NArith String Bool List.
From Coq.Strings Require Import Byte.
From Verif.Model Require Import Base Io Header Mask Dataframe Text Headers Message Receiver Connect Examples ChatClient Talk Narrow.
Import ListNotations.
Local Open Scope list_scope.

(** [Say m]: [client.send_message(&m).unwrap()] (src/client/sync.rs:162-167); [Hear]:
    [client.recv_message().unwrap()] (src/client/sync.rs:192-194). *)
Inductive deed : Type := Say (m : owned) | Hear.

(** The program: [e_todo] is what it has not begun, [e_heard] what it received; [e_failed] that an
    [unwrap] failed.  [e_reader], [e_writer]: its client, as its two halves ([split] changes nothing,
    see C44).  [e_write]: it is in a write, as in Model/Narrow.v.  [e_up]: what the network holds for
    the server.  The rest is the thread of the server, as in Model/Narrow.v, and what the network
    holds for the program.  Simplified: the program keeps the client when it has done everything. *)
Record errand : Type := mk_errand {
  e_todo : list deed; e_heard : list owned; e_failed : bool;
  e_reader : reader; e_writer : writer; e_write : option (writer * bytes); e_up : bytes;
  e_srv : srv_at; e_sreader : reader; e_swriter : writer; e_swrite : option (srv_at * writer * bytes); e_down : bytes
}.
Definition e_gone (t : errand) : bool := match e_srv t with Served _ => true | _ => false end.

(** The next deed of the program is begun (a message is handed to the stream) or done (a message
    is received, if there is one).  Simplified: when a receive has failed, the client, which is not
    used any more, is left as it was. *)
Definition e_turn (k : mkey) (t : errand) : option errand :=
  match e_failed t, e_write t, e_todo t with
  | true, _, _ | _, Some _, _ | _, _, [] => None
  | false, None, Say m :: l =>
      match writer_send m k (e_writer t) with
      | (Ok _, w') =>
          Some (mk_errand l (e_heard t) false (e_reader t) (e_writer t) (Some (w', written (e_writer t) w')) (e_up t)
                  (e_srv t) (e_sreader t) (e_swriter t) (e_swrite t) (e_down t))
      | (_, w') =>
          Some (mk_errand l (e_heard t) true (e_reader t) w' None (e_up t ++ written (e_writer t) w')
                  (e_srv t) (e_sreader t) (e_swriter t) (e_swrite t) (e_down t))
      end
  | false, None, Hear :: l =>
      let (x, r') := reader_recv (e_reader t) in
      if must_wait x (e_gone t) (e_down t) then None
      else
        match x with
        | Ok m =>
            Some (mk_errand l (e_heard t ++ [m]) false r' (e_writer t) None (e_up t)
                    (e_srv t) (e_sreader t) (e_swriter t) (e_swrite t) (e_down t))
        | _ =>
            Some (mk_errand l (e_heard t) true (e_reader t) (e_writer t) None (e_up t)
                    (e_srv t) (e_sreader t) (e_swriter t) (e_swrite t) (e_down t))
        end
  end.
(** The network takes up to [n] bytes of what the program is writing, if there is room; with the
    last one, the write is over (External: a blocking [TcpStream]). *)
Definition e_send (cap n : nat) (t : errand) : option errand :=
  match e_write t with
  | None => None
  | Some (w, out) =>
      let j := Nat.min n (cap - length (e_up t)) in
      match firstn j out with
      | [] => None
      | now =>
          Some (mk_errand (e_todo t) (e_heard t) (e_failed t) (e_reader t)
                  (match skipn j out with [] => w | _ => e_writer t end)
                  (match skipn j out with [] => None | later => Some (w, later) end) (e_up t ++ now)
                  (e_srv t) (e_sreader t) (e_swriter t) (e_swrite t) (e_down t))
      end
  end.
(** The program is in a read and takes up to [n] bytes (websocket-base/src/ws/receiver.rs:40-46). *)
Definition e_read (n : nat) (t : errand) : option errand :=
  match e_failed t, e_write t, e_todo t with
  | false, None, Hear :: _ =>
      if lacks (e_reader t) then
        match arrive n (e_down t) (e_reader t) with
        | Some (r', q) =>
            Some (mk_errand (e_todo t) (e_heard t) false r' (e_writer t) None (e_up t)
                    (e_srv t) (e_sreader t) (e_swriter t) (e_swrite t) q)
        | None => None
        end
      else None
  | _, _, _ => None
  end.
(** A turn of the thread of the server (examples/server.rs:24-45), as in Model/Narrow.v. *)
Definition e_serve (k : mkey) (t : errand) : option errand :=
  match e_swrite t, e_srv t with
  | Some _, _ | None, Served _ => None
  | None, a =>
      if match a with Serving => must_wait (fst (reader_recv (e_sreader t))) false (e_up t) | _ => false end
      then None
      else
        let '(a', r', w') := server_turn a k (e_sreader t) (e_swriter t) in
        match written (e_swriter t) w' with
        | [] =>
            Some (mk_errand (e_todo t) (e_heard t) (e_failed t) (e_reader t) (e_writer t) (e_write t) (e_up t)
                    a' r' w' None (e_down t))
        | out =>
            Some (mk_errand (e_todo t) (e_heard t) (e_failed t) (e_reader t) (e_writer t) (e_write t) (e_up t)
                    a r' (e_swriter t) (Some (a', w', out)) (e_down t))
        end
  end.
(** The server is in a read and takes up to [n] bytes. *)
Definition e_take (n : nat) (t : errand) : option errand :=
  match e_swrite t, e_srv t with
  | None, Serving =>
      if lacks (e_sreader t) then
        match arrive n (e_up t) (e_sreader t) with
        | Some (r', q) =>
            Some (mk_errand (e_todo t) (e_heard t) (e_failed t) (e_reader t) (e_writer t) (e_write t) q
                    Serving r' (e_swriter t) None (e_down t))
        | None => None
        end
      else None
  | _, _ => None
  end.
(** The network takes up to [n] bytes of what the server is writing. *)
Definition e_push (cap n : nat) (t : errand) : option errand :=
  match e_swrite t with
  | None => None
  | Some (a, w, out) =>
      let j := Nat.min n (cap - length (e_down t)) in
      match firstn j out with
      | [] => None
      | now =>
          match skipn j out with
          | [] =>
              Some (mk_errand (e_todo t) (e_heard t) (e_failed t) (e_reader t) (e_writer t) (e_write t) (e_up t)
                      a (e_sreader t) w None (e_down t ++ now))
          | later =>
              Some (mk_errand (e_todo t) (e_heard t) (e_failed t) (e_reader t) (e_writer t) (e_write t) (e_up t)
                      (e_srv t) (e_sreader t) (e_swriter t) (Some (a, w, later)) (e_down t ++ now))
          end
      end
  end.

Inductive eact : Type := ETurn (k : mkey) | ESend (n : nat) | ERead (n : nat) | EServe (k : mkey) | ETake (n : nat) | EPush (n : nat).
Definition errand_step (cap : nat) (a : eact) (t : errand) : option errand :=
  match a with
  | ETurn k => e_turn k t
  | ESend n => e_send cap n t
  | ERead n => e_read n t
  | EServe k => e_serve k t
  | ETake n => e_take n t
  | EPush n => e_push cap n t
  end.
Fixpoint errand_run (cap : nat) (acts : list eact) (t : errand) : errand :=
  match acts with
  | [] => t
  | a :: acts' => errand_run cap acts' (match errand_step cap a t with Some t' => t' | None => t end)
  end.
(** Both sides have default limits and nothing was read ahead; [w1] and [w2] are the streams they
    write to. *)
Definition errand_new (plan : list deed) (w1 w2 : wstream) : errand :=
  mk_errand plan [] false (mk_reader (default_receiver true) [] []) (mk_writer (mk_sender true) w1) None []
    Greeting (mk_reader (default_receiver false) [] []) (mk_writer (mk_sender false) w2) None [].
