(** The asynchronous chat client of examples/async-client.rs at one end of a connection, the server
    of examples/server.rs at the other.  Both have finished the handshake; the network carries
    bytes, in order, in pieces of any size, after any delay, and holds at most so many of them in
    either direction. *)
From Coq Require Import NArith String Bool List.
From Coq.Strings Require Import Byte.
From Verif.Model Require Import Base Io Header Mask Dataframe Text Headers Message Receiver Codec Framed
  Connect Examples AsyncExamples ChatClient Talk Narrow AsyncChat AsyncTalk.
Import ListNotations.
Local Open Scope list_scope.

(** [y_client], [y_cend], [y_lines]: the task of the client and its user, as in Model/AsyncTalk.v.
    [y_srv], [y_reader], [y_writer]: the thread of the server, as in Model/Talk.v; [y_write]: it is
    in a write, as in Model/Narrow.v.  [y_up] is what the network holds for the server, who takes it
    when it reads; [y_down] is under way to the client, what has arrived there and was not read
    yet is in [at_in]. *)
Record crossed : Type := mk_crossed {
  y_client : achat; y_cend : option tpoll; y_lines : list bytes; y_up : bytes;
  y_srv : srv_at; y_reader : reader; y_writer : writer; y_write : option (srv_at * writer * bytes); y_down : bytes
}.
Definition y_gone (t : crossed) : bool :=
  match y_srv t with Served _ => is_nil_b (y_down t) | _ => false end.
Definition y_room_up (cap : nat) (t : crossed) : nat := cap - length (y_up t).
Definition y_room_down (cap : nat) (t : crossed) : nat := cap - (length (y_down t) + length (aev_bytes (at_in (y_client t)))).

(** A poll of the client's task, by [block_on] (examples/async-client.rs:78), as [client_acts] of
    Model/AsyncTalk.v. *)
Definition y_poll (cap : nat) (extra : N) (t : crossed) : crossed :=
  match y_cend t with
  | Some _ => t
  | None =>
      let c := y_client t in
      let n := S (achat_fuel c) in
      let '(r, c') := achat_poll extra
        (with_scripts (can_read (y_gone t) n (at_in c)) (with_room (y_room_up cap t) n (at_out c)) c) in
      mk_crossed (with_scripts (filter is_adata (at_in c')) (no_room (at_out c')) c')
        (match r with TNotReady => None | _ => Some r end) (y_lines t)
        (y_up t ++ awritten (at_out c) (at_out c')) (y_srv t) (y_reader t) (y_writer t) (y_write t) (y_down t)
  end.
(** A turn of the thread of the server (examples/server.rs:24-45), as in Model/Narrow.v: a message
    is received, or what is to be sent is handed to the stream. *)
Definition y_serve (k : mkey) (t : crossed) : option crossed :=
  match y_write t, y_srv t with
  | Some _, _ => None
  | None, Served _ => None
  | None, a =>
      let gone := match y_cend t with Some _ => true | None => false end in
      if match a with Serving => must_wait (fst (reader_recv (y_reader t))) gone (y_up t) | _ => false end
      then None
      else
        let '(a', r', w') := server_turn a k (y_reader t) (y_writer t) in
        match written (y_writer t) w' with
        | [] => Some (mk_crossed (y_client t) (y_cend t) (y_lines t) (y_up t) a' r' w' None (y_down t))
        | out =>
            Some (mk_crossed (y_client t) (y_cend t) (y_lines t) (y_up t) a r' (y_writer t) (Some (a', w', out)) (y_down t))
        end
  end.
(** The server is in a read and takes up to [n] bytes (websocket-base/src/ws/receiver.rs:40-46). *)
Definition y_take (n : nat) (t : crossed) : option crossed :=
  match y_write t, y_srv t with
  | None, Serving =>
      if lacks (y_reader t) then
        match arrive n (y_up t) (y_reader t) with
        | Some (r', q) =>
            Some (mk_crossed (y_client t) (y_cend t) (y_lines t) q Serving r' (y_writer t) None (y_down t))
        | None => None
        end
      else None
  | _, _ => None
  end.
(** The network takes up to [n] bytes of what the server is writing, if there is room; with the
    last one, the write is over (External: a blocking [TcpStream]). *)
Definition y_push (cap n : nat) (t : crossed) : option crossed :=
  match y_write t with
  | None => None
  | Some (a, w, out) =>
      let j := Nat.min n (y_room_down cap t) in
      match firstn j out with
      | [] => None
      | now =>
          match skipn j out with
          | [] =>
              Some (mk_crossed (y_client t) (y_cend t) (y_lines t) (y_up t) a (y_reader t) w None (y_down t ++ now))
          | later =>
              Some (mk_crossed (y_client t) (y_cend t) (y_lines t) (y_up t) (y_srv t) (y_reader t) (y_writer t)
                      (Some (a, w, later)) (y_down t ++ now))
          end
      end
  end.
(** Bytes arrive at the client. *)
Definition y_arrive (n : nat) (t : crossed) : crossed :=
  let c := y_client t in
  mk_crossed (with_scripts (at_in c ++ apiece n (y_down t)) (at_out c) c) (y_cend t) (y_lines t) (y_up t)
    (y_srv t) (y_reader t) (y_writer t) (y_write t) (skipn n (y_down t)).
(** The user types a line; the thread of examples/async-client.rs:28-53 takes it. *)
Definition y_type (t : crossed) : crossed :=
  match y_lines t with
  | l :: ls =>
      let c := y_client t in
      if thread_over c then t
      else mk_crossed
        (mk_achat (at_prog c) (at_read c) (at_in c) (at_rdone c) (at_user c ++ [Typed l]) (at_over c) (at_udone c)
           (at_flag c) (at_hold c) (at_out c) (at_keys c) (at_shown c))
        (y_cend t) ls (y_up t) (y_srv t) (y_reader t) (y_writer t) (y_write t) (y_down t)
  | [] => t
  end.

Inductive yact : Type := YPoll (extra : N) | YServe (k : mkey) | YTake (n : nat) | YPush (n : nat) | YArrive (n : nat) | YType.
Definition or_same (t : crossed) (o : option crossed) : crossed := match o with Some t' => t' | None => t end.
Definition crossed_step (cap : nat) (a : yact) (t : crossed) : crossed :=
  match a with
  | YPoll extra => y_poll cap extra t
  | YServe k => or_same t (y_serve k t)
  | YTake n => or_same t (y_take n t)
  | YPush n => or_same t (y_push cap n t)
  | YArrive n => y_arrive n t
  | YType => y_type t
  end.
Fixpoint crossed_run (cap : nat) (acts : list yact) (t : crossed) : crossed :=
  match acts with
  | [] => t
  | a :: acts' => crossed_run cap acts' (crossed_step cap a t)
  end.
(** Both sides have default limits and nothing was read ahead; [ks] are the keys the client will
    draw, [b] the room in the buffer of its sink after the handshake, [w] the stream the server
    writes to. *)
Definition crossed_new (lines : list bytes) (ks : nat -> mkey) (b : N) (w : wstream) : crossed :=
  mk_crossed (tk_client (atalk_new lines ks b 0)) None lines [] Greeting
    (mk_reader (default_receiver false) [] []) (mk_writer (mk_sender false) w) None [].
