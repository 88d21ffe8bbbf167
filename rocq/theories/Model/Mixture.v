(** The chat client of examples/client.rs at one end of a connection, the asynchronous server of
    examples/async-server.rs at the other.  Both have finished the handshake; the network carries
    bytes, in order, in pieces of any size, after any delay, and holds at most so many of them in
    either direction. *)
From Coq Require Import NArith String Bool List.
From Coq.Strings Require Import Byte.
From Verif.Model Require Import Base Io Header Mask Dataframe Text Headers Message Receiver Codec Framed
  Connect Examples AsyncExamples ChatClient Talk Narrow AsyncChat AsyncTalk.
Import ListNotations.
Local Open Scope list_scope.

(** [x_chat], [x_write]: the client, as in Model/Narrow.v ([x_write]: its send loop is in a write).
    [x_at], [x_task]: the task of the server, as in Model/AsyncTalk.v.  [x_up] is under way to the
    server, what has arrived there and was not read yet is in [et_in]; [x_down] is what the network
    holds for the client, who takes it when it reads.  [x_heard]: what the receive loop got. *)
Record mixed : Type := mk_mixed {
  x_chat : chat; x_write : option (send_at * writer * bytes); x_up : bytes;
  x_at : aserver; x_task : echo_task; x_down : bytes; x_heard : list (result owned ws_error)
}.
Definition x_set_chat (c : chat) (m : mixed) : mixed :=
  mk_mixed c (x_write m) (x_up m) (x_at m) (x_task m) (x_down m) (x_heard m).
Definition served (a : aserver) : bool := match a with AServed _ => true | _ => false end.
Definition has_exited (c : chat) : bool := match ch_main c with Exited => true | _ => false end.

(** A turn of a thread of the client (examples/client.rs); [None]: it has to wait, or is over. *)
Definition x_client (p : who) (m : mixed) : option mixed :=
  let c := x_chat m in
  match p with
  | SendLoop _ =>
      match x_write m with
      | Some _ => None
      | None =>
          match chat_step p c with
          | Some c' =>
              match written (ch_writer c) (ch_writer c') with
              | [] => Some (x_set_chat c' m)
              | out =>
                  Some (mk_mixed c (Some (ch_send c', ch_writer c', out)) (x_up m) (x_at m) (x_task m) (x_down m) (x_heard m))
              end
          | None => None
          end
      end
  | Main =>
      match main_step c with
      | Some c' => Some (x_set_chat c' m)
      | None => None
      end
  | ReceiveLoop =>
      let x := fst (reader_recv (ch_reader c)) in
      if must_wait x (served (x_at m)) (x_down m) then None
      else
        match recv_step c with
        | Some c' => Some (mk_mixed c' (x_write m) (x_up m) (x_at m) (x_task m) (x_down m) (x_heard m ++ [x]))
        | None => None
        end
  end.
(** The network takes up to [n] bytes of what the client is writing, if there is room; with the
    last one, the write is over (External: a blocking [TcpStream]). *)
Definition x_push (cap n : nat) (m : mixed) : option mixed :=
  match x_write m with
  | None => None
  | Some (a, w, out) =>
      let j := Nat.min n (cap - (length (x_up m) + length (aev_bytes (et_in (x_task m))))) in
      match firstn j out with
      | [] => None
      | now =>
          match skipn j out with
          | [] =>
              Some (mk_mixed (at_send a (set_writer w (x_chat m))) None (x_up m ++ now) (x_at m) (x_task m) (x_down m) (x_heard m))
          | later =>
              Some (mk_mixed (x_chat m) (Some (a, w, later)) (x_up m ++ now) (x_at m) (x_task m) (x_down m) (x_heard m))
          end
      end
  end.
(** The receive loop is in a read and takes up to [n] bytes. *)
Definition x_take (n : nat) (m : mixed) : option mixed :=
  match ch_recv (x_chat m) with
  | Listening =>
      if lacks (ch_reader (x_chat m)) then
        match arrive n (x_down m) (ch_reader (x_chat m)) with
        | Some (r', q) =>
            Some (mk_mixed (set_reader r' (x_chat m)) (x_write m) (x_up m) (x_at m) (x_task m) q (x_heard m))
        | None => None
        end
      else None
  | ReceiveOver => None
  end.
(** Bytes arrive at the server. *)
Definition x_arrive (n : nat) (m : mixed) : mixed :=
  let e := x_task m in
  mk_mixed (x_chat m) (x_write m) (skipn n (x_up m)) (x_at m)
    (mk_task (et_read e) (et_in e ++ apiece n (x_up m)) (et_done e) (et_hold e) (et_closing e) (et_out e))
    (x_down m) (x_heard m).
(** A poll of the server's task by the executor, as [server_acts] of Model/AsyncTalk.v. *)
Definition x_poll (cap : nat) (k : mkey) (extra : N) (m : mixed) : mixed :=
  match x_at m with
  | AServed _ => m
  | a =>
      let e := x_task m in
      let n := S (S (task_fuel e)) in
      let '(_, a', e') := aserver_poll a k extra
        (mk_task (et_read e) (can_read (has_exited (x_chat m) && is_nil_b (x_up m)) n (et_in e)) (et_done e) (et_hold e) (et_closing e)
           (with_room (cap - length (x_down m)) (n + n + n) (et_out e))) in
      mk_mixed (x_chat m) (x_write m) (x_up m) a'
        (mk_task (et_read e') (filter is_adata (et_in e')) (et_done e') (et_hold e') (et_closing e') (no_room (et_out e')))
        (x_down m ++ awritten (et_out e) (et_out e')) (x_heard m)
  end.

Inductive xact : Type := XClient (p : who) | XPush (n : nat) | XTake (n : nat) | XArrive (n : nat) | XPoll (k : mkey) (extra : N).
Definition or_stay (m : mixed) (o : option mixed) : mixed := match o with Some m' => m' | None => m end.
Definition mixed_step (cap : nat) (a : xact) (m : mixed) : mixed :=
  match a with
  | XClient p => or_stay m (x_client p m)
  | XPush n => or_stay m (x_push cap n m)
  | XTake n => or_stay m (x_take n m)
  | XArrive n => x_arrive n m
  | XPoll k extra => x_poll cap k extra m
  end.
Fixpoint mixed_run (cap : nat) (acts : list xact) (m : mixed) : mixed :=
  match acts with
  | [] => m
  | a :: acts' => mixed_run cap acts' (mixed_step cap a m)
  end.
(** Both sides have default limits and nothing was read ahead; [w] is the stream the client writes
    to, [b] the room in the buffer of the server's sink after the handshake. *)
Definition mixed_new (lines : list bytes) (w : wstream) (b : N) : mixed :=
  mk_mixed (t_chat (talk_new lines w w)) None [] AGreeting (tk_task (atalk_new [] (fun _ => mk_key x00 x00 x00 x00) 0 b)) [] [].
