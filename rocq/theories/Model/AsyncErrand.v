(** A program that uses a blocking client the plain way (as in Model/Errand.v: it sends and receives
    in an order laid down beforehand and [unwrap]s every result), with the asynchronous server of
    examples/async-server.rs at the other end.  Both have finished the handshake; the network carries
    bytes, in order, in pieces of any size, after any delay, and holds at most so many of them in
    either direction. *)
From Coq Require Import NArith String Bool List.
From Coq.Strings Require Import Byte.
From Verif.Model Require Import Base Io Header Mask Dataframe Text Headers Message Receiver Codec Framed
  Connect Examples AsyncExamples ChatClient Talk Narrow AsyncChat AsyncTalk Mixture Errand.
Import ListNotations.
Local Open Scope list_scope.

(** [y_todo], [y_heard], [y_failed], [y_reader], [y_writer], [y_write]: the program, as in
    Model/Errand.v.  [y_at], [y_task]: the task of the server, as in Model/AsyncTalk.v.  [y_up] is
    under way to the server, what has arrived there and was not read yet is in [et_in]; [y_down] is
    what the network holds for the program, which takes it when it reads.  Simplified: the program
    keeps the client when it has done everything. *)
Record aerrand : Type := mk_aerrand {
  y_todo : list deed; y_heard : list owned; y_failed : bool;
  y_reader : reader; y_writer : writer; y_write : option (writer * bytes); y_up : bytes;
  y_at : aserver; y_task : echo_task; y_down : bytes
}.

(** The next deed of the program is begun ([client.send_message(&m).unwrap()],
    src/client/sync.rs:162-167) or done ([client.recv_message().unwrap()],
    src/client/sync.rs:192-194), as in Model/Errand.v. *)
Definition y_turn (k : mkey) (t : aerrand) : option aerrand :=
  match y_failed t, y_write t, y_todo t with
  | true, _, _ | _, Some _, _ | _, _, [] => None
  | false, None, Say m :: l =>
      match writer_send m k (y_writer t) with
      | (Ok _, w') =>
          Some (mk_aerrand l (y_heard t) false (y_reader t) (y_writer t) (Some (w', written (y_writer t) w')) (y_up t)
                  (y_at t) (y_task t) (y_down t))
      | (_, w') =>
          Some (mk_aerrand l (y_heard t) true (y_reader t) w' None (y_up t ++ written (y_writer t) w')
                  (y_at t) (y_task t) (y_down t))
      end
  | false, None, Hear :: l =>
      let (x, r') := reader_recv (y_reader t) in
      if must_wait x (served (y_at t)) (y_down t) then None
      else
        match x with
        | Ok m =>
            Some (mk_aerrand l (y_heard t ++ [m]) false r' (y_writer t) None (y_up t) (y_at t) (y_task t) (y_down t))
        | _ =>
            Some (mk_aerrand l (y_heard t) true (y_reader t) (y_writer t) None (y_up t) (y_at t) (y_task t) (y_down t))
        end
  end.
(** The network takes up to [n] bytes of what the program is writing, if there is room; with the
    last one, the write is over (External: a blocking [TcpStream]). *)
Definition y_send (cap n : nat) (t : aerrand) : option aerrand :=
  match y_write t with
  | None => None
  | Some (w, out) =>
      let j := Nat.min n (cap - (length (y_up t) + length (aev_bytes (et_in (y_task t))))) in
      match firstn j out with
      | [] => None
      | now =>
          Some (mk_aerrand (y_todo t) (y_heard t) (y_failed t) (y_reader t)
                  (match skipn j out with [] => w | _ => y_writer t end)
                  (match skipn j out with [] => None | later => Some (w, later) end) (y_up t ++ now)
                  (y_at t) (y_task t) (y_down t))
      end
  end.
(** The program is in a read and takes up to [n] bytes (websocket-base/src/ws/receiver.rs:40-46). *)
Definition y_read (n : nat) (t : aerrand) : option aerrand :=
  match y_failed t, y_write t, y_todo t with
  | false, None, Hear :: _ =>
      if lacks (y_reader t) then
        match arrive n (y_down t) (y_reader t) with
        | Some (r', q) =>
            Some (mk_aerrand (y_todo t) (y_heard t) false r' (y_writer t) None (y_up t) (y_at t) (y_task t) q)
        | None => None
        end
      else None
  | _, _, _ => None
  end.
(** Bytes arrive at the server. *)
Definition y_arrive (n : nat) (t : aerrand) : aerrand :=
  let e := y_task t in
  mk_aerrand (y_todo t) (y_heard t) (y_failed t) (y_reader t) (y_writer t) (y_write t) (skipn n (y_up t)) (y_at t)
    (mk_task (et_read e) (et_in e ++ apiece n (y_up t)) (et_done e) (et_hold e) (et_closing e) (et_out e)) (y_down t).
(** A poll of the server's task (examples/async-server.rs:48-68) by the executor, as [server_acts] of
    Model/AsyncTalk.v; the program keeps its end open. *)
Definition y_poll (cap : nat) (k : mkey) (extra : N) (t : aerrand) : aerrand :=
  match y_at t with
  | AServed _ => t
  | a =>
      let e := y_task t in
      let n := S (S (task_fuel e)) in
      let '(_, a', e') := aserver_poll a k extra
        (mk_task (et_read e) (can_read false n (et_in e)) (et_done e) (et_hold e) (et_closing e)
           (with_room (cap - length (y_down t)) (n + n + n) (et_out e))) in
      mk_aerrand (y_todo t) (y_heard t) (y_failed t) (y_reader t) (y_writer t) (y_write t) (y_up t) a'
        (mk_task (et_read e') (filter is_adata (et_in e')) (et_done e') (et_hold e') (et_closing e') (no_room (et_out e')))
        (y_down t ++ awritten (et_out e) (et_out e'))
  end.

Inductive yact : Type := YTurn (k : mkey) | YSend (n : nat) | YRead (n : nat) | YArrive (n : nat) | YPoll (k : mkey) (extra : N).
Definition y_stay (t : aerrand) (o : option aerrand) : aerrand := match o with Some t' => t' | None => t end.
Definition aerrand_step (cap : nat) (a : yact) (t : aerrand) : aerrand :=
  match a with
  | YTurn k => y_stay t (y_turn k t)
  | YSend n => y_stay t (y_send cap n t)
  | YRead n => y_stay t (y_read n t)
  | YArrive n => y_arrive n t
  | YPoll k extra => y_poll cap k extra t
  end.
Fixpoint aerrand_run (cap : nat) (acts : list yact) (t : aerrand) : aerrand :=
  match acts with
  | [] => t
  | a :: acts' => aerrand_run cap acts' (aerrand_step cap a t)
  end.
(** Both sides have default limits and nothing was read ahead; [w] is the stream the program writes
    to, [b] the room in the buffer of the server's sink after the handshake. *)
Definition aerrand_new (plan : list deed) (w : wstream) (b : N) : aerrand :=
  mk_aerrand plan [] false (mk_reader (default_receiver true) [] []) (mk_writer (mk_sender true) w) None []
    AGreeting (tk_task (atalk_new [] (fun _ => mk_key x00 x00 x00 x00) 0 b)) [].
