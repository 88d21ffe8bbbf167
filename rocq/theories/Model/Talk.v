(** The chat client of examples/client.rs and the server of examples/server.rs, each at one end
    of a connection.  Both have finished the handshake; the network carries bytes, in order, in
    pieces of any size, after any delay. *)
From Coq Require Import NArith String Bool List.
From Coq.Strings Require Import Byte.
From Verif.Model Require Import Base Io Header Mask Dataframe Text Headers Message Receiver Connect Examples ChatClient.
Import ListNotations.
Local Open Scope string_scope.
Local Open Scope list_scope.

(** The thread of the server for this connection (examples/server.rs:21-45): about to greet,
    in its loop, or over.  When it is over the stream is closed. *)
Inductive srv_at : Type := Greeting | Serving | Served (e : ending).
(** One turn of the thread: the greeting (examples/server.rs:24-25), or one turn of the loop
    [server_loop] of Model/Examples.v ([loop_is_turns] in Props/Talk.v: they are the same). *)
Definition server_turn (a : srv_at) (k : mkey) (r : reader) (w : writer) : srv_at * reader * writer :=
  match a with
  | Greeting =>
      match writer_send (OText (str "Hello")) k w with
      | (Ok _, w') => (Serving, r, w')
      | (_, w') => (Served Panicked, r, w')
      end
  | Serving =>
      match reader_recv r with
      | (Ok m, r') =>
          match m with
          | OClose _ =>
              match writer_send (OClose None) k w with
              | (Ok _, w') => (Served Returned, r', w')
              | (_, w') => (Served Panicked, r', w')
              end
          | OPing ping =>
              match writer_send (OPong ping) k w with
              | (Ok _, w') => (Serving, r', w')
              | (_, w') => (Served Panicked, r', w')
              end
          | _ =>
              match writer_send m k w with
              | (Ok _, w') => (Serving, r', w')
              | (_, w') => (Served Panicked, r', w')
              end
          end
      | (OutOfFuel, r') => (Served NoFuel, r', w)
      | (_, r') => (Served Panicked, r', w)
      end
  | Served e => (Served e, r, w)
  end.

(** The whole: [t_up] and [t_down] are the bytes under way; what has arrived is in the script
    of the reader.  [t_heard]: what the receive loop of the client got, in order. *)
Record talk : Type := mk_talk {
  t_chat : chat; t_up : bytes;
  t_srv : srv_at; t_reader : reader; t_writer : writer; t_down : bytes;
  t_heard : list (result owned ws_error)
}.
(** The bytes written since. *)
Definition written (w w' : writer) : bytes := skipn (length (w_out (wr_out w))) (w_out (wr_out w')).
(** A piece of [n] bytes arrives. *)
Definition arrive (n : nat) (q : bytes) (r : reader) : option (reader * bytes) :=
  match firstn n q with
  | [] => None
  | b :: bs => Some (mk_reader (rd_receiver r) (rd_buf r) (rd_in r ++ [RData b bs]), skipn n q)
  end.
(** Does a reader have to wait?  It does if what has arrived ends before a message does (a read
    at the end of the script gives [NoDataAvailable]), and the other side can still send or
    something is under way. *)
Definition must_wait (x : result owned ws_error) (gone : bool) (q : bytes) : bool :=
  match x with
  | Err NoDataAvailable => negb (gone && match q with [] => true | _ => false end)
  | _ => false
  end.

Inductive act : Type := Client (p : who) | Server (k : mkey) | Up (n : nat) | Down (n : nat).
Definition talk_step (a : act) (t : talk) : option talk :=
  match a with
  | Client p =>
      let x := fst (reader_recv (ch_reader (t_chat t))) in
      let heard := match p with ReceiveLoop => t_heard t ++ [x] | _ => t_heard t end in
      let gone := match t_srv t with Served _ => true | _ => false end in
      if match p with ReceiveLoop => must_wait x gone (t_down t) | _ => false end then None
      else
        match chat_step p (t_chat t) with
        | Some c' =>
            Some (mk_talk c' (t_up t ++ written (ch_writer (t_chat t)) (ch_writer c'))
                    (t_srv t) (t_reader t) (t_writer t) (t_down t) heard)
        | None => None
        end
  | Server k =>
      let gone := match ch_main (t_chat t) with Exited => true | _ => false end in
      match t_srv t with
      | Served _ => None
      | a =>
          if match a with Serving => must_wait (fst (reader_recv (t_reader t))) gone (t_up t) | _ => false end
          then None
          else
            let '(a', r', w') := server_turn a k (t_reader t) (t_writer t) in
            Some (mk_talk (t_chat t) (t_up t) a' r' w' (t_down t ++ written (t_writer t) w') (t_heard t))
      end
  | Up n =>
      match arrive n (t_up t) (t_reader t) with
      | Some (r', q) => Some (mk_talk (t_chat t) q (t_srv t) r' (t_writer t) (t_down t) (t_heard t))
      | None => None
      end
  | Down n =>
      match arrive n (t_down t) (ch_reader (t_chat t)) with
      | Some (r', q) =>
          Some (mk_talk (set_reader r' (t_chat t)) (t_up t) (t_srv t) (t_reader t) (t_writer t) q (t_heard t))
      | None => None
      end
  end.
Fixpoint talk_run (acts : list act) (t : talk) : talk :=
  match acts with
  | [] => t
  | a :: acts' => talk_run acts' (match talk_step a t with Some t' => t' | None => t end)
  end.
(** The receiver each side of a connection with default settings has: the client's from
    src/client/builder.rs:518, which gives the limit of a frame (169) for both limits, the server's
    from src/server/upgrade/sync.rs:80-82 and 96. *)
Definition default_receiver (client : bool) : receiver :=
  if client then receiver_with_limits false DEFAULT_MAX_DATAFRAME_SIZE DEFAULT_MAX_DATAFRAME_SIZE
  else receiver_new true.
(** Both sides have default limits and nothing was read ahead; [w1] and [w2] are the streams
    they write to. *)
Definition talk_new (lines : list bytes) (w1 w2 : wstream) : talk :=
  mk_talk (chat_new lines (mk_reader (default_receiver true) [] []) (mk_writer (mk_sender true) w1)) []
    Greeting (mk_reader (default_receiver false) [] []) (mk_writer (mk_sender false) w2) [] [].
