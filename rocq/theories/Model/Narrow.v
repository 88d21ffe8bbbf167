(** The conversation of Model/Talk.v over a network that holds at most so many bytes in either
    direction.  A write then takes as long as it takes to find room for its last byte, and a
    stream is read only when its reader needs more. *)
From Coq Require Import NArith String Bool List.
From Coq.Strings Require Import Byte.
From Verif.Model Require Import Base Io Header Mask Dataframe Text Headers Message Receiver Connect Examples ChatClient Talk.
Import ListNotations.
Local Open Scope list_scope.

(** [n_talk]: as in Model/Talk.v; [t_up] and [t_down] are the bytes the network holds.
    [n_cl]: the send loop of the client (examples/client.rs:29-57) is in a write: how it will go on, the stream as it will
    be, and what is still to be written.  [n_sv]: the same for the thread of the server
    (examples/server.rs:24-45). *)
Record narrow : Type := mk_narrow {
  n_talk : talk; n_cl : option (send_at * writer * bytes); n_sv : option (srv_at * writer * bytes)
}.
Definition set_talk (t : talk) (b : narrow) : narrow := mk_narrow t (n_cl b) (n_sv b).
Definition with_chat (c : chat) (up : bytes) (t : talk) : talk :=
  mk_talk c up (t_srv t) (t_reader t) (t_writer t) (t_down t) (t_heard t).
Definition with_server (a : srv_at) (r : reader) (w : writer) (down : bytes) (t : talk) : talk :=
  mk_talk (t_chat t) (t_up t) a r w down (t_heard t).
(** Is a thread in a read (websocket-base/src/ws/receiver.rs:40-46: [recv_message] reads when what
    it has does not make a message)? *)
Definition lacks (r : reader) : bool :=
  match fst (reader_recv r) with Err NoDataAvailable => true | _ => false end.
Definition server_reads (b : narrow) : bool :=
  match n_sv b, t_srv (n_talk b) with None, Serving => lacks (t_reader (n_talk b)) | _, _ => false end.
Definition client_reads (b : narrow) : bool :=
  match ch_recv (t_chat (n_talk b)) with Listening => lacks (ch_reader (t_chat (n_talk b))) | _ => false end.

(** [PushUp], [PushDown]: the network takes up to so many bytes of what is being written, if there
    is room (External: a blocking [TcpStream]); with the last one, the write is over. *)
Inductive nact : Type := NClient (p : who) | NServer (k : mkey) | NUp (n : nat) | NDown (n : nat)
  | PushUp (n : nat) | PushDown (n : nat).
Definition narrow_step (cap : nat) (a : nact) (b : narrow) : option narrow :=
  let t := n_talk b in
  let c := t_chat t in
  match a with
  | NClient (SendLoop ks) =>
      match n_cl b with
      | Some _ => None
      | None =>
          match chat_step (SendLoop ks) c with
          | Some c' =>
              match written (ch_writer c) (ch_writer c') with
              | [] => Some (set_talk (with_chat c' (t_up t) t) b)
              | out => Some (mk_narrow t (Some (ch_send c', ch_writer c', out)) (n_sv b))
              end
          | None => None
          end
      end
  | NClient p =>
      match talk_step (Client p) t with
      | Some t' => Some (set_talk t' b)
      | None => None
      end
  | NServer k =>
      match n_sv b with
      | Some _ => None
      | None =>
          match talk_step (Server k) t with
          | Some t' =>
              match written (t_writer t) (t_writer t') with
              | [] => Some (set_talk t' b)
              | out =>
                  Some (mk_narrow (with_server (t_srv t) (t_reader t') (t_writer t) (t_down t) t) (n_cl b)
                          (Some (t_srv t', t_writer t', out)))
              end
          | None => None
          end
      end
  | NUp n =>
      if server_reads b then
        match talk_step (Up n) t with
        | Some t' => Some (set_talk t' b)
        | None => None
        end
      else None
  | NDown n =>
      if client_reads b then
        match talk_step (Down n) t with
        | Some t' => Some (set_talk t' b)
        | None => None
        end
      else None
  | PushUp n =>
      match n_cl b with
      | None => None
      | Some (a, w, out) =>
          let j := Nat.min n (cap - length (t_up t)) in
          match firstn j out with
          | [] => None
          | now =>
              match skipn j out with
              | [] => Some (mk_narrow (with_chat (at_send a (set_writer w c)) (t_up t ++ now) t) None (n_sv b))
              | later => Some (mk_narrow (with_chat c (t_up t ++ now) t) (Some (a, w, later)) (n_sv b))
              end
          end
      end
  | PushDown n =>
      match n_sv b with
      | None => None
      | Some (a, w, out) =>
          let j := Nat.min n (cap - length (t_down t)) in
          match firstn j out with
          | [] => None
          | now =>
              match skipn j out with
              | [] => Some (mk_narrow (with_server a (t_reader t) w (t_down t ++ now) t) (n_cl b) None)
              | later =>
                  Some (mk_narrow (with_server (t_srv t) (t_reader t) (t_writer t) (t_down t ++ now) t) (n_cl b)
                          (Some (a, w, later)))
              end
          end
      end
  end.
Fixpoint narrow_run (cap : nat) (acts : list nact) (b : narrow) : narrow :=
  match acts with
  | [] => b
  | a :: acts' => narrow_run cap acts' (match narrow_step cap a b with Some b' => b' | None => b end)
  end.
Definition narrow_new (lines : list bytes) (w1 w2 : wstream) : narrow := mk_narrow (talk_new lines w1 w2) None None.
