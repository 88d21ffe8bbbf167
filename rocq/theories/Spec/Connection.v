(** Programs that use a connection, and what connections are made from. *)
From Coq Require Import NArith String List Bool.
From Coq.Strings Require Import Byte.
From Verif.Model Require Import Base Io Header Mask Dataframe Headers Handshake Message Receiver
  Codec Framed Http Connect.
From Verif.Spec Require Import Fields HttpHead.
Import ListNotations.
Local Open Scope list_scope.
Local Open Scope N_scope.

(** What a program can do with a blocking connection, and what it gets. *)
Inductive use : Type :=
| SendMessage (m : owned) (k : mkey) | SendFrame (d : dataframe_ops) (k : mkey)
| RecvMessage | RecvFrame.
Inductive answer : Type :=
| Sent (r : result unit ws_error)
| Message (r : result owned ws_error)
| Frame (r : result dataframe ws_error).
Definition receives (u : use) : bool :=
  match u with RecvMessage | RecvFrame => true | _ => false end.
Definition received (a : answer) : bool := match a with Sent _ => false | _ => true end.
Definition sends (u : use) : bool := negb (receives u).
Definition sent (a : answer) : bool := negb (received a).

Definition use_client (u : use) (c : client) : answer * client :=
  match u with
  | SendMessage m k => let '(r, c') := client_send m k c in (Sent r, c')
  | SendFrame d k => let '(r, c') := client_send_frame d k c in (Sent r, c')
  | RecvMessage => let '(r, c') := client_recv c in (Message r, c')
  | RecvFrame => let '(r, c') := client_recv_frame c in (Frame r, c')
  end.
Fixpoint client_run (us : list use) (c : client) : list answer * client :=
  match us with
  | [] => ([], c)
  | u :: us' =>
      let '(a, c1) := use_client u c in
      let '(l, c2) := client_run us' c1 in (a :: l, c2)
  end.
(** The same with the two halves: receiving by the reader, sending by the writer. *)
Definition use_pair (u : use) (p : reader * writer) : answer * (reader * writer) :=
  let '(r, w) := p in
  match u with
  | SendMessage m k => let '(x, w') := writer_send m k w in (Sent x, (r, w'))
  | SendFrame d k => let '(x, w') := writer_send_frame d k w in (Sent x, (r, w'))
  | RecvMessage => let '(x, r') := reader_recv r in (Message x, (r', w))
  | RecvFrame => let '(x, r') := reader_recv_frame r in (Frame x, (r', w))
  end.
Fixpoint pair_run (us : list use) (p : reader * writer) : list answer * (reader * writer) :=
  match us with
  | [] => ([], p)
  | u :: us' =>
      let '(a, p1) := use_pair u p in
      let '(l, p2) := pair_run us' p1 in (a :: l, p2)
  end.
(** Each half used by its own thread: what either does. *)
Fixpoint reader_run (us : list use) (r : reader) : list answer * reader :=
  match us with
  | [] => ([], r)
  | RecvMessage :: us' =>
      let '(x, r1) := reader_recv r in let '(l, r2) := reader_run us' r1 in (Message x :: l, r2)
  | RecvFrame :: us' =>
      let '(x, r1) := reader_recv_frame r in let '(l, r2) := reader_run us' r1 in (Frame x :: l, r2)
  | _ :: us' => reader_run us' r
  end.
Fixpoint writer_run (us : list use) (w : writer) : list answer * writer :=
  match us with
  | [] => ([], w)
  | SendMessage m k :: us' =>
      let '(x, w1) := writer_send m k w in let '(l, w2) := writer_run us' w1 in (Sent x :: l, w2)
  | SendFrame d k :: us' =>
      let '(x, w1) := writer_send_frame d k w in let '(l, w2) := writer_run us' w1 in (Sent x :: l, w2)
  | _ :: us' => writer_run us' w
  end.

(** Receiving [n] messages from a connection. *)
Fixpoint client_recv_n (n : nat) (c : client) : list (result owned ws_error) * client :=
  match n with
  | O => ([], c)
  | S n' =>
      let '(x, c1) := client_recv c in
      let '(l, c2) := client_recv_n n' c1 in (x :: l, c2)
  end.
(** What a connection will still show its reader: what it buffered, then its stream. *)
Definition unread (c : client) : list (byte + rd_ev) :=
  map inl (c_buf c) ++ spread (c_in c).

(** Polling a stream of items [n] times. *)
Fixpoint poll_n {St Item : Type}
  (decode : St -> bytes -> result (option Item) ws_error * St * bytes)
  (n : nat) (s : list aev) (f : framed St) : list (poll Item) :=
  match n with
  | O => []
  | S n' => let '(p, f', s') := framed_poll decode s f in p :: poll_n decode n' s' f'
  end.

(** A transport that takes everything sooner or later. *)
Definition never_fails (w : wstream) : Prop :=
  Forall (fun e => match e with WAccept _ | WIntr => True | _ => False end) (w_script w).
Definition afails_never (w : fwrite) : Prop :=
  Forall (fun e => match e with AwAccept _ | AwNotReady => True | _ => False end) (fw_ws w) /\
  Forall (fun e => match e with AfReady | AfNotReady => True | _ => False end) (fw_fs w).

(** ** The asynchronous server *)

(** The connections and the listener's errors, in the order they came. *)
Fixpoint arrived (es : list incoming_event) : list (N * list aev * fwrite) :=
  match es with
  | [] => []
  | NewConnection p s w :: es' => (p, s, w) :: arrived es'
  | _ :: es' => arrived es'
  end.
Fixpoint listener_errors (es : list incoming_event) : list io_kind :=
  match es with
  | [] => []
  | ListenerError k :: es' => k :: listener_errors es'
  | _ :: es' => listener_errors es'
  end.
(** What the stream of incoming connections gave: outcomes, and listener errors. *)
Fixpoint outcomes {A B : Type} (l : list (A + B)) : list A :=
  match l with [] => [] | inl a :: l' => a :: outcomes l' | inr _ :: l' => outcomes l' end.
Fixpoint failures {A B : Type} (l : list (A + B)) : list B :=
  match l with [] => [] | inl _ :: l' => failures l' | inr b :: l' => b :: failures l' end.
(** The outcome of a connection's handshake on its own. *)
Definition alone (X : http_lib) (c : N * list aev * fwrite) : N * result aupgrade arefusal :=
  let '(p, s, w) := c in (p, async_into_ws X s w).
Definition only_polls (es : list incoming_event) : Prop :=
  Forall (fun e => match e with PollFuture _ => True | _ => False end) es.
