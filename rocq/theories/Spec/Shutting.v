(** What shutting a connection down is to do. *)
From Coq Require Import NArith Bool List.
From Coq.Strings Require Import Byte.
From Verif.Model Require Import Base Io Header Mask Dataframe Message Receiver Connect Shutdown.
Import ListNotations.

(** The calls after which this side has no more to read, and those after which it has no more
    to say. *)
Definition stops_reading (e : conn_event) : Prop :=
  e = ReaderShutdown \/ e = ReaderShutdownAll \/ e = WriterShutdownAll.
Definition stops_writing (e : conn_event) : Prop :=
  e = WriterShutdown \/ e = WriterShutdownAll \/ e = ReaderShutdownAll.
(** The network brings something. *)
Definition brings (e : conn_event) : Prop := match e with Arrive bs => bs <> [] | ArriveEnd => True | _ => False end.

(** What sending gave, and what receiving gave. *)
Definition of_sending (o : conn_outcome) : bool := match o with Wrote _ => true | _ => false end.
Definition of_receiving (o : conn_outcome) : bool := match o with Got _ | Waits => true | _ => false end.
(** The messages that were sent, as far as the sender was told. *)
Fixpoint told_sent (es : list conn_event) (os : list conn_outcome) : list (owned * mkey) :=
  match es, os with
  | DoSend m k :: es', Wrote (Ok _) :: os' => (m, k) :: told_sent es' os'
  | _ :: es', _ :: os' => told_sent es' os'
  | _, _ => []
  end.
(** The event was among those that happened, and the half it is a method of was there. *)
Definition took_place (P : conn_event -> Prop) (es : list conn_event) (os : list conn_outcome) : Prop :=
  exists e, P e /\ In (e, Nothing) (combine es os).
(** A wait, had the stream been at its end. *)
Definition not_waiting (o : conn_outcome) : conn_outcome :=
  match o with Waits => Got (Err NoDataAvailable) | _ => o end.
