(** A handshake that the peer, or the network, cuts off. *)
From Coq Require Import NArith List.
From Coq.Strings Require Import Byte.
From Verif.Model Require Import Base Io Framed.
From Verif.Spec Require Import HttpHead.
Import ListNotations.
Local Open Scope list_scope.

(** How an asynchronous transport leaves off: with the end of the stream, or with an error. *)
Inductive leaving : Type := Ends | Breaks (k : io_kind).
(** [acut c o s]: [s] delivers [c], in any number of reads with any pauses, and then leaves off with
    [o]; after an error it may show anything. *)
Definition acut (c : bytes) (o : leaving) (s : list aev) : Prop :=
  exists s1, undisturbed s1 /\ aev_bytes s1 = c /\
    match o with Ends => s = s1 | Breaks k => exists more, s = s1 ++ AErr k :: more end.
(** What the library makes of it where it waits for a head: the error, or if the stream just ended:
    [none] when nothing had come, and an error of kind "other" when something had. *)
Definition told {A : Type} (c : bytes) (o : leaving) (none : A) (io : io_kind -> A) : A :=
  match o, c with
  | Breaks k, _ => io k
  | Ends, [] => none
  | Ends, _ => io (OtherKind 0)
  end.
