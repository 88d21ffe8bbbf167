(** What is to be seen by the user of examples/async-client.rs when it talks to the server of
    examples/server.rs. *)
From Coq Require Import NArith String Bool List.
From Coq.Strings Require Import Byte.
From Verif.Model Require Import Base Io Message Receiver Connect Examples AsyncExamples AsyncChat AsyncTalk Crossed.
From Verif.Spec Require Import FrameSpec Session Unicode Fields Echo Chat Talking AsyncTalking.
Import ListNotations.
Local Open Scope string_scope.
Local Open Scope list_scope.

(** The conversation as the user sees it, if they wait for its end. *)
Definition yconversation (us : list owned) (closed : bool) : list owned :=
  OText (ascii "Hello") :: flat_map echo_all us ++ if closed then [OClose None] else [].

(** A stretch of time in which everyone gets a turn: the client's task, the thread of the server,
    the network at all its ends, and the user. *)
Definition crossed_round (acts : list yact) : Prop :=
  (exists e, In (YPoll e) acts) /\ (exists k, In (YServe k) acts) /\ (exists n, In (YTake (S n)) acts) /\
  (exists n, In (YPush (S n)) acts) /\ (exists n, In (YArrive (S n)) acts) /\ In YType acts.
