(** What is to be heard by the chat client of examples/client.rs from the server of
    examples/async-server.rs. *)
From Coq Require Import NArith String List.
From Coq.Strings Require Import Byte.
From Verif.Model Require Import Base Io Header Mask Dataframe Text Message Receiver Connect Examples ChatClient Talk Narrow AsyncTalk Mixture.
From Verif.Spec Require Import FrameSpec Session Fields Echo Chat.
Import ListNotations.
Local Open Scope string_scope.
Local Open Scope list_scope.

(** The conversation as the user sees it. *)
Definition xconversation (us : list owned) : list owned :=
  OText (ascii "Hello World!") :: flat_map echo_all us ++ [OClose None].

(** A stretch of time in which everyone gets a turn: each thread of the client, the server's
    task, and the network at all its ends. *)
Definition mixed_round (acts : list xact) : Prop :=
  In (XClient Main) acts /\ (exists ks, In (XClient (SendLoop ks)) acts) /\ In (XClient ReceiveLoop) acts /\
  (exists n, In (XPush (S n)) acts) /\ (exists n, In (XTake (S n)) acts) /\ (exists n, In (XArrive (S n)) acts) /\
  (exists k e, In (XPoll k e) acts).
