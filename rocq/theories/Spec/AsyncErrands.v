(** What a program that says and hears in an order laid down beforehand may expect of the server of
    examples/async-server.rs, and when that order is a good one. *)
From Coq Require Import NArith String Bool List.
From Coq.Strings Require Import Byte.
From Verif.Model Require Import Base Io Header Mask Message Receiver Connect Errand AsyncErrand.
From Verif.Spec Require Import RfcFrame FrameSpec Session Unicode Fields Echo Chat Errands.
Import ListNotations.
Local Open Scope string_scope.
Local Open Scope list_scope.

(** All that is to be heard from the server, if [ms], without Pongs, is said. *)
Definition whole_atalk (ms : list owned) : list owned := OText (ascii "Hello World!") :: flat_map answer ms.

(** There is room for more to be said: for all that is owed, or for all that was said; the server
    itself keeps 8192 bytes of what it owes, once it has got rid of its greeting. *)
Definition roomy (cap : nat) (said owed : list owned) : Prop :=
  (down_bytes owed <= cap \/
   down_bytes [OText (ascii "Hello World!")] <= cap /\ down_bytes owed <= cap + N.to_nat 8192 \/
   up_bytes said <= cap)%nat.

(** As [good_plan] of Spec/Errands.v, for this server. *)
Inductive fair_plan (cap : nat) : list owned -> list owned -> list deed -> Prop :=
| fair_done : forall said owed, fair_plan cap said owed []
| fair_hear : forall said m owed l, fair_plan cap said owed l -> fair_plan cap said (m :: owed) (Hear :: l)
| fair_say : forall said owed m l,
    roomy cap (said ++ [m]) owed -> (closing m -> said_in l = []) ->
    fair_plan cap (said ++ [m]) (owed ++ answer m) l -> fair_plan cap said owed (Say m :: l)
| fair_over : forall said m l, closing m -> said_in l = [] -> fair_plan cap (said ++ [m]) [] (Hear :: l).

(** A stretch of time in which everyone gets a turn: the program, the server's task, and the network
    at all its ends. *)
Definition aerrand_round (acts : list yact) : Prop :=
  (exists k, In (YTurn k) acts) /\ (exists n, In (YSend (S n)) acts) /\ (exists n, In (YRead (S n)) acts) /\
  (exists n, In (YArrive (S n)) acts) /\ (exists k e, In (YPoll k e) acts).
Definition aerrand_done (t : aerrand) : Prop := y_todo t = [] /\ y_write t = None /\ y_failed t = false.
