(** Programs that say and hear in an order laid down beforehand, and when that order is a good one. *)
From Coq Require Import NArith String Bool List.
From Coq.Strings Require Import Byte.
From Verif.Model Require Import Base Io Header Mask Message Receiver Connect Errand.
From Verif.Spec Require Import RfcFrame FrameSpec Session Unicode Fields Echo Chat.
Import ListNotations.
Local Open Scope string_scope.
Local Open Scope list_scope.

(** What is to be answered to a message. *)
Definition answer (m : owned) : list owned := match m with OClose _ => [OClose None] | _ => echo_all m end.
Definition said_in (plan : list deed) : list owned := flat_map (fun d => match d with Say m => [m] | Hear => [] end) plan.
Definition heard_in (plan : list deed) : nat := List.length (filter (fun d => match d with Hear => true | _ => false end) plan).
(** All that is to be heard from the server, if [ms] is said. *)
Definition whole_talk (ms : list owned) : list owned := OText (ascii "Hello") :: flat_map answer ms.

(** The bytes it takes to say something, upwards and downwards; the key does not matter. *)
Definition up_bytes (ms : list owned) : nat := List.length (client_says (map (fun m => (m, mk_key x00 x00 x00 x00)) ms)).
Definition down_bytes (ms : list owned) : nat := List.length (server_says ms).

(** [good_plan cap said owed plan]: where [said] has been said and [owed] is to be heard yet, the
    rest of the plan asks only for what is owed, unless a Close was said and everything was heard,
    says nothing after a Close, and says something only if all that is owed, or all that was said
    including it, has room in the network. *)
Inductive good_plan (cap : nat) : list owned -> list owned -> list deed -> Prop :=
| plan_done : forall said owed, good_plan cap said owed []
| plan_hear : forall said m owed l, good_plan cap said owed l -> good_plan cap said (m :: owed) (Hear :: l)
| plan_say : forall said owed m l,
    down_bytes owed <= cap \/ up_bytes (said ++ [m]) <= cap ->
    (closing m -> said_in l = []) ->
    good_plan cap (said ++ [m]) (owed ++ answer m) l -> good_plan cap said owed (Say m :: l)
| plan_over : forall said m l, closing m -> said_in l = [] -> good_plan cap (said ++ [m]) [] (Hear :: l).

(** Saying and hearing by turns, and everything at once. *)
Definition by_turns (ms : list owned) : list deed := Hear :: flat_map (fun m => [Say m; Hear]) ms ++ [Say (OClose None); Hear].
Definition at_once (ms : list owned) : list deed :=
  map Say ms ++ Say (OClose None) :: repeat Hear (S (S (List.length ms))).

(** A stretch of time in which everyone gets a turn: the program, the server, and the network at all
    its ends. *)
Definition errand_round (acts : list eact) : Prop :=
  (exists k, In (ETurn k) acts) /\ (exists n, In (ESend (S n)) acts) /\ (exists n, In (ERead (S n)) acts) /\
  (exists k, In (EServe k) acts) /\ (exists n, In (ETake (S n)) acts) /\ (exists n, In (EPush (S n)) acts).
Definition toil (plan : list deed) : nat :=
  fold_right (fun d n => match d with Say m => 11 * List.length (payload_of m) + 156 | Hear => 1 end + n) 0 plan.
Definition errand_done (t : errand) : Prop := e_todo t = [] /\ e_write t = None /\ e_failed t = false.
