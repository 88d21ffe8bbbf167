(** Two programs that say and hear, each in an order laid down beforehand, and when these orders fit
    together. *)
From Coq Require Import NArith String Bool List.
From Coq.Strings Require Import Byte.
From Verif.Model Require Import Base Io Header Mask Message Receiver Connect Errand Dialogue.
From Verif.Spec Require Import RfcFrame FrameSpec Session Chat Errands.
Import ListNotations.

(** [meets size1 size2 cap on1 on2 p q]: with the messages [on1] said by the first program, and [on2]
    by the second, and not heard yet, there is an order in which the rest of the two plans, [p] and [q],
    can be gone through one deed at a time.  Something can be said if, with all that was said and not
    heard, it has room in the network, or if the other program is about to hear it. *)
Section Meeting.
Variables (size1 size2 : list owned -> nat) (cap : nat).
Inductive meets : list owned -> list owned -> list deed -> list deed -> Prop :=
| meets_done : forall on1 on2, meets on1 on2 [] []
| meets_say1 : forall on1 on2 m p q, size1 (on1 ++ [m]) <= cap -> meets (on1 ++ [m]) on2 p q -> meets on1 on2 (Say m :: p) q
| meets_say2 : forall on1 on2 m p q, size2 (on2 ++ [m]) <= cap -> meets on1 (on2 ++ [m]) p q -> meets on1 on2 p (Say m :: q)
| meets_hear1 : forall on1 on2 m p q, meets on1 on2 p q -> meets on1 (m :: on2) (Hear :: p) q
| meets_hear2 : forall on1 on2 m p q, meets on1 on2 p q -> meets (m :: on1) on2 p (Hear :: q)
| meets_pass1 : forall on2 m p q, meets [] on2 p q -> meets [] on2 (Say m :: p) (Hear :: q)
| meets_pass2 : forall on1 m p q, meets on1 [] p q -> meets on1 [] (Hear :: p) (Say m :: q).
End Meeting.

(** A conversation laid down for both: who says what, in turn ([true]: the client). *)
Definition part_of (client : bool) (script : list (bool * owned)) : list deed :=
  map (fun x => if Bool.eqb (fst x) client then Say (snd x) else Hear) script.
Definition lines_of (client : bool) (script : list (bool * owned)) : list owned :=
  map snd (filter (fun x => Bool.eqb (fst x) client) script).

(** Everyone gets a turn: the two programs, and the network at all its ends. *)
Definition dialogue_round (acts : list dact) : Prop :=
  (exists k, In (DTurn true k) acts) /\ (exists n, In (DSend true (S n)) acts) /\ (exists n, In (DRead true (S n)) acts) /\
  (exists k, In (DTurn false k) acts) /\ (exists n, In (DSend false (S n)) acts) /\ (exists n, In (DRead false (S n)) acts).
Definition party_done (p : party) : Prop := p_todo p = [] /\ p_write p = None /\ p_failed p = false.
Definition dialogue_done (t : dialogue) : Prop := party_done (d_client t) /\ party_done (d_server t).
