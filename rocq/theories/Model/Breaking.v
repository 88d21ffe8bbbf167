(** Two programs, each with a client of either kind, on a connection that may break: at any moment a direction
    of it is cut, and all but the first so many of the bytes under way are lost.  What was not lost can still
    be read; then the reader finds the end.  What is written later is lost.  All else is as in Model/Kinds.v. *)
From Coq Require Import NArith String Bool List.
From Coq.Strings Require Import Byte.
From Verif.Model Require Import Base Io Header Mask Dataframe Text Headers Message Receiver Codec Framed
  Connect Examples AsyncExamples ChatClient Talk Narrow AsyncChat AsyncTalk Errand Dialogue Programs Kinds Endings.
Import ListNotations.
Local Open Scope list_scope.

(** [bk_up]: the direction to the server is cut; [bk_down]: the one to the client. *)
Record breaking : Type := mk_breaking { bk_pair : pairing; bk_up : bool; bk_down : bool }.
(** What may happen: what may happen in Model/Kinds.v; a direction is cut ([true]: to the server) and [n] of the
    bytes under way are not lost; a program (of the client, [true], or the server) comes to the end of a
    direction that is cut, as in Model/Endings.v ([peer_end]). *)
Inductive bkact : Type := BkGo (a : pact) | BkCut (up : bool) (n : nat) | BkEnd (client : bool).
(** External (the system): what is written to a direction that is cut is taken, and lost.  Simplified: that the
    system may report an error for a later write is left out (for the errors of writes see Model/Io.v). *)
Definition breaking_step (f1 f2 : program) (cap : nat) (a : bkact) (t : breaking) : option breaking :=
  let '(mk_breaking (mk_pairing c s u d) bu bd) := t in
  match a with
  | BkGo (PSend true n) =>
      match peer_send cap n (if bu then [] else u) c with Some (c', q) => Some (mk_breaking (mk_pairing c' s (if bu then u else q) d) bu bd) | None => None end
  | BkGo (PSend false n) =>
      match peer_send cap n (if bd then [] else d) s with Some (s', q) => Some (mk_breaking (mk_pairing c s' u (if bd then d else q)) bu bd) | None => None end
  | BkGo a => match pairing_step f1 f2 cap a (mk_pairing c s u d) with Some p => Some (mk_breaking p bu bd) | None => None end
  | BkCut true n => if bu then None else Some (mk_breaking (mk_pairing c s (firstn n u) d) true bd)
  | BkCut false n => if bd then None else Some (mk_breaking (mk_pairing c s u (firstn n d)) bu true)
  | BkEnd true => match peer_end f1 bd d c with Some c' => Some (mk_breaking (mk_pairing c' s u d) bu bd) | None => None end
  | BkEnd false => match peer_end f2 bu u s with Some s' => Some (mk_breaking (mk_pairing c s' u d) bu bd) | None => None end
  end.
Fixpoint breaking_run (f1 f2 : program) (cap : nat) (acts : list bkact) (t : breaking) : breaking :=
  match acts with
  | [] => t
  | a :: acts' => breaking_run f1 f2 cap acts' (match breaking_step f1 f2 cap a t with Some t' => t' | None => t end)
  end.
Definition breaking_new (s1 s2 : start) : breaking := mk_breaking (pairing_new s1 s2) false false.
