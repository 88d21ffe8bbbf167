(** What is asked of two programs with clients of either kind (Model/Kinds.v), beside Spec/Queues.v. *)
From Coq Require Import NArith String Bool List.
From Verif.Model Require Import Base Io Message Errand Programs Kinds.
From Verif.Spec Require Import RfcFrame FrameSpec Drive Session Connection Queues.
Import ListNotations.
Local Open Scope list_scope.

(** The stream of a blocking client takes everything, if need be in parts. *)
Definition works (s : start) : Prop := match s with WithBlocking w => never_fails w | WithPolling _ => True end.
(** Nothing can happen any more. *)
Definition pairing_rests (f1 f2 : program) (cap : nat) (t : pairing) : Prop := forall a, pairing_step f1 f2 cap a t = None.
(** Not in the middle of saying something. *)
Definition peer_free (p : peer) : Prop := match p with Blocking u => free u | Polling a => au_busy a = false end.
