(** What can happen over a narrow network. *)
From Coq Require Import List.
From Verif.Model Require Import Base Io Header Mask Dataframe Text Message Receiver Connect Examples ChatClient Talk Narrow.
Import ListNotations.

(** Nothing can happen any more. *)
Definition narrow_rest (cap : nat) (b : narrow) : Prop := forall a, narrow_step cap a b = None.
(** How many of the actions given did happen. *)
Fixpoint narrow_happened (cap : nat) (acts : list nact) (b : narrow) : nat :=
  match acts with
  | [] => 0
  | a :: acts' =>
      match narrow_step cap a b with
      | Some b' => S (narrow_happened cap acts' b')
      | None => narrow_happened cap acts' b
      end
  end.
(** A stretch of time in which everyone gets a turn: each thread, the server, and the network at
    all its four ends. *)
Definition narrow_round (acts : list nact) : Prop :=
  In (NClient Main) acts /\ (exists ks, In (NClient (SendLoop ks)) acts) /\ In (NClient ReceiveLoop) acts /\
  (exists k, In (NServer k) acts) /\ (exists n, In (NUp (S n)) acts) /\ (exists n, In (NDown (S n)) acts) /\
  (exists n, In (PushUp (S n)) acts) /\ (exists n, In (PushDown (S n)) acts).
