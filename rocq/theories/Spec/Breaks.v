(** What is asked of two programs on a connection that may break (Model/Breaking.v), beside Spec/Partings.v. *)
From Coq Require Import NArith String Bool List.
From Verif.Model Require Import Base Io Message Errand Programs Kinds Endings Breaking.
From Verif.Spec Require Import RfcFrame FrameSpec Drive Session Queues Pairings Partings.
Import ListNotations.
Local Open Scope list_scope.

Definition bk_client_past (t : breaking) : list happening := peer_past (p_client (bk_pair t)).
Definition bk_server_past (t : breaking) : list happening := peer_past (p_server (bk_pair t)).
(** Cuts come as they like; all else has come to rest. *)
Definition breaking_rests (f1 f2 : program) (cap : nat) (t : breaking) : Prop :=
  (forall a, breaking_step f1 f2 cap (BkGo a) t = None) /\ (forall c, breaking_step f1 f2 cap (BkEnd c) t = None).
(** The program ([f], with the client [x]) is done; or it waits, where the direction to it is not cut and, unless
    its partner is in the middle of saying something, it has heard all that was said; or it has not finished
    saying something, the network is full and the direction from it is not cut. *)
Definition bk_settled (cap : nat) (f : program) (x y : peer) (out inn : bytes) (cut_out cut_in : bool) : Prop :=
  f (peer_past x) = None /\ peer_free x \/
  f (peer_past x) = Some Hear /\ inn = [] /\ cut_in = false /\ (peer_free y -> words_heard (peer_past x) = words_said (peer_past y)) \/
  ~ peer_free x /\ List.length out = cap /\ cut_out = false.
