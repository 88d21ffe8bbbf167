(** What a peer has got over a writer that keeps bytes back. *)
From Coq Require Import NArith List.
From Coq.Strings Require Import Byte.
From Verif.Model Require Import Base Header Dataframe Message Unflushed.
From Verif.Spec Require Import RfcFrame FrameSpec Unicode Session.
Import ListNotations.
Local Open Scope list_scope.
Local Open Scope N_scope.

(** The two writers of the standard library that do so. *)
Definition lazy_writer (write : keeping -> bytes -> keeping) : Prop :=
  write = bufw_write \/ write = linew_write.
(** The frames of some messages on the wire. *)
Definition frames_for (mask : bool) (l : list (owned * mkey)) : list N :=
  concat (map (fun p => rfc_encode (rfc_of_frame (whole_frame (fst p)) (if mask then Some (snd p) else None))) l).
(** [b'] is [b] after [data] was written: nothing lost, nothing changed, and no more than a
    buffer is kept back. *)
Definition took (b b' : keeping) (data : list N) : Prop :=
  octets (kp_on b') ++ octets (kp_buf b') = octets (kp_on b) ++ octets (kp_buf b) ++ data /\
  (exists more, kp_on b' = kp_on b ++ more) /\
  kp_cap b' = kp_cap b /\ (size (kp_buf b) <= kp_cap b -> size (kp_buf b') <= kp_cap b').
