(** The library's messages as what frames say (Conform.v). *)
From Coq Require Import NArith Bool List.
From Coq.Strings Require Import Byte.
From Verif.Model Require Import Base Header Dataframe Message.
From Verif.Spec Require Import RfcFrame FrameSpec Unicode Session Conform.
Import ListNotations.
Local Open Scope N_scope.

Definition saying_of (m : owned) : saying := (rfc_opcode (opcode_of m), octets (payload_of m)).
Definition bare (f : dataframe) : rfc_frame := rfc_of_frame f None.
(** The rules the library does not enforce on what it receives, and on what it sends. *)
Definition lax : rules := {| any_code := true; talk_on := true; look_late := true |}.
Definition lax_sender : rules := {| any_code := true; talk_on := true; look_late := false |}.
(** A close message has no code, or one fit to be sent; and nothing follows it. *)
Definition proper_close (m : owned) : Prop :=
  match m with OClose (Some c) => fit_code (c_status c) | _ => True end.
Definition ends_closing (ms : list owned) : Prop :=
  forall a c b, ms = a ++ OClose c :: b -> b = [].
