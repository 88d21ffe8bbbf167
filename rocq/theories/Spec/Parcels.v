(** An application that sends frames of its own making and messages through the same sender. *)
From Coq Require Import NArith List.
From Coq.Strings Require Import Byte.
From Verif.Model Require Import Base Header Mask Dataframe Message.
From Verif.Spec Require Import FrameSpec Session.
Import ListNotations.
Local Open Scope list_scope.

(** What is sent by one call: [send_dataframe] of a frame, or [send_message] of a message; and what
    is handed to the sender thereby. *)
Inductive parcel : Type := Framewise (f : dataframe) | Whole (m : owned).
Definition parcel_ops (x : parcel) : dataframe_ops :=
  match x with Framewise f => df_ops f | Whole m => owned_ops m end.
(** The frame that it is. *)
Definition parcel_frame (x : parcel) : dataframe :=
  match x with Framewise f => f | Whole m => whole_frame m end.
Definition parcel_typed (x : parcel) : Prop :=
  match x with Framewise _ => True | Whole m => typed m end.
