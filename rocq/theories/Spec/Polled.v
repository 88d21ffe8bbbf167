(** What a list of polls gave. *)
From Coq Require Import List.
From Verif.Model Require Import Framed.
Import ListNotations.

Fixpoint items {Item : Type} (l : list (poll Item)) : list Item :=
  match l with
  | [] => []
  | PItem i :: l' => i :: items l'
  | _ :: l' => items l'
  end.
(** No poll of the list ended the stream or failed. *)
Definition going {Item : Type} (l : list (poll Item)) : Prop :=
  Forall (fun p => match p with PItem _ | PNotReady => True | _ => False end) l.
