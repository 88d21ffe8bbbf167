(** What the asynchronous chat clients have to say. *)
From Coq Require Import NArith String List.
From Coq.Strings Require Import Byte.
From Verif.Model Require Import Base Io Header Mask Dataframe Text Message Codec Framed Connect AsyncChat.
From Verif.Spec Require Import RfcFrame FrameSpec Unicode Session Fields Echo Chat.
Import ListNotations.
Local Open Scope string_scope.
Local Open Scope list_scope.
Local Open Scope N_scope.

(** The lines typed, all of them text. *)
Definition lines (us : list uev) : list bytes := flat_map (fun u => match u with Typed t => [t] | Idle => [] end) us.
Definition all_text (us : list uev) : Prop :=
  Forall (fun t => well_formed (octets t) /\ size t <= 2 ^ 34) (lines us).
(** What they ask for: up to "/close", which is the last. *)
Inductive asks : list bytes -> list owned -> Prop :=
| asks_none : asks [] []
| asks_close : forall ts, asks (ascii "/close" :: ts) [OClose None]
| asks_more : forall t ts us, t <> ascii "/close" -> asks ts us -> asks (t :: ts) (command t :: us).
(** [prefix a l]: [l] begins with [a]. *)
Definition prefix {A : Type} (a l : list A) : Prop := exists b, l = a ++ b.
(** What a program says to the messages received. *)
Definition said_to (p : chat_program) (m : owned) : list owned :=
  match p, m with
  | _, OPing d => [OPong d]
  | SslClient, OClose e => [OClose e]
  | _, _ => []
  end.
