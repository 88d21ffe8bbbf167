(** What is to be heard from an echo server. *)
From Coq Require Import NArith String List.
From Coq.Strings Require Import Byte.
From Verif.Model Require Import Base Io Header Mask Dataframe Text Message Receiver Connect Examples ChatClient Talk.
From Verif.Spec Require Import FrameSpec Session Echo Chat.
Import ListNotations.
Local Open Scope string_scope.
Local Open Scope list_scope.
Local Open Scope N_scope.

(** [talks lines us]: the user types [lines], then "/close"; [us] are the messages before. *)
Inductive talks : list bytes -> list owned -> Prop :=
| talks_close : forall ts, talks (str "/close" :: ts) []
| talks_line : forall t ts us, t <> str "/close" -> talks ts us -> talks (t :: ts) (command t :: us).

(** The conversation as the user sees it. *)
Definition conversation (us : list owned) : list owned :=
  OText (str "Hello") :: flat_map echo_all us ++ [OClose None].

(** Nothing can happen any more. *)
Definition at_rest (t : talk) : Prop := forall a, talk_step a t = None.
(** How many of the actions given did happen. *)
Fixpoint happened (acts : list act) (t : talk) : nat :=
  match acts with
  | [] => 0
  | a :: acts' =>
      match talk_step a t with
      | Some t' => S (happened acts' t')
      | None => happened acts' t
      end
  end.
Definition letters (lines : list bytes) : nat := fold_right (fun t n => (List.length t + n)%nat) 0%nat lines.
(** A stretch of time in which everyone gets a turn: each thread, the server, and the network
    in either direction. *)
Definition fair_round (acts : list act) : Prop :=
  In (Client Main) acts /\ (exists ks, In (Client (SendLoop ks)) acts) /\ In (Client ReceiveLoop) acts /\
  (exists k, In (Server k) acts) /\ (exists n, In (Up (S n)) acts) /\ (exists n, In (Down (S n)) acts).
