(** What may be expected of a server that is asked once in a while. *)
From Coq Require Import NArith String List.
From Coq.Strings Require Import Byte.
From Verif.Model Require Import Base Io Headers Handshake Http Connect Accepting Polling.
From Verif.Spec Require Import Fields HttpHead Accepting.
Import ListNotations.
Local Open Scope list_scope.
Local Open Scope N_scope.

(** Those who were met, in order. *)
Fixpoint met {A} (l : list (option visitor * A)) : list visitor :=
  match l with
  | [] => []
  | (Some v, _) :: l' => v :: met l'
  | (None, _) :: l' => met l'
  end.
Definition whoever (o : option visitor) : list visitor := match o with Some v => [v] | None => [] end.

(** Nobody has called: there is no stream, and the error is the listener's. *)
Definition nobody : outcome := Err (None, UpIo WouldBlock).

(** A visitor of whom just [text] has come when they are taken, in any chunks. *)
Definition has_sent (text : bytes) (v : visitor) : Prop := first_come text [] (v_now v).

(** A valid request that arrives in two parts, and one that is all there. *)
Definition late_visitor : visitor :=
  mk_visitor (chunk (firstn 50 good_request)) (chunk (skipn 50 good_request)) true (mk_w [] []).
Definition prompt_visitor : visitor := mk_visitor (chunk good_request) [] true (mk_w [] []).
Definition mute_visitor : visitor := mk_visitor [] [] true (mk_w [] []).
