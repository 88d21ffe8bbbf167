(** What is made of text that is not UTF-8 (Unicode 15, section 3.9, "Substitution of Maximal Subparts"). *)
From Coq Require Import NArith List.
From Coq.Strings Require Import Byte.
From Verif.Spec Require Import Unicode FrameSpec.
Import ListNotations.

(** [c] is a character, *)
Definition character (c : list byte) : Prop := exists x, scalar x /\ octets c = utf8 x.
(** or the beginning of one. *)
Definition begun (c : list byte) : Prop := exists d, character (c ++ d).

(** [repaired l o]: characters are kept; where there is none, as much as could have been the beginning
    of one, and at least a byte, is replaced by U+FFFD. *)
Inductive repaired : list byte -> list byte -> Prop :=
| rep_nil : repaired [] []
| rep_char : forall c l o, character c -> repaired l o -> repaired (c ++ l) (c ++ o)
| rep_bad : forall b l o,
    (forall c r, b ++ l = c ++ r -> ~ character c) ->
    begun b \/ length b = 1 -> b <> [] ->
    (forall b' r, b ++ l = b' ++ r -> begun b' -> length b' <= length b) ->
    repaired l o -> repaired (b ++ l) ([xef; xbf; xbd] ++ o).
