(** RFC 4648 section 4, base 64: 24-bit groups written with four symbols, most significant
    first, the last group completed with ['='].  By arithmetic on the group's value. *)
From Coq Require Import NArith String List.
From Coq.Strings Require Import Byte.
Import ListNotations.
Local Open Scope N_scope.

Definition symbol (n : N) : byte :=
  nth (N.to_nat n)
    (list_byte_of_string "ABCDEFGHIJKLMNOPQRSTUVWXYZabcdefghijklmnopqrstuvwxyz0123456789+/") x00.
Definition num (b : byte) : N := Byte.to_N b.
Fixpoint base64_text (l : list byte) : list byte :=
  match l with
  | [] => []
  | [a] =>
      let n := num a * 65536 in
      [symbol (n / 262144); symbol ((n / 4096) mod 64); x3d; x3d]
  | [a; b] =>
      let n := num a * 65536 + num b * 256 in
      [symbol (n / 262144); symbol ((n / 4096) mod 64); symbol ((n / 64) mod 64); x3d]
  | a :: b :: c :: l' =>
      let n := num a * 65536 + num b * 256 + num c in
      [symbol (n / 262144); symbol ((n / 4096) mod 64); symbol ((n / 64) mod 64); symbol (n mod 64)]
      ++ base64_text l'
  end.
(** [t] is the encoding of [l], possibly with some of the padding left out. *)
Definition base64_of (l t : list byte) : Prop :=
  exists p, base64_text l = t ++ p /\ Forall (eq x3d) p.
