(** Unicode scalar values and their UTF-8 encoding (Unicode 15, table 3-6). *)
From Coq Require Import NArith List.
Import ListNotations.
Local Open Scope N_scope.

Definition scalar (c : N) : Prop := c < 0xD800 \/ (0xE000 <= c /\ c < 0x110000).

Definition utf8 (c : N) : list N :=
  if c <? 0x80 then [c]
  else if c <? 0x800 then [0xC0 + c / 64; 0x80 + c mod 64]
  else if c <? 0x10000 then [0xE0 + c / 4096; 0x80 + (c / 64) mod 64; 0x80 + c mod 64]
  else [0xF0 + c / 262144; 0x80 + (c / 4096) mod 64; 0x80 + (c / 64) mod 64; 0x80 + c mod 64].

(** [l] is the UTF-8 encoding of some sequence of scalar values. *)
Definition well_formed (l : list N) : Prop :=
  exists cs, Forall scalar cs /\ l = concat (map utf8 cs).
