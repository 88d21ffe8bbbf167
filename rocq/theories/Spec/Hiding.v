(** RFC 6455, 10.3: a client's masking is there so that whoever chooses the payload does not choose
    the bytes on the wire. *)
From Coq Require Import NArith Bool List.
From Coq.Strings Require Import Byte.
From Verif.Model Require Import Base Header.
Import ListNotations.

(** [t] stands in [l] from the octet number [i] on. *)
Definition stands_at (i : nat) (t l : list byte) : Prop :=
  exists before after, l = before ++ t ++ after /\ length before = i.

(** The 2^32 masking keys, numbered. *)
Definition key_number (k : mkey) : N :=
  (2 ^ 24 * Byte.to_N (k0 k) + 2 ^ 16 * Byte.to_N (k1 k) + 2 ^ 8 * Byte.to_N (k2 k) + Byte.to_N (k3 k))%N.
