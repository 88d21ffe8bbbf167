(** FIPS 180-4: SHA-1 (sections 2.2.2, 4.1.1, 4.2.1, 5.1.1, 5.2.1, 5.3.1, 6.1), as arithmetic
    on numbers.  A message is a list of octets (SHA-1 is used on whole octets only).  Nothing
    here uses the model. *)
From Coq Require Import NArith List.
From Verif.Spec Require Import RfcFrame.
Import ListNotations.
Local Open Scope N_scope.

(** 2.2.2, 3.2: words of 32 bits; addition modulo 2^32, complement, rotation to the left. *)
Definition add32 (x y : N) : N := (x + y) mod 2 ^ 32.
Definition not32 (x : N) : N := 2 ^ 32 - 1 - x.
Definition ROTL (n x : N) : N := (x * 2 ^ n) mod 2 ^ 32 + x / 2 ^ (32 - n).

(** 4.1.1 *)
Definition Ch (x y z : N) : N := N.lxor (N.land x y) (N.land (not32 x) z).
Definition Parity (x y z : N) : N := N.lxor (N.lxor x y) z.
Definition Maj (x y z : N) : N := N.lxor (N.lxor (N.land x y) (N.land x z)) (N.land y z).
Definition f (t : nat) : N -> N -> N -> N :=
  if Nat.ltb t 20 then Ch else if Nat.ltb t 40 then Parity else if Nat.ltb t 60 then Maj else Parity.
(** 4.2.1 *)
Definition K (t : nat) : N :=
  if Nat.ltb t 20 then 0x5a827999 else if Nat.ltb t 40 then 0x6ed9eba1
  else if Nat.ltb t 60 then 0x8f1bbcdc else 0xca62c1d6.

(** 5.1.1: a one bit, the smallest number of zero bits, and the length in bits as 64 bits. *)
Definition padded (m p : list N) : Prop :=
  exists k : nat,
    p = m ++ [128] ++ repeat 0 k ++ network_order 8 (8 * N.of_nat (length m)) /\
    Nat.modulo (length p) 64 = 0%nat /\ (k < 64)%nat.

(** 5.2.1: the blocks of 64 octets; word [j] of a block, most significant octet first. *)
Definition block (p : list N) (i : nat) : list N := firstn 64 (skipn (64 * i) p).
Definition word (b : list N) (j : nat) : N :=
  let o i := nth (4 * j + i) b 0 in
  o 0%nat * 2 ^ 24 + o 1%nat * 2 ^ 16 + o 2%nat * 2 ^ 8 + o 3%nat.

(** 6.1.2, 1: the message schedule. *)
Definition schedule (b : list N) (W : nat -> N) : Prop :=
  forall t : nat,
    ((t < 16)%nat -> W t = word b t) /\
    ((16 <= t < 80)%nat ->
     W t = ROTL 1 (N.lxor (N.lxor (N.lxor (W (t - 3)%nat) (W (t - 8)%nat)) (W (t - 14)%nat))
                          (W (t - 16)%nat))).

(** 6.1.2, 2 and 3: the working variables before step [t]. *)
Record five : Type := mk5 { va : N; vb : N; vc : N; vd : N; ve : N }.
Definition step (t : nat) (w : N) (v : five) : five :=
  let T := add32 (add32 (add32 (add32 (ROTL 5 (va v)) (f t (vb v) (vc v) (vd v))) (ve v)) (K t)) w in
  mk5 T (va v) (ROTL 30 (vb v)) (vc v) (vd v).
Definition compressed (H : five) (b : list N) (H' : five) : Prop :=
  exists (W : nat -> N) (v : nat -> five),
    schedule b W /\ v 0%nat = H /\
    (forall t : nat, (t < 80)%nat -> v (S t) = step t (W t) (v t)) /\
    H' = mk5 (add32 (va (v 80%nat)) (va H)) (add32 (vb (v 80%nat)) (vb H))
             (add32 (vc (v 80%nat)) (vc H)) (add32 (vd (v 80%nat)) (vd H))
             (add32 (ve (v 80%nat)) (ve H)).

(** 5.3.1 *)
Definition H0 : five := mk5 0x67452301 0xefcdab89 0x98badcfe 0x10325476 0xc3d2e1f0.

(** 6.1: [d] is the SHA-1 digest of [m] (which must be shorter than 2^64 bits). *)
Definition sha1_digest (m d : list N) : Prop :=
  8 * N.of_nat (length m) < 2 ^ 64 /\
  exists (p : list N) (H : nat -> five),
    padded m p /\ H 0%nat = H0 /\
    (forall i : nat, (64 * i < length p)%nat -> compressed (H i) (block p i) (H (S i))) /\
    let h := H (Nat.div (length p) 64) in
    d = network_order 4 (va h) ++ network_order 4 (vb h) ++ network_order 4 (vc h)
        ++ network_order 4 (vd h) ++ network_order 4 (ve h).
