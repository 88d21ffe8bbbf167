(** External: sha-1 0.8 [Sha1::digest] (FIPS 180-4), used by websocket-base/src/header.rs:108. *)
From Coq Require Import NArith List.
From Coq.Strings Require Import Byte.
From Verif.Model Require Import Base.
Import ListNotations.
Local Open Scope N_scope.

(** [u32] arithmetic. *)
Definition w32 (n : N) : N := n mod 4294967296.
Definition rotl32 (n k : N) : N := N.lor (w32 (N.shiftl n k)) (N.shiftr n (32 - k)).
Definition be32 (n : N) : bytes := [n2b (n / 16777216); n2b (n / 65536); n2b (n / 256); n2b n].

(** Padding to a multiple of 64 bytes. *)
Definition sha1_pad (m : bytes) : bytes :=
  m ++ [x80] ++ repeat x00 (N.to_nat ((119 - llen m mod 64) mod 64)) ++ be64 (8 * llen m).

(** The big-endian words of a block. *)
Fixpoint sha1_words (l : bytes) : list N :=
  match l with
  | a :: b :: c :: d :: l' => of_be [a; b; c; d] :: sha1_words l'
  | _ => []
  end.
(** The message schedule, built backwards: the head of the list is the latest word. *)
Fixpoint sha1_schedule (n : nat) (rws : list N) : list N :=
  match n with
  | O => rws
  | S n' =>
      let w := rotl32 (N.lxor (N.lxor (nth 2 rws 0) (nth 7 rws 0))
                              (N.lxor (nth 13 rws 0) (nth 15 rws 0))) 1 in
      sha1_schedule n' (w :: rws)
  end.
Definition sha1_f (t b c d : N) : N :=
  if t <? 20 then N.lxor d (N.land b (N.lxor c d))
  else if t <? 40 then N.lxor b (N.lxor c d)
  else if t <? 60 then N.lor (N.land b c) (N.land d (N.lor b c))
  else N.lxor b (N.lxor c d).
Definition sha1_k (t : N) : N :=
  if t <? 20 then 1518500249 else if t <? 40 then 1859775393
  else if t <? 60 then 2400959708 else 3395469782.
Record sha1_state : Type := mk_sha { sh_a : N; sh_b : N; sh_c : N; sh_d : N; sh_e : N }.
Fixpoint sha1_rounds (ws : list N) (t : N) (s : sha1_state) : sha1_state :=
  match ws with
  | [] => s
  | w :: ws' =>
      let tmp := w32 (rotl32 (sh_a s) 5 + sha1_f t (sh_b s) (sh_c s) (sh_d s) + sh_e s + sha1_k t + w) in
      sha1_rounds ws' (t + 1) (mk_sha tmp (sh_a s) (rotl32 (sh_b s) 30) (sh_c s) (sh_d s))
  end.
Definition sha1_block (block : bytes) (s : sha1_state) : sha1_state :=
  let ws := List.rev (sha1_schedule 64 (List.rev (sha1_words block))) in
  let r := sha1_rounds ws 0 s in
  mk_sha (w32 (sh_a s + sh_a r)) (w32 (sh_b s + sh_b r)) (w32 (sh_c s + sh_c r))
         (w32 (sh_d s + sh_d r)) (w32 (sh_e s + sh_e r)).
Fixpoint sha1_blocks (n : nat) (l : bytes) (s : sha1_state) : sha1_state :=
  match n with
  | O => s
  | S n' => sha1_blocks n' (drop 64 l) (sha1_block (take 64 l) s)
  end.
Definition sha1_init : sha1_state :=
  mk_sha 1732584193 4023233417 2562383102 271733878 3285377520.
Definition sha1 (m : bytes) : bytes :=
  let p := sha1_pad m in
  let s := sha1_blocks (N.to_nat (llen p / 64)) p sha1_init in
  be32 (sh_a s) ++ be32 (sh_b s) ++ be32 (sh_c s) ++ be32 (sh_d s) ++ be32 (sh_e s).
