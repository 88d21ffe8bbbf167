(** RFC 6455 section 5.2 (base framing protocol) and 5.3 (masking), as octet
    arithmetic.  Octets are numbers below 256.  Nothing here uses the model. *)
From Coq Require Import NArith List Bool.
Import ListNotations.
Local Open Scope N_scope.

(** A frame as RFC 6455 describes it. *)
Record rfc_frame : Type := {
  rf_fin : bool;
  rf_rsv1 : bool;
  rf_rsv2 : bool;
  rf_rsv3 : bool;
  rf_opcode : N;                 (* 4 bits *)
  rf_key : option (list N);      (* masking key: 4 octets *)
  rf_payload : list N            (* application data, unmasked *)
}.

Definition bit (b : bool) (weight : N) : N := if b then weight else 0.

(** [k] octets, network byte order. *)
Fixpoint network_order (k : nat) (n : N) : list N :=
  match k with
  | O => []
  | S k' => (n / 256 ^ N.of_nat k') mod 256 :: network_order k' n
  end.

(** Payload length: 7 bits, 7+16 bits or 7+64 bits; the minimal form MUST be used. *)
Definition rfc_len7 (len : N) : N :=
  if len <? 126 then len else if len <? 2 ^ 16 then 126 else 127.
Definition rfc_len_ext (len : N) : list N :=
  if len <? 126 then [] else if len <? 2 ^ 16 then network_order 2 len
  else network_order 8 len.

(** transformed-octet-i = original-octet-i XOR masking-key-octet-(i MOD 4) *)
Fixpoint rfc_mask_from (i : nat) (key data : list N) : list N :=
  match data with
  | [] => []
  | d :: data' => N.lxor d (nth (Nat.modulo i 4) key 0) :: rfc_mask_from (S i) key data'
  end.

(** Everything before the payload, for a payload of [len] octets. *)
Definition rfc_header (f : rfc_frame) (len : N) : list N :=
  [ bit (rf_fin f) 128 + bit (rf_rsv1 f) 64 + bit (rf_rsv2 f) 32 + bit (rf_rsv3 f) 16
    + rf_opcode f;
    bit (match rf_key f with Some _ => true | None => false end) 128 + rfc_len7 len ]
  ++ rfc_len_ext len
  ++ match rf_key f with Some k => k | None => [] end.

Definition rfc_encode (f : rfc_frame) : list N :=
  rfc_header f (N.of_nat (length (rf_payload f)))
  ++ match rf_key f with
     | Some k => rfc_mask_from 0 k (rf_payload f)
     | None => rf_payload f
     end.

(** What a conforming endpoint may put on the wire: the opcode is a nibble, the
    length fits 64 bits, control frames (opcode >= 8) have at most 125 bytes and
    are not fragmented (5.5). *)
Definition rfc_sendable (f : rfc_frame) : Prop :=
  rf_opcode f < 16 /\
  N.of_nat (length (rf_payload f)) < 2 ^ 64 /\
  (8 <= rf_opcode f -> N.of_nat (length (rf_payload f)) <= 125).
Definition rfc_legal (f : rfc_frame) : Prop :=
  rfc_sendable f /\ (8 <= rf_opcode f -> rf_fin f = true).
