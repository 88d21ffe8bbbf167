(** External: [core::str::from_utf8] and [String::from_utf8_lossy]. *)
From Coq Require Import NArith List Bool.
From Coq.Strings Require Import Byte.
From Verif.Model Require Import Base.
Import ListNotations.
Local Open Scope N_scope.

Definition in_range (lo hi : N) (b : byte) : bool := (lo <=? b2n b) && (b2n b <=? hi).
(** continuation byte 80..BF *)
Definition is_cont (b : byte) : bool := in_range 0x80 0xBF b.

(** core/src/str/validations.rs [run_utf8_validation]: the allowed second byte of
    a three (four) byte sequence depends on the first. *)
Definition second3_ok (b0 b1 : byte) : bool :=
  if b2n b0 =? 0xE0 then in_range 0xA0 0xBF b1
  else if b2n b0 =? 0xED then in_range 0x80 0x9F b1
  else in_range 0x80 0xBF b1.
Definition second4_ok (b0 b1 : byte) : bool :=
  if b2n b0 =? 0xF0 then in_range 0x90 0xBF b1
  else if b2n b0 =? 0xF4 then in_range 0x80 0x8F b1
  else in_range 0x80 0xBF b1.

(** [from_utf8(v).is_ok()] *)
Fixpoint utf8_valid (l : bytes) : bool :=
  match l with
  | [] => true
  | b0 :: l0 =>
      if b2n b0 <? 0x80 then utf8_valid l0
      else if in_range 0xC2 0xDF b0 then
        match l0 with
        | b1 :: l1 => is_cont b1 && utf8_valid l1
        | [] => false
        end
      else if in_range 0xE0 0xEF b0 then
        match l0 with
        | b1 :: b2 :: l2 => second3_ok b0 b1 && is_cont b2 && utf8_valid l2
        | _ => false
        end
      else if in_range 0xF0 0xF4 b0 then
        match l0 with
        | b1 :: b2 :: b3 :: l3 =>
            second4_ok b0 b1 && is_cont b2 && is_cont b3 && utf8_valid l3
        | _ => false
        end
      else false
  end.

(** U+FFFD REPLACEMENT CHARACTER *)
Definition replacement : bytes := [xef; xbf; xbd].

(** [String::from_utf8_lossy] (core/src/str/lossy.rs [Utf8Chunks]): valid
    sequences are kept; each maximal prefix of a valid sequence that cannot be
    continued (at least one byte) becomes one U+FFFD. *)
Fixpoint utf8_lossy (l : bytes) : bytes :=
  match l with
  | [] => []
  | b0 :: l0 =>
      if b2n b0 <? 0x80 then b0 :: utf8_lossy l0
      else if in_range 0xC2 0xDF b0 then
        match l0 with
        | b1 :: l1 =>
            if is_cont b1 then b0 :: b1 :: utf8_lossy l1
            else replacement ++ utf8_lossy l0
        | [] => replacement
        end
      else if in_range 0xE0 0xEF b0 then
        match l0 with
        | [] => replacement
        | b1 :: l1 =>
            if second3_ok b0 b1 then
              match l1 with
              | [] => replacement
              | b2 :: l2 =>
                  if is_cont b2 then b0 :: b1 :: b2 :: utf8_lossy l2
                  else replacement ++ utf8_lossy l1
              end
            else replacement ++ utf8_lossy l0
        end
      else if in_range 0xF0 0xF4 b0 then
        match l0 with
        | [] => replacement
        | b1 :: l1 =>
            if second4_ok b0 b1 then
              match l1 with
              | [] => replacement
              | b2 :: l2 =>
                  if is_cont b2 then
                    match l2 with
                    | [] => replacement
                    | b3 :: l3 =>
                        if is_cont b3 then b0 :: b1 :: b2 :: b3 :: utf8_lossy l3
                        else replacement ++ utf8_lossy l2
                    end
                  else replacement ++ utf8_lossy l1
              end
            else replacement ++ utf8_lossy l0
        end
      else replacement ++ utf8_lossy l0
  end.
