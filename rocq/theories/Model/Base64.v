(** External: base64 0.10 [encode]/[decode] with the STANDARD configuration, as used by
    websocket-base/src/header.rs:36,63,83,114.  Only accept/reject and the decoded bytes
    are modelled, not the error position.  Decoding: padding may be missing or incomplete,
    ['='] is accepted only at the end and only where RFC 4648 could put it, a length of
    1 mod 4 is refused, and bits of the last symbol that fall outside the output must be 0
    ([InvalidLastSymbol]). *)
From Coq Require Import NArith String Bool List.
From Coq.Strings Require Import Byte.
From Verif.Model Require Import Base.
Import ListNotations.
Local Open Scope string_scope.
Local Open Scope list_scope.
Local Open Scope N_scope.

(** base64 0.10 tables.rs [STANDARD_ENCODE]. *)
Definition b64_alphabet : bytes :=
  str "ABCDEFGHIJKLMNOPQRSTUVWXYZabcdefghijklmnopqrstuvwxyz0123456789+/".
Definition b64_sym (n : N) : byte := nth (N.to_nat n) b64_alphabet x00.
Definition b64_pad : byte := x3d.

(** base64 0.10 tables.rs [STANDARD_DECODE]. *)
Definition b64_val (c : byte) : option N :=
  let n := b2n c in
  if (65 <=? n) && (n <=? 90) then Some (n - 65)
  else if (97 <=? n) && (n <=? 122) then Some (n - 71)
  else if (48 <=? n) && (n <=? 57) then Some (n + 4)
  else if n =? 43 then Some 62
  else if n =? 47 then Some 63
  else None.

(** base64 0.10 encode.rs [encode_to_slice] and [add_padding]: shifts and masks. *)
Fixpoint b64_encode (l : bytes) : bytes :=
  match l with
  | [] => []
  | [a] =>
      [b64_sym (N.shiftr (b2n a) 2); b64_sym (N.shiftl (N.land (b2n a) 3) 4); b64_pad; b64_pad]
  | [a; b] =>
      [b64_sym (N.shiftr (b2n a) 2);
       b64_sym (N.lor (N.shiftl (N.land (b2n a) 3) 4) (N.shiftr (b2n b) 4));
       b64_sym (N.shiftl (N.land (b2n b) 15) 2); b64_pad]
  | a :: b :: c :: l' =>
      b64_sym (N.shiftr (b2n a) 2)
      :: b64_sym (N.lor (N.shiftl (N.land (b2n a) 3) 4) (N.shiftr (b2n b) 4))
      :: b64_sym (N.lor (N.shiftl (N.land (b2n b) 15) 2) (N.shiftr (b2n c) 6))
      :: b64_sym (N.land (b2n c) 63)
      :: b64_encode l'
  end.

(** base64 0.10 decode.rs: the morsels of one group, two, three or four of them. *)
Definition b64_last2 (a b : byte) : option bytes :=
  match b64_val a, b64_val b with
  | Some x, Some y => if N.land y 15 =? 0 then Some [n2b (N.lor (N.shiftl x 2) (N.shiftr y 4))] else None
  | _, _ => None
  end.
Definition b64_last3 (a b c : byte) : option bytes :=
  match b64_val a, b64_val b, b64_val c with
  | Some x, Some y, Some z =>
      if N.land z 3 =? 0
      then Some [n2b (N.lor (N.shiftl x 2) (N.shiftr y 4));
                 n2b (N.lor (N.shiftl (N.land y 15) 4) (N.shiftr z 2))]
      else None
  | _, _, _ => None
  end.
Definition b64_group (a b c d : byte) : option bytes :=
  match b64_val a, b64_val b, b64_val c, b64_val d with
  | Some x, Some y, Some z, Some w =>
      Some [n2b (N.lor (N.shiftl x 2) (N.shiftr y 4));
            n2b (N.lor (N.shiftl (N.land y 15) 4) (N.shiftr z 2));
            n2b (N.lor (N.shiftl (N.land z 3) 6) w)]
  | _, _, _, _ => None
  end.
Fixpoint b64_decode (l : bytes) : option bytes :=
  match l with
  | [] => Some []
  | [_] => None
  | [a; b] => b64_last2 a b
  | [a; b; c] => if Byte.eqb c b64_pad then b64_last2 a b else b64_last3 a b c
  | a :: b :: c :: d :: l' =>
      match l' with
      | [] =>
          if Byte.eqb d b64_pad
          then if Byte.eqb c b64_pad then b64_last2 a b else b64_last3 a b c
          else b64_group a b c d
      | _ :: _ =>
          match b64_group a b c d, b64_decode l' with
          | Some g, Some r => Some (g ++ r)
          | _, _ => None
          end
      end
  end.
