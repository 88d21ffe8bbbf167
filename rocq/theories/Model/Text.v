(** Text operations of the standard library used by the HTTP headers.  All of this file is
    External: [str] and [char] of std, [UniCase] of unicase 1. *)
From Coq Require Import NArith String Bool List.
From Coq.Strings Require Import Byte.
From Verif.Model Require Import Base.
Import ListNotations.
Local Open Scope N_scope.

(** External (unicase 1.x): [UniCase] compares ASCII letters without regard to case. *)
Definition lower (b : byte) : byte :=
  if (65 <=? b2n b) && (b2n b <=? 90) then n2b (b2n b + 32) else b.
Fixpoint beqb (s t : bytes) : bool :=
  match s, t with
  | [], [] => true
  | a :: s', b :: t' => Byte.eqb a b && beqb s' t'
  | _, _ => false
  end.
Definition eq_nocase (s t : bytes) : bool := beqb (map lower s) (map lower t).

(** External (std): [char::is_whitespace] on the one, two and three byte encodings. *)
Definition ws1 (a : byte) : bool := ((9 <=? b2n a) && (b2n a <=? 13)) || (b2n a =? 32).
Definition ws2 (a b : byte) : bool :=
  (b2n a =? 0xC2) && ((b2n b =? 0x85) || (b2n b =? 0xA0)).
Definition ws3 (a b c : byte) : bool :=
  match b2n a with
  | 0xE1 => (b2n b =? 0x9A) && (b2n c =? 0x80)
  | 0xE2 => ((b2n b =? 0x80) &&
               (((0x80 <=? b2n c) && (b2n c <=? 0x8A)) ||
                (b2n c =? 0xA8) || (b2n c =? 0xA9) || (b2n c =? 0xAF))) ||
            ((b2n b =? 0x81) && (b2n c =? 0x9F))
  | 0xE3 => (b2n b =? 0x80) && (b2n c =? 0x80)
  | _ => false
  end.
(** External (std): [str::trim_start], and [str::trim_end] on the reversed text. *)
Fixpoint trim_start (s : bytes) : bytes :=
  match s with
  | [] => []
  | a :: r =>
    if ws1 a then trim_start r else
    match r with
    | [] => s
    | b :: r2 =>
      if ws2 a b then trim_start r2 else
      match r2 with
      | [] => s
      | c :: r3 => if ws3 a b c then trim_start r3 else s
      end
    end
  end.
Fixpoint trim_back (s : bytes) : bytes :=
  match s with
  | [] => []
  | a :: r =>
    if ws1 a then trim_back r else
    match r with
    | [] => s
    | b :: r2 =>
      if ws2 b a then trim_back r2 else
      match r2 with
      | [] => s
      | c :: r3 => if ws3 c b a then trim_back r3 else s
      end
    end
  end.
(** External (std): [str::trim] *)
Definition trim (s : bytes) : bytes := rev (trim_back (rev (trim_start s))).

(** External (std): [str::split(c)]: never empty. *)
Fixpoint split_on (c : byte) (s : bytes) : list bytes :=
  match s with
  | [] => [[]]
  | a :: r =>
    if Byte.eqb a c then [] :: split_on c r
    else match split_on c r with
         | p :: ps => (a :: p) :: ps
         | [] => [[a]]
         end
  end.
(** External (std): [str::splitn(2, c)]: the text before the first [c], and what follows it. *)
Fixpoint split2 (c : byte) (s : bytes) : bytes * option bytes :=
  match s with
  | [] => ([], None)
  | a :: r => if Byte.eqb a c then ([], Some r)
              else let '(p, q) := split2 c r in (a :: p, q)
  end.
(** External (std): [str::splitn(1, c)]: the whole text, whatever it contains. *)
Definition split1 (c : byte) (s : bytes) : bytes * option bytes := (s, None).
(** External (hyper 0.10 header::parsing::fmt_comma_delimited, and [join] in general). *)
Fixpoint join (sep : bytes) (l : list bytes) : bytes :=
  match l with
  | [] => []
  | [s] => s
  | s :: l' => s ++ sep ++ join sep l'
  end.

(** Decimal digits of a number ([Display] of [u16]). *)
Fixpoint dec_aux (fuel : nat) (n : N) (acc : bytes) : bytes :=
  match fuel with
  | O => acc
  | S f => let acc' := n2b (48 + n mod 10) :: acc in
           if n / 10 =? 0 then acc' else dec_aux f (n / 10) acc'
  end.
Definition dec (n : N) : bytes := dec_aux 6 n [].
