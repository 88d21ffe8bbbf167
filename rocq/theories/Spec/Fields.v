(** Header fields as text, after RFC 7230 (3.2 header fields, 7 lists) and RFC 6455 (4.1, 4.2:
    what the opening handshake must carry).  Of the model only
    the type [bytes] is used. *)
From Coq Require Import NArith String List.
From Coq.Strings Require Import Byte.
From Verif.Model Require Import Base.
From Verif.Spec Require Import FrameSpec Unicode Rfc4648.
Import ListNotations.
Local Open Scope string_scope.
Local Open Scope list_scope.
Local Open Scope N_scope.

Definition ascii (s : string) : bytes := list_byte_of_string s.
Definition utf8_text (s : bytes) : Prop := well_formed (octets s).

(** Names are compared without regard to the case of ASCII letters. *)
Definition upcase (b : byte) : byte :=
  match b with
  | "a" => "A" | "b" => "B" | "c" => "C" | "d" => "D" | "e" => "E" | "f" => "F" | "g" => "G"
  | "h" => "H" | "i" => "I" | "j" => "J" | "k" => "K" | "l" => "L" | "m" => "M" | "n" => "N"
  | "o" => "O" | "p" => "P" | "q" => "Q" | "r" => "R" | "s" => "S" | "t" => "T" | "u" => "U"
  | "v" => "V" | "w" => "W" | "x" => "X" | "y" => "Y" | "z" => "Z" | _ => b
  end%byte.
Definition same_name (s t : bytes) : Prop := map upcase s = map upcase t.
Lemma same_name_dec : forall s t, {same_name s t} + {~ same_name s t}.
Proof. intros. apply list_eq_dec, Byte.byte_eq_dec. Defined.

(** White space: the code points with the Unicode property White_Space. *)
Definition white (c : N) : Prop :=
  In c [0x9; 0xA; 0xB; 0xC; 0xD; 0x20; 0x85; 0xA0; 0x1680; 0x2000; 0x2001; 0x2002; 0x2003;
        0x2004; 0x2005; 0x2006; 0x2007; 0x2008; 0x2009; 0x200A; 0x2028; 0x2029; 0x202F;
        0x205F; 0x3000].
Definition blank (w : bytes) : Prop :=
  exists cs, Forall white cs /\ octets w = concat (map utf8 cs).
(** [s] is [t] between white space. *)
Definition padded (t s : bytes) : Prop :=
  exists w1 w2, blank w1 /\ blank w2 /\ s = w1 ++ t ++ w2.

(** [t] has no white space at either end, and is what remains of [s]. *)
Definition bare (t : bytes) : Prop :=
  forall w r, blank w -> t = w ++ r \/ t = r ++ w -> w = [].
Definition element (t s : bytes) : Prop := padded t s /\ bare t.

(** Header fields in the order they were received: name and value. *)
Definition field : Type := bytes * bytes.
Fixpoint values (n : bytes) (fs : list field) : list bytes :=
  match fs with
  | [] => []
  | (m, v) :: fs' => if same_name_dec m n then v :: values n fs' else values n fs'
  end.

(** Comma separated lists. *)
Fixpoint commas (ps : list bytes) : bytes :=
  match ps with
  | [] => []
  | [p] => p
  | p :: ps' => p ++ ascii "," ++ commas ps'
  end.
Definition pieces (v : bytes) (ps : list bytes) : Prop :=
  ps <> [] /\ Forall (fun p => ~ In x2c p) ps /\ v = commas ps.

(** Some element of some line of the field [n] satisfies [P]. *)
Definition lists (P : bytes -> Prop) (n : bytes) (fs : list field) : Prop :=
  exists v ps p t, In v (values n fs) /\ pieces v ps /\ In p ps /\ element t p /\ P t.
(** The field is there and can be read as text. *)
Definition readable (n : bytes) (fs : list field) : Prop :=
  values n fs <> [] /\ Forall utf8_text (values n fs).
(** The field has one value, and it is [t] up to white space. *)
Definition single (n t : bytes) (fs : list field) : Prop :=
  exists v, values n fs = [v] /\ utf8_text v /\ padded t v.
(** All elements of all lines are white space, except one, which satisfies [P]. *)
Definition lists_only (P : bytes -> Prop) (n : bytes) (fs : list field) : Prop :=
  exists pss before p after t,
    Forall2 pieces (values n fs) pss /\ concat pss = before ++ p :: after /\
    Forall blank before /\ Forall blank after /\ element t p /\ P t.

(** The first condition in the list that does not hold, if any. *)
Inductive first_failing {E : Type} : list (Prop * E) -> E -> Prop :=
| ff_here : forall (P : Prop) e l, ~ P -> first_failing ((P, e) :: l) e
| ff_next : forall (P : Prop) e l e', P -> first_failing l e' -> first_failing ((P, e) :: l) e'.

(** The fields of the opening handshake. *)
Definition key_field (fs : list field) (k : bytes) : Prop :=
  List.length k = 16%nat /\ exists t, base64_of k t /\ single (ascii "Sec-WebSocket-Key") t fs.
Definition accept_field (fs : list field) (a : bytes) : Prop :=
  List.length a = 20%nat /\ exists t, base64_of a t /\ single (ascii "Sec-WebSocket-Accept") t fs.
(** A version field that can be read as one text says 13. *)
Definition version_acceptable (fs : list field) : Prop :=
  forall v, values (ascii "Sec-WebSocket-Version") fs = [v] -> utf8_text v ->
    Exists (fun b => b <> x20) v -> padded (ascii "13") v.
(** A protocol named websocket, any version. *)
Definition names_websocket (t : bytes) : Prop :=
  exists n, same_name n (ascii "websocket") /\ (t = n \/ exists v, t = n ++ ascii "/" ++ v).
