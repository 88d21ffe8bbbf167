(** Words about both sides of a handshake and what it costs them. *)
From Coq Require Import NArith String List.
From Coq.Strings Require Import Byte.
From Verif.Model Require Import Base Io Headers Handshake Framed Http Connect.
From Verif.Spec Require Import Fields Upgrade HttpHead.
Import ListNotations.
Local Open Scope string_scope.
Local Open Scope list_scope.
Local Open Scope N_scope.

(** hyper's buffer never asks for more than its largest size (8192 + 4096 * 100 bytes). *)
Definition capped_room (X : http_lib) : Prop :=
  forall n, n <= 417792 -> n + l_room X n <= 417792.
(** Between [s] and [s'] at most [n] bytes were read, and at most one event that is not a
    byte was met, after them. *)
Definition read_at_most (n : N) (s s' : script) : Prop :=
  exists taken, llen taken <= n /\
    (spread s = map inl taken ++ spread s' \/
     exists e, spread s = map inl taken ++ inr e :: spread s').

(** Visible ASCII, not empty. *)
Definition visible_text (t : bytes) : Prop :=
  t <> [] /\ Forall (fun b => 0x21 <= Byte.to_N b <= 0x7e) t.

(** Two responses that agree in the given fields. *)
Definition agree_on (ns : list bytes) (fs gs : list field) : Prop :=
  Forall (fun n => values n fs = values n gs) ns.
(** A raw header line that is not text. *)
Definition bad_line (p : bytes * item) : Prop :=
  exists ls, snd p = Raw ls /\ ~ Forall utf8_text ls.
(** The key in a header map is a key, if it is typed at all (and not a value of some other
    type that was given the same name). *)
Definition key_known (h : headers) : Prop :=
  forall v, stored (ascii "Sec-WebSocket-Key") (Typed v) h -> exists k, v = VKey k.
