(** What a request has to say about where it is sent to and on whose behalf. *)
From Coq Require Import NArith String Bool List.
From Coq.Strings Require Import Byte.
From Verif.Model Require Import Base Headers Handshake.
From Verif.Spec Require Import Fields Rfc4648 Builder.
Import ListNotations.
Local Open Scope string_scope.
Local Open Scope list_scope.
Local Open Scope N_scope.

(** A decimal numeral, without leading zeros, and its value. *)
Definition digit (b : byte) : Prop := 0x30 <= Byte.to_N b <= 0x39.
Definition number (t : bytes) : N := fold_left (fun n b => 10 * n + (Byte.to_N b - 0x30)) t 0.
Definition numeral (t : bytes) (n : N) : Prop :=
  t <> [] /\ Forall digit t /\ number t = n /\ (hd_error t = Some x30 -> t = [x30]).
(** RFC 6455 4.1, point 4 of the client's requirements: the host, and ":" and the port unless
    it is the scheme's default (which a parsed URL does not carry: [u_port] is [None]). *)
Definition host_for (u : url) (v : bytes) : Prop :=
  exists host, u_host u = Some host /\
    match u_port u with
    | None => v = host
    | Some p => exists t, numeral t p /\ v = host ++ ascii ":" ++ t
    end.

(** RFC 3986 2.1: percent-encoding. *)
Definition hex_value (b : byte) : option N :=
  let n := Byte.to_N b in
  if (0x30 <=? n) && (n <=? 0x39) then Some (n - 0x30)
  else if (0x41 <=? n) && (n <=? 0x46) then Some (n - 0x41 + 10)
  else if (0x61 <=? n) && (n <=? 0x66) then Some (n - 0x61 + 10)
  else None.
Inductive percent_decoded : bytes -> bytes -> Prop :=
| pd_nil : percent_decoded [] []
| pd_char : forall c s t, c <> "%"%byte -> percent_decoded s t -> percent_decoded (c :: s) (c :: t)
| pd_escape : forall h l a b x s t, hex_value h = Some a -> hex_value l = Some b ->
    Byte.to_N x = 16 * a + b -> percent_decoded s t ->
    percent_decoded ("%"%byte :: h :: l :: s) (x :: t).
(** The user and the password a URL stands for. *)
Definition credentials (u : url) (user password : bytes) : Prop :=
  percent_decoded (u_user u) user /\ percent_decoded (or_else (u_password u) []) password.
(** RFC 7617: the field that presents them. *)
Definition basic (user password : bytes) : bytes :=
  ascii "Basic " ++ base64_text (user ++ ascii ":" ++ password).
