(** Lists in header fields, read, written and read again: C37, C40. *)
From Coq Require Import NArith ZArith String Bool List Lia.
From Coq.Strings Require Import Byte.
From Verif.Model Require Import Base Io Header Mask Dataframe Utf8 Text Base64 Sha1 WsKey Headers Handshake.
From Verif.Spec Require Import RfcFrame FrameSpec Unicode Rfc4648 Accept Fields Upgrade Builder.
From Verif.Proofs Require Import ExTac.
From Verif.Proofs Require ThmStable.
Import ListNotations.
Local Open Scope string_scope.
Local Open Scope list_scope.
Local Open Scope N_scope.

(** ** Cutting at a separator, trimming the pieces *)

(** [C37] Any protocol list that was read from a request or a response, written and read again,
    is the same list. *)
Theorem protocols_stable : forall lines l, parse_protocols lines = Some l ->
  parse_protocols [join (ascii ", ") l] = Some l.
Proof. exact ThmStable.protocols_stable_proof. Qed.
Print Assumptions protocols_stable.

Example protocols_stable_ex :
  parse_protocols [ascii " chat ,, a b"; [xc3; xa9]] = Some [ascii "chat"; ascii "a b"; [xc3; xa9]] /\
  parse_protocols [ascii "chat, a b, " ++ [xc3; xa9]] = Some [ascii "chat"; ascii "a b"; [xc3; xa9]].
Proof. split; reflexivity. Qed.

(** [C40] Any extension list that was read from a request or a response, whatever its names and
    parameters look like, written and read again, is the same list. *)
Theorem extensions_reread : forall lines l, parse_extensions lines = Some l ->
  parse_extensions [join (ascii ", ") (map print_ext l)] = Some l.
Proof. exact ThmStable.extensions_reread_proof. Qed.
Print Assumptions extensions_reread.

(** Blanks, an empty name, empty parameters and a value. *)
Example extensions_reread_ex :
  let l := [mk_ext (ascii "foo") [mk_param (ascii "a = 1") None; mk_param [] None]; mk_ext [] [mk_param [] None]; mk_ext (ascii "x y") []] in
  parse_extensions [ascii "foo ;  a = 1;,  ,;"; ascii " x y"] = Some l /\
  join (ascii ", ") (map print_ext l) = ascii "foo; a = 1; , ; , x y".
Proof. split; reflexivity. Qed.
