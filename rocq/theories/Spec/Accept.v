(** RFC 6455 4.2.2 point 5.4: what a server answers the key [k] with is the SHA-1 digest of the
    key's text followed by a fixed string. *)
From Coq Require Import NArith String List.
From Coq.Strings Require Import Byte.
From Verif.Spec Require Import Rfc4648 Fips180.
Import ListNotations.
Local Open Scope list_scope.

Definition GUID : list byte := list_byte_of_string "258EAFA5-E914-47DA-95CA-C5AB0DC85B11".
(** [d] is the digest for the key header text [t]. *)
Definition answer_to (t d : list byte) : Prop :=
  sha1_digest (map Byte.to_N (t ++ GUID)) (map Byte.to_N d).
Definition rfc_token (k d : list byte) : Prop := answer_to (base64_text k) d.
