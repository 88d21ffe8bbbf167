(** The answer of a server to an upgrade request, as it stands on the wire (RFC 7230, 3). *)
From Coq Require Import NArith String List.
From Coq.Strings Require Import Byte.
From Verif.Model Require Import Base Headers Handshake.
From Verif.Spec Require Import Fields Upgrade HttpHead Wire.
Import ListNotations.
Local Open Scope string_scope.
Local Open Scope list_scope.

(** How a version is written in a status line. *)
Definition version_name (v : http_version) : bytes :=
  match v with
  | Http09 => ascii "HTTP/0.9" | Http10 => ascii "HTTP/1.0"
  | Http11 => ascii "HTTP/1.1" | Http20 => ascii "HTTP/2.0"
  end.
(** A status line, the fields one to a line, and an empty line. *)
Definition answer_text (v : http_version) (status : bytes) (fs : list field) : bytes :=
  version_name v ++ [SP] ++ status ++ [CR; LF] ++
  concat (map (fun f => fst f ++ ascii ": " ++ one_line (snd f) ++ [CR; LF]) fs) ++ [CR; LF].
(** A header that cannot be written: a raw line that is not UTF-8. *)
Definition unwritable (h : headers) : Prop :=
  Exists (fun p : bytes * item => exists ls, snd p = Raw ls /\ ~ Forall utf8_text ls) h.
(** The headers of the answers to a request with key [k]: to accept it, and to reject it. *)
Definition accepting (custom : option headers) (h0 : headers) (k : bytes) (h : headers) : Prop :=
  unique_names h /\ completes k (fields h) /\
  forall n i, ~ handshake_name n -> (stored n i h <-> overlaid custom h0 n i).
Definition rejecting (custom : option headers) (h0 : headers) (h : headers) : Prop :=
  unique_names h /\ forall n i, stored n i h <-> overlaid custom h0 n i.
