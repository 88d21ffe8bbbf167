(** Sec-WebSocket-Key and Sec-WebSocket-Accept: C31, C32. *)
From Coq Require Import NArith ZArith String Bool List Lia.
From Coq.Strings Require Import Byte.
From Verif.Model Require Import Base Base64 Sha1 WsKey.
From Verif.Spec Require Import RfcFrame Rfc4648 FrameSpec Fips180 Accept.
From Verif.Proofs Require Import ExTac.
From Verif.Proofs Require ThmKeys.
Import ListNotations.
Local Open Scope string_scope.
Local Open Scope list_scope.
Local Open Scope N_scope.

(** [C32] Keys: a text is accepted exactly when it is the RFC 4648 encoding, padding
    optional, of 16 bytes, and then it yields those bytes. *)
Theorem key_parse_iff : forall t k,
  key_from_str t = Ok k <-> length k = 16%nat /\ base64_of k t.
Proof. exact ThmKeys.key_parse_iff_proof. Qed.
Print Assumptions key_parse_iff.

Example key_parse_ex : key_from_str (str "dGhlIHNhbXBsZSBub25jZQ==") = Ok (str "the sample nonce").
Proof. reflexivity. Qed.

(** [C32] Any other text is refused with a ProtocolError. *)
Theorem key_parse_refuses : forall t,
  (forall k, length k = 16%nat -> ~ base64_of k t) ->
  exists m, key_from_str t = Err (ProtocolError m).
Proof. exact ThmKeys.key_parse_refuses_proof. Qed.
Print Assumptions key_parse_refuses.

Example key_refused_ex : exists m, key_from_str (str "YSBzaG9ydCBrZXk=") = Err (ProtocolError m).
Proof. eexists. reflexivity. Qed.

(** [C32] Which fault it was is told, but for a key header that is not base64 the message names
    the wrong header. *)
Theorem key_fault_named : forall t,
  (forall v, base64_of v t -> length v <> 16%nat ->
   key_from_str t = Err (ProtocolError "Sec-WebSocket-Key must be 16 bytes")) /\
  ((forall v, ~ base64_of v t) -> key_from_str t = Err (ProtocolError "Invalid Sec-WebSocket-Accept")).
Proof. exact ThmKeys.key_fault_named_proof. Qed.
Print Assumptions key_fault_named.

Example key_fault_named_ex :
  key_from_str (str "YSBzaG9ydCBrZXk=") = Err (ProtocolError "Sec-WebSocket-Key must be 16 bytes") /\
  key_from_str (str "YSB*") = Err (ProtocolError "Invalid Sec-WebSocket-Accept").
Proof. split; reflexivity. Qed.

(** [C32] Serializing gives the RFC encoding, 24 characters, and parsing it gives the key
    back. *)
Theorem key_round_trip : forall k, length k = 16%nat ->
  key_serialize k = base64_text k /\ length (key_serialize k) = 24%nat /\
  key_from_str (key_serialize k) = Ok k.
Proof. exact ThmKeys.key_round_trip_proof. Qed.
Print Assumptions key_round_trip.

Example key_round_trip_ex :
  key_serialize (str "the sample nonce") = str "dGhlIHNhbXBsZSBub25jZQ==" /\ length (str "the sample nonce") = 16%nat.
Proof. split; reflexivity. Qed.

(** [C32] Different keys have different texts. *)
Theorem key_text_injective : forall k k', key_serialize k = key_serialize k' -> k = k'.
Proof. exact ThmKeys.key_text_injective_proof. Qed.
Print Assumptions key_text_injective.

(** Keys that differ in their last bit only. *)
Example key_text_injective_ex :
  key_serialize (repeat x00 15 ++ [x00]) = str "AAAAAAAAAAAAAAAAAAAAAA==" /\
  key_serialize (repeat x00 15 ++ [x01]) = str "AAAAAAAAAAAAAAAAAAAAAQ==".
Proof. split; reflexivity. Qed.

(** [C32] Accept tokens: the same with 20 bytes. *)
Theorem accept_parse_iff : forall t a,
  accept_from_str t = Ok a <-> length a = 20%nat /\ base64_of a t.
Proof. exact ThmKeys.accept_parse_iff_proof. Qed.
Print Assumptions accept_parse_iff.

Example accept_parse_ex : exists a, accept_from_str (str "s3pPLMBiTxaQ9kYGzzhZRbK+xOo=") = Ok a.
Proof. eexists. reflexivity. Qed.

(** [C32] *)
Theorem accept_parse_refuses : forall t,
  (forall a, length a = 20%nat -> ~ base64_of a t) ->
  exists m, accept_from_str t = Err (ProtocolError m).
Proof. exact ThmKeys.accept_parse_refuses_proof. Qed.
Print Assumptions accept_parse_refuses.

Example accept_refused_ex : exists m, accept_from_str (str "dGhlIHNhbXBsZSBub25jZQ==") = Err (ProtocolError m).
Proof. eexists. reflexivity. Qed.

(** [C32] *)
Theorem accept_fault_named : forall t,
  (forall v, base64_of v t -> length v <> 20%nat ->
   accept_from_str t = Err (ProtocolError "Sec-WebSocket-Accept must be 20 bytes")) /\
  ((forall v, ~ base64_of v t) -> accept_from_str t = Err (ProtocolError "Invalid Sec-WebSocket-Accept ")).
Proof. exact ThmKeys.accept_fault_named_proof. Qed.
Print Assumptions accept_fault_named.

Example accept_fault_named_ex :
  accept_from_str (str "dGhlIHNhbXBsZSBub25jZQ==") = Err (ProtocolError "Sec-WebSocket-Accept must be 20 bytes").
Proof. reflexivity. Qed.

(** [C31] The token of any key is 20 bytes, 28 characters of text, and the text parses back
    to the token. *)
Theorem accept_token_shape : forall k,
  length (accept_new k) = 20%nat /\ length (accept_serialize (accept_new k)) = 28%nat /\
  accept_from_str (accept_serialize (accept_new k)) = Ok (accept_new k).
Proof. exact ThmKeys.accept_token_shape_proof. Qed.
Print Assumptions accept_token_shape.

Example accept_token_shape_ex : length (accept_serialize (accept_new [])) = 28%nat.
Proof. vm_compute. reflexivity. Qed.

(** [C31] The hash computed is SHA-1 as FIPS 180-4 defines it, for every input shorter than the
    standard's limit; and the standard gives each input one digest. *)
Theorem hash_is_fips : forall m d : bytes, 8 * llen m < 2 ^ 64 ->
  (sha1_digest (octets m) (octets d) <-> sha1 m = d).
Proof. exact ThmKeys.hash_is_fips_proof. Qed.
Print Assumptions hash_is_fips.

(** The first example of FIPS 180 (appendix A.1 of 180-2), and one of two blocks (A.2). *)
Example hash_is_fips_ex :
  octets (sha1 (str "abc")) = network_order 20 0xa9993e364706816aba3e25717850c26c9cd0d89d /\
  octets (sha1 (str "abcdbcdecdefdefgefghfghighijhijkijkljklmklmnlmnomnopnopq"))
  = network_order 20 0x84983e441c3bd26ebaae4aa1f95129e5e54670f1.
Proof. vm_compute. auto. Qed.

(** [C31] The token is the digest RFC 6455 asks for the key's text followed by its GUID; and
    that is what the client expects as well, since both compute it from the key. *)
Theorem accept_rfc : forall k d, length k = 16%nat -> (rfc_token k d <-> d = accept_new k).
Proof. exact ThmKeys.accept_rfc_proof. Qed.
Print Assumptions accept_rfc.

Example accept_rfc_ex : rfc_token (str "the sample nonce") (accept_new (str "the sample nonce")).
Proof. apply (ThmKeys.accept_rfc_proof (str "the sample nonce")); reflexivity. Qed.

(** [C31] So if the key header was sent in canonical form, the answer is the text of the
    digest for the header's text, whatever the key. *)
Theorem accept_token : forall t k,
  key_from_str t = Ok k -> length t = 24%nat ->
  exists d, answer_to t d /\ accept_serialize (accept_new k) = base64_text d.
Proof. exact ThmKeys.accept_token_proof. Qed.
Print Assumptions accept_token.

(** The example of RFC 6455 section 1.3. *)
Example accept_token_ex : exists k, key_from_str (str "dGhlIHNhbXBsZSBub25jZQ==") = Ok k /\
  accept_serialize (accept_new k) = str "s3pPLMBiTxaQ9kYGzzhZRbK+xOo=".
Proof. exists (str "the sample nonce"). vm_compute. auto. Qed.

(** [C31] Refuted for texts that are not canonical: with the padding left out the header is
    accepted, but the answer is not that for the header's text. *)
Theorem accept_token_refuted : exists t k,
  key_from_str t = Ok k /\
  forall d, answer_to t d -> accept_serialize (accept_new k) <> base64_text d.
Proof. exact ThmKeys.accept_token_refuted_proof. Qed.
Print Assumptions accept_token_refuted.
