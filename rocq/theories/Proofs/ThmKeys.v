(** Sec-WebSocket-Key and Sec-WebSocket-Accept: C31, C32. *)
From Coq Require Import NArith ZArith String Bool List Lia.
From Coq Require Import ZifyBool ZifyNat ZifyN.
From Coq.Strings Require Import Byte.
From Verif.Model Require Import Base Base64 Sha1 WsKey.
From Verif.Spec Require Import RfcFrame Rfc4648 FrameSpec Fips180 Accept.
From Verif.Proofs Require Import BaseFacts Base64Facts Sha1Facts.
Import ListNotations.
Local Open Scope string_scope.
Local Open Scope list_scope.
Local Open Scope N_scope.

Lemma base64_of_text : forall l, base64_of l (base64_text l).
Proof. intros l. exists []. rewrite app_nil_r. auto. Qed.
Lemma llen_nat : forall (l : bytes) n, llen l = N.of_nat n <-> length l = n.
Proof. intros. unfold llen. lia. Qed.

(** [C32] Keys: a text is accepted exactly when it is the RFC 4648 encoding, padding
    optional, of 16 bytes, and then it yields those bytes. *)
Lemma key_parse_iff_proof : forall t k,
  key_from_str t = Ok k <-> length k = 16%nat /\ base64_of k t.
Proof.
  intros t k. unfold key_from_str. rewrite <- llen_nat. split.
  - destruct (b64_decode t) as [v|] eqn:E; [|discriminate].
    destruct (N.eqb_spec (llen v) 16) as [H|H]; [|discriminate]. cbn [negb]. intros HK.
    injection HK as <-. split; [exact H|apply decode_sound, E].
  - intros [H1 H2]. rewrite (decode_complete _ _ H2), H1. reflexivity.
Qed.
(*EX Example key_parse_ex : key_from_str (str "dGhlIHNhbXBsZSBub25jZQ==") = Ok (str "the sample nonce").
Proof. reflexivity. Qed. EX*)
(** [C32] Any other text is refused with a ProtocolError. *)
Lemma key_parse_refuses_proof : forall t,
  (forall k, length k = 16%nat -> ~ base64_of k t) ->
  exists m, key_from_str t = Err (ProtocolError m).
Proof.
  intros t H. unfold key_from_str. destruct (b64_decode t) as [v|] eqn:E; [|eauto].
  destruct (N.eqb_spec (llen v) 16) as [HL|HL]; cbn [negb]; [|eauto].
  exfalso. apply (H v); [apply (llen_nat v 16), HL|apply decode_sound, E].
Qed.
(*EX Example key_refused_ex : exists m, key_from_str (str "YSBzaG9ydCBrZXk=") = Err (ProtocolError m).
Proof. eexists. reflexivity. Qed. EX*)
(** [C32] Which fault it was is told, but for a key header that is not base64 the message names
    the wrong header. *)
Lemma key_fault_named_proof : forall t,
  (forall v, base64_of v t -> length v <> 16%nat ->
   key_from_str t = Err (ProtocolError "Sec-WebSocket-Key must be 16 bytes")) /\
  ((forall v, ~ base64_of v t) -> key_from_str t = Err (ProtocolError "Invalid Sec-WebSocket-Accept")).
Proof.
  intros t. unfold key_from_str. split.
  - intros v Hv HL. apply decode_complete in Hv. rewrite Hv.
    destruct (N.eqb_spec (llen v) 16) as [E|E]; [|reflexivity]. elim HL. apply (llen_nat v 16), E.
  - intros H. destruct (b64_decode t) as [v|] eqn:E; [|reflexivity]. elim (H v). apply decode_sound, E.
Qed.
(*EX Example key_fault_named_ex :
  key_from_str (str "YSBzaG9ydCBrZXk=") = Err (ProtocolError "Sec-WebSocket-Key must be 16 bytes") /\
  key_from_str (str "YSB*") = Err (ProtocolError "Invalid Sec-WebSocket-Accept").
Proof. split; reflexivity. Qed. EX*)
(** [C32] Serializing gives the RFC encoding, 24 characters, and parsing it gives the key
    back. *)
Lemma key_round_trip_proof : forall k, length k = 16%nat ->
  key_serialize k = base64_text k /\ length (key_serialize k) = 24%nat /\
  key_from_str (key_serialize k) = Ok k.
Proof.
  intros k H. unfold key_serialize. rewrite encode_rfc. split; [reflexivity|]. split.
  - pose proof (text_len k) as HT. apply (llen_nat k 16) in H. rewrite H in HT.
    apply (llen_nat _ 24). exact HT.
  - apply key_parse_iff_proof. split; [exact H|apply base64_of_text].
Qed.

(*EX
Example key_round_trip_ex :
  key_serialize (str "the sample nonce") = str "dGhlIHNhbXBsZSBub25jZQ==" /\ length (str "the sample nonce") = 16%nat.
Proof. split; reflexivity. Qed.
EX*)

(** [C32] Different keys have different texts. *)
Lemma key_text_injective_proof : forall k k', key_serialize k = key_serialize k' -> k = k'.
Proof.
  intros k k' H. unfold key_serialize in H. rewrite !encode_rfc in H.
  pose proof (decode_complete _ _ (base64_of_text k)) as H1.
  pose proof (decode_complete _ _ (base64_of_text k')) as H2. rewrite H in H1. congruence.
Qed.

(*EX
(** Keys that differ in their last bit only. *)
Example key_text_injective_ex :
  key_serialize (repeat x00 15 ++ [x00]) = str "AAAAAAAAAAAAAAAAAAAAAA==" /\
  key_serialize (repeat x00 15 ++ [x01]) = str "AAAAAAAAAAAAAAAAAAAAAQ==".
Proof. split; reflexivity. Qed.
EX*)

(** [C32] Accept tokens: the same with 20 bytes. *)
Lemma accept_parse_iff_proof : forall t a,
  accept_from_str t = Ok a <-> length a = 20%nat /\ base64_of a t.
Proof.
  intros t k. unfold accept_from_str. rewrite <- llen_nat. split.
  - destruct (b64_decode t) as [v|] eqn:E; [|discriminate].
    destruct (N.eqb_spec (llen v) 20) as [H|H]; [|discriminate]. cbn [negb]. intros HK.
    injection HK as <-. split; [exact H|apply decode_sound, E].
  - intros [H1 H2]. rewrite (decode_complete _ _ H2), H1. reflexivity.
Qed.
(*EX Example accept_parse_ex : exists a, accept_from_str (str "s3pPLMBiTxaQ9kYGzzhZRbK+xOo=") = Ok a.
Proof. eexists. reflexivity. Qed. EX*)
(** [C32] *)
Lemma accept_parse_refuses_proof : forall t,
  (forall a, length a = 20%nat -> ~ base64_of a t) ->
  exists m, accept_from_str t = Err (ProtocolError m).
Proof.
  intros t H. unfold accept_from_str. destruct (b64_decode t) as [v|] eqn:E; [|eauto].
  destruct (N.eqb_spec (llen v) 20) as [HL|HL]; cbn [negb]; [|eauto].
  exfalso. apply (H v); [apply (llen_nat v 20), HL|apply decode_sound, E].
Qed.

(*EX
Example accept_refused_ex : exists m, accept_from_str (str "dGhlIHNhbXBsZSBub25jZQ==") = Err (ProtocolError m).
Proof. eexists. reflexivity. Qed.
EX*)

(** [C32] *)
Lemma accept_fault_named_proof : forall t,
  (forall v, base64_of v t -> length v <> 20%nat ->
   accept_from_str t = Err (ProtocolError "Sec-WebSocket-Accept must be 20 bytes")) /\
  ((forall v, ~ base64_of v t) -> accept_from_str t = Err (ProtocolError "Invalid Sec-WebSocket-Accept ")).
Proof.
  intros t. unfold accept_from_str. split.
  - intros v Hv HL. apply decode_complete in Hv. rewrite Hv.
    destruct (N.eqb_spec (llen v) 20) as [E|E]; [|reflexivity]. elim HL. apply (llen_nat v 20), E.
  - intros H. destruct (b64_decode t) as [v|] eqn:E; [|reflexivity]. elim (H v). apply decode_sound, E.
Qed.
(*EX Example accept_fault_named_ex :
  accept_from_str (str "dGhlIHNhbXBsZSBub25jZQ==") = Err (ProtocolError "Sec-WebSocket-Accept must be 20 bytes").
Proof. reflexivity. Qed. EX*)

(** [C31] The token of any key is 20 bytes, 28 characters of text, and the text parses back
    to the token. *)
Lemma accept_token_shape_proof : forall k,
  length (accept_new k) = 20%nat /\ length (accept_serialize (accept_new k)) = 28%nat /\
  accept_from_str (accept_serialize (accept_new k)) = Ok (accept_new k).
Proof.
  intros k. assert (length (accept_new k) = 20%nat) as H by reflexivity.
  split; [exact H|]. unfold accept_serialize. rewrite encode_rfc. split.
  - pose proof (text_len (accept_new k)) as HT. apply (llen_nat _ 20) in H. rewrite H in HT.
    apply (llen_nat _ 28). exact HT.
  - apply accept_parse_iff_proof. split; [exact H|apply base64_of_text].
Qed.

(*EX
Example accept_token_shape_ex : length (accept_serialize (accept_new [])) = 28%nat.
Proof. vm_compute. reflexivity. Qed.
EX*)

Lemma octets_inj : forall a b, octets a = octets b -> a = b.
Proof.
  induction a as [|x a IH]; intros [|y b] H; try reflexivity; try discriminate H.
  unfold octets in H. cbn [map] in H.
  assert (Byte.to_N x = Byte.to_N y) as HX by congruence.
  assert (map Byte.to_N a = map Byte.to_N b) as HA by congruence.
  rewrite (IH b HA). f_equal. apply (f_equal Byte.of_N) in HX. rewrite !Byte.of_to_N in HX. congruence.
Qed.
Lemma answer_sha1 : forall t d, 8 * llen (t ++ GUID) < 2 ^ 64 ->
  (answer_to t d <-> d = sha1 (t ++ GUID)).
Proof.
  intros t d H. pose proof (sha1_fips (t ++ GUID) H) as HF. split.
  - intros HA. apply octets_inj. eapply sha1_digest_unique; [exact HA|exact HF].
  - intros ->. exact HF.
Qed.
Lemma token_accept : forall k d, rfc_token k d -> d = accept_new k.
Proof.
  intros k d H. assert (8 * llen (base64_text k ++ GUID) < 2 ^ 64) as HL.
  { destruct H as [H _]. rewrite map_length in H. exact H. }
  apply (answer_sha1 _ _ HL) in H. rewrite H. unfold accept_new, key_serialize. rewrite encode_rfc. reflexivity.
Qed.
Lemma accept_rfc_token : forall k, length k = 16%nat -> rfc_token k (accept_new k).
Proof.
  intros k H. assert (8 * llen (base64_text k ++ GUID) < 2 ^ 64) as HL.
  { apply (llen_nat k 16) in H. rewrite llen_app, text_len, H. reflexivity. }
  apply (answer_sha1 _ _ HL). unfold accept_new, key_serialize. rewrite encode_rfc. reflexivity.
Qed.
(** [C31] The hash computed is SHA-1 as FIPS 180-4 defines it, for every input shorter than the
    standard's limit; and the standard gives each input one digest. *)
Lemma hash_is_fips_proof : forall m d : bytes, 8 * llen m < 2 ^ 64 ->
  (sha1_digest (octets m) (octets d) <-> sha1 m = d).
Proof.
  intros m d H. pose proof (sha1_fips m H) as HF. split.
  - intros HA. apply octets_inj. eapply sha1_digest_unique; [exact HF|exact HA].
  - intros <-. exact HF.
Qed.
(*EX (** The first example of FIPS 180 (appendix A.1 of 180-2), and one of two blocks (A.2). *)
Example hash_is_fips_ex :
  octets (sha1 (str "abc")) = network_order 20 0xa9993e364706816aba3e25717850c26c9cd0d89d /\
  octets (sha1 (str "abcdbcdecdefdefgefghfghighijhijkijkljklmklmnlmnomnopnopq"))
  = network_order 20 0x84983e441c3bd26ebaae4aa1f95129e5e54670f1.
Proof. vm_compute. auto. Qed. EX*)
(** [C31] The token is the digest RFC 6455 asks for the key's text followed by its GUID; and
    that is what the client expects as well, since both compute it from the key. *)
Lemma accept_rfc_proof : forall k d, length k = 16%nat -> (rfc_token k d <-> d = accept_new k).
Proof.
  intros k d H. split; [apply token_accept|]. intros ->. apply accept_rfc_token, H.
Qed.

(*EX
Example accept_rfc_ex : rfc_token (str "the sample nonce") (accept_new (str "the sample nonce")).
Proof. apply (ThmKeys.accept_rfc_proof (str "the sample nonce")); reflexivity. Qed.
EX*)

(** [C31] So if the key header was sent in canonical form, the answer is the text of the
    digest for the header's text, whatever the key. *)
Lemma accept_token_proof : forall t k,
  key_from_str t = Ok k -> length t = 24%nat ->
  exists d, answer_to t d /\ accept_serialize (accept_new k) = base64_text d.
Proof.
  intros t k H Ht. apply key_parse_iff_proof in H as [HK (p & H1 & H2)].
  assert (p = []) as ->.
  { pose proof (text_len k) as HL. apply (llen_nat k 16) in HK. rewrite HK, H1, llen_app in HL.
    destruct p; [reflexivity|]. unfold llen in HL. cbn [length] in HL. lia. }
  rewrite app_nil_r in H1. subst t. exists (accept_new k).
  split; [apply accept_rfc_token, HK|]. unfold accept_serialize. apply encode_rfc.
Qed.
(*EX (** The example of RFC 6455 section 1.3. *)
Example accept_token_ex : exists k, key_from_str (str "dGhlIHNhbXBsZSBub25jZQ==") = Ok k /\
  accept_serialize (accept_new k) = str "s3pPLMBiTxaQ9kYGzzhZRbK+xOo=".
Proof. exists (str "the sample nonce"). vm_compute. auto. Qed. EX*)
(** [C31] Refuted for texts that are not canonical: with the padding left out the header is
    accepted, but the answer is not that for the header's text. *)
Lemma accept_token_refuted_proof : exists t k,
  key_from_str t = Ok k /\
  forall d, answer_to t d -> accept_serialize (accept_new k) <> base64_text d.
Proof.
  exists (str "dGhlIHNhbXBsZSBub25jZQ"), (str "the sample nonce"). split; [reflexivity|].
  intros d H. apply answer_sha1 in H; [|reflexivity]. subst d. vm_compute. discriminate.
Qed.
