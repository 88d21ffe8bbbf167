(** What whoever chooses the payload of a masked frame can do to the bytes on the wire: C93. *)
From Coq Require Import NArith ZArith String Bool List Lia.
From Coq.Strings Require Import Byte.
From Verif.Model Require Import Base Io Header Mask Dataframe Utf8 Message Receiver Codec.
From Verif.Spec Require Import RfcFrame FrameSpec Session Hiding.
From Verif.Proofs Require Import ExTac.
From Verif.Proofs Require ThmHiding.
Import ListNotations.
Local Open Scope string_scope.
Local Open Scope list_scope.
Local Open Scope nat_scope.

(** ** The theorems *)

(** [C93] A frame sent by a blocking client: whoever chose the payload, whatever four octets [t] and
    whatever place [i] behind the length field they had in mind (the key and the payload, or partly
    both), just one of the masking keys puts them there. *)
Theorem chosen_one_key : forall d t i w, honest d ->
  rfc_sendable (rfc_of (df_is_last d) (df_reserved d) (df_opcode d) (concat (df_writes d)) None) ->
  length t = 4 -> i <= length (concat (df_writes d)) ->
  exists k, forall k' w', send_frame (mk_sender true) d k' w = (Ok tt, w') ->
    (stands_at (length (w_out w') - length (concat (df_writes d)) - 4 + i) t (w_out w') <-> k' = k).
Proof. exact ThmHiding.chosen_one_key_proof. Qed.
Print Assumptions chosen_one_key.

(** The payload is meant to look like a request to somebody else; of all keys only 0, 0, 0, 0 leaves
    it as it is. *)
Example chosen_one_key_ex :
  let d := owned_ops (OText (str "GET / HTTP/1.1")) in let z := mk_key x00 x00 x00 x00 in
  send_frame (mk_sender true) d z (mk_w [] []) = (Ok tt, mk_w ([x81; x8e; x00; x00; x00; x00] ++ str "GET / HTTP/1.1") []) /\
  forall k' w', send_frame (mk_sender true) d k' (mk_w [] []) = (Ok tt, w') -> (stands_at 6 (str "GET ") (w_out w') <-> k' = z).
Proof.
  cbv zeta. set (d := owned_ops (OText (str "GET / HTTP/1.1"))). split; [vm_compute; reflexivity|].
  destruct (chosen_one_key d (str "GET ") 4 (mk_w [] [])) as [k HK].
  - split; reflexivity.
  - repeat split; vm_compute; try reflexivity; intros H; try discriminate H; try (exfalso; apply H; reflexivity).
  - reflexivity.
  - apply PeanoNat.Nat.leb_le. reflexivity.
  - assert (mk_key x00 x00 x00 x00 = k) as <-.
    { apply (HK (mk_key x00 x00 x00 x00) (mk_w ([x81; x8e; x00; x00; x00; x00] ++ str "GET / HTTP/1.1") [])); [vm_compute; reflexivity|].
      exists [x81; x8e; x00; x00; x00; x00], (str "/ HTTP/1.1"). split; reflexivity. }
    intros k' w' HW. rewrite <- (HK k' w' HW). clear HK. destruct k' as [a b c e].
    assert (length (w_out w') = 20%nat) as ->; [|reflexivity]. vm_compute in HW. injection HW as <-. reflexivity.
Qed.

(** [C93] The same for an asynchronous client. *)
Theorem chosen_one_key_async : forall d t i extra dst, honest d ->
  rfc_sendable (rfc_of (df_is_last d) (df_reserved d) (df_opcode d) (concat (df_writes d)) None) ->
  length t = 4 -> i <= length (concat (df_writes d)) ->
  exists k, forall k', exists dst', codec_encode false d k' extra dst = (Ok tt, dst') /\
    (stands_at (length (bm_data dst') - length (concat (df_writes d)) - 4 + i) t (bm_data dst') <-> k' = k).
Proof. exact ThmHiding.chosen_one_key_async_proof. Qed.
Print Assumptions chosen_one_key_async.

Example chosen_one_key_async_ex :
  codec_encode false (owned_ops (OText (str "abcd"))) (mk_key x20 x20 x20 x20) 0 (mk_bm [] 0)
  = (Ok tt, mk_bm ([x81; x84; x20; x20; x20; x20] ++ str "ABCD") 10).
Proof. vm_compute. reflexivity. Qed.

(** [C93] So a chosen sequence of four octets or more turns up anywhere behind the length field
    with few keys only: at most as many as the payload has octets, and one. *)
Theorem chosen_few_keys : forall d t w, honest d ->
  rfc_sendable (rfc_of (df_is_last d) (df_reserved d) (df_opcode d) (concat (df_writes d)) None) ->
  4 <= length t ->
  exists ks, length ks <= length (concat (df_writes d)) + 1 /\
    forall k w' j, send_frame (mk_sender true) d k w = (Ok tt, w') ->
      length (w_out w') - length (concat (df_writes d)) - 4 <= j -> stands_at j t (w_out w') -> In k ks.
Proof. exact ThmHiding.chosen_few_keys_proof. Qed.
Print Assumptions chosen_few_keys.

(** With four times the same text the sequence turns up with the same key at several places; with no
    other key but those in the list. *)
Example chosen_few_keys_ex :
  let d := owned_ops (OBinary (str "HEADHEADHEADHEAD")) in
  honest d /\ rfc_sendable (rfc_of (df_is_last d) (df_reserved d) (df_opcode d) (concat (df_writes d)) None) /\
  stands_at 10 (str "HEAD") (w_out (snd (send_frame (mk_sender true) d (mk_key x00 x00 x00 x00) (mk_w [] [])))) /\
  stands_at 7 (str "HEAD") (w_out (snd (send_frame (mk_sender true) d (mk_key x0c x0d x04 x05) (mk_w [] [])))).
Proof.
  cbv zeta. split; [split; reflexivity|]. split; [repeat split; vm_compute; try reflexivity; intros H; try discriminate H; try (exfalso; apply H; reflexivity)|].
  split; vm_compute; [exists (map n2b [0x82; 0x90; 0; 0; 0; 0]%N ++ str "HEAD"), (str "HEADHEAD")|eexists (map n2b [0x82; 0x90; 0x0c; 0x0d; 4; 5; 0x44]%N), _]; split; vm_compute; reflexivity.
Qed.

(** [C93] There are 2^32 keys: [key_number] numbers them. *)
Theorem key_count :
  (forall k, (key_number k < 2 ^ 32)%N) /\ (forall k k', key_number k = key_number k' -> k = k') /\
  (forall n, (n < 2 ^ 32)%N -> exists k, key_number k = n).
Proof. exact ThmHiding.key_count_proof. Qed.
Print Assumptions key_count.

Example key_count_ex : key_number (mk_key x01 x02 x03 x04) = 16909060%N.
Proof. reflexivity. Qed.

(** [C93] The length field is not masked: whoever chooses the payload chooses, by its length, two
    octets on the wire, whatever the key (any two but those that make a number below 126). *)
Theorem length_in_clear : forall a b, (126 <= 256 * b2n a + b2n b)%N ->
  exists m, sendable (2 ^ 16) m /\
    forall k w w', send_message (mk_sender true) m k w = (Ok tt, w') -> stands_at (length (w_out w) + 2) [a; b] (w_out w').
Proof. exact ThmHiding.length_in_clear_proof. Qed.
Print Assumptions length_in_clear.

(** A message of 18245 octets puts "GE" on the wire. *)
Example length_in_clear_ex : (256 * b2n x47 + b2n x45 = 18245)%N /\ [x47; x45] = str "GE".
Proof. split; reflexivity. Qed.

(** [C93] Nor does masking hide what the payload is like: octets four apart differ on the wire as
    they do in the payload, whatever the key. *)
Theorem pattern_shows : forall d k w w' i, honest d ->
  rfc_sendable (rfc_of (df_is_last d) (df_reserved d) (df_opcode d) (concat (df_writes d)) None) ->
  send_frame (mk_sender true) d k w = (Ok tt, w') -> i + 4 < length (concat (df_writes d)) ->
  let p := concat (df_writes d) in
  let start := length (w_out w') - length p in
  bxor (nth (start + i) (w_out w') x00) (nth (start + i + 4) (w_out w') x00) = bxor (nth i p x00) (nth (i + 4) p x00).
Proof. exact ThmHiding.pattern_shows_proof. Qed.
Print Assumptions pattern_shows.

(** Eight equal octets: the wire repeats itself after four. *)
Example pattern_shows_ex : exists w', send_frame (mk_sender true) (owned_ops (OBinary (repeat x61 8))) (mk_key x12 x34 x56 x78) (mk_w [] []) = (Ok tt, w') /\
  skipn 6 (w_out w') = [x73; x55; x37; x19; x73; x55; x37; x19].
Proof. eexists. split; [vm_compute; reflexivity|]. reflexivity. Qed.
