(** What whoever chooses the payload of a masked frame can do to the bytes on the wire: C93. *)
From Coq Require Import NArith ZArith String Bool List Lia.
From Coq Require Import ZifyBool ZifyNat ZifyN.
From Coq.Strings Require Import Byte.
From Verif.Model Require Import Base Io Header Mask Dataframe Utf8 Message Receiver Codec.
From Verif.Spec Require Import RfcFrame FrameSpec Session Hiding.
From Verif.Proofs Require Import BaseFacts MaskFacts HeaderFacts FrameFacts ThmFrames ThmStream ThmFlow.
Import ListNotations.
Local Open Scope string_scope.
Local Open Scope list_scope.
Local Open Scope nat_scope.

(** ** Windows of four *)
Lemma stands_unique : forall i t t' l, length t = length t' -> stands_at i t l -> stands_at i t' l -> t = t'.
Proof.
  intros i t t' l H (a & b & E & L) (a' & b' & E' & L'). rewrite E in E'.
  assert (a = a') as <-.
  { apply (f_equal (firstn i)) in E'. rewrite <- L in E' at 1. rewrite <- L' in E' at 1. rewrite !firstn_app, !firstn_all, !Nat.sub_diag, !firstn_O, !app_nil_r in E'. exact E'. }
  apply app_inv_head in E'. apply (f_equal (firstn (length t))) in E'. rewrite H in E' at 2. rewrite !firstn_app, !firstn_all, !Nat.sub_diag, !firstn_O, !app_nil_r in E'. exact E'.
Qed.
Lemma stands_here : forall i n (l : bytes), i + n <= length l -> stands_at i (firstn n (skipn i l)) l.
Proof.
  intros i n l H. exists (firstn i l), (skipn n (skipn i l)). rewrite !firstn_skipn. split; [reflexivity|]. apply firstn_length_le. lia.
Qed.
Lemma stands_iff : forall i t (l : bytes), i + length t <= length l -> (stands_at i t l <-> firstn (length t) (skipn i l) = t).
Proof.
  intros i t l H. pose proof (stands_here i (length t) l H) as HH. split; intros HX.
  - apply (stands_unique i _ _ l); auto. rewrite firstn_length_le; [reflexivity|]. rewrite skipn_length. lia.
  - rewrite HX in HH. exact HH.
Qed.
Lemma four_nths : forall i (l : bytes), i + 4 <= length l ->
  firstn 4 (skipn i l) = [nth i l x00; nth (i + 1) l x00; nth (i + 2) l x00; nth (i + 3) l x00].
Proof.
  induction i as [|i IH]; intros l H.
  - destruct l as [|a [|b [|c [|e l]]]]; cbn [length] in H; try lia. reflexivity.
  - destruct l as [|a l]; cbn [length] in H; [lia|]. cbn [skipn Nat.add nth]. apply IH. lia.
Qed.
Lemma mask_nth : forall k q j, j < length q -> nth j (mask_data k q) x00 = bxor (nth j q x00) (nth (j mod 4) (key_bytes k) x00).
Proof. intros k q j H. apply b2n_inj. rewrite b2n_bxor. apply nth_mask_data. exact H. Qed.
Lemma bxor_comm : forall a b, bxor a b = bxor b a.
Proof. intros a b. apply b2n_inj. rewrite !b2n_bxor. apply N.lxor_comm. Qed.
Lemma bxor_solve : forall q k t, bxor q k = t <-> k = bxor t q.
Proof.
  intros q k t. split; intros H.
  - rewrite <- H, bxor_comm, <- (bxor_comm k q), bxor_comm, bxor_invol. reflexivity.
  - rewrite H, bxor_comm. apply bxor_invol.
Qed.
Lemma key_eq : forall a b c d k, k = mk_key a b c d <-> k0 k = a /\ k1 k = b /\ k2 k = c /\ k3 k = d.
Proof. intros a b c d [a' b' c' d']. cbn. split; [intros H; injection H as -> -> -> ->; auto|intros (-> & -> & -> & ->); reflexivity]. Qed.
Lemma window_key : forall q t i, length t = 4 -> i + 4 <= length q ->
  exists k, forall k', stands_at i t (mask_data k' q) <-> k' = k.
Proof.
  intros q t i HT HI. destruct t as [|t0 [|t1 [|t2 [|t3 [|]]]]]; cbn [length] in HT; try lia. clear HT.
  set (q0 := nth i q x00). set (q1 := nth (i + 1) q x00). set (q2 := nth (i + 2) q x00). set (q3 := nth (i + 3) q x00).
  assert (forall k', stands_at i [t0; t1; t2; t3] (mask_data k' q) <->
    nth (i mod 4) (key_bytes k') x00 = bxor t0 q0 /\ nth ((i + 1) mod 4) (key_bytes k') x00 = bxor t1 q1 /\
    nth ((i + 2) mod 4) (key_bytes k') x00 = bxor t2 q2 /\ nth ((i + 3) mod 4) (key_bytes k') x00 = bxor t3 q3) as HX.
  { intros k'. rewrite stands_iff by (cbn [length]; rewrite length_mask_data; lia). cbn [length]. rewrite four_nths by (rewrite length_mask_data; lia).
    rewrite !mask_nth by lia. fold q0 q1 q2 q3. rewrite <- !bxor_solve. split; [intros H; injection H; auto|intros (-> & -> & -> & ->); reflexivity]. }
  assert (i mod 4 = 0 /\ (i + 1) mod 4 = 1 /\ (i + 2) mod 4 = 2 /\ (i + 3) mod 4 = 3 \/
          i mod 4 = 1 /\ (i + 1) mod 4 = 2 /\ (i + 2) mod 4 = 3 /\ (i + 3) mod 4 = 0 \/
          i mod 4 = 2 /\ (i + 1) mod 4 = 3 /\ (i + 2) mod 4 = 0 /\ (i + 3) mod 4 = 1 \/
          i mod 4 = 3 /\ (i + 1) mod 4 = 0 /\ (i + 2) mod 4 = 1 /\ (i + 3) mod 4 = 2) as HM by lia.
  destruct HM as [(E0 & E1 & E2 & E3)|[(E0 & E1 & E2 & E3)|[(E0 & E1 & E2 & E3)|(E0 & E1 & E2 & E3)]]]; rewrite E0, E1, E2, E3 in HX; cbn [key_bytes nth] in HX;
    [exists (mk_key (bxor t0 q0) (bxor t1 q1) (bxor t2 q2) (bxor t3 q3))
    |exists (mk_key (bxor t3 q3) (bxor t0 q0) (bxor t1 q1) (bxor t2 q2))
    |exists (mk_key (bxor t2 q2) (bxor t3 q3) (bxor t0 q0) (bxor t1 q1))
    |exists (mk_key (bxor t1 q1) (bxor t2 q2) (bxor t3 q3) (bxor t0 q0))];
    intros k'; rewrite HX, key_eq; tauto.
Qed.

(** ** A masked frame on the wire: the key is a mask of four zeros *)
Lemma key_masks : forall k p, key_bytes k ++ mask_data k p = mask_data k ([x00; x00; x00; x00] ++ p).
Proof.
  intros [a b c d] p. unfold mask_data, key_bytes. cbn [app mask_cycle k0 k1 k2 k3].
  assert (forall x, bxor x00 x = x) as HZ by (intros x; apply b2n_inj; rewrite b2n_bxor; reflexivity). rewrite !HZ. do 4 f_equal.
  destruct p; reflexivity.
Qed.
Definition open_part (d : dataframe_ops) : bytes :=
  [n2b (N.lor (df_flags d) (df_opcode d)); n2b (N.lor 0x80 (len7 (df_size d)))] ++ ext_len (df_size d).
Definition veiled (d : dataframe_ops) : bytes := [x00; x00; x00; x00] ++ concat (df_writes d).
Lemma masked_wire : forall d k, ops_sendable d -> df_write_err d = None ->
  frame_bytes d (Some k) = Ok (open_part d ++ mask_data k (veiled d)).
Proof.
  intros d k HO HE. rewrite (frame_bytes_ok d (Some k) HO HE). unfold header_bytes, ops_header, open_part, veiled. cbn [h_flags h_opcode h_mask h_len mask_opt].
  rewrite <- key_masks, <- !app_assoc. reflexivity.
Qed.
Lemma stands_shift : forall a i t l, stands_at (length a + i) t (a ++ l) <-> stands_at i t l.
Proof.
  intros a i t l. split; intros (x & y & E & L).
  - assert (x = a ++ skipn (length a) x) as HX.
    { rewrite <- (firstn_skipn (length a) x) at 1. f_equal. apply (f_equal (firstn (length a))) in E. rewrite !firstn_app, firstn_all, Nat.sub_diag, firstn_O, app_nil_r in E.
      replace (length a - length x) with 0 in E by lia. rewrite firstn_O, app_nil_r in E. symmetry. exact E. }
    exists (skipn (length a) x), y. rewrite HX, <- app_assoc in E. apply app_inv_head in E. split; [exact E|]. rewrite skipn_length. lia.
  - subst i l. exists (a ++ x), y. rewrite app_length, <- app_assoc. auto.
Qed.
Lemma sent_wire : forall d k w w', honest d -> ops_sendable d -> send_frame (mk_sender true) d k w = (Ok tt, w') ->
  w_out w' = w_out w ++ open_part d ++ mask_data k (veiled d).
Proof.
  intros d k w w' [_ HE] HO H. unfold send_frame, write_to in H. cbn [s_mask] in H. rewrite (masked_wire d k HO HE) in H. cbv zeta in H.
  set (l := open_part d ++ mask_data k (veiled d)) in *. destruct w as [out sc]. unfold write_all in H. cbn [w_script w_out] in *.
  destruct (write_all_go_spec sc out l) as [n HS]. destruct (write_all_go sc out l) as [r w1]. destruct HS as (_ & HS & _).
  injection H as H1 <-. apply HS. destruct r; cbn in H1; congruence.
Qed.
Lemma some_window : forall d t i, length t = 4 -> i <= length (concat (df_writes d)) ->
  exists k, forall k' out, stands_at (length (out ++ open_part d ++ mask_data k' (veiled d)) - length (concat (df_writes d)) - 4 + i) t (out ++ open_part d ++ mask_data k' (veiled d)) <-> k' = k.
Proof.
  intros d t i HT HI. destruct (window_key (veiled d) t i HT) as [k HK]; [unfold veiled; rewrite app_length; cbn [length]; lia|].
  exists k. intros k' out. rewrite <- HK.
  replace (length (out ++ open_part d ++ mask_data k' (veiled d)) - length (concat (df_writes d)) - 4 + i) with (length (out ++ open_part d) + i).
  - rewrite (app_assoc out). apply stands_shift.
  - rewrite !app_length, length_mask_data. unfold veiled. rewrite app_length. cbn [length]. lia.
Qed.

(** ** The theorems *)
(** [C93] A frame sent by a blocking client: whoever chose the payload, whatever four octets [t] and
    whatever place [i] behind the length field they had in mind (the key and the payload, or partly
    both), just one of the masking keys puts them there. *)
Lemma chosen_one_key_proof : forall d t i w, honest d ->
  rfc_sendable (rfc_of (df_is_last d) (df_reserved d) (df_opcode d) (concat (df_writes d)) None) ->
  length t = 4 -> i <= length (concat (df_writes d)) ->
  exists k, forall k' w', send_frame (mk_sender true) d k' w = (Ok tt, w') ->
    (stands_at (length (w_out w') - length (concat (df_writes d)) - 4 + i) t (w_out w') <-> k' = k).
Proof.
  intros d t i w HH HS HT HI. pose proof (sendable_ops d None HH HS) as HO. destruct (some_window d t i HT HI) as [k HK].
  exists k. intros k' w' HW. rewrite (sent_wire d k' w w' HH HO HW). apply HK.
Qed.
(*EX
(** The payload is meant to look like a request to somebody else; of all keys only 0, 0, 0, 0 leaves
    it as it is. *)
Example chosen_one_key_ex :
  let d := owned_ops (OText (str "GET / HTTP/1.1")) in let z := mk_key x00 x00 x00 x00 in
  send_frame (mk_sender true) d z (mk_w [] []) = (Ok tt, mk_w ([x81; x8e; x00; x00; x00; x00] ++ str "GET / HTTP/1.1") []) /\
  forall k' w', send_frame (mk_sender true) d k' (mk_w [] []) = (Ok tt, w') -> (stands_at 6 (str "GET ") (w_out w') <-> k' = z).
Proof.
  cbv zeta. set (d := owned_ops (OText (str "GET / HTTP/1.1"))). split; [vm_compute; reflexivity|].
  destruct (chosen_one_key d (str "GET ") 4 (mk_w [] [])) as [k HK].
  - split; reflexivity.
  - repeat split; vm_compute; try reflexivity; intros H; try discriminate H; try (exfalso; apply H; reflexivity).
  - reflexivity.
  - apply PeanoNat.Nat.leb_le. reflexivity.
  - assert (mk_key x00 x00 x00 x00 = k) as <-.
    { apply (HK (mk_key x00 x00 x00 x00) (mk_w ([x81; x8e; x00; x00; x00; x00] ++ str "GET / HTTP/1.1") [])); [vm_compute; reflexivity|].
      exists [x81; x8e; x00; x00; x00; x00], (str "/ HTTP/1.1"). split; reflexivity. }
    intros k' w' HW. rewrite <- (HK k' w' HW). clear HK. destruct k' as [a b c e].
    assert (length (w_out w') = 20%nat) as ->; [|reflexivity]. vm_compute in HW. injection HW as <-. reflexivity.
Qed.
EX*)

(** [C93] The same for an asynchronous client. *)
Lemma chosen_one_key_async_proof : forall d t i extra dst, honest d ->
  rfc_sendable (rfc_of (df_is_last d) (df_reserved d) (df_opcode d) (concat (df_writes d)) None) ->
  length t = 4 -> i <= length (concat (df_writes d)) ->
  exists k, forall k', exists dst', codec_encode false d k' extra dst = (Ok tt, dst') /\
    (stands_at (length (bm_data dst') - length (concat (df_writes d)) - 4 + i) t (bm_data dst') <-> k' = k).
Proof.
  intros d t i extra dst HH HS HT HI. pose proof (sendable_ops d None HH HS) as HO. destruct (some_window d t i HT HI) as [k HK].
  exists k. intros k'. destruct (encode_good false d k' extra dst HH HO) as (wire & dst' & E1 & E2 & E3). exists dst'. split; [exact E1|].
  destruct HH as [_ HE]. cbv iota in E3. rewrite (masked_wire d k' HO HE) in E3. injection E3 as <-. rewrite E2. apply HK.
Qed.
(*EX
Example chosen_one_key_async_ex :
  codec_encode false (owned_ops (OText (str "abcd"))) (mk_key x20 x20 x20 x20) 0 (mk_bm [] 0)
  = (Ok tt, mk_bm ([x81; x84; x20; x20; x20; x20] ++ str "ABCD") 10).
Proof. vm_compute. reflexivity. Qed.
EX*)

(** [C93] So a chosen sequence of four octets or more turns up anywhere behind the length field
    with few keys only: at most as many as the payload has octets, and one. *)
Lemma chosen_few_keys_proof : forall d t w, honest d ->
  rfc_sendable (rfc_of (df_is_last d) (df_reserved d) (df_opcode d) (concat (df_writes d)) None) ->
  4 <= length t ->
  exists ks, length ks <= length (concat (df_writes d)) + 1 /\
    forall k w' j, send_frame (mk_sender true) d k w = (Ok tt, w') ->
      length (w_out w') - length (concat (df_writes d)) - 4 <= j -> stands_at j t (w_out w') -> In k ks.
Proof.
  intros d t w HH HS HT.
  assert (forall n, n <= length (concat (df_writes d)) + 1 -> exists ks, length ks <= n /\
    forall k w' i, i < n -> send_frame (mk_sender true) d k w = (Ok tt, w') ->
      stands_at (length (w_out w') - length (concat (df_writes d)) - 4 + i) t (w_out w') -> In k ks) as HX.
  { induction n as [|n IH]; intros HN; [exists []; split; [reflexivity|intros; lia]|]. destruct IH as (ks & K1 & K2); [lia|].
    assert (length (firstn 4 t) = 4) as HF by (apply firstn_length_le; lia).
    destruct (chosen_one_key_proof d (firstn 4 t) n w HH HS HF) as [k0 HK]; [lia|].
    exists (k0 :: ks). split; [cbn [length]; lia|]. intros k w' i HI HW HA. destruct (Nat.eq_dec i n) as [->|HD].
    - left. symmetry. apply (HK k w' HW). destruct HA as (a & b & E & L). exists a, (skipn 4 t ++ b). rewrite (app_assoc (firstn 4 t)), firstn_skipn. auto.
    - right. apply (K2 k w' i); [lia|exact HW|exact HA]. }
  destruct (HX (length (concat (df_writes d)) + 1)) as (ks & K1 & K2); [lia|]. exists ks. split; [exact K1|].
  intros k w' j HW HJ HA. set (b := length (w_out w') - length (concat (df_writes d)) - 4) in *.
  apply (K2 k w' (j - b)); [|exact HW|].
  - destruct HA as (x & y & E & L). assert (length (w_out w') = j + length t + length y) as HL by (rewrite E, !app_length; lia).
    pose proof (sent_wire d k w w' HH (sendable_ops d None HH HS) HW) as HO.
    assert (4 + length (concat (df_writes d)) <= length (w_out w')) as HM.
    { rewrite HO, !app_length, length_mask_data. unfold veiled. rewrite app_length. cbn [length]. lia. }
    lia.
  - fold b. replace (b + (j - b)) with j by lia. exact HA.
Qed.
(*EX
(** With four times the same text the sequence turns up with the same key at several places; with no
    other key but those in the list. *)
Example chosen_few_keys_ex :
  let d := owned_ops (OBinary (str "HEADHEADHEADHEAD")) in
  honest d /\ rfc_sendable (rfc_of (df_is_last d) (df_reserved d) (df_opcode d) (concat (df_writes d)) None) /\
  stands_at 10 (str "HEAD") (w_out (snd (send_frame (mk_sender true) d (mk_key x00 x00 x00 x00) (mk_w [] [])))) /\
  stands_at 7 (str "HEAD") (w_out (snd (send_frame (mk_sender true) d (mk_key x0c x0d x04 x05) (mk_w [] [])))).
Proof.
  cbv zeta. split; [split; reflexivity|]. split; [repeat split; vm_compute; try reflexivity; intros H; try discriminate H; try (exfalso; apply H; reflexivity)|].
  split; vm_compute; [exists (map n2b [0x82; 0x90; 0; 0; 0; 0]%N ++ str "HEAD"), (str "HEADHEAD")|eexists (map n2b [0x82; 0x90; 0x0c; 0x0d; 4; 5; 0x44]%N), _]; split; vm_compute; reflexivity.
Qed.
EX*)

(** [C93] There are 2^32 keys: [key_number] numbers them. *)
Lemma key_count_proof :
  (forall k, (key_number k < 2 ^ 32)%N) /\ (forall k k', key_number k = key_number k' -> k = k') /\
  (forall n, (n < 2 ^ 32)%N -> exists k, key_number k = n).
Proof.
  split; [|split].
  - intros [a b c d]. unfold key_number. cbn [k0 k1 k2 k3]. pose proof (b2n_lt a). pose proof (b2n_lt b). pose proof (b2n_lt c). pose proof (b2n_lt d).
    unfold b2n in *. change (2 ^ 24)%N with 16777216%N. change (2 ^ 16)%N with 65536%N. change (2 ^ 8)%N with 256%N. change (2 ^ 32)%N with 4294967296%N. lia.
  - intros [a b c d] [a' b' c' d'] H. unfold key_number in H. cbn [k0 k1 k2 k3] in H.
    pose proof (b2n_lt a). pose proof (b2n_lt b). pose proof (b2n_lt c). pose proof (b2n_lt d).
    pose proof (b2n_lt a'). pose proof (b2n_lt b'). pose proof (b2n_lt c'). pose proof (b2n_lt d').
    unfold b2n in *. change (2 ^ 24)%N with 16777216%N in *. change (2 ^ 16)%N with 65536%N in *. change (2 ^ 8)%N with 256%N in *.
    f_equal; apply b2n_inj; unfold b2n; lia.
  - intros n Hn. exists (mk_key (n2b (n / 16777216)) (n2b (n / 65536 mod 256)) (n2b (n / 256 mod 256)) (n2b (n mod 256))).
    unfold key_number. cbn [k0 k1 k2 k3]. change (2 ^ 24)%N with 16777216%N. change (2 ^ 16)%N with 65536%N. change (2 ^ 8)%N with 256%N. change (2 ^ 32)%N with 4294967296%N in Hn.
    change Byte.to_N with b2n. rewrite !b2n_n2b_small by lia. lia.
Qed.
(*EX
Example key_count_ex : key_number (mk_key x01 x02 x03 x04) = 16909060%N.
Proof. reflexivity. Qed.
EX*)

(** [C93] The length field is not masked: whoever chooses the payload chooses, by its length, two
    octets on the wire, whatever the key (any two but those that make a number below 126). *)
Lemma length_in_clear_proof : forall a b, (126 <= 256 * b2n a + b2n b)%N ->
  exists m, sendable (2 ^ 16) m /\
    forall k w w', send_message (mk_sender true) m k w = (Ok tt, w') -> stands_at (length (w_out w) + 2) [a; b] (w_out w').
Proof.
  intros a b H. pose proof (b2n_lt a) as Ha. pose proof (b2n_lt b) as Hb. set (n := (256 * b2n a + b2n b)%N) in *.
  set (m := OBinary (repeat x00 (N.to_nat n))). assert (length (repeat x00 (N.to_nat n)) = N.to_nat n) as HL by apply repeat_length.
  assert (df_size (owned_ops m) = n) as HZ by (change (df_size (owned_ops m)) with (llen (repeat x00 (N.to_nat n))); unfold llen; rewrite HL; lia).
  exists m. split; [split; [exact I|]; split; [change (payload_of m) with (repeat x00 (N.to_nat n)); unfold size; rewrite HL; change (2 ^ 16)%N with 65536%N; lia|intros []]|].
  intros k w w' HW. unfold send_message in HW. apply sent_wire in HW.
  - rewrite HW. unfold open_part. rewrite HZ. unfold ext_len. replace ((126 <=? n) && (n <=? 65535))%N with true by lia.
    exists (w_out w ++ [n2b (N.lor (df_flags (owned_ops m)) (df_opcode (owned_ops m))); n2b (N.lor 128 (len7 n))]), (mask_data k (veiled (owned_ops m))).
    split; [|rewrite app_length; reflexivity].
    assert (be16 (n mod 65536) = [a; b]) as ->; [|rewrite <- !app_assoc; reflexivity].
    rewrite N.mod_small by lia. unfold be16. f_equal; [|f_equal]; apply b2n_inj; rewrite b2n_n2b; unfold n; lia.
  - split; [rewrite HZ; change (concat (df_writes (owned_ops m))) with (repeat x00 (N.to_nat n) ++ []); rewrite app_nil_r, HL; lia|reflexivity].
  - split; [reflexivity|]. intros X. exfalso. apply X. reflexivity.
Qed.
(*EX
(** A message of 18245 octets puts "GE" on the wire. *)
Example length_in_clear_ex : (256 * b2n x47 + b2n x45 = 18245)%N /\ [x47; x45] = str "GE".
Proof. split; reflexivity. Qed.
EX*)

(** [C93] Nor does masking hide what the payload is like: octets four apart differ on the wire as
    they do in the payload, whatever the key. *)
Lemma pattern_shows_proof : forall d k w w' i, honest d ->
  rfc_sendable (rfc_of (df_is_last d) (df_reserved d) (df_opcode d) (concat (df_writes d)) None) ->
  send_frame (mk_sender true) d k w = (Ok tt, w') -> i + 4 < length (concat (df_writes d)) ->
  let p := concat (df_writes d) in
  let start := length (w_out w') - length p in
  bxor (nth (start + i) (w_out w') x00) (nth (start + i + 4) (w_out w') x00) = bxor (nth i p x00) (nth (i + 4) p x00).
Proof.
  intros d k w w' i HH HS HW HI p start. rewrite (sent_wire d k w w' HH (sendable_ops d None HH HS) HW).
  assert (start = length (w_out w ++ open_part d) + 4) as ->.
  { unfold start. rewrite (sent_wire d k w w' HH (sendable_ops d None HH HS) HW), !app_length, length_mask_data. unfold veiled. rewrite app_length. fold p. cbn [length]. lia. }
  rewrite app_assoc. rewrite !app_nth2 by lia.
  replace (length (w_out w ++ open_part d) + 4 + i - length (w_out w ++ open_part d)) with (4 + i) by lia.
  replace (length (w_out w ++ open_part d) + 4 + i + 4 - length (w_out w ++ open_part d)) with (4 + (i + 4)) by lia.
  rewrite !mask_nth by (unfold veiled; rewrite app_length; fold p; cbn [length]; fold p in HI; lia).
  replace ((4 + (i + 4)) mod 4) with ((4 + i) mod 4) by lia. set (x := nth ((4 + i) mod 4) (key_bytes k) x00).
  change (nth (4 + i) (veiled d) x00) with (nth i p x00). change (nth (4 + (i + 4)) (veiled d) x00) with (nth (i + 4) p x00).
  apply b2n_inj. rewrite !b2n_bxor. apply N.bits_inj. intros n. rewrite !N.lxor_spec. destruct (N.testbit _ n), (N.testbit (b2n x) n), (N.testbit (b2n (nth (i + 4) p x00)) n); reflexivity.
Qed.
(*EX
(** Eight equal octets: the wire repeats itself after four. *)
Example pattern_shows_ex : exists w', send_frame (mk_sender true) (owned_ops (OBinary (repeat x61 8))) (mk_key x12 x34 x56 x78) (mk_w [] []) = (Ok tt, w') /\
  skipn 6 (w_out w') = [x73; x55; x37; x19; x73; x55; x37; x19].
Proof. eexists. split; [vm_compute; reflexivity|]. reflexivity. Qed.
EX*)
