(** What is sent over a writer that keeps bytes back: C90. *)
From Coq Require Import NArith ZArith String Bool List Lia.
From Coq Require Import ZifyBool ZifyNat ZifyN.
From Coq.Strings Require Import Byte.
From Verif.Model Require Import Base Io Header Mask Dataframe Utf8 Text Base64 WsKey Headers
  Handshake Message Receiver Codec Framed Http Connect Examples Unflushed.
From Verif.Spec Require Import RfcFrame FrameSpec Schedule Unicode Drive Session Connection Polled Fields Upgrade Builder HttpHead Wire Endpoint Echo
  AsyncChat Unflushed.
From Verif.Proofs Require Import BaseFacts MaskFacts HeaderFacts FrameFacts CodecFacts ScriptFacts
  Machine FramedFacts AsyncFacts Utf8Facts ThmFrames ThmStream SessionFacts RecvFacts MessageFacts
  TextFacts MapFacts ExTac ThmMessages ThmFlow ThmLimits ThmServer ThmHttp ThmConnect ThmInterop ThmSession ThmEcho.
Import ListNotations.
Local Open Scope string_scope.
Local Open Scope list_scope.
Local Open Scope N_scope.

(** ** The writers *)
Lemma bufw_takes : forall b d, took b (bufw_write b d) (octets d).
Proof.
  intros [cap buf on] d. unfold took, bufw_write. cbn [kp_cap kp_buf kp_on].
  destruct (N.ltb_spec cap (llen buf + llen d)) as [H1|H1]; unfold kp_flush; cbn [kp_cap kp_buf kp_on];
    (destruct (N.leb_spec cap (llen d)) as [H2|H2]); cbn [kp_cap kp_buf kp_on]; unfold size, llen in *.
  - split; [rewrite !octets_app; rewrite <- !app_assoc; cbn [app octets map]; rewrite !app_nil_r; reflexivity|].
    split; [exists (buf ++ d); rewrite <- app_assoc; reflexivity|]. split; [reflexivity|]. cbn [List.length]. lia.
  - split; [rewrite !octets_app; rewrite <- !app_assoc; reflexivity|].
    split; [exists buf; reflexivity|]. split; [reflexivity|]. cbn [app]. lia.
  - assert (buf = []) as -> by (destruct buf; [reflexivity|cbn [List.length] in *; lia]).
    split; [rewrite !octets_app; cbn [octets map app]; rewrite app_nil_r; reflexivity|].
    split; [exists d; reflexivity|]. split; [reflexivity|]. cbn [List.length]. lia.
  - split; [rewrite !octets_app; reflexivity|].
    split; [exists []; rewrite app_nil_r; reflexivity|]. split; [reflexivity|]. rewrite app_length. lia.
Qed.
Lemma took_trans : forall b b1 b2 d1 d2, took b b1 d1 -> took b1 b2 d2 -> took b b2 (d1 ++ d2).
Proof.
  intros b b1 b2 d1 d2 (A1 & (m1 & A2) & A3 & A4) (B1 & (m2 & B2) & B3 & B4). unfold took.
  split; [|split; [|split]].
  - rewrite B1, app_assoc, A1, <- !app_assoc. reflexivity.
  - exists (m1 ++ m2). rewrite B2, A2, <- app_assoc. reflexivity.
  - congruence.
  - auto.
Qed.
Lemma flush_takes : forall b, took b (kp_flush b) [].
Proof.
  intros [cap buf on]. unfold took, kp_flush. cbn [kp_cap kp_buf kp_on]. rewrite octets_app, <- !app_assoc.
  split; [reflexivity|]. split; [exists buf; reflexivity|]. split; [reflexivity|]. unfold size. cbn [List.length]. lia.
Qed.
Lemma upto_newline_parts : forall d, fst (upto_newline d) ++ snd (upto_newline d) = d.
Proof.
  induction d as [|c r IH]; [reflexivity|]. cbn [upto_newline]. destruct (upto_newline r) as [[|h0 h] t]; cbn [fst snd app] in *.
  - destruct (Byte.eqb c x0a); cbn [fst snd app]; congruence.
  - congruence.
Qed.
Lemma upto_newline_rest : forall d, ~ In x0a (snd (upto_newline d)).
Proof.
  assert (forall d, (fst (upto_newline d) = [] -> ~ In x0a d) /\ ~ In x0a (snd (upto_newline d))) as HH.
  { induction d as [|c r [IH1 IH2]]; [split; intros; intros []|]. cbn [upto_newline].
    destruct (upto_newline r) as [[|h0 h] t] eqn:E; cbn [fst snd] in *.
    - specialize (IH1 eq_refl). destruct (Byte.eqb c x0a) eqn:EC; cbn [fst snd].
      + split; [discriminate|exact IH1].
      + assert (~ In x0a (c :: r)) by (intros [HI|HI]; [subst c; discriminate EC|exact (IH1 HI)]). auto.
    - split; [discriminate|exact IH2]. }
  intros d. apply HH.
Qed.
Lemma upto_newline_end : forall d, upto_newline (d ++ [x0a]) = (d ++ [x0a], []).
Proof.
  induction d as [|c d IH]; [reflexivity|]. cbn [app upto_newline]. rewrite IH.
  destruct d; reflexivity.
Qed.
Lemma linew_takes : forall b d, took b (linew_write b d) (octets d).
Proof.
  intros b d. unfold linew_write. pose proof (upto_newline_parts d) as HP. destruct (upto_newline d) as [[|h0 h] t]; cbn [fst snd] in HP.
  - subst d. apply bufw_takes.
  - subst d. rewrite octets_app. eapply took_trans; [|apply bufw_takes].
    rewrite <- (app_nil_r (octets (h0 :: h))). eapply took_trans; [apply bufw_takes|apply flush_takes].
Qed.
Lemma lazy_takes : forall write b d, lazy_writer write -> took b (write b d) (octets d).
Proof. intros write b d [->| ->]; [apply bufw_takes|apply linew_takes]. Qed.
Lemma took_nothing : forall b, took b b [].
Proof. intros b. unfold took. rewrite app_nil_r. repeat split; auto. exists []. rewrite app_nil_r. reflexivity. Qed.

Lemma bufw_keeps : forall b d, llen (kp_buf b) + llen d < kp_cap b ->
  bufw_write b d = mk_keeping (kp_cap b) (kp_buf b ++ d) (kp_on b).
Proof.
  intros b d H. unfold bufw_write. replace (kp_cap b <? llen (kp_buf b) + llen d) with false by lia.
  replace (kp_cap b <=? llen d) with false by lia. reflexivity.
Qed.
Lemma sent_frame : forall write mask m k b, sendable (2 ^ 34) m ->
  exists data, kept_send write (mk_sender mask) m k b = (Ok tt, write b data) /\
    octets data = frames_for mask [(m, k)].
Proof.
  intros write mask m k b (Ht & Hs & Hc). pose proof (owned_sendable m Ht Hc) as HO.
  pose proof (proj2 (proj2 library_frames_honest_proof) m) as HH.
  pose proof (frame_bytes_ok (owned_ops m) (if mask then Some k else None) HO (proj2 HH)) as HB.
  eexists. split; [unfold kept_send; cbn [s_mask]; rewrite HB; reflexivity|].
  unfold frames_for. cbn [map concat fst snd]. rewrite app_nil_r. rewrite <- owned_rfc by auto. apply frame_bytes_rfc; auto.
  rewrite owned_payload by auto. unfold size in Hs. clear - Hs. lia.
Qed.
Lemma frames_cons : forall mask p l, frames_for mask (p :: l) = frames_for mask [p] ++ frames_for mask l.
Proof. intros mask p l. unfold frames_for. cbn [map concat]. rewrite app_nil_r. reflexivity. Qed.

(** [C90] Messages sent over a writer that keeps bytes back: every send reports success, and the
    frames have been handed on in order, except for at most as many bytes as the buffer takes.
    If the program flushes the writer, all of them have. *)
Lemma sends_kept_proof : forall write mask l b, lazy_writer write -> Forall (fun p => sendable (2 ^ 34) (fst p)) l ->
  let '(rs, b') := kept_sends write (mk_sender mask) l b in
  rs = repeat (Ok tt) (length l) /\ took b b' (frames_for mask l) /\
  octets (kp_on (kp_flush b')) = octets (kp_on b) ++ octets (kp_buf b) ++ frames_for mask l.
Proof.
  intros write mask l b HW HF.
  assert (let '(rs, b') := kept_sends write (mk_sender mask) l b in
    rs = repeat (Ok tt) (length l) /\ took b b' (frames_for mask l)) as H.
  { revert b. induction HF as [|[m k] l Hm HF IH]; intros b; cbn [kept_sends].
    - split; [reflexivity|apply took_nothing].
    - destruct (sent_frame write mask m k b Hm) as (data & -> & ED). specialize (IH (write b data)).
      destruct (kept_sends write (mk_sender mask) l (write b data)) as [rs b2]. destruct IH as [-> HT].
      split; [reflexivity|]. rewrite frames_cons. eapply took_trans; [|exact HT]. rewrite <- ED. apply lazy_takes, HW. }
  destruct (kept_sends write (mk_sender mask) l b) as [rs b']. destruct H as [H1 H2]. split; [exact H1|].
  split; [exact H2|]. unfold kp_flush. cbn [kp_on]. rewrite octets_app. apply H2.
Qed.
(*EX
(** A Ping of two frames' room, a BufWriter for 16 bytes: the first frame has gone, the second has not. *)
Example sends_kept_ex : let k := mk_key x01 x02 x03 x04 in
  kept_sends bufw_write (mk_sender true) [(OPing (ascii "abcd"), k); (OText (ascii "efgh"), k)] (keeping_new 16)
  = ([Ok tt; Ok tt], mk_keeping 16 [x81; x84; x01; x02; x03; x04; x64; x64; x64; x6c]
                       [x89; x84; x01; x02; x03; x04; x60; x60; x60; x60]).
Proof. vm_compute. reflexivity. Qed. EX*)

(** [C90] As long as the frames fit into the buffer of a [BufWriter], nothing at all is handed on. *)
Lemma sends_held_back_proof : forall mask l b, Forall (fun p => sendable (2 ^ 34) (fst p)) l ->
  size (kp_buf b) + N.of_nat (length (frames_for mask l)) < kp_cap b ->
  let '(rs, b') := kept_sends bufw_write (mk_sender mask) l b in
  rs = repeat (Ok tt) (length l) /\ kp_on b' = kp_on b.
Proof.
  intros mask l b HF. revert b. induction HF as [|[m k] l Hm HF IH]; intros b HS; cbn [kept_sends].
  - split; reflexivity.
  - destruct (sent_frame bufw_write mask m k b Hm) as (data & -> & ED). rewrite frames_cons, app_length in HS.
    assert (length (frames_for mask [(m, k)]) = length data) as EL by (rewrite <- ED; apply map_length).
    unfold size in HS. rewrite bufw_keeps by (unfold llen; lia).
    match goal with |- context [kept_sends _ _ l ?x] => specialize (IH x); destruct (kept_sends bufw_write (mk_sender mask) l x) as [rs b2] end.
    cbn [kp_cap kp_buf kp_on] in IH. destruct IH as [-> ->]; [unfold size; rewrite app_length; lia|]. split; reflexivity.
Qed.
(*EX Example sends_held_back_ex : let k := mk_key x01 x02 x03 x04 in
  let l := [(OPing (ascii "abcd"), k); (OText (ascii "efgh"), k)] in
  Forall (fun p => sendable (2 ^ 34) (fst p)) l /\ N.of_nat (length (frames_for true l)) < 8192.
Proof. split; [facts|vm_compute; reflexivity]. Qed. EX*)

(** [C90] Refuted therefore that a message whose send succeeded is on its way: over a [BufWriter]
    of any size, one of a few bytes stays where it is, whatever the peer waits for, until the
    program flushes the writer itself. *)
Lemma sent_is_on_its_way_refuted_proof : forall cap mask k, 16 < cap -> exists m b,
  kept_send bufw_write (mk_sender mask) m k (keeping_new cap) = (Ok tt, b) /\
  kp_on b = [] /\ octets (kp_on (kp_flush b)) = frames_for mask [(m, k)].
Proof.
  intros cap mask k HC.
  assert (sendable (2 ^ 34) (OPing (ascii "hi"))) as HS by (split; [exact I|split; intros; vm_compute; discriminate]).
  destruct (sent_frame bufw_write mask (OPing (ascii "hi")) k (keeping_new cap) HS) as (data & E & ED).
  exists (OPing (ascii "hi")), (mk_keeping cap data []).
  assert (length data <= 8)%nat as HL.
  { rewrite <- (map_length Byte.to_N data). change (map Byte.to_N data) with (octets data). rewrite ED.
    destruct k as [k1 k2 k3 k4]. apply Nat.leb_le. destruct mask; vm_compute; reflexivity. }
  rewrite E, bufw_keeps by (cbn [keeping_new kp_buf kp_cap]; unfold llen; cbn [List.length]; lia).
  split; [reflexivity|]. split; [reflexivity|]. exact ED.
Qed.

(** [C90] The client's request likewise: over a [BufWriter] that has room for it the server gets
    not one byte of it, while the client already waits for the response. *)
Lemma request_held_back_proof : forall rnd bl cap text,
  request_text rnd bl text -> llen text < cap ->
  @kept_request unit bufw_write rnd bl (keeping_new cap) = Ok (mk_keeping cap text []).
Proof.
  intros rnd bl cap text H HL. unfold request_text in H. unfold kept_request. rewrite H. cbn [rbind].
  rewrite bufw_keeps; [reflexivity|]. cbn [keeping_new kp_buf kp_cap]. unfold llen in *. cbn [List.length]. lia.
Qed.
(*EX Example request_held_back_ex :
  let bl := builder_init (mk_url (ascii "ws") (Some (ascii "example.com")) None [] None (ascii "/chat")) in
  exists text, request_text (ascii "the sample nonce") bl text /\ llen text < 8192.
Proof. eexists. split; [vm_compute; reflexivity|]. vm_compute. reflexivity. Qed. EX*)

(** [C90] And the server's response. *)
Lemma response_held_back_proof : forall v st h cap text,
  @print_response unit v st h = Ok text -> llen text < cap ->
  @kept_response unit bufw_write v st h (keeping_new cap) = Ok (mk_keeping cap text []).
Proof.
  intros v st h cap text H HL. unfold kept_response. rewrite H. cbn [rbind].
  rewrite bufw_keeps; [reflexivity|]. cbn [keeping_new kp_buf kp_cap]. unfold llen in *. cbn [List.length]. lia.
Qed.
(*EX Example response_held_back_ex :
  exists text, @print_response unit Http11 switching_protocols [(ascii "Server", Raw [ascii "x"])] = Ok text /\ llen text < 8192.
Proof. eexists. split; [vm_compute; reflexivity|]. vm_compute. reflexivity. Qed. EX*)

Lemma linew_lines : forall cap on d, kp_buf (linew_write (mk_keeping cap [] on) (d ++ [x0a])) = [] /\
  kp_on (linew_write (mk_keeping cap [] on) (d ++ [x0a])) = on ++ d ++ [x0a].
Proof.
  intros cap on d. pose proof (linew_takes (mk_keeping cap [] on) (d ++ [x0a])) as (H1 & _).
  assert (kp_buf (linew_write (mk_keeping cap [] on) (d ++ [x0a])) = []) as E.
  { unfold linew_write. rewrite upto_newline_end. destruct (d ++ [x0a]) as [|c r] eqn:ED; [destruct d; discriminate ED|].
    unfold bufw_write at 1. cbn [kp_flush kp_buf kp_cap kp_on]. 
    repeat match goal with |- context [if ?c then _ else _] => destruct c end; reflexivity. }
  split; [exact E|]. rewrite E in H1. cbn [kp_on kp_buf octets map app] in H1. rewrite app_nil_r in H1.
  apply octets_inj. rewrite octets_app. exact H1.
Qed.
(** [C90] Over a writer that flushes after each line (as [Stdout] does) the heads get through,
    since they end with one ... *)
Lemma heads_pass_lines_proof : forall cap rnd bl text v st h text',
  request_text rnd bl text -> @print_response unit v st h = Ok text' ->
  @kept_request unit linew_write rnd bl (keeping_new cap) = Ok (mk_keeping cap [] text) /\
  @kept_response unit linew_write v st h (keeping_new cap) = Ok (mk_keeping cap [] text').
Proof.
  assert (forall cap d, linew_write (keeping_new cap) (d ++ [x0a]) = mk_keeping cap [] (d ++ [x0a])) as HL.
  { intros cap d. destruct (linew_lines cap [] d) as [H1 H2]. fold (keeping_new cap) in *.
    pose proof (linew_takes (keeping_new cap) (d ++ [x0a])) as (_ & _ & H3 & _).
    destruct (linew_write (keeping_new cap) (d ++ [x0a])) as [c0 b0 o0]. cbn [kp_buf kp_on kp_cap keeping_new] in *. subst. reflexivity. }
  intros cap rnd bl text v st h text' H H'.
  assert (exists d, text = d ++ [x0a]) as [d ->].
  { apply print_request_inv in H as (hs & _ & ->). change crlf with ([x0d] ++ [x0a]). eexists. rewrite !app_assoc. reflexivity. }
  assert (exists d, text' = d ++ [x0a]) as [d' ->].
  { apply print_response_inv in H' as (hs & _ & ->). change crlf with ([x0d] ++ [x0a]). eexists. rewrite !app_assoc. reflexivity. }
  unfold kept_request, kept_response. unfold request_text in H. rewrite H, H'. cbn [rbind]. rewrite !HL. split; reflexivity.
Qed.
(*EX Example heads_pass_lines_ex :
  let bl := builder_init (mk_url (ascii "ws") (Some (ascii "example.com")) None [] None (ascii "/chat")) in
  exists text text', request_text (ascii "the sample nonce") bl text /\
    @print_response unit Http11 switching_protocols [(ascii "Server", Raw [ascii "x"])] = Ok text'.
Proof. eexists. eexists. split; vm_compute; reflexivity. Qed. EX*)

Lemma linew_no_newline : forall b d, ~ In x0a (kp_buf b) -> ~ In x0a (kp_buf (linew_write b d)).
Proof.
  assert (forall b d, ~ In x0a (kp_buf b) -> ~ In x0a d -> ~ In x0a (kp_buf (bufw_write b d))) as HB.
  { intros b d H1 H2. unfold bufw_write, kp_flush.
    repeat (match goal with |- context [if ?c then _ else _] => destruct c end; cbn [kp_buf]); auto;
      try (intros []); intros HI; apply in_app_or in HI as [HI|HI]; auto. }
  intros b d H. unfold linew_write. pose proof (upto_newline_rest d) as HR. destruct (upto_newline d) as [[|h0 h] t]; cbn [snd] in HR.
  - apply HB; auto.
  - apply HB; [intros []|exact HR].
Qed.
Lemma upto_newline_none : forall d, ~ In x0a d -> upto_newline d = ([], d).
Proof.
  induction d as [|c r IH]; intros H; [reflexivity|]. cbn [upto_newline]. rewrite IH by (intros HI; apply H; right; exact HI).
  destruct (Byte.eqb c x0a) eqn:E; [|reflexivity]. apply Byte.byte_dec_bl in E. subst c. destruct H. left. reflexivity.
Qed.
Lemma octets_in : forall c d, In c d -> In (Byte.to_N c) (octets d).
Proof. intros c d H. apply (in_map Byte.to_N) in H. exact H. Qed.
(** [C90] ... but of the messages such a writer keeps back whatever follows the last byte 0x0a,
    be that the text of a line or the header or the masking key of a frame: what it has not
    handed on never contains one, and frames without one that fit are kept whole. *)
Lemma lines_keep_messages_proof : forall mask l b, Forall (fun p => sendable (2 ^ 34) (fst p)) l -> ~ In x0a (kp_buf b) ->
  let '(rs, b') := kept_sends linew_write (mk_sender mask) l b in
  ~ In x0a (kp_buf b') /\
  (~ In 10 (frames_for mask l) -> size (kp_buf b) + N.of_nat (length (frames_for mask l)) < kp_cap b -> kp_on b' = kp_on b).
Proof.
  intros mask l b HF. revert b. induction HF as [|[m k] l Hm HF IH]; intros b HB; cbn [kept_sends].
  - split; [exact HB|reflexivity].
  - destruct (sent_frame linew_write mask m k b Hm) as (data & -> & ED).
    specialize (IH (linew_write b data) (linew_no_newline b data HB)).
    destruct (kept_sends linew_write (mk_sender mask) l (linew_write b data)) as [rs b2]. destruct IH as [IH1 IH2].
    split; [exact IH1|]. rewrite frames_cons. intros HN HS. rewrite app_length in HS.
    assert (length (frames_for mask [(m, k)]) = length data) as EL by (rewrite <- ED; apply map_length).
    assert (linew_write b data = mk_keeping (kp_cap b) (kp_buf b ++ data) (kp_on b)) as E.
    { unfold linew_write. rewrite upto_newline_none.
      - apply bufw_keeps. unfold size in HS. unfold llen. lia.
      - intros HI. apply HN. apply in_or_app. left. rewrite <- ED. exact (octets_in x0a data HI). }
    rewrite E in IH2. cbn [kp_buf kp_cap kp_on] in IH2. apply IH2.
    + intros HI. apply HN. apply in_or_app. right. exact HI.
    + unfold size in *. rewrite app_length. lia.
Qed.
(*EX
(** The first text ends with a line feed, but the client's mask hides it; the server's does not. *)
Example lines_keep_messages_ex : let k := mk_key x01 x02 x03 x04 in
  let l := [(OText [x61; x0a], k); (OText [x62], k)] in
  Forall (fun p => sendable (2 ^ 34) (fst p)) l /\ ~ In 10 (frames_for true l) /\
  kp_on (snd (kept_sends linew_write (mk_sender true) l (keeping_new 1024))) = [] /\
  kp_on (snd (kept_sends linew_write (mk_sender false) l (keeping_new 1024))) = [x81; x02; x61; x0a].
Proof.
  split; [facts|]. split; [|split; vm_compute; reflexivity]. vm_compute. intuition discriminate.
Qed. EX*)

(** [C90] The asynchronous code does flush: when [poll_complete] reports that it is done, every
    byte has been written and the stream below has said, when asked to flush after that, that it
    is done too. *)
Lemma async_flushes_proof : forall w w', poll_complete w = (SReady, w') ->
  fw_out w' = fw_out w ++ bm_data (fw_buf w) /\ bm_data (fw_buf w') = [] /\
  (fw_fs w = [] /\ fw_fs w' = [] \/ fw_fs w = AfReady :: fw_fs w').
Proof.
  assert (forall ws data out data' out' ws', flush_go ws data out = (None, data', out', ws') -> data' = [] /\ out' = out ++ data) as HG.
  { induction ws as [|e ws IH]; intros data out data' out' ws' H; (destruct data as [|c r]; cbn [flush_go] in H;
      [injection H as <- <- <-; rewrite app_nil_r; auto|]).
    - injection H as <- <- <-. auto.
    - destruct e as [n| | |kk]; try discriminate H. apply IH in H as [-> ->]. rewrite <- app_assoc, take_drop. auto. }
  assert (forall ws data out data' out' ws', flush_go ws data out <> (Some SReady, data', out', ws')) as HR.
  { induction ws as [|e ws IH]; intros data out data' out' ws' H; (destruct data as [|c r]; cbn [flush_go] in H; [discriminate H|]).
    - discriminate H.
    - destruct e as [n| | |kk]; try discriminate H. exact (IH _ _ _ _ _ H). }
  intros w w' H. unfold poll_complete in H.
  destruct (flush_go (fw_ws w) (bm_data (fw_buf w)) (fw_out w)) as [[[[e|] data] out] ws] eqn:EG.
  - injection H as -> _. destruct (HR _ _ _ _ _ _ EG).
  - apply HG in EG as [-> ->]. destruct (fw_fs w) as [|[| |kk] fs]; try discriminate H; injection H as <-; cbn [fw_out fw_buf bm_data fw_fs]; auto.
Qed.
(*EX Example async_flushes_ex :
  poll_complete (mk_fw (mk_bm [x81; x01; x61] 10) [] [AwAccept 0; AwAccept 5] [AfReady; AfNotReady])
  = (SReady, mk_fw (mk_bm [] 7) [x81; x01; x61] [] [AfNotReady]).
Proof. vm_compute. reflexivity. Qed. EX*)
