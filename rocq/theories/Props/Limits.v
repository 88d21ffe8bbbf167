(** Limits and schedules: C21-C24, C26. *)
From Coq Require Import NArith ZArith String Bool List Lia.
From Coq.Strings Require Import Byte.
From Verif.Model Require Import Base Io Header Mask Dataframe Utf8 Message Receiver Codec Framed.
From Verif.Spec Require Import RfcFrame FrameSpec Unicode Session Schedule Drive.
From Verif.Proofs Require Import ExTac.
From Verif.Proofs Require ThmLimits.
Import ListNotations.
Local Open Scope string_scope.
Local Open Scope list_scope.
Local Open Scope N_scope.

(** ** Bounds until the first error *)

(** [C21] Blocking: before the first error and after it, the payload octets and the number of
    frames held for an unfinished message are bounded by the limits, and so is every
    message delivered. *)
Theorem memory_bounded_blocking : forall masked max_df max_msg r s x r' s',
  receiving (receiver_with_limits masked max_df max_msg) r ->
  recv_message r s = (x, r', s') ->
  let bound := N.max (capped max_df) (capped max_msg) + capped max_df in
  retained (r_buffer r') <= bound /\ N.of_nat (length (r_buffer r')) <= 2 ^ 20 /\
  (forall m, x = Ok m -> size (payload_of m) <= bound).
Proof. exact ThmLimits.memory_bounded_blocking_proof. Qed.
Print Assumptions memory_bounded_blocking.

(** [C21] Async. *)
Theorem memory_bounded_async : forall ctx max_df max_msg c src x c' src',
  decoding (msg_codec_with_limits ctx max_df max_msg) c ->
  mc_decode c src = (x, c', src') ->
  let bound := capped max_msg + capped max_df in
  retained (mc_buffer c') <= bound /\ N.of_nat (length (mc_buffer c')) <= 2 ^ 20 /\
  (forall m, x = Ok (Some m) -> size (payload_of m) <= bound).
Proof. exact ThmLimits.memory_bounded_async_proof. Qed.
Print Assumptions memory_bounded_async.

(** A receiver holding a fragment, about to read the rest of its message. *)
Example memory_bounded_ex :
  let r := receiver_with_limits false 10 100 in
  exists r1 s1, receiving r r1 /\ r_buffer r1 <> [] /\
    recv_message r1 s1 = (Ok (OText (str "ab")), r, []).
Proof.
  cbn zeta. exists (mk_recv [mk_df false no_rsv Text (str "a")] false 10 100), [RData x80 [x01; x62]].
  split; [|split; [discriminate|reflexivity]].
  apply (recv_next _ (receiver_with_limits false 10 100)
    [RData x01 [x01; x61; x89; x00]] (OPing []) _ []); [constructor|reflexivity].
Qed.

(** ** After an error *)

(** [C22] Refuted for the blocking receiver, whatever the limits: a peer that keeps
    sending one-octet fragments makes a receiver that is called again after each error
    hold any number of octets. *)
Theorem memory_bounded_after_error_blocking_refuted : forall masked max_df max_msg bound,
  1 <= max_df ->
  exists s n, bound <= retained (r_buffer (snd (fst
    (recv_n n (receiver_with_limits masked max_df max_msg) s)))).
Proof. exact ThmLimits.memory_bounded_after_error_blocking_refuted_proof. Qed.
Print Assumptions memory_bounded_after_error_blocking_refuted.

(** [C22] Refuted for the async codec as well. *)
Theorem memory_bounded_after_error_async_refuted : forall ctx max_df max_msg bound,
  1 <= max_df ->
  exists src n, bound <= retained (mc_buffer (snd (fst
    (decode_n mc_decode n (msg_codec_with_limits ctx max_df max_msg) src)))).
Proof. exact ThmLimits.memory_bounded_after_error_async_refuted_proof. Qed.
Print Assumptions memory_bounded_after_error_async_refuted.

(** ** Chunking *)

(** [C23] If the stream decoded in one piece does not run into the message size limit, it
    decodes to the same messages and the same end however it is cut. *)
Theorem chunks_do_not_matter : forall c s l,
  acarries s l ->
  snd (run_messages c [] (at_once l)) <> PErr (ProtocolError "Exceeded maximum WebSocket message size") ->
  run_messages c [] s = run_messages c [] (at_once l).
Proof. exact ThmLimits.chunks_do_not_matter_proof. Qed.
Print Assumptions chunks_do_not_matter.

(** [C23] Refuted without that condition: two fragments refused in one piece are
    accepted in two. *)
Theorem chunks_do_not_matter_refuted : exists c s l,
  acarries s l /\
  run_messages c [] (at_once l)
    = ([], PErr (ProtocolError "Exceeded maximum WebSocket message size")) /\
  run_messages c [] s = ([OText (str "abc")], PEnd).
Proof. exact ThmLimits.chunks_do_not_matter_refuted_proof. Qed.
Print Assumptions chunks_do_not_matter_refuted.

Example chunks_ex :
  run_messages (msg_codec_with_limits CtxClient 100 100) [] (at_once [x01; x01; x61; x80; x01; x62])
  = ([OText (str "ab")], PEnd).
Proof. reflexivity. Qed.

(** ** Read schedules *)

(** [C24] Any number of calls from any state: results and state depend only on the bytes,
    and the same bytes remain. *)
Theorem reads_do_not_matter : forall p masked max_df max_msg n s1 s2 l,
  carries s1 l -> carries s2 l ->
  let r := mk_recv p masked (capped max_df) max_msg in
  let '(os1, r1, t1) := recv_n n r s1 in
  let '(os2, r2, t2) := recv_n n r s2 in
  os1 = os2 /\ r1 = r2 /\ exists rest, carries t1 rest /\ carries t2 rest.
Proof. exact ThmLimits.reads_do_not_matter_proof. Qed.
Print Assumptions reads_do_not_matter.

(** [C24] The same for single frames. *)
Theorem reads_do_not_matter_frame : forall masked max_df s1 s2 l,
  carries s1 l -> carries s2 l ->
  let '(x1, t1) := read_dataframe_with_limit masked (capped max_df) s1 in
  let '(x2, t2) := read_dataframe_with_limit masked (capped max_df) s2 in
  x1 = x2 /\ exists rest, carries t1 rest /\ carries t2 rest.
Proof. exact ThmLimits.reads_do_not_matter_frame_proof. Qed.
Print Assumptions reads_do_not_matter_frame.

Example reads_ex : exists s1 s2 l, carries s1 l /\ carries s2 l /\ s1 <> s2 /\
  fst (fst (recv_n 1 (receiver_with_limits false 10 10) s1)) = [Ok (OText (str "a"))].
Proof.
  exists [RData x81 [x01; x61]], [RIntr; RData x81 []; RData x01 []; RIntr; RData x61 []], [x81; x01; x61].
  split; [apply (carries_data x81 [x01; x61] [] []); constructor|].
  split; [|split; [discriminate|reflexivity]].
  apply carries_intr. apply (carries_data x81 [] _ [x01; x61]). apply (carries_data x01 [] _ [x61]).
  apply carries_intr. apply (carries_data x61 [] _ []). constructor.
Qed.

(** ** Both receivers agree *)

(** [C26] On frames whose messages stay under the limits, legal sequence or not, both
    receivers return the same messages and the same errors one after the other, and then
    ask for more, holding the same fragments. *)
Theorem receivers_agree : forall ctx max_df max_msg fs ws s,
  under (capped max_msg) [] fs -> fits (capped max_df) fs ->
  on_wire (receives_masked ctx) fs ws -> carries s ws ->
  exists os p r1 s1 r2 s2 c1 src1 c2,
    recv_n (length os) (receiver_with_limits (receives_masked ctx) max_df max_msg) s = (os, r1, s1) /\
    recv_message r1 s1 = (Err NoDataAvailable, r2, s2) /\ r_buffer r2 = p /\ carries s2 [] /\
    decode_n mc_decode (length os) (msg_codec_with_limits ctx max_df max_msg) ws
      = (map (fun x => match x with Ok m => Ok (Some m) | Err e => Err e
                               | Panic => Panic | OutOfFuel => OutOfFuel end) os, c1, src1) /\
    mc_decode c1 src1 = (Ok None, c2, []) /\ mc_buffer c2 = p.
Proof. exact ThmLimits.receivers_agree_proof. Qed.
Print Assumptions receivers_agree.

(** [C26] At the size limit they differ: a message the blocking receiver refuses, the
    async codec delivers. *)
Theorem receivers_agree_refuted : exists ws,
  fst (fst (recv_message (receiver_with_limits false 100 130) [RData x01 ws]))
    = Err (ProtocolError "Exceeded maximum WebSocket message size") /\
  fst (fst (mc_decode (msg_codec_with_limits CtxClient 100 130) (x01 :: ws)))
    = Ok (Some (OText (str "abc"))).
Proof. exact ThmLimits.receivers_agree_refuted_proof. Qed.
Print Assumptions receivers_agree_refuted.

(** A stray continuation, a text in two fragments with a ping in between, an
    unfinished message. *)
Example receivers_agree_ex :
  let fs := [mk_df true no_rsv Continuation []; mk_df false no_rsv Text (str "a");
             mk_df true no_rsv Ping []; mk_df true no_rsv Continuation (str "b");
             mk_df false no_rsv Binary (str "c")] in
  under (capped 1000) [] fs /\ fits (capped 100) fs.
Proof.
  cbn zeta. split.
  - vm_compute. repeat split.
  - unfold fits. facts.
Qed.

(** [C21] Where no limits are given, they are 100 MiB for a frame and 200 MiB for a message:
    [Receiver::new], [DataFrameCodec::new] and [MessageCodec::new] do on every input what they
    do with these limits. *)
Theorem default_limits : forall masked ctx,
  let MiB := 1024 * 1024 in
  (forall n s, recv_n n (receiver_new masked) s = recv_n n (receiver_with_limits masked (100 * MiB) (200 * MiB)) s) /\
  (forall l, df_decode (df_codec_new ctx) l = df_decode (df_codec_with_limits ctx (100 * MiB)) l) /\
  (forall n l, decode_n mc_decode n (msg_codec_new ctx) l = decode_n mc_decode n (msg_codec_with_limits ctx (100 * MiB) (200 * MiB)) l).
Proof. exact ThmLimits.default_limits_proof. Qed.
Print Assumptions default_limits.

(** A header announcing 100 MiB is waited for; one announcing a byte more is refused. *)
Example default_limits_ex :
  let head n := [x82; x7f; x00; x00; x00; x00; x06; x40; x00; n] in
  fst (df_decode (df_codec_new CtxClient) (head x00)) = Ok None /\
  fst (df_decode (df_codec_new CtxClient) (head x01)) = Err (ProtocolError "Exceeded maximum incoming DataFrame size") /\
  fst (fst (mc_decode (msg_codec_new CtxClient) (head x00))) = Ok None /\
  fst (fst (mc_decode (msg_codec_new CtxClient) (head x01))) = Err (ProtocolError "Exceeded maximum incoming DataFrame size").
Proof. repeat split; vm_compute; reflexivity. Qed.
