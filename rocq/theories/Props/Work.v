(** How much there is to do: C89. *)
From Coq Require Import NArith ZArith String Bool List Lia.
From Coq.Strings Require Import Byte.
From Verif.Model Require Import Base Io Header Mask Dataframe Utf8 Message Receiver Codec Framed Headers Handshake Http Work.
From Verif.Spec Require Import RfcFrame FrameSpec Unicode Session Schedule Drive HttpHead Sides Accepting Working.
From Verif.Proofs Require Import ExTac.
From Verif.Proofs Require ThmWork.
Import ListNotations.
Local Open Scope string_scope.
Local Open Scope list_scope.
Local Open Scope N_scope.

(** ** The asynchronous side *)

(** [C89] What is counted are the calls behind a stream of messages: every message comes out of
    one of them.  There is one for every time the transport has something, one more for every message,
    and two. *)
Theorem calls_deliver : forall c buf s, let calls := message_calls c buf s in
  fst (run_messages c buf s)
  = concat (map (fun call => match mc_decode (fst call) (snd call) with (Ok (Some m), _, _) => [m] | _ => [] end) calls) /\
  llen calls <= reads s + llen (fst (run_messages c buf s)) + 2.
Proof. exact ThmWork.calls_deliver_proof. Qed.
Print Assumptions calls_deliver.

(** Two empty fragments and a Ping, in three reads. *)
Definition three_reads : list aev :=
  [AData x02 [x80; x00; x00; x00; x00; x00; x80]; ANotReady; AData x00 [x00; x00; x00; x89; x80; x00; x00; x00]; AData x00 []].
Example calls_deliver_ex : fst (run_messages (msg_codec_new CtxServer) [] three_reads) = [OPing []] /\ reads three_reads = 3 /\
  map (fun call => (llen (mc_buffer (fst call)), llen (snd call))) (message_calls (msg_codec_new CtxServer) [] three_reads)
  = [(0, 8); (1, 11); (2, 6); (2, 0); (2, 0)].
Proof. repeat split; vm_compute; reflexivity. Qed.

(** [C89] Whatever arrives, a byte and a call cost no more than a constant; but that is a large one, because
    up to 1048575 fragments may be waiting for the rest of their message at every call. *)
Theorem stream_work_bound : forall ctx max_df max_msg buf s l, acontains s l ->
  let c := msg_codec_with_limits ctx max_df max_msg in
  stream_work c buf s <= 1048589 * llen (message_calls c buf s) + size (buf ++ l).
Proof. exact ThmWork.stream_work_bound_proof. Qed.
Print Assumptions stream_work_bound.

Example stream_work_bound_ex : acontains three_reads (aev_bytes three_reads) /\
  stream_work (msg_codec_new CtxServer) [] three_reads = (0 + 1 + 2 + 2 + 2) + 5 * 14 + 18.
Proof.
  split; [|vm_compute; reflexivity]. unfold three_reads. cbn [aev_bytes].
  apply (acontains_data x02 [x80; x00; x00; x00; x00; x00; x80]). apply acontains_not_ready.
  apply (acontains_data x00 [x00; x00; x00; x89; x80; x00; x00; x00]). apply (acontains_data x00 [] _ []). constructor.
Qed.

(** [C89] The constant is small where the peer does not pile up fragments: with no more than
    [most] of them waiting at any time, a call costs [most] and 14, and a byte 1. *)
Theorem stream_work_piles : forall ctx max_df max_msg buf s l most, acontains s l ->
  piles_up_to most (receives_masked ctx) (buf ++ l) ->
  let c := msg_codec_with_limits ctx max_df max_msg in
  stream_work c buf s <= (most + 14) * llen (message_calls c buf s) + size (buf ++ l).
Proof. exact ThmWork.stream_work_piles_proof. Qed.
Print Assumptions stream_work_piles.

Example stream_work_piles_ex : piles_up_to 9 true (aev_bytes three_reads) /\
  (stream_work (msg_codec_new CtxServer) [] three_reads <=? (9 + 14) * llen (message_calls (msg_codec_new CtxServer) [] three_reads) + 18) = true.
Proof. split; [exact (ThmWork.piles_size true (aev_bytes three_reads))|vm_compute; reflexivity]. Qed.

(** [C89] So a peer that does not fragment its messages causes work in proportion to what it sends and how
    often something comes of it. *)
Theorem stream_work_whole : forall ctx max_df max_msg fs l s, on_wire (receives_masked ctx) fs l ->
  fits (capped max_df) fs -> Forall (fun f => f_finished f = true) fs -> acontains s l ->
  let c := msg_codec_with_limits ctx max_df max_msg in
  stream_work c [] s <= 14 * llen (message_calls c [] s) + size l.
Proof. exact ThmWork.stream_work_whole_proof. Qed.
Print Assumptions stream_work_whole.

(** An empty text, byte by byte. *)
Definition six_reads : list aev := [AData x81 []; AData x80 []; AData x00 []; AData x00 []; AData x00 []; AData x00 []].
Example stream_work_whole_ex : on_wire true [whole_frame (OText [])] (aev_bytes six_reads) /\
  stream_work (msg_codec_new CtxServer) [] six_reads = 14 * llen (message_calls (msg_codec_new CtxServer) [] six_reads) + 6 /\
  llen (message_calls (msg_codec_new CtxServer) [] six_reads) = 8.
Proof.
  split; [|split; vm_compute; reflexivity].
  apply (wire_cons true (whole_frame (OText [])) (Some (mk_key x00 x00 x00 x00)) [x81; x80; x00; x00; x00; x00] [] []); [reflexivity..|constructor].
Qed.

(** *** A peer that piles up empty fragments *)

(** [C89] But with the built-in limits a peer that sends an unfinished message in [n] empty
    fragments of six bytes, one at a time, makes the server add up [n * (n - 1) / 2] lengths: for the six
    megabytes of the longest such message more than 500 000 000 000. *)
Theorem stream_work_proportional_refuted : forall n, N.of_nat n < 1048576 -> exists s l,
  on_wire true (empty_fragments n) l /\ delivers [] (empty_fragments n) [] (empty_fragments n) /\
  acarries s l /\ size l = 6 * N.of_nat n /\
  N.of_nat n * (N.of_nat n - 1) <= 2 * stream_work (msg_codec_new CtxServer) [] s.
Proof. exact ThmWork.stream_work_proportional_refuted_proof. Qed.
Print Assumptions stream_work_proportional_refuted.

(** Forty fragments. *)
Example stream_work_proportional_ex :
  stream_work (msg_codec_new CtxServer) [] (AData x02 [x80; x00; x00; x00; x00] :: repeat (AData x00 [x80; x00; x00; x00; x00]) 39)
  = 40 * 39 / 2 + 40 + 41 * 14 + 240.
Proof. vm_compute. reflexivity. Qed.

(** ** The blocking side *)

(** [C89] The blocking receiver, called [n] times, none but the last of them in vain. *)
Theorem receive_work_bound : forall masked max_df max_msg n s l os r' s', contains s l ->
  let r := receiver_with_limits masked max_df max_msg in
  recv_n n r s = (os, r', s') -> Forall (fun o => exists m, o = Ok m) (removelast os) ->
  receive_work n r s <= 1048575 * N.of_nat n + size l.
Proof. exact ThmWork.receive_work_bound_proof. Qed.
Print Assumptions receive_work_bound.

Example receive_work_bound_ex :
  let s := [RData x02 [x80; x00; x00; x00; x00; x89; x80]; RIntr; RData x00 [x00; x00; x00; x81]] in
  fst (fst (recv_n 2 (receiver_new true) s)) = [Ok (OPing []); Err NoDataAvailable] /\
  receive_work 2 (receiver_new true) s = 1 + 13.
Proof. split; vm_compute; reflexivity. Qed.

(** [C89] A peer that sends an empty ping after each of [n] empty fragments, twelve bytes for both, makes the
    blocking server do the same, however the bytes arrive. *)
Theorem receive_work_proportional_refuted : forall n, N.of_nat n < 1048576 -> exists l,
  on_wire true (with_pings (empty_fragments n)) l /\ size l = 12 * N.of_nat n /\
  forall s, carries s l -> let r := receiver_new true in
    fst (fst (recv_n n r s)) = repeat (Ok (OPing [])) n /\
    N.of_nat n * (N.of_nat n - 1) <= 2 * receive_work n r s.
Proof. exact ThmWork.receive_work_proportional_refuted_proof. Qed.
Print Assumptions receive_work_proportional_refuted.

(** Forty fragments and Pings, in one piece. *)
Example receive_work_proportional_ex :
  let w := concat ([x02; x80; x00; x00; x00; x00; x89; x80; x00; x00; x00; x00] :: repeat [x00; x80; x00; x00; x00; x00; x89; x80; x00; x00; x00; x00] 39) in
  receive_work 40 (receiver_new true) [RData x02 (List.tl w)] = 40 * 39 / 2 + 480.
Proof. vm_compute. reflexivity. Qed.

(** ** Handshakes *)

(** [C89] A request is read anew with every read, but never in more than 417792 bytes. *)
Theorem request_work_bound : forall X s, capped_room X -> 2 * request_work X s <= 417792 * 417793.
Proof. exact ThmWork.request_work_bound_proof. Qed.
Print Assumptions request_work_bound.

Example request_work_bound_ex : capped_room httparse_lib /\
  request_work httparse_lib [RData "G"%byte (str "ET /"); RData " "%byte (str "HTTP/1.1" ++ [x0d; x0a]); RData x0d [x0a]] = 0 + 5 + 16 + 18.
Proof. split; [intros n H; cbn [l_room httparse_lib]; unfold MAX_BUFFER_SIZE; Lia.lia|vm_compute; reflexivity]. Qed.

(** [C89] A caller that sends a request byte by byte makes the blocking server read [n (n + 1) / 2]. *)
Theorem request_work_drip : forall X text, sound_lib X -> sound_room X -> unfinished X text -> size text <= 417792 ->
  2 * request_work X (map (fun b => RData b []) text) = size text * (size text + 1).
Proof. exact ThmWork.request_work_drip_proof. Qed.
Print Assumptions request_work_drip.

Example request_work_drip_ex : unfinished httparse_lib (firstn 50 good_request) /\
  request_work httparse_lib (map (fun b => RData b []) (firstn 50 good_request)) = 50 * 51 / 2.
Proof. split; [exact ThmAccepting.half_unfinished|vm_compute; reflexivity]. Qed.

(** [C89] The asynchronous server looks at all that has come, with every read. *)
Theorem async_request_work_bound : forall X s, async_request_work X s <= (reads s + 2) * size (aev_bytes s).
Proof. exact ThmWork.async_request_work_bound_proof. Qed.
Print Assumptions async_request_work_bound.

Example async_request_work_bound_ex :
  async_request_work httparse_lib [AData "G"%byte (str "ET /"); ANotReady; AData " "%byte (str "HTTP/1.1" ++ [x0d; x0a]); AData x0d [x0a]] = 5 + 16 + 18.
Proof. vm_compute. reflexivity. Qed.

(** [C89] So that here, too, one that sends byte by byte costs about half of the square. *)
Theorem async_request_work_drip : forall X (text : bytes) s, ~ has_end text ->
  size text * (size text + 1) <= 2 * async_request_work X (map (fun b => AData b []) text ++ s).
Proof. exact ThmWork.async_request_work_drip_proof. Qed.
Print Assumptions async_request_work_drip.

Example async_request_work_drip_ex : split_off_http (firstn 50 good_request) = None /\
  async_request_work httparse_lib (map (fun b => AData b []) (firstn 50 good_request) ++ [ANotReady; AErr UnexpectedEof]) = 50 * 51 / 2.
Proof. split; vm_compute; reflexivity. Qed.

(** [C89] And here there is no end to it: no factor bounds the work by what has come. *)
Theorem async_request_work_refuted : forall X k, exists s, k * size (aev_bytes s) < async_request_work X s.
Proof. exact ThmWork.async_request_work_refuted_proof. Qed.
Print Assumptions async_request_work_refuted.

Example async_request_work_refuted_ex : 3 * 7 < async_request_work httparse_lib (map (fun b => AData b []) (repeat "a"%byte 7)).
Proof. vm_compute. reflexivity. Qed.
