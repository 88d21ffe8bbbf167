(** Errors in the middle, end of stream, the sink: C09, C25, C27-C30. *)
From Coq Require Import NArith ZArith String Bool List Lia.
From Coq.Strings Require Import Byte.
From Verif.Model Require Import Base Io Header Mask Dataframe Utf8 Message Receiver Codec Framed.
From Verif.Spec Require Import RfcFrame FrameSpec Unicode Session Schedule Drive Sink.
From Verif.Proofs Require Import ExTac.
From Verif.Proofs Require ThmFlow.
Import ListNotations.
Local Open Scope string_scope.
Local Open Scope list_scope.
Local Open Scope N_scope.

(** ** A read error in the middle *)

(** [C25] Exactly what a read error (WouldBlock, time-out, ...) does to the blocking
    receiver: the call returns the error, its state is unchanged, and whatever part of the
    frame had arrived is gone: the next call starts with the bytes after the error. *)
Theorem read_error_drops_partial_frame : forall p masked max_df max_msg f key w1 w2 s1 k s2,
  rfc_legal (rfc_of_frame f key) -> size (f_data f) <= capped max_df ->
  octets (w1 ++ w2) = rfc_encode (rfc_of_frame f key) -> w2 <> [] ->
  carries s1 w1 -> k <> Interrupted ->
  let r := mk_recv p masked (capped max_df) max_msg in
  recv_message r (s1 ++ RErr k :: s2) = (Err (of_io k), r, s2).
Proof. exact ThmFlow.read_error_drops_partial_frame_proof. Qed.
Print Assumptions read_error_drops_partial_frame.

(** A header and half of the payload, then WouldBlock. *)
Example read_error_ex :
  let f := mk_df true no_rsv Text (str "hello") in
  rfc_legal (rfc_of_frame f None) /\
  octets ([x81; x05; x68; x65] ++ str "llo") = rfc_encode (rfc_of_frame f None) /\
  carries [RData x81 [x05]; RData x68 [x65]] [x81; x05; x68; x65].
Proof.
  split; [vm_compute; intuition congruence|]. split; [reflexivity|].
  apply (carries_data x81 [x05] _ [x68; x65]). apply (carries_data x68 [x65] _ []). constructor.
Qed.

(** [C25] Refuted: retrying after WouldBlock does not yield the frame; here the payload is
    taken for a frame instead and a message nobody sent is delivered. *)
Theorem retry_after_read_error_refuted : exists s1 s2 w m m',
  carries (s1 ++ s2) w /\
  fst (fst (recv_message (receiver_with_limits false 100 100) (s1 ++ s2))) = Ok m /\
  fst (fst (recv_n 2 (receiver_with_limits false 100 100) (s1 ++ RErr WouldBlock :: s2)))
  = [Err (IoError WouldBlock); Ok m'] /\ m <> m'.
Proof. exact ThmFlow.retry_after_read_error_refuted_proof. Qed.
Print Assumptions retry_after_read_error_refuted.

(** ** A refused header *)

(** [C27] Async frames: an error either leaves the buffer as it is and is returned by every
    later call, whatever arrives, or a whole frame masked the wrong way was dropped. *)
Theorem refused_header_sticks : forall c src e src',
  df_decode c src = (Err e, src') ->
  (src' = src /\ forall more, df_decode c (src ++ more) = (Err e, src ++ more)) \/
  (exists f key w, src = w ++ src' /\ octets w = rfc_encode (rfc_of_frame f key) /\
     match key with Some _ => true | None => false end <> dc_is_server c /\
     e = DataFrameError (if dc_is_server c then "Expected masked data frame"
                         else "Expected unmasked data frame")).
Proof. exact ThmFlow.refused_header_sticks_proof. Qed.
Print Assumptions refused_header_sticks.

(** A length that is not the shortest; and a frame that is not masked for a server. *)
Example refused_header_sticks_ex :
  df_decode (mk_dfc false 100) [x82; x7e; x00; x05; x81] = (Err (DataFrameError "Invalid data frame length"), [x82; x7e; x00; x05; x81]) /\
  df_decode (mk_dfc true 100) [x81; x01; x61; x89; x80] = (Err (DataFrameError "Expected masked data frame"), [x89; x80]).
Proof. split; reflexivity. Qed.

(** [C27] Async messages: after a refused header every later call fails the same way and
    nothing more is taken from the buffer, whatever arrives. *)
Theorem refused_header_sticks_message : forall c src e c' src',
  mc_decode c src = (Err e, c', src') ->
  e = DataFrameError "Invalid data frame length" \/
  e = DataFrameError "Control frame length too long" \/
  e = ProtocolError "Illegal fragmented control frame" \/
  e = ProtocolError "Exceeded maximum incoming DataFrame size" ->
  forall n more, decode_n mc_decode n c' (src' ++ more) = (repeat (Err e) n, c', src' ++ more).
Proof. exact ThmFlow.refused_header_sticks_message_proof. Qed.
Print Assumptions refused_header_sticks_message.

Example refused_header_ex :
  mc_decode (msg_codec_with_limits CtxClient 100 100) [x89; x7e; x00; x7e; x81; x00]
  = (Err (DataFrameError "Control frame length too long"), msg_codec_with_limits CtxClient 100 100,
     [x89; x7e; x00; x7e; x81; x00]).
Proof. reflexivity. Qed.

(** [C27] The blocking receiver goes on after the refused header: whatever follows it,
    which is the refused frame's payload, is parsed as frames. *)
Theorem refused_header_payload_parsed : forall p max_df max_msg s rest,
  carries s ([x89; x7e; x00; x7e] ++ rest) ->
  let r := mk_recv p false (capped max_df) max_msg in
  exists s', recv_message r s = (Err (DataFrameError "Control frame length too long"), r, s') /\
    carries s' rest.
Proof. exact ThmFlow.refused_header_payload_parsed_proof. Qed.
Print Assumptions refused_header_payload_parsed.

Example refused_header_payload_parsed_ex :
  recv_message (receiver_with_limits false 100 100) [RData x89 [x7e; x00; x7e]; RData x81 [x00]]
  = (Err (DataFrameError "Control frame length too long"), receiver_with_limits false 100 100, [RData x81 [x00]]).
Proof. reflexivity. Qed.

(** [C27] Refuted for the blocking receiver: a message hidden in the payload of a refused
    frame is delivered by the next call. *)
Theorem refused_header_sticks_blocking_refuted : exists s,
  fst (fst (recv_n 2 (receiver_with_limits false 1000 1000) s))
  = [Err (DataFrameError "Control frame length too long"); Ok (OText (str "hi"))].
Proof. exact ThmFlow.refused_header_sticks_blocking_refuted_proof. Qed.
Print Assumptions refused_header_sticks_blocking_refuted.

(** ** Masked the wrong way *)

(** [C09] A frame masked when it must not be, or not masked when it must be, is refused with
    a DataFrameError and never delivered (blocking). *)
Theorem wrong_mask_refused_blocking : forall p masked max_df max_msg f key w s rest,
  rfc_legal (rfc_of_frame f key) -> size (f_data f) <= capped max_df ->
  match key with Some _ => true | None => false end <> masked ->
  octets w = rfc_encode (rfc_of_frame f key) -> carries s (w ++ rest) ->
  let r := mk_recv p masked (capped max_df) max_msg in
  exists s', recv_message r s
    = (Err (DataFrameError (if masked then "Expected masked data frame"
                            else "Expected unmasked data frame")), r, s') /\ carries s' rest.
Proof. exact ThmFlow.wrong_mask_refused_blocking_proof. Qed.
Print Assumptions wrong_mask_refused_blocking.

(** [C09] Async. *)
Theorem wrong_mask_refused_async : forall p ctx max_df max_msg f key w rest,
  rfc_legal (rfc_of_frame f key) -> size (f_data f) <= capped max_df ->
  match key with Some _ => true | None => false end <> receives_masked ctx ->
  octets w = rfc_encode (rfc_of_frame f key) ->
  let c := mk_mc p (df_codec_with_limits ctx max_df) max_msg in
  mc_decode c (w ++ rest)
  = (Err (DataFrameError (if receives_masked ctx then "Expected masked data frame"
                          else "Expected unmasked data frame")), c, rest).
Proof. exact ThmFlow.wrong_mask_refused_async_proof. Qed.
Print Assumptions wrong_mask_refused_async.

Example wrong_mask_ex :
  fst (fst (recv_n 2 (receiver_with_limits true 100 100) [RData x81 [x01; x61; x89; x80; x01; x02; x03; x04]]))
  = [Err (DataFrameError "Expected masked data frame"); Ok (OPing [])].
Proof. reflexivity. Qed.

(** ** End of the stream *)

(** [C28] A stream that ends inside a frame delivers the messages before it and ends with
    an error. *)
Theorem closed_inside_frame : forall ctx max_df max_msg fs ms p ws f key w1 w2 s,
  delivers [] fs ms p ->
  under (capped max_msg) [] fs -> fits (capped max_df) fs ->
  on_wire (receives_masked ctx) fs ws ->
  rfc_legal (rfc_of_frame f key) -> size (f_data f) <= capped max_df ->
  octets (w1 ++ w2) = rfc_encode (rfc_of_frame f key) -> w1 <> [] -> w2 <> [] ->
  acarries s (ws ++ w1) ->
  run_messages (msg_codec_with_limits ctx max_df max_msg) [] s
  = (ms, PErr (IoError (OtherKind 0))).
Proof. exact ThmFlow.closed_inside_frame_proof. Qed.
Print Assumptions closed_inside_frame.

(** A ping, then a text frame of which one payload byte is missing. *)
Example closed_inside_frame_ex :
  let f := mk_df true no_rsv Text (str "ab") in
  delivers [] [whole_frame (OPing [])] [OPing []] [] /\
  octets ([x81; x02; x61] ++ [x62]) = rfc_encode (rfc_of_frame f None) /\
  run_messages (msg_codec_with_limits CtxClient 100 1000) [] [AData x89 [x00; x81]; ANotReady; AData x02 [x61]]
  = ([OPing []], PErr (IoError (OtherKind 0))).
Proof.
  cbv zeta. split; [|split; reflexivity]. apply del_control; [exact I|exact I|constructor].
Qed.

(** [C28] A stream that ends at a frame boundary ends cleanly, even if a message is
    unfinished: its fragments are dropped silently. *)
Theorem closed_between_frames : forall ctx max_df max_msg fs ms p ws s,
  delivers [] fs ms p ->
  under (capped max_msg) [] fs -> fits (capped max_df) fs ->
  on_wire (receives_masked ctx) fs ws -> acarries s ws ->
  run_messages (msg_codec_with_limits ctx max_df max_msg) [] s = (ms, PEnd).
Proof. exact ThmFlow.closed_between_frames_proof. Qed.
Print Assumptions closed_between_frames.

(** Two fragments of a text whose last fragment never comes. *)
Example closed_between_frames_ex :
  run_messages (msg_codec_with_limits CtxClient 100 1000) []
    (at_once [x89; x00; x01; x01; x61; x00; x01; x62]) = ([OPing []], PEnd).
Proof. reflexivity. Qed.

(** [C28] The stream ends cleanly only if all the bytes received were whole frames. *)
Theorem clean_end_means_whole_frames : forall ctx max_df max_msg s l ms,
  acontains s l ->
  run_messages (msg_codec_with_limits ctx max_df max_msg) [] s = (ms, PEnd) ->
  exists fs p, on_wire (receives_masked ctx) fs l /\ fits (capped max_df) fs /\ delivers [] fs ms p.
Proof. exact ThmFlow.clean_end_means_whole_frames_proof. Qed.
Print Assumptions clean_end_means_whole_frames.

Example clean_end_ex :
  run_messages (msg_codec_with_limits CtxClient 100 1000) [] [AData x89 [x00; x01]; ANotReady; AData x00 [x80; x01; x61]]
  = ([OPing []; OText (str "a")], PEnd).
Proof. reflexivity. Qed.

(** ** Encoding *)

(** [C30] Encoding a frame or message appends exactly its RFC encoding to the buffer,
    masked iff this is a client, whatever the buffer holds and however little room it has. *)
Theorem encode_appends : forall (is_server : bool) d k extra dst,
  honest d ->
  let frame := rfc_of (df_is_last d) (df_reserved d) (df_opcode d) (concat (df_writes d))
                      (if is_server then None else Some k) in
  rfc_sendable frame ->
  exists wire dst', codec_encode is_server d k extra dst = (Ok tt, dst') /\
    bm_data dst' = bm_data dst ++ wire /\ octets wire = rfc_encode frame.
Proof. exact ThmFlow.encode_appends_proof. Qed.
Print Assumptions encode_appends.

Example encode_ex :
  codec_encode true (owned_ops (OText (str "hi"))) (mk_key x01 x02 x03 x04) 0 (mk_bm [x88; x00] 2)
  = (Ok tt, mk_bm [x88; x00; x81; x02; x68; x69] 6).
Proof. reflexivity. Qed.

(** ** The sink *)

(** [C29] Whatever the task does and however the transport behaves: the bytes written plus the
    bytes buffered are always those from before plus the encodings of the frames accepted,
    in order, each masked iff this is a client. *)
Theorem sink_order : forall (is_server : bool) ops w,
  Forall (fun d => honest d /\ N.of_nat (length (concat (df_writes d))) < 2 ^ 64) (offered ops) ->
  let '(rs, w') := sink_run is_server ops w in
  octets (fw_out w' ++ bm_data (fw_buf w'))
  = octets (fw_out w ++ bm_data (fw_buf w)) ++
    concat (map (fun p : dataframe_ops * mkey =>
      rfc_encode (rfc_of (df_is_last (fst p)) (df_reserved (fst p)) (df_opcode (fst p))
        (concat (df_writes (fst p))) (if is_server then None else Some (snd p)))) (accepted ops rs)).
Proof. exact ThmFlow.sink_order_proof. Qed.
Print Assumptions sink_order.

(** [C29] A flush that reports ready leaves nothing buffered. *)
Theorem flush_completes : forall w w',
  poll_complete w = (SReady, w') ->
  bm_data (fw_buf w') = [] /\ fw_out w' = fw_out w ++ bm_data (fw_buf w).
Proof. exact ThmFlow.flush_completes_proof. Qed.
Print Assumptions flush_completes.

(** [C29] If the transport gets stuck or fails only finitely often, polling again and again
    ends with a completed flush. *)
Theorem flush_terminates : forall is_server w,
  exists n rs w', sink_run is_server (repeat Flush n) w = (rs ++ [SReady], w') /\
    (n <= length (fw_ws w) + length (fw_fs w) + 1)%nat /\
    bm_data (fw_buf w') = [] /\ fw_out w' = fw_out w ++ bm_data (fw_buf w).
Proof. exact ThmFlow.flush_terminates_proof. Qed.
Print Assumptions flush_terminates.

(** A client whose transport takes one byte, is busy, then takes the rest. *)
Example sink_ex :
  let w := mk_fw (mk_bm [] 0) [] [AwAccept 0; AwNotReady] [] in
  let '(rs, w') := sink_run true [Send (owned_ops (OText (str "a"))) (mk_key x00 x00 x00 x00) 0; Flush;
                                  Send (owned_ops (OPing [])) (mk_key x00 x00 x00 x00) 0; Flush] w in
  rs = [SReady; SNotReady; SReady; SReady] /\
  fw_out w' = [x81; x01; x61; x89; x00] /\ bm_data (fw_buf w') = [].
Proof. vm_compute. auto. Qed.

(** [C16] Messages sent through the async sink, once flushed, arrive as they were sent. *)
Theorem message_round_trip_sink :
  forall ctx max_df max_msg (l : list (owned * mkey)) ops ws fs s,
  Forall (fun p => sendable (capped max_df) (fst p)) l ->
  Forall (fun d => exists m, d = owned_ops m /\ size (payload_of m) < 2 ^ 63 /\ typed m) (offered ops) ->
  let '(rs, w) := sink_run (negb (receives_masked ctx)) ops (mk_fw (mk_bm [] 0) [] ws fs) in
  accepted ops rs = map (fun p => (owned_ops (fst p), snd p)) l ->
  bm_data (fw_buf w) = [] ->
  acarries s (fw_out w) ->
  run_messages (msg_codec_with_limits ctx max_df max_msg) [] s = (map fst l, PEnd).
Proof. exact ThmFlow.message_round_trip_sink_proof. Qed.
Print Assumptions message_round_trip_sink.

(** Sent by a client to a server, over a transport that takes one byte at a time. *)
Example message_round_trip_sink_ex :
  let k := mk_key x01 x02 x03 x04 in
  let ops := [Send (owned_ops (OText (str "hi"))) k 0; Send (owned_ops (OClose None)) k 0; Flush; Flush] in
  let '(rs, w) := sink_run (negb (receives_masked CtxServer)) ops (mk_fw (mk_bm [] 0) [] [AwAccept 0; AwNotReady] []) in
  accepted ops rs = [(owned_ops (OText (str "hi")), k); (owned_ops (OClose None), k)] /\
  bm_data (fw_buf w) = [] /\
  run_messages (msg_codec_with_limits CtxServer 100 100) [] (at_once (fw_out w)) = ([OText (str "hi"); OClose None], PEnd).
Proof. vm_compute. auto. Qed.
