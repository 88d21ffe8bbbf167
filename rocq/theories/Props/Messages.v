(** Messages: C10, C15-C20, C45, C46. *)
From Coq Require Import NArith ZArith String Bool List Lia.
From Coq.Strings Require Import Byte.
From Verif.Model Require Import Base Io Header Mask Dataframe Utf8 Message Receiver Codec Framed.
From Verif.Spec Require Import RfcFrame FrameSpec Unicode Session Schedule Drive.
From Verif.Proofs Require Import ExTac.
From Verif.Proofs Require ThmMessages.
Import ListNotations.
Local Open Scope string_scope.
Local Open Scope list_scope.
Local Open Scope N_scope.

(** ** No panic *)

(** [C10] Receiving a message never panics and always returns, whatever state previous
    calls left, whatever the transport does and whatever bytes arrive. *)
Theorem recv_message_no_panic : forall p masked max_df max_msg s,
  let '(x, _, _) := recv_message (mk_recv p masked (capped max_df) max_msg) s in
  (exists m, x = Ok m) \/ (exists e, x = Err e).
Proof. exact ThmMessages.recv_message_no_panic_proof. Qed.
Print Assumptions recv_message_no_panic.

(** [C10] Nor does the async message decoder, in any state, on any buffer. *)
Theorem decode_message_no_panic : forall c src,
  let '(x, _, _) := mc_decode c src in
  (exists m, x = Ok m) \/ (exists e, x = Err e).
Proof. exact ThmMessages.decode_message_no_panic_proof. Qed.
Print Assumptions decode_message_no_panic.

(** A close frame with one byte, behind an unfinished message. *)
Example decode_message_no_panic_ex :
  mc_decode (mk_mc [mk_df false no_rsv Text [xff]] (mk_dfc false 10) 10) [x88; x01; x03; x80]
  = (Err NoDataAvailable, mk_mc [mk_df false no_rsv Text [xff]] (mk_dfc false 10) 10, [x80]).
Proof. reflexivity. Qed.

(** [C10] The whole async stream of messages ends, cleanly or with an error, whatever the
    transport does. *)
Theorem message_stream_ends : forall c buf s,
  snd (run_messages c buf s) = PEnd \/ exists e, snd (run_messages c buf s) = PErr e.
Proof. exact ThmMessages.message_stream_ends_proof. Qed.
Print Assumptions message_stream_ends.

(** A state in the middle of a message, a garbage stream that fails in between. *)
Example recv_message_no_panic_ex :
  fst (fst (recv_message (mk_recv [mk_df false no_rsv Text []] false (capped 10) 10)
         [RData x80 [x01]; RIntr; RErr WouldBlock; RData xff [xff]])) = Err (of_io WouldBlock).
Proof. reflexivity. Qed.

(** ** Text *)

(** [C15] Blocking: a text message cut anywhere, with control messages between the
    fragments, is delivered with its payload if that is well-formed UTF-8, and answered by
    Utf8Error if it is not; either way the receiver is then ready for the next message. *)
Theorem text_iff_utf8_blocking : forall masked max_df max_msg c ws s rest,
  cm_text c = true -> cut_ok (capped max_df) (capped max_msg) c ->
  on_wire masked (item_frames (IData c)) ws -> carries s (ws ++ rest) ->
  let controls := concat (map fst (cm_more c)) in
  let r := receiver_with_limits masked max_df max_msg in
  exists x s', recv_n (length controls + 1) r s = (map Ok controls ++ [x], r, s') /\
    carries s' rest /\
    (well_formed (octets (cm_payload c)) -> x = Ok (OText (cm_payload c))) /\
    (~ well_formed (octets (cm_payload c)) -> x = Err Utf8Error).
Proof. exact ThmMessages.text_iff_utf8_blocking_proof. Qed.
Print Assumptions text_iff_utf8_blocking.

(** A character of four bytes, cut in two, a pong in between; and one that ends too early. *)
Example text_iff_utf8_blocking_ex :
  fst (fst (recv_n 2 (receiver_with_limits false 100 1000)
    [RData x01 [x02; xf0; x9f]; RIntr; RData x8a [x00; x80; x02; x98]; RData x80 [xff]]))
  = [Ok (OPong []); Ok (OText [xf0; x9f; x98; x80])] /\
  fst (fst (recv_n 2 (receiver_with_limits false 100 1000)
    [RData x01 [x02; xf0; x9f]; RIntr; RData x8a [x00; x80; x02; x98]; RData x81 [xff]]))
  = [Ok (OPong []); Ok (OText [xf0; x9f; x98; x81])] /\
  fst (fst (recv_n 1 (receiver_with_limits false 100 1000) [RData x81 [x02; xf0; x9f; x81; x00]]))
  = [Err Utf8Error] /\
  ~ well_formed (octets [xf0; x9f]).
Proof.
  split; [reflexivity|]. split; [reflexivity|]. split; [reflexivity|].
  intros H. apply Utf8Facts.utf8_valid_iff in H. discriminate H.
Qed.

(** [C15] The async decoder does the same. *)
Theorem text_iff_utf8_async : forall ctx max_df max_msg c ws rest,
  cm_text c = true -> cut_ok (capped max_df) (capped max_msg) c ->
  on_wire (receives_masked ctx) (item_frames (IData c)) ws ->
  let controls := concat (map fst (cm_more c)) in
  let mc := msg_codec_with_limits ctx max_df max_msg in
  exists x, decode_n mc_decode (length controls + 1) mc (ws ++ rest)
            = (map (fun m => Ok (Some m)) controls ++ [x], mc, rest) /\
    (well_formed (octets (cm_payload c)) -> x = Ok (Some (OText (cm_payload c)))) /\
    (~ well_formed (octets (cm_payload c)) -> x = Err Utf8Error).
Proof. exact ThmMessages.text_iff_utf8_async_proof. Qed.
Print Assumptions text_iff_utf8_async.

(** The euro sign, cut inside its three bytes, a ping in between; and the same with the
    last byte missing. *)
Example text_iff_utf8_ex :
  let c d := {| cm_text := true; cm_first := [xe2]; cm_more := [([OPing [x01]], d)] |} in
  cut_ok (capped 100) (capped 1000) (c [x82; xac]) /\
  well_formed (octets (cm_payload (c [x82; xac]))) /\
  fst (fst (decode_n mc_decode 2 (msg_codec_with_limits CtxClient 100 1000)
    [x01; x01; xe2; x89; x01; x01; x80; x02; x82; xac]))
  = [Ok (Some (OPing [x01])); Ok (Some (OText [xe2; x82; xac]))] /\
  fst (fst (decode_n mc_decode 2 (msg_codec_with_limits CtxClient 100 1000)
    [x01; x01; xe2; x89; x01; x01; x80; x01; x82])) = [Ok (Some (OPing [x01])); Err Utf8Error].
Proof.
  cbn zeta. facts.
Qed.

(** [C15] Whatever arrives and whatever happened before, no text or close reason that is
    not well-formed UTF-8 is ever delivered (blocking). *)
Theorem delivered_well_formed_blocking : forall p masked max_df max_msg s m r' s',
  recv_message (mk_recv p masked (capped max_df) max_msg) s = (Ok m, r', s') -> typed m.
Proof. exact ThmMessages.delivered_well_formed_blocking_proof. Qed.
Print Assumptions delivered_well_formed_blocking.

(** A state that holds half a character of a text, and its other half. *)
Example delivered_well_formed_blocking_ex :
  recv_message (mk_recv [mk_df false no_rsv Text [xc3]] false (capped 100) 100) [RData x80 [x01; xa9]]
  = (Ok (OText [xc3; xa9]), mk_recv [] false (capped 100) 100, []) /\ typed (OText [xc3; xa9]).
Proof. split; [reflexivity|]. facts. Qed.

(** [C15] The same for the async decoder and the message stream. *)
Theorem delivered_well_formed_async : forall c src m c' src',
  mc_decode c src = (Ok (Some m), c', src') -> typed m.
Proof. exact ThmMessages.delivered_well_formed_async_proof. Qed.
Print Assumptions delivered_well_formed_async.

(** A surrogate is no character. *)
Example delivered_well_formed_async_ex :
  mc_decode (msg_codec_with_limits CtxClient 100 100) [x81; x03; xed; xa0; x80; x89; x00]
  = (Err Utf8Error, msg_codec_with_limits CtxClient 100 100, [x89; x00]) /\
  mc_decode (msg_codec_with_limits CtxClient 100 100) [x81; x03; xed; x9f; xbf; x89; x00]
  = (Ok (Some (OText [xed; x9f; xbf])), msg_codec_with_limits CtxClient 100 100, [x89; x00]).
Proof. split; reflexivity. Qed.

(** [C15] *)
Theorem delivered_well_formed_stream : forall c buf s,
  Forall typed (fst (run_messages c buf s)).
Proof. exact ThmMessages.delivered_well_formed_stream_proof. Qed.
Print Assumptions delivered_well_formed_stream.

Example delivered_well_formed_stream_ex :
  run_messages (msg_codec_with_limits CtxClient 100 100) [x88; x04]
    [AData x03 [xe8]; ANotReady; AData xc3 [xa9; x81; x01; xc3; x89; x00]]
  = ([OClose (Some (mk_close 1000 [xc3; xa9]))], PErr Utf8Error).
Proof. reflexivity. Qed.

(** ** Sessions *)

(** [C17] Blocking: the frames of any legal sequence deliver exactly its messages, in
    order, at any transport schedule; then the receiver waits for more, holding exactly
    the fragments of an unfinished message. *)
Theorem legal_frames_received_blocking : forall masked max_df max_msg fs ms p ws s,
  delivers [] fs ms p ->
  under (capped max_msg) [] fs -> fits (capped max_df) fs ->
  on_wire masked fs ws -> carries s ws ->
  exists r1 s1 r2 s2,
    recv_n (length ms) (receiver_with_limits masked max_df max_msg) s = (map Ok ms, r1, s1) /\
    recv_message r1 s1 = (Err NoDataAvailable, r2, s2) /\
    r_buffer r2 = p /\ carries s2 [].
Proof. exact ThmMessages.legal_frames_received_blocking_proof. Qed.
Print Assumptions legal_frames_received_blocking.

(** A ping inside a text whose last fragment does not come. *)
Example legal_frames_received_ex :
  let a := mk_df false no_rsv Text (str "a") in
  let b := mk_df false no_rsv Continuation (str "b") in
  let fs := [a; whole_frame (OPing []); b] in
  delivers [] fs [OPing []] [a; b] /\ under (capped 1000) [] fs /\ fits (capped 10) fs /\
  exists r1 s1, recv_n 1 (receiver_with_limits false 10 1000) [RData x01 [x01; x61; x89; x00; x00]; RData x01 [x62]]
    = ([Ok (OPing [])], r1, s1) /\
  exists s2, recv_message r1 s1 = (Err NoDataAvailable, mk_recv [a; b] false (capped 10) 1000, s2).
Proof.
  cbv zeta. split; [|split; [|split]].
  - apply del_fragment; [reflexivity|reflexivity|split; [discriminate|reflexivity]|].
    apply del_control; [exact I|exact I|].
    apply del_fragment; [reflexivity|reflexivity|split; [discriminate|intros H; now destruct H]|]. constructor.
  - vm_compute. repeat split.
  - unfold fits. facts.
  - eexists _, _. split; [reflexivity|]. eexists. reflexivity.
Qed.

(** [C17] Async: the same, for the whole stream and any chunking. *)
Theorem legal_frames_received_async : forall ctx max_df max_msg fs ms p ws s,
  delivers [] fs ms p ->
  under (capped max_msg) [] fs -> fits (capped max_df) fs ->
  on_wire (receives_masked ctx) fs ws -> acarries s ws ->
  run_messages (msg_codec_with_limits ctx max_df max_msg) [] s = (ms, PEnd).
Proof. exact ThmMessages.legal_frames_received_async_proof. Qed.
Print Assumptions legal_frames_received_async.

Example legal_frames_received_async_ex :
  run_messages (msg_codec_with_limits CtxServer 10 1000) []
    [AData x01 [x81; x00; x00; x00; x00; x61]; AData x89 [x80]; ANotReady; AData x01 [x02; x03; x04; x80; x80];
     AData x01 [x02; x03; x04]]
  = ([OPing []; OText (str "a")], PEnd).
Proof. reflexivity. Qed.

(** [C17] Blocking: a session of control messages and of data messages cut anywhere with
    control messages between the fragments is received as intended. *)
Theorem session_received_blocking : forall masked max_df max_msg items ws s rest,
  Forall (item_ok (capped max_df) (capped max_msg)) items ->
  on_wire masked (concat (map item_frames items)) ws -> carries s (ws ++ rest) ->
  let ms := concat (map item_delivered items) in
  let r := receiver_with_limits masked max_df max_msg in
  exists s', recv_n (length ms) r s = (map Ok ms, r, s') /\ carries s' rest.
Proof. exact ThmMessages.session_received_blocking_proof. Qed.
Print Assumptions session_received_blocking.

(** [C17] Async. *)
Theorem session_received_async : forall ctx max_df max_msg items ws s,
  Forall (item_ok (capped max_df) (capped max_msg)) items ->
  on_wire (receives_masked ctx) (concat (map item_frames items)) ws -> acarries s ws ->
  run_messages (msg_codec_with_limits ctx max_df max_msg) [] s
  = (concat (map item_delivered items), PEnd).
Proof. exact ThmMessages.session_received_async_proof. Qed.
Print Assumptions session_received_async.

(** A ping, a text in three fragments with a pong and a close in between, a binary. *)
Example session_ex :
  let items := [IControl (OPing (str "p"));
    IData {| cm_text := true; cm_first := str "he";
             cm_more := [([OPong []], str "ll"); ([OClose (Some (mk_close 1000 (str "bye")))], str "o")] |};
    IData {| cm_text := false; cm_first := []; cm_more := [] |}] in
  Forall (item_ok (capped 100) (capped 1000)) items /\
  concat (map item_delivered items)
  = [OPing (str "p"); OPong []; OClose (Some (mk_close 1000 (str "bye"))); OText (str "hello"); OBinary []].
Proof.
  cbn zeta. facts.
Qed.

(** ** Messages end to end *)

(** [C16] Messages sent by one side, all sends reporting Ok, over any transport behaviour,
    with any masking keys, arrive at a blocking receiver as the same messages in the same
    order, with nothing left over. *)
Theorem message_round_trip_blocking : forall masked max_df max_msg (l : list (owned * mkey)) script s,
  Forall (fun p => sendable (capped max_df) (fst p)) l ->
  let '(rs, w) := send_all (mk_sender masked) (map (fun p => (owned_ops (fst p), snd p)) l)
                    (mk_w [] script) in
  Forall (fun r => r = Ok tt) rs ->
  carries s (w_out w) ->
  let r := receiver_with_limits masked max_df max_msg in
  exists s', recv_n (length l) r s = (map (fun p => Ok (fst p)) l, r, s') /\ carries s' [].
Proof. exact ThmMessages.message_round_trip_blocking_proof. Qed.
Print Assumptions message_round_trip_blocking.

(** [C16] The same for an async receiver. *)
Theorem message_round_trip_async : forall ctx max_df max_msg (l : list (owned * mkey)) script s,
  Forall (fun p => sendable (capped max_df) (fst p)) l ->
  let '(rs, w) := send_all (mk_sender (receives_masked ctx))
                    (map (fun p => (owned_ops (fst p), snd p)) l) (mk_w [] script) in
  Forall (fun r => r = Ok tt) rs ->
  acarries s (w_out w) ->
  run_messages (msg_codec_with_limits ctx max_df max_msg) [] s = (map fst l, PEnd).
Proof. exact ThmMessages.message_round_trip_async_proof. Qed.
Print Assumptions message_round_trip_async.

Example message_round_trip_ex :
  let k := mk_key x11 x22 x33 x44 in
  let l := [(OText (str "hi"), k); (OClose (Some (mk_close 1001 [])), k); (OPing [x00; xff], k)] in
  let '(rs, w) := send_all (mk_sender true) (map (fun p => (owned_ops (fst p), snd p)) l)
                    (mk_w [] [WAccept 3; WIntr]) in
  Forall (fun p => sendable (capped 64) (fst p)) l /\ rs = [Ok tt; Ok tt; Ok tt] /\
  run_messages (msg_codec_with_limits CtxServer 64 64) []
    (map (fun b => AData b []) (w_out w)) = (map fst l, PEnd).
Proof.
  cbn zeta. destruct (send_all _ _ _) as [rs w] eqn:E. vm_compute in E. injection E as <- <-. facts.
Qed.

(** ** Only legal sequences *)

(** [C18] Whatever bytes arrive over whatever transport: as long as no call fails, the
    bytes consumed are the encodings of frames, legal and masked as this role requires, in
    a sequence that delivers exactly the messages returned. *)
Theorem received_only_legal_blocking : forall masked max_df max_msg n s l ms r' s',
  contains s l ->
  recv_n n (receiver_with_limits masked max_df max_msg) s = (map Ok ms, r', s') ->
  exists fs ws rest, l = ws ++ rest /\ contains s' rest /\
    on_wire masked fs ws /\ fits (capped max_df) fs /\ delivers [] fs ms (r_buffer r').
Proof. exact ThmMessages.received_only_legal_blocking_proof. Qed.
Print Assumptions received_only_legal_blocking.

(** What comes after the last message taken is still there, legal or not. *)
Example received_only_legal_ex :
  recv_n 2 (receiver_with_limits false 100 1000) [RData x01 [x01; x61; x89; x00; x80]; RIntr; RData x01 [x62; xff; xff]]
  = (map Ok [OPing []; OText (str "ab")], receiver_with_limits false 100 1000, [RData xff [xff]]).
Proof. reflexivity. Qed.

(** [C18] Async: the same for everything a message stream delivers. *)
Theorem received_only_legal_async : forall ctx max_df max_msg buf s l ms e,
  acontains s l ->
  run_messages (msg_codec_with_limits ctx max_df max_msg) buf s = (ms, e) ->
  exists fs ws rest p, buf ++ l = ws ++ rest /\
    on_wire (receives_masked ctx) fs ws /\ fits (capped max_df) fs /\ delivers [] fs ms p /\
    (e = PEnd -> rest = []).
Proof. exact ThmMessages.received_only_legal_async_proof. Qed.
Print Assumptions received_only_legal_async.

(** A reserved opcode ends what is delivered. *)
Example received_only_legal_async_ex :
  run_messages (msg_codec_with_limits CtxClient 100 1000) [x89] [AData x00 [x83]; AErr WouldBlock; AData x00 [x89; x00]]
  = ([OPing []], PErr (IoError WouldBlock)) /\
  exists e, run_messages (msg_codec_with_limits CtxClient 100 1000) [x89] [AData x00 [x83]; AData x00 [x89; x00]]
  = ([OPing []], PErr (ProtocolError e)).
Proof. split; [reflexivity|]. eexists. reflexivity. Qed.

(** [C18] Blocking, in any state: a frame that is illegal next is answered by a
    ProtocolError, and the bytes after it are still there. *)
Theorem illegal_frame_refused_blocking : forall p masked max_df max_msg f key w s rest,
  illegal_next p f -> rfc_legal (rfc_of_frame f key) -> size (f_data f) <= capped max_df ->
  match key with Some _ => true | None => false end = masked ->
  octets w = rfc_encode (rfc_of_frame f key) -> carries s (w ++ rest) ->
  exists e p' s',
    recv_message (mk_recv p masked (capped max_df) max_msg) s
    = (Err (ProtocolError e), mk_recv p' masked (capped max_df) max_msg, s') /\
    (p' = p \/ p' = []) /\ carries s' rest.
Proof. exact ThmMessages.illegal_frame_refused_blocking_proof. Qed.
Print Assumptions illegal_frame_refused_blocking.

Example illegal_frame_refused_ex :
  recv_message (mk_recv [mk_df false no_rsv Text []] false (capped 100) 100) [RData x82 [x01; x00; x89; x00]]
  = (Err (ProtocolError "Unexpected data frame opcode"), mk_recv [mk_df false no_rsv Text []] false (capped 100) 100, [RData x89 [x00]]).
Proof. reflexivity. Qed.

(** [C18] Async. *)
Theorem illegal_frame_refused_async : forall p ctx max_df max_msg f key w rest,
  illegal_next p f -> rfc_legal (rfc_of_frame f key) -> size (f_data f) <= capped max_df ->
  match key with Some _ => true | None => false end = receives_masked ctx ->
  octets w = rfc_encode (rfc_of_frame f key) ->
  exists e p',
    mc_decode (mk_mc p (df_codec_with_limits ctx max_df) max_msg) (w ++ rest)
    = (Err (ProtocolError e), mk_mc p' (df_codec_with_limits ctx max_df) max_msg, rest) /\
    (p' = p \/ p' = []).
Proof. exact ThmMessages.illegal_frame_refused_async_proof. Qed.
Print Assumptions illegal_frame_refused_async.

Example illegal_frame_ex :
  illegal_next [] (mk_df true no_rsv Continuation (str "x")) /\
  illegal_next [mk_df false no_rsv Text []] (mk_df true no_rsv Binary []) /\
  illegal_next [mk_df false (true, false, false) Text []] (mk_df true no_rsv Continuation []) /\
  illegal_next [] (mk_df true no_rsv Control3 []) /\
  illegal_next [] (mk_df true no_rsv NonControl1 []).
Proof.
  repeat split.
  - apply ill_continuation. reflexivity.
  - apply ill_interrupted; easy.
  - apply ill_data_rsv; try reflexivity. left. discriminate.
  - apply ill_control_opcode; easy.
  - eapply ill_data_opcode; try reflexivity; easy.
Qed.

(** ** Close *)

(** [C19] Blocking, in any state: what a close frame is delivered as. *)
Theorem close_contents_blocking : forall p masked max_df max_msg d key w s rest,
  size d <= 125 -> size d <= capped max_df ->
  match key with Some _ => true | None => false end = masked ->
  octets w = rfc_encode (rfc_of_frame (mk_df true no_rsv Close d) key) -> carries s (w ++ rest) ->
  let r := mk_recv p masked (capped max_df) max_msg in
  exists x s', recv_message r s = (x, r, s') /\ carries s' rest /\
    match d with
    | [] => x = Ok (OClose None)
    | [_] => x = Err NoDataAvailable
    | a :: b :: reason =>
        (well_formed (octets reason) ->
         x = Ok (OClose (Some (mk_close (256 * Byte.to_N a + Byte.to_N b) reason)))) /\
        (~ well_formed (octets reason) -> x = Err Utf8Error)
    end.
Proof. exact ThmMessages.close_contents_blocking_proof. Qed.
Print Assumptions close_contents_blocking.

Example close_contents_blocking_ex :
  recv_message (receiver_with_limits false 100 100) [RData x88 [x04]; RData x0f [xa0; xc3; xa9; x81]]
  = (Ok (OClose (Some (mk_close 4000 [xc3; xa9]))), receiver_with_limits false 100 100, [RData x81 []]) /\
  recv_message (receiver_with_limits false 100 100) [RData x88 [x03]; RData x0f [xa0; xc3; xa9; x81]]
  = (Err Utf8Error, receiver_with_limits false 100 100, [RData xa9 [x81]]).
Proof. split; reflexivity. Qed.

(** [C19] Async. *)
Theorem close_contents_async : forall p ctx max_df max_msg d key w rest,
  size d <= 125 -> size d <= capped max_df ->
  match key with Some _ => true | None => false end = receives_masked ctx ->
  octets w = rfc_encode (rfc_of_frame (mk_df true no_rsv Close d) key) ->
  let c := mk_mc p (df_codec_with_limits ctx max_df) max_msg in
  exists x, mc_decode c (w ++ rest) = (x, c, rest) /\
    match d with
    | [] => x = Ok (Some (OClose None))
    | [_] => x = Err NoDataAvailable
    | a :: b :: reason =>
        (well_formed (octets reason) ->
         x = Ok (Some (OClose (Some (mk_close (256 * Byte.to_N a + Byte.to_N b) reason))))) /\
        (~ well_formed (octets reason) -> x = Err Utf8Error)
    end.
Proof. exact ThmMessages.close_contents_async_proof. Qed.
Print Assumptions close_contents_async.

Example close_contents_ex :
  fst (fst (mc_decode (msg_codec_with_limits CtxClient 100 100) [x88; x05; x03; xe8; x62; x79; x65]))
  = Ok (Some (OClose (Some (mk_close 1000 (str "bye"))))) /\
  fst (fst (mc_decode (msg_codec_with_limits CtxClient 100 100) [x88; x01; x03])) = Err NoDataAvailable.
Proof. split; reflexivity. Qed.

(** ** Conversions *)

(** [C20] OwnedMessage to Message and back is the identity, and the Message serialises to
    the same bytes. *)
Theorem owned_message_owned : forall m, typed m ->
  to_owned (of_owned m) = m /\
  forall key w, write_to (msg_ops (of_owned m)) key w = write_to (owned_ops m) key w.
Proof. exact ThmMessages.owned_message_owned_proof. Qed.
Print Assumptions owned_message_owned.

Example owned_message_owned_ex :
  typed (OClose (Some (mk_close 1001 (str "gone")))) /\
  of_owned (OClose (Some (mk_close 1001 (str "gone")))) = msg_close_because 1001 (str "gone").
Proof. split; [facts|reflexivity]. Qed.

(** [C20] An OwnedMessage made from a String is the text message of that string, and one made from
    a vector of bytes the binary message of those bytes - also if they happen to be text; so they
    are sent as the constructors' messages are. *)
Theorem made_from : forall s d, well_formed (octets s) ->
  owned_of_string s = to_owned (msg_text s) /\ owned_of_vec d = to_owned (msg_binary d) /\
  (forall key w, write_to (owned_ops (owned_of_string s)) key w = write_to (msg_ops (msg_text s)) key w) /\
  (forall key w, write_to (owned_ops (owned_of_vec d)) key w = write_to (msg_ops (msg_binary d)) key w) /\
  owned_of_vec s <> owned_of_string s.
Proof. exact ThmMessages.made_from_proof. Qed.
Print Assumptions made_from.

Example made_from_ex :
  fst (write_to (owned_ops (owned_of_string (str "a"))) None (mk_w [] [])) = Ok tt /\
  w_out (snd (write_to (owned_ops (owned_of_string (str "a"))) None (mk_w [] []))) = [x81; x01; x61] /\
  w_out (snd (write_to (owned_ops (owned_of_vec (str "a"))) None (mk_w [] []))) = [x82; x01; x61].
Proof. repeat split. Qed.

(** [C20] Message to OwnedMessage and back is the identity for what the constructors
    build; otherwise text and close reasons keep every well-formed prefix and become
    well-formed. *)
Theorem message_owned_message : forall m, built m -> of_owned (to_owned m) = m.
Proof. exact ThmMessages.message_owned_message_proof. Qed.
Print Assumptions message_owned_message.

Example message_owned_message_ex : built (msg_binary [xff; x00]) /\ to_owned (msg_binary [xff; x00]) = OBinary [xff; x00].
Proof. split; [|reflexivity]. repeat split; try discriminate; intros H; now destruct H. Qed.

(** [C20] *)
Theorem lossy_conversion : forall good bad,
  well_formed (octets good) ->
  exists tail, to_owned (msg_text (good ++ bad)) = OText (good ++ tail) /\
    (forall code, to_owned (msg_close_because code (good ++ bad))
                  = OClose (Some (mk_close code (good ++ tail)))) /\
    well_formed (octets tail) /\ (well_formed (octets bad) -> tail = bad).
Proof. exact ThmMessages.lossy_conversion_proof. Qed.
Print Assumptions lossy_conversion.

Example lossy_conversion_ex :
  to_owned (msg_text [x61; xff; x62]) = OText [x61; xef; xbf; xbd; x62] /\
  built (msg_close_because 1000 (str "ok")).
Proof.
  split; [reflexivity|]. split; [discriminate|]. split; [|intros H; now destruct H].
  intros _. left. exists 1000. facts.
Qed.

(** ** Ping and pong *)

(** [C45] [into_pong] succeeds exactly on pings; the message then serialises as the pong
    frame with the same payload; otherwise nothing changes. *)
Theorem into_pong_spec : forall m,
  (m_opcode m = TPing ->
     exists m', into_pong m = (Ok tt, m') /\ m_payload m' = m_payload m /\ m_opcode m' = TPong /\
       (m_status m = None -> forall key w,
          write_to (msg_ops m') key w = write_to (owned_ops (OPong (m_payload m))) key w)) /\
  (m_opcode m <> TPing -> into_pong m = (Err tt, m)).
Proof. exact ThmMessages.into_pong_spec_proof. Qed.
Print Assumptions into_pong_spec.

Example into_pong_ex : into_pong (msg_ping [x01; x02]) = (Ok tt, msg_pong [x01; x02]).
Proof. reflexivity. Qed.

(** [C46] The status code is written in front of the payload of a message of any type:
    a text message with a status code and the payload "ab" arrives as a longer text. *)
Theorem status_only_on_close_refuted : exists m wire,
  m_opcode m = TText /\ write_to (msg_ops m) None (mk_w [] []) = (Ok tt, mk_w wire []) /\
  fst (run_messages (msg_codec_with_limits CtxClient 100 100) []
         (map (fun b => AData b []) wire)) = [OText (str "ABhi")] /\
  m_payload m = str "hi".
Proof. exact ThmMessages.status_only_on_close_refuted_proof. Qed.
Print Assumptions status_only_on_close_refuted.

(** [C46] Exactly: the two octets of the code, most significant first, precede the payload,
    for every type of message. *)
Theorem status_precedes_payload : forall t code d key out,
  code < 2 ^ 16 -> size d + 2 <= 125 ->
  exists wire, write_to (msg_ops (mk_msg t (Some code) d)) key (mk_w out [])
               = (Ok tt, mk_w (out ++ wire) []) /\
    octets wire = rfc_encode {| rf_fin := true; rf_rsv1 := false; rf_rsv2 := false;
      rf_rsv3 := false; rf_key := octet_key key;
      rf_opcode := match t with TText => 1 | TBinary => 2 | TClose => 8 | TPing => 9 | TPong => 10 end;
      rf_payload := [code / 256; code mod 256] ++ octets d |}.
Proof. exact ThmMessages.status_precedes_payload_proof. Qed.
Print Assumptions status_precedes_payload.

Example status_precedes_payload_ex :
  write_to (msg_ops (mk_msg TPing (Some 258) (str "x"))) None (mk_w [] [])
  = (Ok tt, mk_w [x89; x03; x01; x02; x78] []).
Proof. reflexivity. Qed.
