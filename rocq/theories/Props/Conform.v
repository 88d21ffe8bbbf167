(** Conformance with RFC 6455, sections 5 and 7: C91. *)
From Coq Require Import NArith ZArith String Bool List Lia.
From Coq.Strings Require Import Byte.
From Verif.Model Require Import Base Io Header Mask Dataframe Utf8 Message Receiver Codec Framed.
From Verif.Spec Require Import RfcFrame FrameSpec Schedule Unicode Drive Session Sink Conform Saying.
From Verif.Proofs Require Import ExTac.
From Verif.Proofs Require ThmConform.
Import ListNotations.
Local Open Scope string_scope.
Local Open Scope list_scope.
Local Open Scope N_scope.

(** ** Receiving *)

(** [C91] What a blocking receiver accepts conforms to the rules of RFC 6455 but three, and says
    what the receiver returns.  The three: it does not look at the code of a close frame, it goes
    on after one, and it looks at the reserved bits and the opcode of a fragment only when the
    message is complete.  So if it is not within a message, only the first two are left out. *)
Theorem received_conforms_blocking : forall masked max_df max_msg n s l ms r' s',
  contains s l ->
  recv_n n (receiver_with_limits masked max_df max_msg) s = (map Ok ms, r', s') ->
  exists fs ws rest st, l = ws ++ rest /\ contains s' rest /\ on_wire masked fs ws /\
    conforms lax Between (map bare fs) (map saying_of ms) st /\
    (r_buffer r' = [] <-> st = Between) /\
    (st <> Doomed -> conforms lax_sender Between (map bare fs) (map saying_of ms) st).
Proof. exact ThmConform.received_conforms_blocking_proof. Qed.
Print Assumptions received_conforms_blocking.

(** A text in two fragments with a ping between, and a close with the code 999. *)
Example received_conforms_ex :
  let l := [x01; x01; x61; x89; x00; x80; x01; x62; x88; x02; x03; xe7] in
  recv_n 3 (receiver_with_limits false 1000 1000) (push_back l [])
  = (map Ok [OPing []; OText (str "ab"); OClose (Some (mk_close 999 []))], receiver_with_limits false 1000 1000, []).
Proof. vm_compute. reflexivity. Qed.

(** [C91] And what an asynchronous one does. *)
Theorem received_conforms_async : forall ctx max_df max_msg buf s l ms e,
  acontains s l ->
  run_messages (msg_codec_with_limits ctx max_df max_msg) buf s = (ms, e) ->
  exists fs ws rest st, buf ++ l = ws ++ rest /\ on_wire (receives_masked ctx) fs ws /\
    conforms lax Between (map bare fs) (map saying_of ms) st /\ (e = PEnd -> rest = []) /\
    (st <> Doomed -> conforms lax_sender Between (map bare fs) (map saying_of ms) st).
Proof. exact ThmConform.received_conforms_async_proof. Qed.
Print Assumptions received_conforms_async.

(** The same bytes in two chunks. *)
Example received_conforms_async_ex :
  run_messages (msg_codec_with_limits CtxClient 1000 1000) [] [AData x01 [x01; x61; x89; x00]; ANotReady; AData x80 [x01; x62; x88; x02; x03; xe7]]
  = ([OPing []; OText (str "ab"); OClose (Some (mk_close 999 []))], PEnd).
Proof. vm_compute. reflexivity. Qed.

(** [C91] Conversely, whatever a peer says that keeps to RFC 6455, or to any choice of the rules,
    is received, as long as the limits are kept: every message, in order. *)
Theorem conforming_received_blocking : forall R masked max_df max_msg fs out st ws s,
  conforms R Between (map bare fs) out st ->
  under (capped max_msg) [] fs -> Forall (fun f => size (f_data f) <= capped max_df) fs ->
  on_wire masked fs ws -> carries s ws ->
  exists ms r1 s1 r2 s2, map saying_of ms = out /\
    recv_n (length ms) (receiver_with_limits masked max_df max_msg) s = (map Ok ms, r1, s1) /\
    recv_message r1 s1 = (Err NoDataAvailable, r2, s2) /\ carries s2 [].
Proof. exact ThmConform.conforming_received_blocking_proof. Qed.
Print Assumptions conforming_received_blocking.

(** The same with the code 1000. *)
Example conforming_received_ex :
  let fs := [mk_df false (false, false, false) Text (str "a"); whole_frame (OPing []);
             mk_df true (false, false, false) Continuation (str "b"); whole_frame (OClose (Some (mk_close 1000 [])))] in
  conforms rfc6455 Between (map bare fs) [(9, []); (1, [0x61; 0x62]); (8, [3; 232])] Ended /\
  under (capped 1000) [] fs /\ Forall (fun f => size (f_data f) <= capped 1000) fs.
Proof.
  cbn zeta. split; [|split].
  - apply (says_on rfc6455 Between _ [] (Within 1 [0x61]) _ [(9, []); (1, [0x61; 0x62]); (8, [3; 232])]);
      [apply ThmConform.legal_small; [vm_compute; discriminate|auto]|apply (says_first rfc6455 (bare (mk_df false (false, false, false) Text (str "a")))); [repeat split|left; reflexivity|reflexivity]|].
    apply (says_on rfc6455 (Within 1 [0x61]) _ [(9, [])] (Within 1 [0x61]) _ [(1, [0x61; 0x62]); (8, [3; 232])]);
      [apply ThmConform.legal_small; [vm_compute; discriminate|auto]|apply (says_ping rfc6455 (Within 1 [0x61]) (bare (whole_frame (OPing [])))); [discriminate|repeat split|left; reflexivity]|].
    apply (says_on rfc6455 (Within 1 [0x61]) _ [(1, [0x61; 0x62])] Between _ [(8, [3; 232])]);
      [apply ThmConform.legal_small; [vm_compute; discriminate|auto]|apply (says_last rfc6455 1 [0x61] (bare (mk_df true (false, false, false) Continuation (str "b")))); [repeat split|reflexivity|reflexivity|intros _]|].
    { change (well_formed (octets (str "ab"))). apply ExTac.good_text. vm_compute. reflexivity. }
    apply (says_on rfc6455 Between _ [(8, [3; 232])] Ended _ []);
      [apply ThmConform.legal_small; [vm_compute; discriminate|auto]|apply (says_close rfc6455 Between (bare (whole_frame (OClose (Some (mk_close 1000 [])))))); [discriminate|repeat split|reflexivity|]|constructor].
    change (close_data rfc6455 [3; 232]). apply (code_and_reason rfc6455 3 232 []); [right; left; vm_compute; split; discriminate|].
    change (well_formed (octets (str ""))). apply ExTac.good_text. vm_compute. reflexivity.
  - vm_compute. repeat split; auto.
  - repeat constructor; vm_compute; discriminate.
Qed.

(** [C91] By the asynchronous receiver too. *)
Theorem conforming_received_async : forall R ctx max_df max_msg fs out st ws s,
  conforms R Between (map bare fs) out st ->
  under (capped max_msg) [] fs -> Forall (fun f => size (f_data f) <= capped max_df) fs ->
  on_wire (receives_masked ctx) fs ws -> acarries s ws ->
  exists ms, map saying_of ms = out /\
    run_messages (msg_codec_with_limits ctx max_df max_msg) [] s = (ms, PEnd).
Proof. exact ThmConform.conforming_received_async_proof. Qed.
Print Assumptions conforming_received_async.

(** ** Sending *)

(** [C91] Messages sent by a blocking client or server: the frames keep to all of RFC 6455 but
    the first two rules, and to all of it exactly if the application gives close messages
    only codes fit to be sent, and sends nothing after one. *)
Theorem sent_conforms_blocking : forall s (l : list (owned * mkey)) script,
  Forall (fun p => sendable (2 ^ 32) (fst p)) l ->
  let '(rs, w) := send_all s (map (fun p => (owned_ops (fst p), snd p)) l) (mk_w [] script) in
  Forall (fun r => r = Ok tt) rs ->
  let fs := map (fun p => bare (whole_frame (fst p))) l in
  octets (w_out w) = concat (map (fun p => rfc_encode (rfc_of_frame (whole_frame (fst p)) (if s_mask s then Some (snd p) else None))) l) /\
  conforms lax_sender Between fs (map (fun p => saying_of (fst p)) l) Between /\
  ((exists out st, conforms rfc6455 Between fs out st) <-> Forall proper_close (map fst l) /\ ends_closing (map fst l)).
Proof. exact ThmConform.sent_conforms_blocking_proof. Qed.
Print Assumptions sent_conforms_blocking.

(** A text and a close with the code 1000, all sent. *)
Example sent_conforms_ex : let k := mk_key x01 x02 x03 x04 in
  let l := [(OText (str "a"), k); (OClose (Some (mk_close 1000 (str "bye"))), k)] in
  Forall (fun p => sendable (2 ^ 32) (fst p)) l /\ Forall proper_close (map fst l) /\ ends_closing (map fst l) /\
  Forall (fun r => r = Ok tt) (fst (send_all (mk_sender true) (map (fun p => (owned_ops (fst p), snd p)) l) (mk_w [] []))).
Proof.
  split; [facts|]. split; [constructor; [exact I|constructor; [left; vm_compute; split; discriminate|constructor]]|]. split.
  - intros [|x [|y [|z a]]] c b E; cbn in E; try discriminate E; injection E; intros; subst; auto; try discriminate.
  - vm_compute. repeat constructor.
Qed.

(** [C91] The same for messages accepted by an asynchronous sink, of what is written and what is
    still buffered. *)
Theorem sent_conforms_async : forall is_server (l : list (owned * mkey)) ops ws fs,
  Forall (fun p => sendable (2 ^ 34) (fst p)) l ->
  Forall (fun d => exists m, d = owned_ops m /\ size (payload_of m) < 2 ^ 63 /\ typed m) (offered ops) ->
  let '(rs, w) := sink_run is_server ops (mk_fw (mk_bm [] 0) [] ws fs) in
  accepted ops rs = map (fun p => (owned_ops (fst p), snd p)) l ->
  let fs := map (fun p => bare (whole_frame (fst p))) l in
  octets (fw_out w ++ bm_data (fw_buf w))
  = concat (map (fun p => rfc_encode (rfc_of_frame (whole_frame (fst p)) (if is_server then None else Some (snd p)))) l) /\
  conforms lax_sender Between fs (map (fun p => saying_of (fst p)) l) Between /\
  ((exists out st, conforms rfc6455 Between fs out st) <-> Forall proper_close (map fst l) /\ ends_closing (map fst l)).
Proof. exact ThmConform.sent_conforms_async_proof. Qed.
Print Assumptions sent_conforms_async.

(** A close with a code of the application, over a transport that takes one byte at a time. *)
Example sent_conforms_async_ex : let k := mk_key x01 x02 x03 x04 in
  let m := OClose (Some (mk_close 4000 [])) in
  let '(rs, w) := sink_run true [Send (owned_ops m) k 0; Flush] (mk_fw (mk_bm [] 0) [] [AwAccept 0; AwNotReady] []) in
  accepted [Send (owned_ops m) k 0; Flush] rs = [(owned_ops m, k)] /\ fw_out w ++ bm_data (fw_buf w) = [x88; x02; x0f; xa0].
Proof. vm_compute. split; reflexivity. Qed.

(** [C91] Refuted that the library by itself keeps to RFC 6455 when sending: a close message with
    a code that must not be sent is sent ... *)
Theorem sends_only_conforming_refuted : exists m k w, sendable (2 ^ 32) m /\
  send_all (mk_sender true) [(owned_ops m, k)] (mk_w [] []) = ([Ok tt], w) /\
  ~ exists out st, conforms rfc6455 Between [bare (whole_frame m)] out st.
Proof. exact ThmConform.sends_only_conforming_refuted_proof. Qed.
Print Assumptions sends_only_conforming_refuted.

(** [C91] ... and that it refuses at once what does not: it goes on reading, and returns a ping,
    after the first fragment of a message had a reserved bit set, and after a close. *)
Theorem refuses_at_once_refuted : exists fs ws s ms r' s',
  on_wire true fs ws /\ carries s ws /\ recv_n 2 (receiver_new true) s = (map Ok ms, r', s') /\
  ms = [OClose (Some (mk_close 0 [])); OPing []] /\
  (forall st out st', ~ conforms rfc6455 st (map bare fs) out st') /\
  forall out st', ~ conforms lax_sender Between (map bare fs) out st'.
Proof. exact ThmConform.refuses_at_once_refuted_proof. Qed.
Print Assumptions refuses_at_once_refuted.
