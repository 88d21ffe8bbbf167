(** What errors tell those who print them: C75. *)
From Coq Require Import NArith ZArith String Bool List Lia.
From Coq.Strings Require Import Byte.
From Verif.Model Require Import Base Io Header Mask Dataframe Text Headers Handshake Message Receiver Report.
From Verif.Spec Require Import Fields Telling.
From Verif.Proofs Require Import BaseFacts ExTac.
Import ListNotations.
Local Open Scope string_scope.
Local Open Scope list_scope.

Lemma mentions_in : forall t l, In t l -> mentions t l.
Proof. intros t l H. exists [], []. rewrite app_nil_r. exact H. Qed.
Lemma mentions_chain : forall c l, (forall t, In t (chain c) -> In t l) -> mentions_all c l.
Proof.
  intros c l H. split; [apply mentions_in, H; left; reflexivity|].
  apply Forall_forall. intros t HI. apply mentions_in, H. right. exact HI.
Qed.

(** [C75] When something the library uses fails, the [WebSocketError] that comes of it still says
    all that the original error had to say, itself or through its sources, whichever way it took,
    and the first line says what sort of failure it was.  The one exception is the end of the stream ([UnexpectedEof]), which says [No data available]. *)
Lemma cause_told_proof : forall r e,
  (mentions_all (ie_cause e) (report_base (along r e)) /\ opens_with (sort_of r) (report_base (along r e))) \/
  (r = ReadWrite /\ ie_kind e = UnexpectedEof /\
   report_base (along r e) = [ascii "WebSocketError: No data available"]).
Proof.
  intros r e.
  assert (HO : forall a (x : bytes) c l, x = a ++ c -> opens_with a (x :: l))
    by (intros a x c l ->; exists c, l; reflexivity).
  destruct r; try (left; split; [apply mentions_chain; intros t HI; right; exact HI|];
    (eapply HO with (c := ca_text (ie_cause e)); reflexivity) || (eapply HO with (c := []); reflexivity)).
  cbn [along]. unfold base_of_io. destruct (ie_kind e) eqn:E;
    try (left; split; [apply mentions_chain; intros t HI; right; exact HI|eapply HO with (c := []); reflexivity]).
  right. repeat split.
Qed.
(*EX
Example cause_told_ex :
  report_base (along UpgradeCodecIo (mk_io_error ConnectionReset (mk_cause (str "connection reset") [str "os error 104"])))
  = [str "WebSocketError: WebSocket I/O error: connection reset"; str "connection reset"; str "os error 104"].
Proof. reflexivity. Qed.
EX*)

(** [C75] The same for the errors of the upgrade and of the HTTP codec as they are. *)
Lemma upgrade_cause_told_proof : forall e,
  mentions_all (ie_cause e) (report_into_ws (into_ws_of_io e)) /\
  mentions_all (ie_cause e) (report_into_ws (into_ws_of_http (ie_cause e))) /\
  mentions_all (ie_cause e) (report_into_ws (into_ws_of_codec (codec_of_io e))) /\
  mentions_all (ie_cause e) (report_into_ws (into_ws_of_codec (codec_of_http (ie_cause e)))) /\
  mentions_all (ie_cause e) (report_codec (codec_of_io e)) /\
  mentions_all (ie_cause e) (report_codec (codec_of_http (ie_cause e))).
Proof.
  intro e. repeat split; try (apply mentions_chain; intros t HI; right; exact HI);
  try (apply mentions_in; left; reflexivity);
  apply Forall_forall; intros t HI; apply mentions_in; right; right; exact HI.
Qed.
(*EX
Example upgrade_cause_told_ex :
  report_into_ws (into_ws_of_http (mk_cause (str "invalid HTTP version") [])) =
  [str "invalid HTTP version"; str "invalid HTTP version"].
Proof. reflexivity. Qed.
EX*)

(** [C75] A refused upgrade names the condition that was not met, both as it is and after its
    conversion, and different conditions are told apart. *)
Lemma refusal_told_proof : forall e t, refused_for e t ->
  report_into_ws e = [t] /\
  report_other (other_of_into_ws e) = [ascii "WebSocketError: " ++ t] /\
  report_base (base_of_other (other_of_into_ws e)) = [ascii "WebSocketError: WebSocketError: " ++ t] /\
  forall e' t', refused_for e' t' -> t = t' -> e = e'.
Proof.
  intros e t H. destruct H; (split; [reflexivity|]; split; [reflexivity|]; split; [reflexivity|]);
  intros e' t' H' ET; destruct H'; (reflexivity || (vm_compute in ET; discriminate ET)).
Qed.
(*EX
Example refusal_told_ex : refused_for IWNoSecWsKeyHeader (str "Missing Sec-WebSocket-Key header") /\
  report_base (base_of_other (other_of_into_ws IWNoSecWsKeyHeader)) =
  [str "WebSocketError: WebSocketError: Missing Sec-WebSocket-Key header"].
Proof. split; [exact for_key|reflexivity]. Qed.
EX*)

(** [C75] What the client says about a server's answer: the reason, the status, the place it was
    sent to. *)
Lemma answer_told_proof : forall r s l,
  mentions r (report_base (base_of_other (OERequest r))) /\
  mentions r (report_base (base_of_other (OEResponse r))) /\
  mentions r (report_base (base_of_other (OEProtocol r))) /\
  mentions s (report_base (base_of_other (OEStatus s))) /\
  mentions s (report_base (base_of_other (OERedirect s l))) /\
  mentions l (report_base (base_of_other (OERedirect s l))).
Proof.
  intros r s l.
  assert (HM : forall t x a b, x = a ++ t ++ b -> mentions t [x]) by (intros t x a b ->; exists a, b; left; reflexivity).
  repeat split.
  - apply (HM r _ (str "WebSocketError: WebSocket request error: ") []). rewrite app_nil_r. reflexivity.
  - apply (HM r _ (str "WebSocketError: WebSocket response error: ") []). rewrite app_nil_r. reflexivity.
  - apply (HM r _ (str "WebSocketError: WebSocketError: ") []). rewrite app_nil_r. reflexivity.
  - apply (HM s _ (str "WebSocketError: WebSocketError: Received unexpected status code (") (str ")")). reflexivity.
  - apply (HM s _ (str "WebSocketError: WebSocketError: Redirected (") (str ") to " ++ l)). reflexivity.
  - apply (HM l _ (str "WebSocketError: WebSocketError: Redirected (" ++ s ++ str ") to ") []).
    rewrite app_nil_r, <- !app_assoc. reflexivity.
Qed.
(*EX
Example answer_told_ex : report_base (base_of_other (OERedirect (str "302 Found") (str "ws://b/"))) =
  [str "WebSocketError: WebSocketError: Redirected (302 Found) to ws://b/"].
Proof. reflexivity. Qed.
EX*)

(** [C75] And about the URL it was given: what is wrong with it, on the first line and once more as
    its source. *)
Lemma url_fault_told_proof : forall e t, url_fault e t ->
  let said := ascii "WebSocket Url Error: WebSocket URL " ++ t in
  report_base (base_of_other (other_of_ws_url e)) = [ascii "WebSocketError: " ++ said; said] /\
  report_other (other_of_ws_url e) = [said; said] /\
  forall e' t', url_fault e' t' -> t = t' -> e = e'.
Proof.
  intros e t H. destruct H; (split; [reflexivity|]; split; [reflexivity|]);
  intros e' t' H' ET; destruct H'; (reflexivity || (vm_compute in ET; discriminate ET)).
Qed.
(*EX
Example url_fault_told_ex : url_fault WsNoHostName (ascii "no host name provided") /\
  report_base (base_of_other (other_of_ws_url WsNoHostName)) =
  [str "WebSocketError: WebSocket Url Error: WebSocket URL no host name provided";
   str "WebSocket Url Error: WebSocket URL no host name provided"].
Proof. split; [exact fault_host|reflexivity]. Qed.
EX*)

(** [C75] So it is with every error of a connection's receiver: a failure of the stream is told
    with all the stream had to say, a text that is not UTF-8 with all the decoder had to say, and
    the first line says which of the two it was, or that the peer broke the protocol, or that there
    is no more data. *)
Lemma receive_error_told_proof : forall r s e r' s' io utf8,
  recv_message r s = (Err e, r', s') ->
  let report := report_base (base_of io utf8 e) in
  match e with
  | IoError _ => mentions_all io report /\ opens_with (ascii "WebSocketError: I/O failure") report
  | Utf8Error => mentions_all utf8 report /\ opens_with (ascii "WebSocketError: UTF-8 failure") report
  | NoDataAvailable => report = [ascii "WebSocketError: No data available"]
  | ProtocolError _ => report = [ascii "WebSocketError: WebSocket protocol error"]
  | DataFrameError _ => report = [ascii "WebSocketError: WebSocket data frame error"]
  | OtherError m => mentions (ascii m) report
  end.
Proof.
  intros r s e r' s' io utf8 _ report. destruct e; subst report; try reflexivity.
  - split; [apply mentions_chain; intros t HI; right; exact HI|]. exists [], (chain io). rewrite app_nil_r. reflexivity.
  - split; [apply mentions_chain; intros t HI; right; exact HI|]. exists [], (chain utf8). rewrite app_nil_r. reflexivity.
  - exists (str "WebSocketError: WebSocketError: "), []. left. rewrite app_nil_r. reflexivity.
Qed.
(*EX
(** A time-out, and a text that is not UTF-8. *)
Example receive_error_told_ex :
  fst (fst (recv_message (receiver_with_limits false 100 100) [RData x81 []; RErr WouldBlock])) = Err (IoError WouldBlock) /\
  report_base (base_of (mk_cause (str "timed out") []) (mk_cause [] []) (IoError WouldBlock))
  = [str "WebSocketError: I/O failure"; str "timed out"] /\
  fst (fst (recv_message (receiver_with_limits false 100 100) [RData x81 [x01; xff]])) = Err Utf8Error /\
  report_base (base_of (mk_cause [] []) (mk_cause (str "invalid utf-8") []) Utf8Error)
  = [str "WebSocketError: UTF-8 failure"; str "invalid utf-8"].
Proof. repeat split. Qed.
EX*)

(** [C75] But the reason of a protocol or frame error is not told: whatever it is, the same is
    printed.  Here a peer that uses a reserved opcode and one that continues what it has not begun: the errors
    are different, but not what they say. *)
Lemma reason_told_refuted_proof :
  (forall r1 r2, report_base (BEProtocol r1) = report_base (BEProtocol r2) /\
                 report_base (BEDataFrame r1) = report_base (BEDataFrame r2)) /\
  exists s1 s2 e1 e2, fst (fst (recv_message (receiver_new true) s1)) = Err e1 /\
    fst (fst (recv_message (receiver_new true) s2)) = Err e2 /\ e1 <> e2 /\
    forall io utf8, report_base (base_of io utf8 e1) = report_base (base_of io utf8 e2).
Proof.
  split; [intros r1 r2; split; reflexivity|].
  exists [RData x80 [x81; x00; x00; x00; x00; x61]], [RData x83 [x81; x00; x00; x00; x00; x61]].
  eexists. eexists. split; [vm_compute; reflexivity|]. split; [vm_compute; reflexivity|].
  split; [discriminate|]. intros io utf8. reflexivity.
Qed.

(** [C75] Nor is the cause of a failed TLS handshake: only that it failed. *)
Lemma tls_cause_told_refuted_proof : exists c, forall c',
  report_base (base_of_other (other_of_tls_handshake (TlsFailure c'))) =
  [str "WebSocketError: WebSocketError: TLS Handshake failure"] /\
  report_base (base_of_other (other_of_tls_handshake TlsWouldBlock)) =
  [str "WebSocketError: WebSocketError: TLS Handshake interrupted"] /\
  ~ mentions (ca_text c) (report_base (base_of_other (other_of_tls_handshake (TlsFailure c)))).
Proof.
  exists (mk_cause (str "certificate expired") []). intro c'. split; [reflexivity|]. split; [reflexivity|].
  intros (a & b & [H|[]]). apply (f_equal (existsb (Byte.eqb "x"%byte))) in H.
  cbn [ca_text] in H. rewrite !existsb_app in H. cbn [str list_byte_of_string] in H.
  change (existsb (Byte.eqb "x"%byte) (str "certificate expired")) with true in H.
  rewrite !Bool.orb_true_l, Bool.orb_true_r in H. vm_compute in H. discriminate H.
Qed.
