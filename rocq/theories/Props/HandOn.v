(** What a server gives back with a connection it refuses: C102. *)
From Coq Require Import NArith ZArith String Bool List Lia.
From Coq.Strings Require Import Byte.
From Verif.Model Require Import Base Io Header Mask Dataframe Utf8 Text Base64 WsKey Headers
  Handshake Message Receiver Codec Framed Http Connect.
From Verif.Spec Require Import RfcFrame FrameSpec Fields Upgrade Builder HttpHead Connection Wire Sides Accept.
From Verif.Proofs Require Import ExTac.
From Verif.Proofs Require ThmHandOn.
Import ListNotations.
Local Open Scope string_scope.
Local Open Scope list_scope.
Local Open Scope N_scope.

(** [C102] A connection the blocking server refuses comes back with nothing written to it and nothing
    lost: either there is a request, which stands for the bytes of a head, and buffer and stream go on
    right after it; or there is none, and buffer and stream together still hold all that came, except for
    the end of the stream or the failure of it that is the reported error, if it is one. *)
Theorem refusal_keeps_all : forall X s w f, sound_room X -> into_ws X s w = Err f ->
  rf_out f = w /\ exists b, rf_buffer f = Some b /\
  ((exists q head, rf_request f = Some q /\ try_request X head = Done q [] /\
      spread s = map inl head ++ map inl b ++ spread (rf_in f)) \/
   (rf_request f = None /\ exists ev, (ev = [] \/ exists x k, ev = [inr x] /\ rf_error f = UpParsing (PEIo k) /\ stops [inr x] = Some k) /\
      spread s = map inl b ++ ev ++ spread (rf_in f))).
Proof. exact ThmHandOn.refusal_keeps_all_proof. Qed.
Print Assumptions refusal_keeps_all.

(** How a connection for HTTP/2 begins (RFC 7540, 3.5): all of it can be handed on. *)
Definition http2_preface : bytes := str "PRI * HTTP/2.0" ++ head_end ++ str "SM" ++ head_end.
Example refusal_keeps_all_ex :
  into_ws httparse_lib (RData "P"%byte (str "RI * HTT") :: push_back (skipn 9 http2_preface) [REof]) (mk_w [] [])
    = Err (mk_refusal [REof] (mk_w [] []) None (Some http2_preface) (UpParsing PEVersion)).
Proof. vm_compute. reflexivity. Qed.

(** [C102] In particular a caller of [accept] who is given no request and not told of a failing stream can
    hand on the connection as if it had never been looked at. *)
Theorem refused_as_new : forall X s w f e b, sound_room X -> server_accept X (Arrives s w) = Err (Some f, e) ->
  rf_request f = None -> (forall k, e <> UpParsing (PEIo k)) -> rf_buffer f = Some b ->
  same_stream (push_back b (rf_in f)) s /\ rf_out f = w.
Proof. exact ThmHandOn.refused_as_new_proof. Qed.
Print Assumptions refused_as_new.

Example refused_as_new_ex :
  match server_accept httparse_lib (Arrives (push_back http2_preface [REof]) (mk_w [] [])) with
  | Err (Some f, UpParsing PEVersion) => rf_request f = None /\ rf_buffer f = Some http2_preface
  | _ => False
  end.
Proof. vm_compute. auto. Qed.

(** [C102] The asynchronous server gives back the connection with nothing written to it, too.  If it has a
    request, buffer and stream go on right after its head. *)
Theorem async_refusal_keeps_rest : forall X h q r sa sa' wa g, ends_first h ->
  try_request X h = Done q r -> aflows sa h sa' -> async_into_ws X sa wa = Err g ->
  ar_out g = wa /\ ar_request g = Some q /\ sa' = apush_back (ar_buffer g) (ar_in g).
Proof. exact ThmHandOn.async_refusal_keeps_rest_proof. Qed.
Print Assumptions async_refusal_keeps_rest.

Example async_refusal_keeps_rest_ex :
  let h := str "POST /form HTTP/1.1" ++ crlf ++ str "Content-Length: 3" ++ head_end in
  let w := mk_fw (mk_bm [] 0) [] [] [] in
  exists q, try_request httparse_lib h = Done q [] /\
  async_into_ws httparse_lib (apush_back (h ++ str "a") [AData "="%byte [x31]]) w
    = Err (mk_arefusal [AData "="%byte [x31]] w (Some q) (str "a") MethodNotGet).
Proof. eexists. split; vm_compute; reflexivity. Qed.

(** [C102] But a head the parser refuses is gone: there is no request, and buffer and stream go on right
    after it. *)
Theorem async_refusal_drops_head : forall X h e sa sa' wa, ends_first h ->
  try_request X h = Fail e -> e <> PETooLarge -> aflows sa h sa' ->
  exists g, async_into_ws X sa wa = Err g /\ ar_out g = wa /\ ar_request g = None /\
    sa' = apush_back (ar_buffer g) (ar_in g).
Proof. exact ThmHandOn.async_refusal_drops_head_proof. Qed.
Print Assumptions async_refusal_drops_head.

(** [C102] So that nothing is lost is refuted for the asynchronous server. *)
Theorem async_refusal_keeps_all_refuted : ~ (forall X sa wa g, undisturbed sa -> async_into_ws X sa wa = Err g ->
  ar_request g = None -> aev_bytes sa = ar_buffer g ++ aev_bytes (ar_in g)).
Proof. exact ThmHandOn.async_refusal_keeps_all_refuted_proof. Qed.
Print Assumptions async_refusal_keeps_all_refuted.

(** Of the beginning of a connection for HTTP/2 only the end is given back. *)
Example async_refusal_keeps_all_refuted_ex :
  let w := mk_fw (mk_bm [] 0) [] [] [] in
  async_into_ws httparse_lib (apush_back http2_preface []) w
    = Err (mk_arefusal [] w None (str "SM" ++ head_end) (UpParsing PEVersion)).
Proof. vm_compute. reflexivity. Qed.
