(** Handshakes that are cut off: C96. *)
From Coq Require Import NArith ZArith String Bool List Lia.
From Coq.Strings Require Import Byte.
From Verif.Model Require Import Base Io Header Mask Dataframe Utf8 Text Base64 WsKey Headers
  Handshake Message Receiver Codec Framed Http Connect.
From Verif.Spec Require Import RfcFrame FrameSpec Fields Upgrade Builder HttpHead Connection Wire Sides CutOff.
From Verif.Proofs Require Import ExTac.
From Verif.Proofs Require ThmCutOff.
Import ListNotations.
Local Open Scope string_scope.
Local Open Scope list_scope.
Local Open Scope N_scope.

(** ** The servers *)

(** [C96] A request that stops in the middle, because the client went away, or the connection broke or
    timed out, is refused by the blocking server with just that error; what had come is in the buffer
    that comes with the refusal, and nothing has been written. *)
Theorem request_cut_off : forall X m t v fs c d after k s w, sound_lib X -> sound_room X ->
  request_head X m t v fs (c ++ d) -> (length fs <= 100)%nat -> target_accepted X t ->
  d <> [] -> llen c < 417792 -> first_come c after s -> stops after = Some k ->
  exists s2, into_ws X s w = Err (mk_refusal s2 w None (Some c) (UpParsing (PEIo k))).
Proof. exact ThmCutOff.request_cut_off_proof. Qed.
Print Assumptions request_cut_off.

Example request_cut_off_ex :
  let c := str "GET / HTT" in let d := str "P/1.1" ++ head_end in
  request_head httparse_lib (str "GET") (str "/") Http11 [] (c ++ d) /\ target_accepted httparse_lib (str "/") /\
  first_come c [] [RData "G"%byte (str "ET"); RData " "%byte (str "/ HTT")] /\ stops [] = Some UnexpectedEof /\
  into_ws httparse_lib [RData "G"%byte (str "ET"); RData " "%byte (str "/ HTT")] (mk_w [] [])
  = Err (mk_refusal [] (mk_w [] []) None (Some c) (UpParsing (PEIo UnexpectedEof))).
Proof.
  cbv zeta. split; [|split; [|split; [reflexivity|split; reflexivity]]].
  - exists [], (str "HTTP/1.1"), [CR; LF], [CR; LF].
    split; [constructor|]. split; [discriminate|].
    split; [repeat constructor; discriminate|]. split; [repeat constructor; discriminate|].
    split; [constructor|]. split; [constructor|]. split; [constructor; constructor|reflexivity].
  - split; [discriminate|]. right. left. exists []. reflexivity.
Qed.

(** [C96] The asynchronous server refuses it too, whatever it is that stops before its first empty line:
    with the error of the transport; and if the client went away, as a reset connection when it had said
    nothing, with an error of another kind when it had. *)
Theorem async_request_cut_off : forall X c o s w, acut c o s -> ~ has_end c ->
  exists s2, async_into_ws X s w = Err (mk_arefusal s2 w None c (UpIo (told c o ConnectionReset (fun k => k)))).
Proof. exact ThmCutOff.async_request_cut_off_proof. Qed.
Print Assumptions async_request_cut_off.

Example async_request_cut_off_ex :
  acut [] Ends [ANotReady] /\ acut (str "GE") Ends [AData "G"%byte []; ANotReady; AData "E"%byte []] /\
  acut (str "G") (Breaks ConnectionReset) [AData "G"%byte []; AErr ConnectionReset] /\ ~ has_end (str "GE") /\
  (forall w, async_into_ws httparse_lib [ANotReady] w = Err (mk_arefusal [] w None [] (UpIo ConnectionReset))) /\
  (forall w, async_into_ws httparse_lib [AData "G"%byte []; ANotReady; AData "E"%byte []] w
             = Err (mk_arefusal [] w None (str "GE") (UpIo (OtherKind 0)))).
Proof.
  split; [exists [ANotReady]; split; [repeat constructor|split; reflexivity]|].
  split; [eexists; split; [|split; [|reflexivity]]; [repeat constructor|reflexivity]|].
  split; [exists [AData "G"%byte []]; split; [repeat constructor|split; [reflexivity|exists []; reflexivity]]|].
  split; [|split; intros w; reflexivity].
  intros (a & b & E). apply (f_equal (@length byte)) in E. rewrite !app_length in E. cbn in E. lia.
Qed.

(** ** The clients *)

(** [C96] A response that stops in the middle makes the blocking client's [connect] fail with the error
    that stopped it, after the request has been written. *)
Theorem response_cut_off : forall X rnd b v code r fs c d after k s w data, sound_lib X -> sound_room X ->
  response_head X v code r fs (c ++ d) -> (length fs <= 100)%nat ->
  d <> [] -> llen c < 417792 -> first_come c after s -> stops after = Some k -> never_fails w ->
  @print_request client_error (build_request rnd b) = Ok data ->
  exists w', connect_on X rnd b s w = (Err (CParsing (PEIo k)), build_request rnd b, w') /\ w_out w' = w_out w ++ data.
Proof. exact ThmCutOff.response_cut_off_proof. Qed.
Print Assumptions response_cut_off.

Example response_cut_off_ex :
  let b := builder_init (mk_url (str "ws") (Some (str "h")) None [] None (str "/")) in
  let c := str "HTTP/1.1 101 Swi" in
  (exists data, @print_request client_error (build_request (str "the sample nonce") b) = Ok data /\ llen data > 100) /\
  first_come c [] [RData "H"%byte (str "TTP/1.1 101 Swi")] /\ stops [] = Some UnexpectedEof /\ never_fails (mk_w [] [WAccept 9; WIntr]) /\
  fst (fst (connect_on httparse_lib (str "the sample nonce") b [RData "H"%byte (str "TTP/1.1 101 Swi")] (mk_w [] [WAccept 9; WIntr])))
  = Err (CParsing (PEIo UnexpectedEof)).
Proof.
  cbv zeta. split; [eexists; split; [vm_compute; reflexivity|vm_compute; reflexivity]|].
  split; [reflexivity|]. split; [reflexivity|]. split; [repeat constructor|]. vm_compute. reflexivity.
Qed.

(** [C96] So does the asynchronous client's: with the error of the transport; and if the server went
    away, saying so when it had said nothing, with an error of another kind when it had. *)
Theorem async_response_cut_off : forall X rnd b extra c o s w data, acut c o s -> ~ has_end c -> afails_never w ->
  @print_request client_error (build_request rnd b) = Ok data ->
  async_connect_on X rnd b extra s w =
  Err (told c o (CWs (ProtocolError "Connection closed before handshake could complete.")) COtherIo).
Proof. exact ThmCutOff.async_response_cut_off_proof. Qed.
Print Assumptions async_response_cut_off.

Example async_response_cut_off_ex :
  let b := builder_init (mk_url (str "ws") (Some (str "h")) None [] None (str "/")) in
  let go s := async_connect_on httparse_lib (str "the sample nonce") b 0 s (mk_fw (mk_bm [] 0) [] [AwNotReady] []) in
  acut [] Ends [ANotReady; ANotReady] /\ go [ANotReady; ANotReady] = Err (CWs (ProtocolError "Connection closed before handshake could complete.")) /\
  acut (str "H") Ends [AData "H"%byte []] /\ go [AData "H"%byte []] = Err (COtherIo (OtherKind 0)) /\
  acut (str "H") (Breaks WouldBlock) [AData "H"%byte []; AErr WouldBlock; ANotReady] /\
  go [AData "H"%byte []; AErr WouldBlock; ANotReady] = Err (COtherIo WouldBlock).
Proof.
  cbv zeta. split; [exists [ANotReady; ANotReady]; split; [repeat constructor|split; reflexivity]|].
  split; [vm_compute; reflexivity|].
  split; [exists [AData "H"%byte []]; split; [repeat constructor|split; reflexivity]|].
  split; [vm_compute; reflexivity|].
  split; [exists [AData "H"%byte []]; split; [repeat constructor|split; [reflexivity|exists [ANotReady]; reflexivity]]|].
  vm_compute; reflexivity.
Qed.

(** ** All alike *)

(** [C96] Refuted: that the same mishap is told the same way.  A server that goes away before it has said
    anything, and one that goes away in the middle of its response: the blocking client says the same of
    both, the asynchronous client two other things; and so the servers of a client. *)
Theorem cut_alike_refuted : exists X b rnd,
  let go s := fst (fst (connect_on X rnd b s (mk_w [] []))) in
  let ago s := async_connect_on X rnd b 0 s (mk_fw (mk_bm [] 0) [] [] []) in
  let up s := match into_ws X s (mk_w [] []) with Err f => Some (rf_error f) | _ => None end in
  let aup s := match async_into_ws X s (mk_fw (mk_bm [] 0) [] [] []) with Err f => Some (ar_error f) | _ => None end in
  go [] = Err (CParsing (PEIo UnexpectedEof)) /\ go [RData "H"%byte []] = go [] /\
  ago [] = Err (CWs (ProtocolError "Connection closed before handshake could complete.")) /\
  ago [AData "H"%byte []] = Err (COtherIo (OtherKind 0)) /\
  up [] = Some (UpParsing (PEIo UnexpectedEof)) /\ up [RData "G"%byte []] = up [] /\
  aup [] = Some (UpIo ConnectionReset) /\ aup [AData "G"%byte []] = Some (UpIo (OtherKind 0)).
Proof. exact ThmCutOff.cut_alike_refuted_proof. Qed.
Print Assumptions cut_alike_refuted.
