(** Heads the parser refuses, given to both kinds of server and of client: C58. *)
From Coq Require Import NArith ZArith String Bool List Lia.
From Coq.Strings Require Import Byte.
From Verif.Model Require Import Base Io Header Mask Dataframe Utf8 Text Base64 WsKey Headers
  Handshake Message Receiver Codec Framed Http Connect.
From Verif.Spec Require Import RfcFrame FrameSpec Fields Upgrade Builder HttpHead Connection Wire Sides Accept.
From Verif.Proofs Require Import ExTac.
From Verif.Proofs Require ThmMalformed.
Import ListNotations.
Local Open Scope string_scope.
Local Open Scope list_scope.
Local Open Scope N_scope.

(** ** The servers *)

(** [C58] Given bytes the parser refuses, other than as too large, the blocking and the asynchronous server
    both refuse them, with the parser's error and without a request, however the bytes come to either.  The
    blocking one may refuse before it has them all. *)
Theorem servers_refuse_alike : forall X h e after s w sa sa' wa, sound_room X ->
  try_request X h = Fail e -> e <> PETooLarge -> llen h <= 417792 -> ends_first h ->
  first_come h after s -> aflows sa h sa' ->
  (exists f, into_ws X s w = Err f /\ rf_error f = UpParsing e /\ rf_request f = None) /\
  (exists g, async_into_ws X sa wa = Err g /\ ar_error g = UpParsing e /\ ar_request g = None).
Proof. exact ThmMalformed.servers_refuse_alike_proof. Qed.
Print Assumptions servers_refuse_alike.

(** A request with a version that is no version; the blocking server has not read the rest of it. *)
Example servers_refuse_alike_ex :
  let h := str "GET / HTTP/2.0" ++ head_end in
  try_request httparse_lib h = Fail PEVersion /\
  into_ws httparse_lib (RData "G"%byte (str "ET / HTTP/2") :: push_back (str ".0" ++ head_end) []) (mk_w [] [])
    = Err (mk_refusal (push_back (str ".0" ++ head_end) []) (mk_w [] []) None (Some (str "GET / HTTP/2")) (UpParsing PEVersion)) /\
  async_into_ws httparse_lib (ANotReady :: apush_back (h ++ str "x") []) (mk_fw (mk_bm [] 0) [] [] [])
    = Err (mk_arefusal [] (mk_fw (mk_bm [] 0) [] [] []) None (str "x") (UpParsing PEVersion)).
Proof. split; [|split]; vm_compute; reflexivity. Qed.

(** ** The clients *)

(** [C58] Given bytes the parser refuses as a response, other than as too large, the blocking and the
    asynchronous client of one builder both fail with the parser's error, once they have sent the request. *)
Theorem clients_refuse_alike : forall X rnd b data h e after s w sa sa' wa extra, sound_room X ->
  @print_request client_error (build_request rnd b) = Ok data -> never_fails w -> afails_never wa ->
  try_response X h = Fail e -> e <> PETooLarge -> llen h <= 417792 -> ends_first h ->
  first_come h after s -> aflows sa h sa' ->
  fst (fst (connect_on X rnd b s w)) = Err (CParsing e) /\
  async_connect_on X rnd b extra sa wa = Err (CParsing e).
Proof. exact ThmMalformed.clients_refuse_alike_proof. Qed.
Print Assumptions clients_refuse_alike.

Example clients_refuse_alike_ex :
  let u := mk_url (ascii "ws") (Some (ascii "h")) None [] None (ascii "/") in
  let h := str "HTTP/2.0 101 X" ++ head_end in
  try_response httparse_lib h = Fail PEVersion /\
  fst (fst (connect_on httparse_lib (ascii "the sample nonce") (builder_init u) (push_back h []) (mk_w [] []))) = Err (CParsing PEVersion) /\
  async_connect_on httparse_lib (ascii "the sample nonce") (builder_init u) 0 (ANotReady :: apush_back h []) (mk_fw (mk_bm [] 0) [] [] [])
    = Err (CParsing PEVersion).
Proof. split; [|split]; vm_compute; reflexivity. Qed.
