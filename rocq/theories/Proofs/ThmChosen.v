(** What the client sees of what the server chose, and the server of what the client asked for: C37, C63. *)
From Coq Require Import NArith ZArith String Bool List Lia Permutation.
From Coq Require Import ZifyBool ZifyNat ZifyN.
From Coq.Strings Require Import Byte.
From Verif.Model Require Import Base Io Header Mask Dataframe Utf8 Text Base64 Sha1 WsKey Headers
  Handshake Message Receiver Codec Framed Http Connect.
From Verif.Spec Require Import RfcFrame FrameSpec Unicode Rfc4648 Accept Fields Upgrade Builder HttpHead Connection Wire.
From Verif.Proofs Require Import BaseFacts Utf8Facts Base64Facts ThmKeys TextFacts MapFacts ThmServer ThmClient
  HttpFacts ThmHttp SpreadFacts ThmStream ThmConnect ThmInterop ThmSame.
Import ListNotations.
Local Open Scope string_scope.
Local Open Scope list_scope.
Local Open Scope N_scope.

(** [C37] A server that calls [use_protocol], [use_extensions] and [use_extension] on the upgrade: the client
    sees that protocol, and those extensions in the order they were given, if their parameters have no
    values and the server's custom headers do not have these fields too.  (With values: C40.) *)
Lemma client_sees_chosen_proof : forall X u cs rnd b p es e h1 h2 h0 custom h rtext,
  configured X u cs rnd b -> list_word p -> Forall simple_extension (es ++ [e]) ->
  @use_protocol unit p [] = Ok h1 -> @use_extensions unit es h1 = Ok h2 -> @use_extension unit e h2 = Ok h0 ->
  all_unique custom ->
  match custom with
  | Some c => unset (ascii "Sec-WebSocket-Protocol") c /\ unset (ascii "Sec-WebSocket-Extensions") c
  | None => True
  end ->
  response_text custom h0 (request_fields rnd b) h rtext ->
  @protocols unit (from_raw (read_back (fields h))) = Ok [p] /\
  @extensions unit (from_raw (read_back (fields h))) = Ok (map without_values (es ++ [e])).
Proof.
  intros X u cs rnd b p es e h1 h2 h0 custom h rtext HC HW HS HP HE1 HE2 HA HN [HR _].
  destruct (request_good_proof X u cs rnd b HC) as [HQ HK]. apply server_validate_iff_proof in HQ.
  apply Ok_inj in HP. subst h1. apply Ok_inj in HE1. subst h2. apply Ok_inj in HE2. cbn in HE2. subst h0.
  set (h0 := [_; _]) in *.
  assert (unique_names h0) as HU.
  { unfold h0. constructor; [|constructor; [intros []|constructor]]. intros [H|[]]; discriminate H. }
  destruct (accept_headers_proof _ _ _ custom h0 HU HA HQ) as (k & h' & HKF & HP' & HU' & _ & HO).
  rewrite HR in HP'. apply Ok_inj in HP'. subst h'. split.
  - unfold protocols. rewrite protocols_carried_proof with (l := [p]); [reflexivity|exact HU'| |constructor; [exact HW|constructor]].
    apply HO.
    + intros HE. apply Exists_exists in HE as (x & HI & HE). cbn [In] in HI. decompose [or] HI; subst; try contradiction; discriminate HE.
    + assert (stored (ascii "Sec-WebSocket-Protocol") (Typed (VProtocol [p])) h0) as HH by (apply hfind_some; reflexivity).
      destruct custom as [c|]; cbn [overlaid]; [|exact HH]. destruct HN as [HN _]. auto.
  - unfold extensions. rewrite extensions_carried_proof with (l := es ++ [e]); [reflexivity|exact HU'| |exact HS].
    apply HO.
    + intros HE. apply Exists_exists in HE as (x & HI & HE). cbn [In] in HI. decompose [or] HI; subst; try contradiction; discriminate HE.
    + assert (stored (ascii "Sec-WebSocket-Extensions") (Typed (VExtensions (es ++ [e]))) h0) as HH by (apply hfind_some; reflexivity).
      destruct custom as [c|]; cbn [overlaid]; [|exact HH]. destruct HN as [_ HN]. auto.
Qed.
(*EX
Example client_sees_chosen_ex : exists b h1 h2 h0 h rtext,
  let u := mk_url (ascii "ws") (Some (ascii "h")) None [] None (ascii "/") in
  let x := mk_ext (ascii "x") [mk_param (ascii "fast") None] in
  run_calls [] (builder_init u) = Ok b /\ @use_protocol unit (ascii "chat") [] = Ok h1 /\
  @use_extensions unit [mk_ext (ascii "a") []; mk_ext (ascii "b") []] h1 = Ok h2 /\ @use_extension unit x h2 = Ok h0 /\
  response_text None h0 (request_fields (ascii "the sample nonce") b) h rtext /\
  @protocols unit (from_raw (read_back (fields h))) = Ok [ascii "chat"] /\
  @extensions unit (from_raw (read_back (fields h))) = Ok [mk_ext (ascii "a") []; mk_ext (ascii "b") []; x].
Proof.
  eexists _, _, _, _, _, _. split; [reflexivity|]. split; [reflexivity|]. split; [reflexivity|]. split; [reflexivity|].
  split; [split; vm_compute; reflexivity|]. split; vm_compute; reflexivity.
Qed.
EX*)

(** [C63] The upgrade a blocking or asynchronous server offers for the request of a client names the
    extensions the client asks for, if their parameters have no values. *)
Lemma servers_see_extensions_proof : forall X u cs rnd b text s w after sa sa' wa,
  speaks X -> sound_room X -> configured X u cs rnd b -> request_text rnd b text -> llen text <= 417792 ->
  first_come text after s -> aflows sa text sa' ->
  Forall (leaves_alone (ascii "Sec-WebSocket-Extensions")) cs -> Forall simple_extension (asked_extensions (rev cs)) ->
  exists up au, into_ws X s w = Ok up /\ async_into_ws X sa wa = Ok au /\
    @seen_extensions unit (up_request up) = Ok (map without_values (asked_extensions (rev cs))) /\
    @seen_extensions unit (au_request au) = Ok (map without_values (asked_extensions (rev cs))).
Proof.
  intros X u cs rnd b text s w after sa sa' wa HS HR HC HT HL HF HA HL1 HE.
  destruct (server_takes_client_proof X u cs rnd b text s w after HS HR HC HT HL HF) as (up & E1 & Q1 & _).
  destruct (async_server_takes_client_proof X u cs rnd b text sa sa' wa HS HC HT HA) as (au & E2 & Q2 & _).
  exists up, au. split; [exact E1|]. split; [exact E2|]. rewrite Q1, Q2.
  pose proof HC as (HRun & _). unfold seen_extensions. cbn [rq_headers].
  split; apply (server_sees_extensions_proof u); assumption.
Qed.
(*EX Example servers_see_extensions_ex :
  let u := mk_url (ascii "ws") (Some (ascii "example.org")) None [] None (ascii "/") in
  let e := mk_ext (ascii "x") [mk_param (ascii "fast") None] in
  exists b text up, run_calls [AddExtension e; AddExtension (mk_ext (ascii "y") [])] (builder_init u) = Ok b /\
  request_text (ascii "the sample nonce") b text /\
  into_ws httparse_lib (push_back text []) (mk_w [] []) = Ok up /\
  @seen_extensions unit (up_request up) = Ok [e; mk_ext (ascii "y") []].
Proof.
  cbv zeta. do 3 eexists. split; [reflexivity|]. split; [vm_compute; reflexivity|]. split; vm_compute; reflexivity.
Qed. EX*)
