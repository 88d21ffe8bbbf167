(** A whole session, from the request to the last message: C83. *)
From Coq Require Import NArith ZArith String Bool List Lia Permutation.
From Coq.Strings Require Import Byte.
From Verif.Model Require Import Base Io Header Mask Dataframe Utf8 Text Base64 Sha1 WsKey Headers
  Handshake Message Receiver Codec Framed Http Connect Examples ChatClient.
From Verif.Spec Require Import RfcFrame FrameSpec Unicode Schedule Drive Session Sink Rfc4648 Accept Fields Upgrade Builder
  HttpHead Connection Wire Endpoint Echo Chat Whole.
From Verif.Proofs Require Import ExTac.
From Verif.Proofs Require ThmWhole.
Import ListNotations.
Local Open Scope string_scope.
Local Open Scope list_scope.
Local Open Scope N_scope.

(** ** The session *)

(** [C83] A client and a server of this library, each blocking or asynchronous.  The client was
    configured in any way that does not break the handshake; the server chooses any headers, adds
    any and sets any limits; and each side's reads give what the other writes: request and
    response, then the frames of the messages each wants to say.  Then both get through the
    handshake, having written just the request and the response; all their messages go out and
    are those frames; and each hears all the other says, in order, whatever the two transports
    do with the bytes. *)
Theorem whole_session : forall X u cs rnd b text custom h0 h rtext df msg cst sst l1 l2 wire1 wire2,
  speaks X -> sound_room X ->
  configured X u cs rnd b -> request_text rnd b text -> llen text <= 417792 ->
  unique_names h0 -> all_unique custom ->
  response_text custom h0 (request_fields rnd b) h rtext -> legible_all X (fields h) -> llen rtext <= 417792 ->
  Forall (fun p => sendable (capped df) (fst p)) l1 ->
  Forall (fun p => sendable (capped (b_max_df b)) (fst p)) l2 ->
  octets wire1 = client_says l1 -> octets wire2 = server_says (map fst l2) ->
  reliable cst -> reliable sst -> brings sst text wire1 -> brings cst rtext wire2 ->
  exists ce se,
    connects X rnd b cst = Some ce /\ serves X h0 custom df msg sst = Some se /\
    wrote cst ce text /\ wrote sst se rtext /\
    puts ce l1 wire1 /\ puts se l2 wire2 /\
    hears se (map fst l1) /\ hears ce (map fst l2).
Proof. exact ThmWhole.whole_session_proof. Qed.
Print Assumptions whole_session.

(** An asynchronous client and a blocking server: the first bytes of the client's first frame come
    together with its request, the server's ping byte by byte. *)
Definition whole_url : url := mk_url (ascii "ws") (Some (ascii "example.org")) (Some 8080) [] None (ascii "/chat?a=b").
Definition whole_calls : list call := [AddProtocol (ascii "chat"); MaxMessageSize 1000; SetOrigin (ascii "http://example.org")].
Definition whole_rnd : bytes := ascii "the sample nonce".
Definition whole_key : mkey := mk_key x01 x02 x03 x04.
Example whole_session_ex : exists b text h rtext ce se,
  configured httparse_lib whole_url whole_calls whole_rnd b /\
  request_text whole_rnd b text /\ llen text <= 417792 /\
  response_text (Some [(ascii "X", Raw [ascii "y"])]) [(n_protocol, Typed (VProtocol [ascii "chat"]))]
    (request_fields whole_rnd b) h rtext /\
  legible_all httparse_lib (fields h) /\ llen rtext <= 417792 /\
  let l1 := [(OText (str "hi"), whole_key); (OClose None, whole_key)] in
  let l2 := [(OPing [], whole_key)] in
  let wire1 := [x81; x82; x01; x02; x03; x04; x69; x6b; x88; x80; x01; x02; x03; x04] in
  octets wire1 = client_says l1 /\ octets [x89; x00] = server_says (map fst l2) /\
  let sst := OverBlocking (push_back (text ++ [x81; x82; x01]) [RIntr; RData x02 (skipn 4 wire1)]) (mk_w [] [WAccept 7; WIntr]) in
  let cst := OverAsync 0 (apush_back rtext [ANotReady; AData x89 []; ANotReady; AData x00 []]) (mk_fw (mk_bm [] 0) [] [AwNotReady] []) in
  brings sst text wire1 /\ brings cst rtext [x89; x00] /\
  connects httparse_lib whole_rnd b cst = Some ce /\
  serves httparse_lib [(n_protocol, Typed (VProtocol [ascii "chat"]))] (Some [(ascii "X", Raw [ascii "y"])]) 100 200 sst = Some se /\
  hears se [OText (str "hi"); OClose None] /\ hears ce [OPing []].
Proof.
  eexists _, _, _, _, _, _. split.
  { split; [reflexivity|]. split; [repeat constructor|]. split; [repeat constructor|].
    split; [reflexivity|]. split; [reflexivity|]. split; [repeat constructor; discriminate|].
    split; [split; [discriminate|right; left; eexists; reflexivity]|].
    split; [split; intros HI; cbn in HI; decompose [or] HI; try discriminate; contradiction|].
    split; [apply ThmInterop.legible_check; vm_compute; reflexivity|vm_compute; lia]. }
  split; [vm_compute; reflexivity|]. split; [vm_compute; discriminate|]. split; [split; vm_compute; reflexivity|].
  split; [split; [apply ThmInterop.legible_check; vm_compute; reflexivity|vm_compute; lia]|].
  split; [vm_compute; discriminate|]. cbv zeta.
  split; [vm_compute; reflexivity|]. split; [vm_compute; reflexivity|].
  split. { exists [RData x81 [x82; x01]; RIntr; RData x02 [x03; x04; x69; x6b; x88; x80; x01; x02; x03; x04]].
    split; [vm_compute; reflexivity|]. apply (carries_data x81 [x82; x01]). apply carries_intr.
    apply (carries_data x02 [x03; x04; x69; x6b; x88; x80; x01; x02; x03; x04] [] []). constructor. }
  split. { apply ThmSession.acarries_mk. apply acarries_not_ready. apply (acarries_data x89 [] _ [x00]).
    apply acarries_not_ready. apply (acarries_data x00 [] [] []). constructor. }
  split; [vm_compute; reflexivity|]. split; [vm_compute; reflexivity|]. split; vm_compute; reflexivity.
Qed.
