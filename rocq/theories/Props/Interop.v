(** Both ends together: C36, C50. *)
From Coq Require Import NArith ZArith String Bool List Lia Permutation.
From Coq.Strings Require Import Byte.
From Verif.Model Require Import Base Io Header Mask Dataframe Utf8 Text Base64 Sha1 WsKey Headers
  Handshake Message Receiver Codec Framed Http Connect.
From Verif.Spec Require Import RfcFrame FrameSpec Unicode Rfc4648 Accept Fields Upgrade Builder HttpHead Connection Wire.
From Verif.Proofs Require Import ExTac.
From Verif.Proofs Require ThmInterop.
Import ListNotations.
Local Open Scope string_scope.
Local Open Scope list_scope.
Local Open Scope N_scope.

(** ** Heads say what was put into them *)

(** [C50] The bytes of a request are a request head with the method, the target and exactly the
    fields that are in the builder, in order, whatever line breaks their values have: they
    cannot add a field or end the head. *)
Theorem request_as_read : forall X b text,
  text_of (l_method X) SP (ascii "GET") -> text_of (l_target X) SP (u_resource (b_url b)) ->
  Forall (legible X) (fields (b_headers b)) -> b_version b = Http10 \/ b_version b = Http11 ->
  @print_request unit b = Ok text ->
  request_head X (ascii "GET") (u_resource (b_url b)) (b_version b) (read_back (fields (b_headers b))) text.
Proof. exact ThmInterop.request_as_read_proof. Qed.
Print Assumptions request_as_read.

Example request_as_read_ex : forall u,
  let b := with_headers (builder_init u) [(ascii "Origin", Typed (VOrigin (ascii "x" ++ [CR; LF] ++ ascii "Evil: 1")))] in
  Forall (legible httparse_lib) (fields (b_headers b)) /\
  read_back (fields (b_headers b)) = [(ascii "Origin", ascii "x  Evil: 1")].
Proof.
  intros u. split; [|reflexivity]. apply Forall_cons; [|apply Forall_nil]. split; [discriminate|].
  split; [repeat constructor; discriminate|]. cbn [snd].
  apply Forall_app. split; [|apply Forall_app; split].
  - apply Forall_cons; [right; right; right; vm_compute; split; discriminate|apply Forall_nil].
  - apply Forall_cons; [right; left; reflexivity|]. apply Forall_cons; [right; right; left; reflexivity|apply Forall_nil].
  - apply Forall_forall. intros x HI. right. right. right. cbn in HI.
    decompose [or] HI; subst; try contradiction; vm_compute; split; discriminate.
Qed.

(** [C50] The same for the response that completes the handshake. *)
Theorem response_as_read : forall X v h text,
  Forall (fun b => l_reason X b = true) (ascii "Switching Protocols") ->
  Forall (legible X) (fields h) -> v = Http10 \/ v = Http11 ->
  @print_response unit v switching_protocols h = Ok text ->
  response_head X v 101 (ascii "Switching Protocols") (read_back (fields h)) text.
Proof. exact ThmInterop.response_as_read_proof. Qed.
Print Assumptions response_as_read.

(** A value with a line break reads back as one line. *)
Example response_as_read_ex :
  let h := [(ascii "Server", Raw [ascii "a" ++ [CR; LF] ++ ascii "Evil: 1"])] in
  exists text, @print_response unit Http11 switching_protocols h = Ok text /\
    try_response httparse_lib text
    = Done (mk_resp Http11 101 (ascii "Switching Protocols") (from_raw [(ascii "Server", ascii "a  Evil: 1")])) [].
Proof. eexists. split; [vm_compute; reflexivity|]. vm_compute. reflexivity. Qed.

(** ** The head ends where it ends *)

(** [C50] Whatever bytes the values are made of, the first empty line in the bytes of a request
    is the one at their end, as long as names and target have no line breaks. *)
Theorem request_ends : forall b text,
  no_break (u_resource (b_url b)) -> Forall (fun f : field => no_break (fst f)) (fields (b_headers b)) ->
  @print_request unit b = Ok text -> ends_first text.
Proof. exact ThmInterop.request_ends_proof. Qed.
Print Assumptions request_ends.

(** [C50] Likewise for responses, accepting or rejecting. *)
Theorem response_ends : forall v st h text,
  no_break st -> Forall (fun f : field => no_break (fst f)) (fields h) ->
  @print_response unit v st h = Ok text -> ends_first text.
Proof. exact ThmInterop.response_ends_proof. Qed.
Print Assumptions response_ends.

Example ends_ex :
  let b := with_headers (builder_init (mk_url (ascii "ws") None None [] None (ascii "/")))
             [(ascii "Origin", Typed (VOrigin ([CR; LF; CR; LF] ++ ascii "GET /evil HTTP/1.1" ++ [x00; CR; LF; CR; LF])))] in
  exists text, @print_request unit b = Ok text /\ ends_first text.
Proof.
  eexists. split; [vm_compute; reflexivity|].
  match goal with |- ends_first ?t => apply (proj1 (ThmHttp.split_exact_proof t t [])) end. vm_compute. reflexivity.
Qed.

(** [C50] Names are written as they are: one with a line break in it does add a field. *)
Theorem name_break_refuted : exists h text,
  List.length (fields h) = 1%nat /\ @print_response unit Http11 switching_protocols h = Ok text /\
  exists q, try_response httparse_lib text = Done q [] /\
    rs_headers q = from_raw [(ascii "A", ascii "1"); (ascii "Set-Cookie", ascii "x")].
Proof. exact ThmInterop.name_break_refuted_proof. Qed.
Print Assumptions name_break_refuted.

(** ** The server accepts the client *)

(** [C36] The request of a client that was not misconfigured meets all conditions of the
    server, and the server reads the client's key in it. *)
Theorem request_good : forall X u cs rnd b, configured X u cs rnd b ->
  Forall (fun c => fst c) (request_conditions Get Http11 (request_fields rnd b)) /\
  key_field (request_fields rnd b) (or_else (asked_key (rev cs)) rnd).
Proof. exact ThmInterop.request_good_proof. Qed.
Print Assumptions request_good.

Definition some_url : url := mk_url (ascii "ws") (Some (ascii "example.org")) (Some 8080) [] None (ascii "/chat?a=b").
Definition some_calls : list call :=
  [AddProtocol (ascii "chat"); MaxMessageSize 1000; SetOrigin (ascii "http://example.org"); AddProtocol (ascii "superchat")].
Example configured_ex : exists b, configured httparse_lib some_url some_calls (ascii "the sample nonce") b.
Proof.
  eexists. split; [reflexivity|]. split; [repeat constructor|]. split; [repeat constructor|].
  split; [reflexivity|]. split; [reflexivity|]. split; [repeat constructor; discriminate|].
  split; [split; [discriminate|right; left; eexists; reflexivity]|].
  split; [split; intros HI; cbn in HI; decompose [or] HI; try discriminate; contradiction|].
  split; [|vm_compute; lia].
  apply ThmInterop.legible_check. vm_compute. reflexivity.
Qed.

(** ** Sufficient conditions by computation *)

(** [C36] The blocking server accepts the request of such a client, however its bytes are cut
    into reads, and sees the target and the fields the client put into it. *)
Theorem server_takes_client : forall X u cs rnd b text s w after,
  speaks X -> sound_room X -> configured X u cs rnd b -> request_text rnd b text -> llen text <= 417792 ->
  first_come text after s ->
  exists up, into_ws X s w = Ok up /\
    up_request up = mk_req Get (u_resource u) Http11 (from_raw (request_fields rnd b)) /\
    up_headers up = [] /\ up_out up = w.
Proof. exact ThmInterop.server_takes_client_proof. Qed.
Print Assumptions server_takes_client.

(** [C36] So does the asynchronous server. *)
Theorem async_server_takes_client : forall X u cs rnd b text s s' w,
  speaks X -> configured X u cs rnd b -> request_text rnd b text -> aflows s text s' ->
  exists up, async_into_ws X s w = Ok up /\
    au_request up = mk_req Get (u_resource u) Http11 (from_raw (request_fields rnd b)) /\
    au_headers up = [] /\ au_out up = w.
Proof. exact ThmInterop.async_server_takes_client_proof. Qed.
Print Assumptions async_server_takes_client.

(** ** The client accepts the server *)

(** [C36] The blocking client accepts the server's response to its request, whatever headers
    the server adds, however the bytes are cut into reads: it connects, has written exactly
    its request, holds the response's headers, and reads on behind the head. *)
Theorem client_takes_server : forall X u cs rnd b text custom h0 h rtext s w after,
  speaks X -> sound_room X -> configured X u cs rnd b -> request_text rnd b text ->
  unique_names h0 -> all_unique custom ->
  response_text custom h0 (request_fields rnd b) h rtext -> legible_all X (fields h) ->
  llen rtext <= 417792 -> first_come rtext after s -> never_fails w ->
  exists c w', connect_on X rnd b s w = (Ok c, build_request rnd b, w') /\
    w_out w' = w_out w ++ text /\ c_headers c = from_raw (read_back (fields h)) /\ unread c = after.
Proof. exact ThmInterop.client_takes_server_proof. Qed.
Print Assumptions client_takes_server.

(** [C36] So does the asynchronous client. *)
Theorem async_client_takes_server : forall X u cs rnd b text custom h0 h rtext extra s s' w,
  speaks X -> configured X u cs rnd b -> request_text rnd b text ->
  unique_names h0 -> all_unique custom ->
  response_text custom h0 (request_fields rnd b) h rtext -> legible_all X (fields h) ->
  aflows s rtext s' -> afails_never w ->
  exists a, async_connect_on X rnd b extra s w = Ok (a, from_raw (read_back (fields h))) /\
    fw_out (ac_out a) = fw_out w ++ bm_data (fw_buf w) ++ text /\ bm_data (fw_buf (ac_out a)) = [].
Proof. exact ThmInterop.async_client_takes_server_proof. Qed.
Print Assumptions async_client_takes_server.

(** ** What the server sends *)

(** [C36] The handshake of a blocking client with a blocking server.  The server gets the
    client's bytes, chooses headers, adds custom ones and accepts, its writes succeeding.
    Then it has written one response, and reads on where the client's request ends; and the
    client, getting that response, connects, having written that request, holding the
    server's headers, and reads on where the response ends. *)
Theorem handshake : forall X u cs rnd b text s w after,
  speaks X -> sound_room X -> configured X u cs rnd b -> request_text rnd b text -> llen text <= 417792 ->
  first_come text after s ->
  exists up, into_ws X s w = Ok up /\
  forall h0 custom df msg sc, unique_names h0 -> all_unique custom ->
    internal_accept custom df msg (mk_upgrade h0 (up_request up) (up_buffer up) (up_in up) (up_out up)) = Ok sc ->
    legible_all X (fields (c_headers sc)) ->
    exists rtext, w_out (c_out sc) = w_out w ++ rtext /\ unread sc = after /\
      forall s2 w2 after2, llen rtext <= 417792 -> first_come rtext after2 s2 -> never_fails w2 ->
      exists cc w2', connect_on X rnd b s2 w2 = (Ok cc, build_request rnd b, w2') /\
        w_out w2' = w_out w2 ++ text /\ unread cc = after2 /\
        c_headers cc = from_raw (read_back (fields (c_headers sc))).
Proof. exact ThmInterop.handshake_proof. Qed.
Print Assumptions handshake.

Example speaks_ex : speaks httparse_lib.
Proof.
  split; [repeat split|]. split; [repeat constructor; discriminate|]. repeat constructor.
Qed.
Example handshake_ex : exists b text up sc cc b' w',
  run_calls some_calls (builder_init some_url) = Ok b /\ request_text (ascii "the sample nonce") b text /\
  into_ws httparse_lib (push_back (text ++ [x89]) [RData x80 []]) (mk_w [] [WAccept 3; WIntr]) = Ok up /\
  internal_accept (Some [(ascii "X", Raw [ascii "y"])]) 100 200
    (mk_upgrade [(n_protocol, Typed (VProtocol [ascii "chat"]))] (up_request up) (up_buffer up) (up_in up) (up_out up)) = Ok sc /\
  connect_on httparse_lib (ascii "the sample nonce") b (push_back (w_out (c_out sc)) []) (mk_w [] []) = (Ok cc, b', w') /\
  w_out w' = text /\ unread sc = [inl x89; inl x80] /\
  @get_protocols unit (c_headers cc) = Ok (Some [ascii "chat"]).
Proof.
  do 7 eexists. split; [vm_compute; reflexivity|]. split; [vm_compute; reflexivity|].
  split; [vm_compute; reflexivity|]. split; [vm_compute; reflexivity|].
  split; [vm_compute; reflexivity|]. split; [vm_compute; reflexivity|]. split; vm_compute; reflexivity.
Qed.

(** [C36] The handshake of an asynchronous client with an asynchronous server. *)
Theorem async_handshake : forall X u cs rnd b text s s' w,
  speaks X -> configured X u cs rnd b -> request_text rnd b text -> aflows s text s' ->
  exists up, async_into_ws X s w = Ok up /\
  forall h0 custom df msg extra a h, unique_names h0 -> all_unique custom ->
    async_accept custom df msg extra (mk_aupgrade h0 (au_request up) (au_buffer up) (au_in up) (au_out up)) = Ok (a, h) ->
    legible_all X (fields h) ->
    exists rtext, fw_out (ac_out a) = fw_out w ++ bm_data (fw_buf w) ++ rtext /\
      (forall n, poll_n mc_decode n (ac_in a) (ac_read a)
         = poll_n mc_decode n s' (framed_new (msg_codec_with_limits CtxServer df msg) [])) /\
      forall extra2 s2 s2' w2, aflows s2 rtext s2' -> afails_never w2 ->
      exists ca, async_connect_on X rnd b extra2 s2 w2 = Ok (ca, from_raw (read_back (fields h))) /\
        fw_out (ac_out ca) = fw_out w2 ++ bm_data (fw_buf w2) ++ text /\
        (forall n, poll_n mc_decode n (ac_in ca) (ac_read ca)
           = poll_n mc_decode n s2' (framed_new (msg_codec_with_limits CtxClient (b_max_df b) (b_max_msg b)) [])).
Proof. exact ThmInterop.async_handshake_proof. Qed.
Print Assumptions async_handshake.

(** ** Negotiation *)

(** [C37] A list of protocols in a header map is read on the other side as the same list. *)
Theorem protocols_carried : forall h l, unique_names h ->
  stored (ascii "Sec-WebSocket-Protocol") (Typed (VProtocol l)) h -> Forall list_word l ->
  @get_protocols unit (from_raw (read_back (fields h))) = Ok (Some l).
Proof. exact ThmInterop.protocols_carried_proof. Qed.
Print Assumptions protocols_carried.

(** [C38] A list of extensions is read as the same list, with every parameter's value folded
    into its name. *)
Theorem extensions_carried : forall h l, unique_names h ->
  stored (ascii "Sec-WebSocket-Extensions") (Typed (VExtensions l)) h -> Forall simple_extension l ->
  @get_extensions unit (from_raw (read_back (fields h))) = Ok (Some (map without_values l)).
Proof. exact ThmInterop.extensions_carried_proof. Qed.
Print Assumptions extensions_carried.

(** A parameter with a value: the value ends up in the name. *)
Example extensions_carried_ex :
  let e := mk_ext (ascii "permessage-deflate") [mk_param (ascii "bits") (Some (ascii "10")); mk_param (ascii "x") None] in
  @get_extensions unit (from_raw (read_back (fields [(ascii "Sec-WebSocket-Extensions", Typed (VExtensions [e]))])))
  = Ok (Some [mk_ext (ascii "permessage-deflate") [mk_param (ascii "bits=10") None; mk_param (ascii "x") None]]).
Proof. vm_compute. reflexivity. Qed.

(** [C37] The server sees exactly the protocols the client asked for. *)
Theorem server_sees_protocols : forall u cs rnd b,
  run_calls cs (builder_init u) = Ok b -> Forall (leaves_alone (ascii "Sec-WebSocket-Protocol")) cs ->
  Forall list_word (asked_protocols (rev cs)) ->
  @protocols unit (from_raw (request_fields rnd b)) = Ok (asked_protocols (rev cs)).
Proof. exact ThmInterop.server_sees_protocols_proof. Qed.
Print Assumptions server_sees_protocols.

Example server_sees_protocols_ex : exists b, run_calls some_calls (builder_init some_url) = Ok b /\
  @protocols unit (from_raw (request_fields (ascii "the sample nonce") b)) = Ok [ascii "chat"; ascii "superchat"].
Proof. eexists. split; [reflexivity|]. vm_compute. reflexivity. Qed.

(** [C38] And the extensions. *)
Theorem server_sees_extensions : forall u cs rnd b,
  run_calls cs (builder_init u) = Ok b -> Forall (leaves_alone (ascii "Sec-WebSocket-Extensions")) cs ->
  Forall simple_extension (asked_extensions (rev cs)) ->
  @extensions unit (from_raw (request_fields rnd b)) = Ok (map without_values (asked_extensions (rev cs))).
Proof. exact ThmInterop.server_sees_extensions_proof. Qed.
Print Assumptions server_sees_extensions.

Example server_sees_extensions_ex : exists b,
  run_calls [AddExtension (mk_ext (ascii "a") []); AddExtension (mk_ext (ascii "b") [mk_param (ascii "c") None])]
    (builder_init some_url) = Ok b /\
  @extensions unit (from_raw (request_fields (ascii "the sample nonce") b))
  = Ok [mk_ext (ascii "a") []; mk_ext (ascii "b") [mk_param (ascii "c") None]].
Proof. eexists. split; [reflexivity|]. vm_compute. reflexivity. Qed.

(** [C37] The client sees exactly the protocol the server chose with [use_protocol] (unless the
    server's custom headers have that field too). *)
Theorem client_sees_protocol : forall X u cs rnd b p h0 custom h rtext,
  configured X u cs rnd b -> list_word p ->
  @use_protocol unit p [] = Ok h0 -> all_unique custom ->
  match custom with Some c => unset (ascii "Sec-WebSocket-Protocol") c | None => True end ->
  response_text custom h0 (request_fields rnd b) h rtext ->
  @get_protocols unit (from_raw (read_back (fields h))) = Ok (Some [p]).
Proof. exact ThmInterop.client_sees_protocol_proof. Qed.
Print Assumptions client_sees_protocol.

Example client_sees_protocol_ex : exists b h0 h rtext,
  run_calls some_calls (builder_init some_url) = Ok b /\ @use_protocol unit (ascii "chat") [] = Ok h0 /\
  response_text None h0 (request_fields (ascii "the sample nonce") b) h rtext /\
  @get_protocols unit (from_raw (read_back (fields h))) = Ok (Some [ascii "chat"]).
Proof.
  eexists _, _, _, _. split; [reflexivity|]. split; [reflexivity|]. split; [split; vm_compute; reflexivity|].
  vm_compute. reflexivity.
Qed.
