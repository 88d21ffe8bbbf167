(** Both servers and both clients alike, what a handshake costs, and what each side sees of
    the other: C57, C58, C61, C62, C63. *)
From Coq Require Import NArith ZArith String Bool List Lia.
From Coq.Strings Require Import Byte.
From Verif.Model Require Import Base Io Header Mask Dataframe Utf8 Text Base64 WsKey Headers
  Handshake Message Receiver Codec Framed Http Connect.
From Verif.Spec Require Import RfcFrame FrameSpec Fields Upgrade Builder HttpHead Connection Wire Sides.
From Verif.Proofs Require Import ExTac.
From Verif.Proofs Require ThmSame.
Import ListNotations.
Local Open Scope string_scope.
Local Open Scope list_scope.
Local Open Scope N_scope.

(** ** What a handshake costs *)

(** [C57] The blocking server reads at most 417792 bytes of a connection before it has an
    answer, whatever the peer sends, and holds no more. *)
Theorem request_bounded : forall X s r rest s', capped_room X ->
  parse_request X s = (r, rest, s') -> read_at_most 417792 s s' /\ llen rest <= 417792.
Proof. exact ThmSame.request_bounded_proof. Qed.
Print Assumptions request_bounded.

(** [C57] So does the blocking client with the response. *)
Theorem response_bounded : forall X s r rest s', capped_room X ->
  parse_response X s = (r, rest, s') -> read_at_most 417792 s s' /\ llen rest <= 417792.
Proof. exact ThmSame.response_bounded_proof. Qed.
Print Assumptions response_bounded.

Example bounded_ex : capped_room httparse_lib /\
  parse_request httparse_lib [RData x0d [x0a; "G"%byte]; RData "E"%byte []; REof; RData "T"%byte []]
  = (Err (PEIo UnexpectedEof), [x0d; x0a; "G"%byte; "E"%byte], [RData "T"%byte []]).
Proof. split; [intros n H; cbn [l_room httparse_lib]; unfold MAX_BUFFER_SIZE; Lia.lia|reflexivity]. Qed.

(** [C57] The asynchronous server keeps everything a peer sends until there is an empty line in
    it: whatever has come by the time the transport has nothing more, in any chunks, is
    buffered, and the handshake still waits. *)
Theorem async_hoards : forall X p w chunks s,
  ~ has_end (concat (map (fun c => fst c :: snd c) chunks)) ->
  incoming_run X [NewConnection p (map (fun c => AData (fst c) (snd c)) chunks ++ ANotReady :: s) w; PollFuture 0]
  = mk_incoming [mk_hs p (mk_framed tt (concat (map (fun c : byte * bytes => fst c :: snd c) chunks)) false false) s w] [].
Proof. exact ThmSame.async_hoards_proof. Qed.
Print Assumptions async_hoards.

Example async_hoards_ex :
  incoming_run httparse_lib [NewConnection 7 [AData "G"%byte (str "ET /"); AData " "%byte []; ANotReady] (mk_fw (mk_bm [] 0) [] [] []); PollFuture 0]
  = mk_incoming [mk_hs 7 (mk_framed tt (str "GET / ") false false) [] (mk_fw (mk_bm [] 0) [] [] [])] [].
Proof. reflexivity. Qed.

(** [C57] Refuted therefore for the asynchronous server: no bound holds. *)
Theorem async_bounded_refuted : forall X bound, exists p s w h,
  in_pending (incoming_run X [NewConnection p s w; PollFuture 0]) = [h] /\
  bound < llen (fr_buf (hs_framed h)).
Proof. exact ThmSame.async_bounded_refuted_proof. Qed.
Print Assumptions async_bounded_refuted.

(** ** Both servers alike *)

(** [C58] Given the same request the blocking and the asynchronous server do the same: both
    offer the upgrade, with the same request to look at, or both refuse, for the same reason
    and with the same request; however the bytes come to either. *)
Theorem servers_alike : forall X m t v fs head after s w sa sa' wa, sound_lib X -> sound_room X ->
  request_head X m t v fs head -> (length fs <= 100)%nat -> target_accepted X t ->
  llen head <= 417792 -> ends_first head ->
  first_come head after s -> aflows sa head sa' ->
  match into_ws X s w, async_into_ws X sa wa with
  | Ok u, Ok a => up_request u = au_request a
  | Err f, Err g => rf_error f = ar_error g /\ rf_request f = ar_request g
  | _, _ => False
  end.
Proof. exact ThmSame.servers_alike_proof. Qed.
Print Assumptions servers_alike.

Example servers_alike_ex :
  let head := str "GET /a HTTP/1.1" ++ crlf ++ str "Sec-WebSocket-Version: 8" ++ crlf ++ crlf in
  let q := mk_req Get (str "/a") Http11 (from_raw [(str "Sec-WebSocket-Version", str "8")]) in
  into_ws httparse_lib (push_back (head ++ str "x") []) (mk_w [] [])
    = Err (mk_refusal [] (mk_w [] []) (Some q) (Some (str "x")) UnsupportedWebsocketVersion) /\
  async_into_ws httparse_lib (apush_back (head ++ str "x") []) (mk_fw (mk_bm [] 0) [] [] [])
    = Err (mk_arefusal [] (mk_fw (mk_bm [] 0) [] [] []) (Some q) (str "x") UnsupportedWebsocketVersion).
Proof. split; vm_compute; reflexivity. Qed.

(** ** Both clients alike *)

(** [C58] Given the same response the blocking and the asynchronous client do the same: both
    connect, with the same headers to look at, or both fail with the same error. *)
Theorem clients_alike : forall X rnd b v code r fs head after s w sa sa' wa extra, sound_lib X -> sound_room X ->
  response_head X v code r fs head -> (length fs <= 100)%nat ->
  llen head <= 417792 -> ends_first head ->
  first_come head after s -> aflows sa head sa' -> never_fails w -> afails_never wa ->
  match fst (fst (connect_on X rnd b s w)), async_connect_on X rnd b extra sa wa with
  | Ok c, Ok (_, h) => c_headers c = h
  | Err e, Err e' => e = e'
  | Panic, Panic => True
  | _, _ => False
  end.
Proof. exact ThmSame.clients_alike_proof. Qed.
Print Assumptions clients_alike.

(** A redirection, met by both kinds of client. *)
Example clients_alike_ex :
  let b := builder_init (mk_url (ascii "ws") (Some (ascii "h")) None [] None (ascii "/")) in
  let head := str "HTTP/1.1 302 Found" ++ crlf ++ str "Location: ws://b/" ++ crlf ++ crlf in
  fst (fst (connect_on httparse_lib (ascii "the sample nonce") b (push_back head []) (mk_w [] [WAccept 9]))) = Err (RedirectError 302 (ascii "ws://b/")) /\
  async_connect_on httparse_lib (ascii "the sample nonce") b 0 (apush_back head [ANotReady]) (mk_fw (mk_bm [] 0) [] [AwNotReady] [])
    = Err (RedirectError 302 (ascii "ws://b/")).
Proof. split; vm_compute; reflexivity. Qed.

(** ** Connecting never panics *)

(** [C61] Writing a request panics exactly when a raw header line the caller set is not UTF-8. *)
Theorem print_request_panics_iff : forall rnd b,
  @print_request unit (build_request rnd b) = Panic <-> Exists bad_line (b_headers (build_request rnd b)).
Proof. exact ThmSame.print_request_panics_iff_proof. Qed.
Print Assumptions print_request_panics_iff.

Example print_request_panics_ex :
  let b := builder_init (mk_url (ascii "ws") (Some (ascii "h")) None [] None (ascii "/")) in
  exists b1, run_calls [CustomHeaders [(ascii "X", Raw [[xff]])]] b = Ok b1 /\
    Exists bad_line (b_headers (build_request [] b1)) /\ @print_request unit (build_request [] b1) = Panic.
Proof.
  eexists. split; [reflexivity|]. assert (E : @print_request unit (build_request [] (snd (tt,
    match run_calls [CustomHeaders [(ascii "X", Raw [[xff]])]] (builder_init (mk_url (ascii "ws") (Some (ascii "h")) None [] None (ascii "/"))) with
    | Ok b1 => b1 | _ => builder_init (mk_url [] None None [] None []) end))) = Panic) by reflexivity.
  split; [apply ThmSame.print_request_panics_iff_proof|]; exact E.
Qed.

(** [C61] The blocking client's [connect] on a stream ends with a connection or an error,
    whatever the peer sends and the stream does. *)
Theorem connect_total : forall X rnd b s w, sound_lib X ->
  ~ Exists bad_line (b_headers b) -> key_known (b_headers b) ->
  (exists c, fst (fst (connect_on X rnd b s w)) = Ok c) \/
  (exists e, fst (fst (connect_on X rnd b s w)) = Err e).
Proof. exact ThmSame.connect_total_proof. Qed.
Print Assumptions connect_total.

(** [C61] So does the asynchronous client's. *)
Theorem async_connect_total : forall X rnd b extra s w, sound_lib X ->
  ~ Exists bad_line (b_headers b) -> key_known (b_headers b) ->
  (exists c, async_connect_on X rnd b extra s w = Ok c) \/
  (exists e, async_connect_on X rnd b extra s w = Err e).
Proof. exact ThmSame.async_connect_total_proof. Qed.
Print Assumptions async_connect_total.

Example connect_total_ex :
  let b := custom_headers [(str "X-Note", Raw [str "hello"])] (builder_init (mk_url (str "ws") (Some (str "h")) None [] None (str "/"))) in
  ~ Exists bad_line (b_headers b) /\ key_known (b_headers b) /\
  fst (fst (connect_on httparse_lib (str "the sample nonce") b [RErr WouldBlock] (mk_w [] []))) = Err (CParsing (PEIo WouldBlock)).
Proof.
  cbv zeta. split; [|split; [|vm_compute; reflexivity]].
  - intros H. inversion H as [? ? HB|? ? H1]; subst; [|inversion H1]. destruct HB as (ls & E & HN).
    injection E as <-. apply HN. constructor; [|constructor]. apply TextFacts.utf8_text_iff. reflexivity.
  - intros v H. inversion H as [|? ? ? E H1]; subst. inversion H1.
Qed.

(** [C61] Refuted for a raw header line that is not UTF-8: connecting panics. *)
Theorem connect_panic_refuted : forall X u rnd extra s w sa wa, exists c b,
  run_calls [CustomHeaders c] (builder_init u) = Ok b /\
  fst (fst (connect_on X rnd b s w)) = Panic /\ async_connect_on X rnd b extra sa wa = Panic.
Proof. exact ThmSame.connect_panic_refuted_proof. Qed.
Print Assumptions connect_panic_refuted.

(** ** What the client looks at *)

(** [C62] Of a response the client looks at the status and at three fields; version, reason
    and every other field make no difference. *)
Theorem client_looks : forall b v1 v2 r1 r2 st fs gs,
  agree_on [ascii "Sec-WebSocket-Accept"; ascii "Upgrade"; ascii "Location"] fs gs ->
  client_validate b (mk_resp v1 st r1 (from_raw fs)) = client_validate b (mk_resp v2 st r2 (from_raw gs)).
Proof. exact ThmSame.client_looks_proof. Qed.
Print Assumptions client_looks.

Example client_looks_ex :
  agree_on [ascii "Sec-WebSocket-Accept"; ascii "Upgrade"; ascii "Location"]
    [(ascii "Upgrade", ascii "websocket"); (ascii "Sec-WebSocket-Protocol", ascii "chat")]
    [(ascii "Connection", ascii "close"); (ascii "upgrade", ascii "websocket")].
Proof. repeat constructor. Qed.

(** [C62] Refuted therefore of RFC 6455 4.1 (points 5 and 6, the server may choose only among
    what was asked for): a client that asked for no protocol and no extension connects to a
    server that chose one, blocking or not. *)
Theorem unasked_refuted : forall u extra, exists fs head s sa b,
  run_calls [] (builder_init u) = Ok b /\ response_head httparse_lib Http11 101 (ascii "Switching Protocols") fs head /\
  values (ascii "Sec-WebSocket-Protocol") fs = [ascii "chat"] /\
  values (ascii "Sec-WebSocket-Extensions") fs = [ascii "permessage-deflate"] /\
  first_come head [] s /\ aflows sa head [] /\
  (exists c, fst (fst (connect_on httparse_lib (ascii "the sample nonce") b s (mk_w [] []))) = Ok c /\
     @protocols unit (c_headers c) = Ok [ascii "chat"]) /\
  exists a h, async_connect_on httparse_lib (ascii "the sample nonce") b extra sa (mk_fw (mk_bm [] 0) [] [] []) = Ok (a, h).
Proof. exact ThmSame.unasked_refuted_proof. Qed.
Print Assumptions unasked_refuted.

(** ** What the server sees of the client *)

(** [C63] The server's [key()] is the client's key. *)
Theorem server_sees_key : forall X u cs rnd b v, configured X u cs rnd b ->
  @seen_key unit (mk_req Get (u_resource u) v (from_raw (request_fields rnd b)))
  = Ok (Some (or_else (asked_key (rev cs)) rnd)).
Proof. exact ThmSame.server_sees_key_proof. Qed.
Print Assumptions server_sees_key.

(** [C63] Its [version()] is the version the client asked for, or 13. *)
Theorem server_sees_version : forall m t u cs rnd b v,
  Forall (leaves_alone (ascii "Sec-WebSocket-Version")) cs -> run_calls cs (builder_init u) = Ok b ->
  (forall s, asked_version (rev cs) = Some (UnknownVersion s) -> visible_text s /\ s <> ascii "13") ->
  @seen_version unit (mk_req m t v (from_raw (request_fields rnd b)))
  = Ok (Some (or_else (asked_version (rev cs)) WebSocket13)).
Proof. exact ThmSame.server_sees_version_proof. Qed.
Print Assumptions server_sees_version.

(** [C63] Its [origin()] is the origin the client asked for. *)
Theorem server_sees_origin : forall m t u cs rnd b v,
  Forall (leaves_alone (ascii "Origin")) cs -> run_calls cs (builder_init u) = Ok b ->
  (forall o, asked_origin (rev cs) = Some o -> visible_text o) ->
  @seen_origin unit (mk_req m t v (from_raw (request_fields rnd b))) = Ok (asked_origin (rev cs)).
Proof. exact ThmSame.server_sees_origin_proof. Qed.
Print Assumptions server_sees_origin.

(** [C63] Together, and over the wire: the upgrade a blocking or asynchronous server offers for
    the request of such a client names the client's path, key, version, origin and protocols. *)
Theorem server_sees_client : forall X u cs rnd b text s w after sa sa' wa,
  speaks X -> sound_room X -> configured X u cs rnd b -> request_text rnd b text -> llen text <= 417792 ->
  first_come text after s -> aflows sa text sa' ->
  Forall (leaves_alone (ascii "Origin")) cs -> (forall o, asked_origin (rev cs) = Some o -> visible_text o) ->
  Forall (leaves_alone (ascii "Sec-WebSocket-Protocol")) cs -> Forall list_word (asked_protocols (rev cs)) ->
  exists up au, into_ws X s w = Ok up /\ async_into_ws X sa wa = Ok au /\
    Forall (fun q => seen_uri q = u_resource u /\
      @seen_key unit q = Ok (Some (or_else (asked_key (rev cs)) rnd)) /\
      @seen_version unit q = Ok (Some WebSocket13) /\
      @seen_origin unit q = Ok (asked_origin (rev cs)) /\
      @seen_protocols unit q = Ok (asked_protocols (rev cs))) [up_request up; au_request au].
Proof. exact ThmSame.server_sees_client_proof. Qed.
Print Assumptions server_sees_client.

Example server_sees_client_ex :
  let u := mk_url (ascii "ws") (Some (ascii "example.org")) (Some 8080) [] None (ascii "/chat?a=b") in
  exists b text up, run_calls [AddProtocol (ascii "chat"); SetOrigin (ascii "http://a.b")] (builder_init u) = Ok b /\
  request_text (ascii "the sample nonce") b text /\
  into_ws httparse_lib (push_back text []) (mk_w [] []) = Ok up /\
  seen_uri (up_request up) = ascii "/chat?a=b" /\ @seen_origin unit (up_request up) = Ok (Some (ascii "http://a.b")) /\
  @seen_key unit (up_request up) = Ok (Some (ascii "the sample nonce")).
Proof.
  cbv zeta. do 3 eexists. split; [reflexivity|]. split; [vm_compute; reflexivity|]. split; [vm_compute; reflexivity|].
  split; [reflexivity|]. split; vm_compute; reflexivity.
Qed.
