(** The example servers answer what they should: C66, C67. *)
From Coq Require Import NArith ZArith String Bool List Lia.
From Coq.Strings Require Import Byte.
From Verif.Model Require Import Base Io Header Mask Dataframe Utf8 Text Base64 WsKey Headers
  Handshake Message Receiver Codec Framed Http Connect Examples.
From Verif.Spec Require Import RfcFrame FrameSpec Schedule Unicode Drive Session Connection Polled Fields Upgrade Builder HttpHead Wire Endpoint Echo.
From Verif.Proofs Require Import ExTac.
From Verif.Proofs Require ThmEcho.
Import ListNotations.
Local Open Scope string_scope.
Local Open Scope list_scope.
Local Open Scope N_scope.

(** ** The echo server *)

(** [C66] Whatever a client sends, and however its stream fails: if its handshake is refused,
    the echo server of the Autobahn tests writes nothing; otherwise it completes the handshake,
    receives messages up to the first Close or the first error, answers each of them - with
    exactly the bytes RFC 6455 says - and then writes one Close and nothing else.  It does not
    panic as long as its writes do not fail. *)
Theorem echo_server : forall X k s w, never_fails w ->
  (forall f, into_ws X s w = Err f -> autobahn_server X None k s w = (Dropped, w)) /\
  (forall u, into_ws X s w = Ok u ->
   exists c ms x w', accept u = Ok c /\
    fst (client_recv_n (S (length ms)) c) = map Ok ms ++ [x] /\
    Forall (fun m => ~ closing m) ms /\
    match x with Ok m => closing m | Err _ => True | _ => False end /\
    autobahn_server X None k s w = (Returned, w') /\
    octets (w_out w') = octets (w_out (c_out c)) ++ server_says (flat_map echo ms ++ [OClose None])).
Proof. exact ThmEcho.echo_server_proof. Qed.
Print Assumptions echo_server.

Definition a_request : bytes := str "GET / HTTP/1.1" ++ crlf ++ str "Upgrade: websocket" ++ crlf ++ str "Connection: upgrade" ++ crlf ++
  str "Sec-WebSocket-Key: dGhlIHNhbXBsZSBub25jZQ==" ++ crlf ++ crlf.
Definition no_key : mkey := mk_key x00 x00 x00 x00.
Definition zeros : bytes := [x00; x00; x00; x00].
Definition slow : wstream := mk_w [] [WAccept 3; WIntr].
(** A client sends a text, a ping, a fragment, a pong, and a Close with a status; what follows
    is not looked at. *)
Example echo_server_ex :
  let sent := [x81; x82] ++ zeros ++ str "hi" ++ [x89; x81] ++ zeros ++ str "p" ++ [x01; x81] ++ zeros ++ str "f" ++
    [x8a; x80] ++ zeros ++ [x88; x82] ++ zeros ++ [x03; xe8] ++ [xff; xff] in
  exists c u, into_ws httparse_lib (push_back (a_request ++ sent) []) slow = Ok u /\ accept u = Ok c /\ never_fails slow /\
    autobahn_server httparse_lib None no_key (push_back (a_request ++ sent) []) slow
    = (Returned, mk_w (w_out (c_out c) ++ [x81; x02] ++ str "hi" ++ [x8a; x01] ++ str "p" ++ [x88; x00]) []).
Proof.
  cbv zeta. eexists _, _. split; [vm_compute; reflexivity|]. split; [vm_compute; reflexivity|].
  split; [repeat constructor|]. vm_compute. reflexivity.
Qed.
(** A request that is refused. *)
Example echo_refused_ex :
  autobahn_server httparse_lib None no_key (push_back (str "GET / HTTP/1.1" ++ crlf ++ crlf) []) slow = (Dropped, slow).
Proof. vm_compute. reflexivity. Qed.

(** [C66] A client that, after the handshake, sends any legal sequence of frames within the
    limits, cut into reads in any way, gets the answer to every message, in order, then a Close:
    whether it closes the stream - even inside a message - ... *)
Theorem echo_until_end : forall X k s w u c fs ms p ws, never_fails w ->
  into_ws X s w = Ok u -> accept u = Ok c ->
  carries (push_back (c_buf c) (c_in c)) ws ->
  delivers [] fs ms p -> under 209715200 [] fs -> fits 104857600 fs -> on_wire true fs ws ->
  Forall (fun m => ~ closing m) ms ->
  exists w', autobahn_server X None k s w = (Returned, w') /\
    octets (w_out w') = octets (w_out (c_out c)) ++ server_says (flat_map echo ms ++ [OClose None]).
Proof. exact ThmEcho.echo_until_end_proof. Qed.
Print Assumptions echo_until_end.

Example echo_until_end_ex :
  let f := mk_df false no_rsv Text (str "f") in
  let fs := [f; whole_frame (OPing [])] in
  let ws := ([x01; x81] ++ zeros ++ str "f") ++ [x89; x80] ++ zeros in
  exists u c, into_ws httparse_lib (push_back a_request (push_back ws [])) slow = Ok u /\ accept u = Ok c /\
    carries (push_back (c_buf c) (c_in c)) ws /\
    delivers [] fs [OPing []] [f] /\ under 209715200 [] fs /\ fits 104857600 fs /\ on_wire true fs ws /\
    autobahn_server httparse_lib None no_key (push_back a_request (push_back ws [])) slow
    = (Returned, mk_w (w_out (c_out c) ++ [x8a; x00; x88; x00]) []).
Proof.
  cbv zeta. eexists _, _. split; [vm_compute; reflexivity|]. split; [vm_compute; reflexivity|]. split.
  { vm_compute. rewrite <- app_nil_r. apply (carries_data x01). constructor. }
  split; [|split; [|split; [|split]]].
  - apply del_fragment; [reflexivity|reflexivity|split; [discriminate|reflexivity]|].
    apply del_control; [exact I|exact I|]. constructor.
  - vm_compute. repeat split.
  - unfold fits. facts.
  - apply (wire_cons _ _ (Some no_key) ([x01; x81] ++ zeros ++ str "f")); [reflexivity|reflexivity|].
    rewrite <- app_nil_r. apply (wire_cons _ _ (Some no_key) ([x89; x80] ++ zeros) []); [reflexivity|reflexivity|]. constructor.
  - vm_compute. reflexivity.
Qed.

(** [C66] ... or sends a Close, after which nothing it sends matters. *)
Theorem echo_until_close : forall X k s w u c fs ms cl more p ws rest, never_fails w ->
  into_ws X s w = Ok u -> accept u = Ok c ->
  carries (push_back (c_buf c) (c_in c)) (ws ++ rest) ->
  delivers [] fs (ms ++ OClose cl :: more) p -> under 209715200 [] fs -> fits 104857600 fs -> on_wire true fs ws ->
  Forall (fun m => ~ closing m) ms ->
  exists w', autobahn_server X None k s w = (Returned, w') /\
    octets (w_out w') = octets (w_out (c_out c)) ++ server_says (flat_map echo ms ++ [OClose None]).
Proof. exact ThmEcho.echo_until_close_proof. Qed.
Print Assumptions echo_until_close.

(** After the Close comes what is no frame at all. *)
Example echo_until_close_ex :
  let fs := [whole_frame (OText (str "a")); whole_frame (OClose None)] in
  let ws := ([x81; x81] ++ zeros ++ str "a") ++ [x88; x80] ++ zeros in
  exists u c, into_ws httparse_lib (push_back a_request (push_back (ws ++ [xff]) [])) slow = Ok u /\ accept u = Ok c /\
    carries (push_back (c_buf c) (c_in c)) (ws ++ [xff]) /\
    delivers [] fs ([OText (str "a")] ++ OClose None :: []) [] /\ under 209715200 [] fs /\ fits 104857600 fs /\ on_wire true fs ws /\
    autobahn_server httparse_lib None no_key (push_back a_request (push_back (ws ++ [xff]) [])) slow
    = (Returned, mk_w (w_out (c_out c) ++ [x81; x01; x61; x88; x00]) []).
Proof.
  cbv zeta. eexists _, _. split; [vm_compute; reflexivity|]. split; [vm_compute; reflexivity|]. split.
  { vm_compute. rewrite <- app_nil_r. apply (carries_data x81). constructor. }
  split; [|split; [|split; [|split]]].
  - apply (del_message _ _ _ (OText (str "a"))); [facts|apply (frag_whole (OText (str "a"))); intros []|].
    apply del_control; [exact I|exact I|]. constructor.
  - vm_compute. repeat split.
  - unfold fits. facts.
  - apply (wire_cons _ _ (Some no_key) ([x81; x81] ++ zeros ++ str "a")); [reflexivity|reflexivity|].
    rewrite <- app_nil_r. apply (wire_cons _ _ (Some no_key) ([x88; x80] ++ zeros) []); [reflexivity|reflexivity|]. constructor.
  - vm_compute. reflexivity.
Qed.

(** [C66] A client of this library and the echo server: the client gets back what it sent -
    texts and binaries as they are, pings as pongs - in the order in which it sent it, then a
    Close, whatever its own kind, its keys, and what the transports do between the two. *)
Theorem echo_conversation : forall X d ce l wire k s w u c,
  client_end X d ce -> puts ce l wire -> Forall (fun p => ~ closing (fst p)) l ->
  Forall (fun p => sendable (capped d) (fst p) /\ sendable 104857600 (fst p)) l ->
  never_fails w -> into_ws X s w = Ok u -> accept u = Ok c ->
  carries (push_back (c_buf c) (c_in c)) wire ->
  exists w' back, autobahn_server X None k s w = (Returned, w') /\
    w_out w' = w_out (c_out c) ++ back /\
    gets ce back (flat_map echo (map fst l) ++ [OClose None]).
Proof. exact ThmEcho.echo_conversation_proof. Qed.
Print Assumptions echo_conversation.

(** A client, through its own handshake, sends a text and a ping; the server, given exactly the
    bytes this puts on the wire, sends the text, a pong and a Close, which the client gets. *)
Example echo_conversation_ex :
  let u := mk_url (ascii "ws") (Some (ascii "h")) None [] None (ascii "/") in
  let head := str "HTTP/1.1 101 Switching Protocols" ++ crlf ++ str "Connection: Upgrade" ++ crlf ++
    str "Upgrade: websocket" ++ crlf ++ str "Sec-WebSocket-Accept: s3pPLMBiTxaQ9kYGzzhZRbK+xOo=" ++ crlf ++ crlf in
  let back := [x81; x02] ++ str "hi" ++ [x8a; x00; x88; x00] in
  let wire := [x81; x82; x01; x02; x03; x04; x69; x6b] ++ [x89; x80; x00; x00; x00; x00] in
  exists cc b' w' sc up,
    connect_on httparse_lib (ascii "the sample nonce") (builder_init u) (push_back head (push_back back [])) (mk_w [] []) = (Ok cc, b', w') /\
    puts (Blocking cc) [(OText (str "hi"), mk_key x01 x02 x03 x04); (OPing [], no_key)] wire /\
    into_ws httparse_lib (push_back a_request (push_back wire [])) slow = Ok up /\ accept up = Ok sc /\
    autobahn_server httparse_lib None no_key (push_back a_request (push_back wire [])) slow
    = (Returned, mk_w (w_out (c_out sc) ++ back) []) /\
    fst (client_recv_n 3 cc) = [Ok (OText (str "hi")); Ok (OPong []); Ok (OClose None)].
Proof.
  cbv zeta. eexists _, _, _, _, _. split; [vm_compute; reflexivity|]. split.
  { eapply blocking_puts; [vm_compute; reflexivity| |vm_compute; reflexivity]. repeat constructor. }
  split; [vm_compute; reflexivity|]. split; [vm_compute; reflexivity|].
  split; [vm_compute; reflexivity|]. vm_compute. reflexivity.
Qed.

(** ** The example server *)

(** [C67] The example server: a refused handshake leaves nothing written; a client that does
    not offer the protocol "rust-websocket" gets a rejection and nothing else; any other client
    gets the acceptance, the message "Hello", and the answer to each message up to the first
    Close or the first error.  If it is a Close, the server answers with a Close; if it is an
    error, the thread of the connection panics without one. *)
Theorem example_answers : forall X k s w, sound_lib X -> never_fails w ->
  (forall f, into_ws X s w = Err f -> example_server X true None k s w = (Dropped, w)) /\
  (forall u, into_ws X s w = Ok u ->
   exists ps, @seen_protocols unit (up_request u) = Ok ps /\
   (~ In (ascii "rust-websocket") ps ->
    exists w', example_server X true None k s w = (Returned, w') /\
      w_out w' = w_out w ++ ascii "HTTP/1.1 400 Bad Request" ++ crlf ++ crlf) /\
   (In (ascii "rust-websocket") ps ->
    exists h c ms x w', @use_protocol unit (ascii "rust-websocket") [] = Ok h /\
      accept (mk_upgrade h (up_request u) (up_buffer u) (up_in u) (up_out u)) = Ok c /\
      fst (client_recv_n (S (length ms)) c) = map Ok ms ++ [x] /\
      Forall (fun m => ~ closing m) ms /\
      match x with
      | Ok m => closing m /\ example_server X true None k s w = (Returned, w') /\
          octets (w_out w') = octets (w_out (c_out c)) ++
            server_says (OText (ascii "Hello") :: flat_map echo_all ms ++ [OClose None])
      | Err e => example_server X true None k s w = (Panicked, w') /\
          octets (w_out w') = octets (w_out (c_out c)) ++
            server_says (OText (ascii "Hello") :: flat_map echo_all ms)
      | _ => False
      end)).
Proof. exact ThmEcho.example_answers_proof. Qed.
Print Assumptions example_answers.

Definition b_request : bytes := str "GET / HTTP/1.1" ++ crlf ++ str "Upgrade: websocket" ++ crlf ++ str "Connection: upgrade" ++ crlf ++
  str "Sec-WebSocket-Key: dGhlIHNhbXBsZSBub25jZQ==" ++ crlf ++ str "Sec-WebSocket-Protocol: chat, rust-websocket" ++ crlf ++ crlf.
(** A client that asks for the protocol, sends a ping, a pong and a Close; one that does not
    ask for it. *)
Example example_answers_ex :
  (exists u, into_ws httparse_lib (push_back a_request []) slow = Ok u /\
     @seen_protocols unit (up_request u) = Ok [] /\
     example_server httparse_lib true None no_key (push_back a_request []) slow
     = (Returned, mk_w (str "HTTP/1.1 400 Bad Request" ++ crlf ++ crlf) [])) /\
  let sent := [x89; x81] ++ zeros ++ str "p" ++ [x8a; x80] ++ zeros ++ [x88; x80] ++ zeros in
  exists u h c, into_ws httparse_lib (push_back (b_request ++ sent) []) slow = Ok u /\
     @seen_protocols unit (up_request u) = Ok [ascii "chat"; ascii "rust-websocket"] /\
     @use_protocol unit (ascii "rust-websocket") [] = Ok h /\
     accept (mk_upgrade h (up_request u) (up_buffer u) (up_in u) (up_out u)) = Ok c /\
     example_server httparse_lib true None no_key (push_back (b_request ++ sent) []) slow
     = (Returned, mk_w (w_out (c_out c) ++ [x81; x05] ++ str "Hello" ++ [x8a; x01] ++ str "p" ++ [x8a; x00; x88; x00]) []).
Proof.
  split.
  - eexists. split; [vm_compute; reflexivity|]. split; [vm_compute; reflexivity|]. vm_compute. reflexivity.
  - cbv zeta. eexists _, _, _. split; [vm_compute; reflexivity|]. split; [vm_compute; reflexivity|].
    split; [vm_compute; reflexivity|]. split; [vm_compute; reflexivity|]. vm_compute. reflexivity.
Qed.

(** [C67] So any client can make the thread that serves it panic: by leaving without a Close. *)
Theorem example_never_panics_refuted : exists request u,
  into_ws httparse_lib (push_back request []) (mk_w [] []) = Ok u /\ up_in u = [] /\
  fst (example_server httparse_lib true None (mk_key x00 x00 x00 x00) (push_back request []) (mk_w [] [])) = Panicked.
Proof. exact ThmEcho.example_never_panics_refuted_proof. Qed.
Print Assumptions example_never_panics_refuted.
