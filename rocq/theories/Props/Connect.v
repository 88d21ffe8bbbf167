(** Connections: C39, C43, C44, C47, and C10 for the handshakes. *)
From Coq Require Import NArith ZArith String Bool List Lia Permutation.
From Coq.Strings Require Import Byte.
From Verif.Model Require Import Base Io Header Mask Dataframe Utf8 Text Base64 WsKey Headers
  Handshake Message Receiver Codec Framed Http Connect.
From Verif.Spec Require Import Fields Upgrade Builder HttpHead Connection.
From Verif.Proofs Require Import ExTac.
From Verif.Proofs Require ThmConnect.
Import ListNotations.
Local Open Scope string_scope.
Local Open Scope list_scope.
Local Open Scope N_scope.

(** ** Receiving from a connection *)

(** [C43] A connection the blocking server accepted: the client's stream was a request head
    that meets the server's conditions, and then [after]; and the connection receives exactly
    what the limits it was accepted with let a receiver of masked frames receive from any
    stream that shows [after].  Nothing that came together with the head is lost. *)
Theorem server_connection : forall X s w u custom max_df max_msg c, sound_lib X ->
  into_ws X s w = Ok u -> internal_accept custom max_df max_msg u = Ok c ->
  exists head m t v fs after,
    first_come head after s /\ request_head X m t v fs head /\
    Forall (fun x => fst x) (request_conditions (method_named m) v fs) /\
    up_request u = mk_req (method_named m) t v (from_raw fs) /\
    unread c = after /\
    forall n s', spread s' = after ->
      fst (client_recv_n n c) = fst (fst (recv_n n (receiver_with_limits true max_df max_msg) s')).
Proof. exact ThmConnect.server_connection_proof. Qed.
Print Assumptions server_connection.

Example server_connection_ex :
  let head := str "GET / HTTP/1.1" ++ crlf ++ str "Upgrade: websocket" ++ crlf ++ str "Connection: upgrade" ++ crlf ++
    str "Sec-WebSocket-Key: dGhlIHNhbXBsZSBub25jZQ==" ++ crlf ++ crlf in
  let ping := [x89; x80; x00; x00; x00; x00] in
  exists u c, into_ws httparse_lib (push_back (head ++ take 3 ping) (push_back (drop 3 ping) [])) (mk_w [] []) = Ok u /\
    internal_accept None 100 100 u = Ok c /\
    c_buf c = [x89; x80; x00] /\ fst (client_recv_n 1 c) = [Ok (OPing [])] /\
    take 12 (w_out (c_out c)) = str "HTTP/1.1 101".
Proof.
  do 2 eexists. split; [vm_compute; reflexivity|]. split; [vm_compute; reflexivity|].
  split; [vm_compute; reflexivity|]. split; vm_compute; reflexivity.
Qed.

(** [C43] The blocking client, likewise. *)
Theorem client_connection : forall X rnd b s w c b' w', sound_lib X ->
  connect_on X rnd b s w = (Ok c, b', w') ->
  exists head v r fs after,
    first_come head after s /\ response_head X v 101 r fs head /\
    c_headers c = from_raw fs /\ unread c = after /\
    forall n s', spread s' = after ->
      fst (client_recv_n n c) = fst (fst (recv_n n (receiver_with_limits false (b_max_df b) (b_max_df b)) s')).
Proof. exact ThmConnect.client_connection_proof. Qed.
Print Assumptions client_connection.

(** A server that sends a ping along with its response. *)
Example client_connection_ex :
  let u := mk_url (ascii "ws") (Some (ascii "h")) None [] None (ascii "/") in
  let head := str "HTTP/1.1 101 Switching Protocols" ++ crlf ++ str "Connection: Upgrade" ++ crlf ++
    str "Upgrade: websocket" ++ crlf ++ str "Sec-WebSocket-Accept: s3pPLMBiTxaQ9kYGzzhZRbK+xOo=" ++ crlf ++ crlf in
  exists c b' w', connect_on httparse_lib (ascii "the sample nonce") (builder_init u)
      (push_back (head ++ [x89]) [RData x01 [x07]]) (mk_w [] []) = (Ok c, b', w') /\
    unread c = [inl x89; inl x01; inl x07] /\ fst (client_recv_n 1 c) = [Ok (OPing [x07])].
Proof.
  do 3 eexists. split; [vm_compute; reflexivity|]. split; vm_compute; reflexivity.
Qed.

(** [C43] And the other way: a request head that meets the conditions, cut into reads in any
    way, within hyper's buffer, is accepted. *)
Theorem server_accepts : forall X m t v fs head after s w, sound_lib X -> sound_room X ->
  request_head X m t v fs head -> (length fs <= 100)%nat -> target_accepted X t ->
  llen head <= 417792 -> first_come head after s ->
  Forall (fun x => fst x) (request_conditions (method_named m) v fs) ->
  exists u, into_ws X s w = Ok u /\
    up_request u = mk_req (method_named m) t v (from_raw fs) /\ up_headers u = [] /\ up_out u = w.
Proof. exact ThmConnect.server_accepts_proof. Qed.
Print Assumptions server_accepts.

(** Nothing more is asked for: lower case names, several words in Connection, HTTP/1.1. *)
Example server_accepts_ex :
  let head := str "GET /chat HTTP/1.1" ++ crlf ++ str "upgrade: WebSocket" ++ crlf ++
    str "connection: keep-alive, Upgrade" ++ crlf ++ str "sec-websocket-key: dGhlIHNhbXBsZSBub25jZQ==" ++ crlf ++ crlf in
  let s := push_back (take 20 head) (push_back (drop 20 head) []) in
  first_come head [] s /\
  exists u, into_ws httparse_lib s (mk_w [] []) = Ok u /\ rq_uri (up_request u) = str "/chat".
Proof. cbv zeta. split; [vm_compute; reflexivity|]. eexists. split; vm_compute; reflexivity. Qed.

(** [C43] A request that is refused comes back whole: the error carries the request and the
    conditions it fails, and what was not read of the stream. *)
Theorem server_refuses : forall X m t v fs head after s w e, sound_lib X -> sound_room X ->
  request_head X m t v fs head -> (length fs <= 100)%nat -> target_accepted X t ->
  llen head <= 417792 -> first_come head after s ->
  first_failing (request_conditions (method_named m) v fs) e ->
  exists rest s2, into_ws X s w =
      Err (mk_refusal s2 w (Some (mk_req (method_named m) t v (from_raw fs))) (Some rest) e) /\
    spread (push_back rest s2) = after.
Proof. exact ThmConnect.server_refuses_proof. Qed.
Print Assumptions server_refuses.

(** A GET that asks for nothing, with a body behind it. *)
Example server_refuses_ex :
  let fs := [(str "Host", str "h")] in
  let head := str "GET / HTTP/1.1" ++ crlf ++ str "Host: h" ++ crlf ++ crlf in
  first_failing (request_conditions Get Http11 fs) NoSecWsKeyHeader /\
  into_ws httparse_lib (push_back (head ++ str "bo") [RData "d"%byte (str "y")]) (mk_w [] [])
  = Err (mk_refusal [RData "d"%byte (str "y")] (mk_w [] []) (Some (mk_req Get (str "/") Http11 (from_raw fs)))
      (Some (str "bo")) NoSecWsKeyHeader).
Proof.
  cbv zeta. split; [|vm_compute; reflexivity]. unfold request_conditions.
  apply ff_next; [reflexivity|]. apply ff_next; [split; discriminate|]. apply ff_next; [intros v H; discriminate H|].
  apply ff_here. intros [k [_ [t [_ [v [H _]]]]]]. discriminate H.
Qed.

(** [C10] The blocking server's handshake ends with an upgrade or an error, whatever the
    stream. *)
Theorem into_ws_total : forall X s w, sound_lib X ->
  (exists u, into_ws X s w = Ok u) \/ (exists f, into_ws X s w = Err f).
Proof. exact ThmConnect.into_ws_total_proof. Qed.
Print Assumptions into_ws_total.

Example into_ws_total_ex :
  exists f, into_ws httparse_lib [RData x00 [x01]; RErr WouldBlock] (mk_w [] []) = Err f.
Proof. eexists. vm_compute. reflexivity. Qed.

(** ** Splitting *)

(** [C44] Whatever a program does with a connection, it gets the same answers when it has
    split it and receives with one half and sends with the other; the same bytes are written, and
    the same are left to read. *)
Theorem split_same : forall us c r w, split None c = Ok (r, w) ->
  let '(l, (r', w')) := pair_run us (r, w) in let '(l', c') := client_run us c in
  l = l' /\ wr_out w' = c_out c' /\ map inl (rd_buf r') ++ spread (rd_in r') = unread c'.
Proof. exact ThmConnect.split_same_proof. Qed.
Print Assumptions split_same.

Example split_same_ex :
  let c := unchecked [x89; x00] [RData x8a [x00]] (mk_w [] []) [] true false in
  exists r w, split None c = Ok (r, w) /\
  let '(l, (r', w')) := pair_run [SendMessage (OPing []) (mk_key x01 x02 x03 x04); RecvMessage; RecvFrame] (r, w) in
  l = [Sent (Ok tt); Message (Ok (OPing [])); Frame (Ok (mk_df true (false, false, false) Pong []))] /\
  w_out (wr_out w') = [x89; x80; x01; x02; x03; x04] /\ rd_in r' = [].
Proof. do 2 eexists. split; [reflexivity|]. vm_compute. auto. Qed.

(** [C44] And the halves do not disturb each other: what the reader gets depends only on what
    the reader does, and what the writer gets and has written only on what the writer does,
    however the two are interleaved. *)
Theorem split_independent : forall us r w,
  filter received (fst (pair_run us (r, w))) = fst (reader_run us r) /\
  filter sent (fst (pair_run us (r, w))) = fst (writer_run us w) /\
  snd (pair_run us (r, w)) = (snd (reader_run us r), snd (writer_run us w)).
Proof. exact ThmConnect.split_independent_proof. Qed.
Print Assumptions split_independent.

(** A reader that fails does not stop the writer, nor the other way round. *)
Example split_independent_ex :
  let r := mk_reader (receiver_new false) [] [RErr WouldBlock; RData x89 [x00]] in
  let w := mk_writer (mk_sender false) (mk_w [] [WErr ConnectionReset]) in
  let p := mk_key x00 x00 x00 x00 in
  fst (pair_run [RecvMessage; SendMessage (OPing []) p; SendMessage (OPong []) p; RecvMessage] (r, w))
  = [Message (Err (IoError WouldBlock)); Sent (Err (IoError ConnectionReset)); Sent (Ok tt); Message (Ok (OPing []))].
Proof. vm_compute. reflexivity. Qed.

(** [C44] Two interleavings of the same receives and the same sends give the same. *)
Theorem interleaving : forall us us' c,
  filter receives us = filter receives us' -> filter sends us = filter sends us' ->
  filter received (fst (client_run us c)) = filter received (fst (client_run us' c)) /\
  filter sent (fst (client_run us c)) = filter sent (fst (client_run us' c)) /\
  into_stream (snd (client_run us c)) = into_stream (snd (client_run us' c)).
Proof. exact ThmConnect.interleaving_proof. Qed.
Print Assumptions interleaving.

Example interleaving_ex :
  let k := mk_key x01 x02 x03 x04 in
  let us := [RecvMessage; SendMessage (OPing []) k; RecvFrame; SendMessage (OClose None) k] in
  let us' := [SendMessage (OPing []) k; SendMessage (OClose None) k; RecvMessage; RecvFrame] in
  filter receives us = filter receives us' /\ filter sends us = filter sends us' /\ us <> us'.
Proof. cbv zeta. split; [reflexivity|]. split; [reflexivity|discriminate]. Qed.

(** ** Asynchronous connections *)

(** [C43] The asynchronous server: a request head that meets the conditions is accepted,
    however it is cut into chunks; and the accepted connection polls exactly as a new one, of
    a server with the limits given, on the stream after the head. *)
Theorem async_server_connection : forall X m t v fs head s s' w, sound_lib X ->
  request_head X m t v fs head -> (length fs <= 100)%nat -> target_accepted X t ->
  ends_first head -> aflows s head s' ->
  Forall (fun x => fst x) (request_conditions (method_named m) v fs) ->
  exists u, async_into_ws X s w = Ok u /\
    au_request u = mk_req (method_named m) t v (from_raw fs) /\ au_headers u = [] /\ au_out u = w /\
    forall custom max_df max_msg extra a h,
      async_accept custom max_df max_msg extra u = Ok (a, h) ->
      forall n, poll_n mc_decode n (ac_in a) (ac_read a)
        = poll_n mc_decode n s' (framed_new (msg_codec_with_limits CtxServer max_df max_msg) []).
Proof. exact ThmConnect.async_server_connection_proof. Qed.
Print Assumptions async_server_connection.

Example async_server_connection_ex :
  let head := str "GET / HTTP/1.1" ++ crlf ++ str "Upgrade: websocket" ++ crlf ++ str "Connection: upgrade" ++ crlf ++
    str "Sec-WebSocket-Key: dGhlIHNhbXBsZSBub25jZQ==" ++ crlf ++ crlf in
  exists u a h, async_into_ws httparse_lib (apush_back (head ++ [x89; x80; x00]) [ANotReady; AData x00 [x00; x00]])
      (mk_fw (mk_bm [] 0) [] [] []) = Ok u /\
    au_buffer u = [x89; x80; x00] /\
    async_accept None 100 100 0 u = Ok (a, h) /\
    poll_n mc_decode 2 (ac_in a) (ac_read a) = [PNotReady; PItem (OPing [])].
Proof.
  do 3 eexists. split; [vm_compute; reflexivity|]. split; [vm_compute; reflexivity|].
  split; vm_compute; reflexivity.
Qed.

(** [C43] The asynchronous client, likewise; and it takes the limits it was built with. *)
Theorem async_client_connection : forall X rnd b extra s w a h v code r fs head s', sound_lib X ->
  async_connect_on X rnd b extra s w = Ok (a, h) ->
  response_head X v code r fs head -> (length fs <= 100)%nat -> ends_first head -> aflows s head s' ->
  code = 101 /\ h = from_raw fs /\
  forall n, poll_n mc_decode n (ac_in a) (ac_read a)
    = poll_n mc_decode n s' (framed_new (msg_codec_with_limits CtxClient (b_max_df b) (b_max_msg b)) []).
Proof. exact ThmConnect.async_client_connection_proof. Qed.
Print Assumptions async_client_connection.

Example async_client_connection_ex :
  let u := mk_url (ascii "ws") (Some (ascii "h")) None [] None (ascii "/") in
  let head := str "HTTP/1.1 101 Switching Protocols" ++ crlf ++ str "Connection: Upgrade" ++ crlf ++
    str "Upgrade: websocket" ++ crlf ++ str "Sec-WebSocket-Accept: s3pPLMBiTxaQ9kYGzzhZRbK+xOo=" ++ crlf ++ crlf in
  exists a h, async_connect_on httparse_lib (ascii "the sample nonce") (builder_init u) 0
      (apush_back (head ++ [x89]) [ANotReady; AData x01 [x07]]) (mk_fw (mk_bm [] 0) [] [] []) = Ok (a, h) /\
    poll_n mc_decode 3 (ac_in a) (ac_read a) = [PNotReady; PItem (OPing [x07]); PEnd].
Proof. do 2 eexists. split; vm_compute; reflexivity. Qed.

(** ** Sending a head *)

(** [C34] A head handed to the asynchronous transport: it ends with the head written, whole and
    behind what was buffered before, or with an error; and with a transport that never fails it
    is written. *)
Theorem head_sent : forall data extra w,
  (exists w', http_send data extra w = (SReady, w') /\
     fw_out w' = fw_out w ++ bm_data (fw_buf w) ++ data /\ bm_data (fw_buf w') = []) \/
  (exists e w', http_send data extra w = (SErr e, w') /\ ~ afails_never w).
Proof. exact ThmConnect.head_sent_proof. Qed.
Print Assumptions head_sent.

Example head_sent_ex :
  http_send (str "abc") 0 (mk_fw (mk_bm [] 0) [] [AwAccept 0; AwNotReady] [AfNotReady])
  = (SReady, mk_fw (mk_bm [] 0) (str "abc") [] []).
Proof. reflexivity. Qed.

(** ** The asynchronous server *)

(** [C47] Whatever connections come and however their handshakes are scheduled: the outcomes
    the server has yielded, together with one for every handshake still running, are those the
    connections would have each on its own, no connection missing or twice; and the listener's
    errors are yielded, in order. *)
Theorem one_outcome_each : forall X es,
  let st := incoming_run X es in
  exists open, length open = length (in_pending st) /\
    Permutation (map (alone X) (arrived es)) (outcomes (in_yielded st) ++ open) /\
    failures (in_yielded st) = listener_errors es.
Proof. exact ThmConnect.one_outcome_each_proof. Qed.
Print Assumptions one_outcome_each.

(** Two connections, of which one is never polled; an error of the listener in between. *)
Example one_outcome_each_ex :
  let w := mk_fw (mk_bm [] 0) [] [] [] in
  let es := [NewConnection 1 [] w; ListenerError WouldBlock; NewConnection 2 [] w; PollFuture 1; PollFuture 1] in
  let st := incoming_run httparse_lib es in
  map hs_peer (in_pending st) = [1] /\ length (in_yielded st) = 2%nat /\ listener_errors es = [WouldBlock] /\
  map fst (map (alone httparse_lib) (arrived es)) = [1; 2].
Proof. vm_compute. auto. Qed.

(** [C47] No handshake waits for another: in any state, polling one of them often enough makes
    its outcome come next, and leaves all others where they were. *)
Theorem handshake_completes : forall X es before h after,
  in_pending (incoming_run X es) = before ++ h :: after ->
  exists k o, (k <= S (length (hs_in h)))%nat /\
    let st := incoming_run X (es ++ repeat (PollFuture (length before)) k) in
    in_pending st = before ++ after /\
    in_yielded st = in_yielded (incoming_run X es) ++ [inl o] /\ In o (map (alone X) (arrived es)).
Proof. exact ThmConnect.handshake_completes_proof. Qed.
Print Assumptions handshake_completes.

(** The second of two handshakes gets its outcome, though the first waits for ever. *)
Example handshake_completes_ex :
  let w := mk_fw (mk_bm [] 0) [] [] [] in
  let es := [NewConnection 1 (repeat ANotReady 50) w; NewConnection 2 [ANotReady; AData "G"%byte []; ANotReady] w] in
  let st := incoming_run httparse_lib (es ++ repeat (PollFuture 1) 3) in
  map hs_peer (in_pending (incoming_run httparse_lib es)) = [1; 2] /\
  map hs_peer (in_pending st) = [1] /\ exists o, in_yielded st = [inl (2, o)].
Proof. split; [vm_compute; reflexivity|]. split; [vm_compute; reflexivity|]. eexists. vm_compute. reflexivity. Qed.

(** [C47] So from any state all handshakes can be brought to their end. *)
Theorem all_complete : forall X es, exists polls, only_polls polls /\
  let st := incoming_run X (es ++ polls) in
  in_pending st = [] /\ Permutation (map (alone X) (arrived es)) (outcomes (in_yielded st)).
Proof. exact ThmConnect.all_complete_proof. Qed.
Print Assumptions all_complete.

Example incoming_ex :
  let r := str "GET / HTTP/1.1" ++ head_end in
  let stalled := NewConnection 1 [ANotReady; ANotReady; AData "G"%byte (str "ET / HT")] (mk_fw (mk_bm [] 0) [] [] []) in
  let fine := NewConnection 2 [AData "G"%byte (str "ET / HTTP/1.1" ++ head_end)] (mk_fw (mk_bm [] 0) [] [] []) in
  let st := incoming_run httparse_lib [stalled; fine; PollFuture 0; ListenerError ConnectionReset; PollFuture 1] in
  map hs_peer (in_pending st) = [1] /\
  in_yielded st = [inr ConnectionReset; inl (2, Err (mk_arefusal [] (mk_fw (mk_bm [] 0) [] [] [])
    (Some (mk_req Get (str "/") Http11 [])) [] NoSecWsKeyHeader))].
Proof. vm_compute. auto. Qed.

(** [C10] The asynchronous server's handshake ends with an upgrade or an error carrying the
    stream, whatever the transport does. *)
Theorem async_into_ws_total : forall X s w, sound_lib X ->
  (exists u, async_into_ws X s w = Ok u) \/ (exists f, async_into_ws X s w = Err f).
Proof. exact ThmConnect.async_into_ws_total_proof. Qed.
Print Assumptions async_into_ws_total.

Example async_into_ws_total_ex :
  exists f, async_into_ws httparse_lib [AData x00 [x01]; AErr WouldBlock] (mk_fw (mk_bm [] 0) [] [] []) = Err f.
Proof. eexists. vm_compute. reflexivity. Qed.

(** ** Limits *)

(** [C39] The builder keeps the limits last given to it, else 100 MiB and 200 MiB. *)
Theorem builder_limits : forall u cs b, run_calls cs (builder_init u) = Ok b ->
  (b_max_df b, b_max_msg b) = asked_limits (rev cs) 104857600 209715200.
Proof. exact ThmConnect.builder_limits_proof. Qed.
Print Assumptions builder_limits.

Example builder_limits_ex : forall u, exists b,
  run_calls [MaxMessageSize 7; MaxDataframeSize 5; AddProtocol (ascii "x"); MaxMessageSize 9] (builder_init u) = Ok b /\
  (b_max_df b, b_max_msg b) = (5, 9).
Proof. intros u. eexists. split; reflexivity. Qed.

(** [C39] A connection of the asynchronous client polls as a new one with the limits asked
    for. *)
Theorem async_client_limits : forall X u cs b rnd extra s w a h v code r fs head s', sound_lib X ->
  run_calls cs (builder_init u) = Ok b ->
  async_connect_on X rnd b extra s w = Ok (a, h) ->
  response_head X v code r fs head -> (length fs <= 100)%nat -> ends_first head -> aflows s head s' ->
  forall n, poll_n mc_decode n (ac_in a) (ac_read a)
    = let '(max_df, max_msg) := asked_limits (rev cs) 104857600 209715200 in
      poll_n mc_decode n s' (framed_new (msg_codec_with_limits CtxClient max_df max_msg) []).
Proof. exact ThmConnect.async_client_limits_proof. Qed.
Print Assumptions async_client_limits.

(** A frame limit of five: a frame of six is refused. *)
Example async_client_limits_ex :
  let u := mk_url (ascii "ws") (Some (ascii "h")) None [] None (ascii "/") in
  let head := str "HTTP/1.1 101 Switching Protocols" ++ crlf ++ str "Connection: Upgrade" ++ crlf ++
    str "Upgrade: websocket" ++ crlf ++ str "Sec-WebSocket-Accept: s3pPLMBiTxaQ9kYGzzhZRbK+xOo=" ++ crlf ++ crlf in
  exists b a h, run_calls [Key (ascii "the sample nonce"); MaxDataframeSize 5] (builder_init u) = Ok b /\
    async_connect_on httparse_lib [] b 0 (apush_back (head ++ [x82; x06; x00]) []) (mk_fw (mk_bm [] 0) [] [] []) = Ok (a, h) /\
    poll_n mc_decode 1 (ac_in a) (ac_read a) = [PErr (ProtocolError "Exceeded maximum incoming DataFrame size")].
Proof. do 3 eexists. split; [reflexivity|]. split; vm_compute; reflexivity. Qed.

(** [C39] One of the blocking client receives as with the frame limit asked for, used for both
    frames and messages. *)
Theorem sync_client_limits : forall X u cs b rnd s w c b' w', sound_lib X ->
  run_calls cs (builder_init u) = Ok b -> connect_on X rnd b s w = (Ok c, b', w') ->
  exists head v r fs after, first_come head after s /\ response_head X v 101 r fs head /\
    forall n s', spread s' = after ->
    fst (client_recv_n n c)
    = let max_df := fst (asked_limits (rev cs) 104857600 209715200) in
      fst (fst (recv_n n (receiver_with_limits false max_df max_df) s')).
Proof. exact ThmConnect.sync_client_limits_proof. Qed.
Print Assumptions sync_client_limits.

Example sync_client_limits_ex :
  let u := mk_url (ascii "ws") (Some (ascii "h")) None [] None (ascii "/") in
  let head := str "HTTP/1.1 101 Switching Protocols" ++ crlf ++ str "Connection: Upgrade" ++ crlf ++
    str "Upgrade: websocket" ++ crlf ++ str "Sec-WebSocket-Accept: s3pPLMBiTxaQ9kYGzzhZRbK+xOo=" ++ crlf ++ crlf in
  exists b c b' w', run_calls [Key (ascii "the sample nonce"); MaxDataframeSize 5] (builder_init u) = Ok b /\
    connect_on httparse_lib [] b (push_back (head ++ [x82; x06; x00]) []) (mk_w [] []) = (Ok c, b', w') /\
    fst (client_recv_n 1 c) = [Err (IoError InvalidData)].
Proof. do 4 eexists. split; [reflexivity|]. split; vm_compute; reflexivity. Qed.

(** [C39] A connection a blocking server accepted receives as with the limits it was accepted with,
    100 MiB and 200 MiB if none were given. *)
Theorem server_limits : forall u c custom max_df max_msg,
  (accept_with_limits max_df max_msg u = Ok c \/
   accept_with_headers_and_limits custom max_df max_msg u = Ok c \/
   (max_df, max_msg) = (104857600, 209715200) /\ (accept u = Ok c \/ accept_with custom u = Ok c)) ->
  forall n s', spread s' = unread c ->
    fst (client_recv_n n c) = fst (fst (recv_n n (receiver_with_limits true max_df max_msg) s')).
Proof. exact ThmConnect.server_limits_proof. Qed.
Print Assumptions server_limits.

(** Three bytes with a limit of two. *)
Example server_limits_ex :
  let head := str "GET / HTTP/1.1" ++ crlf ++ str "Upgrade: websocket" ++ crlf ++ str "Connection: upgrade" ++ crlf ++
    str "Sec-WebSocket-Key: dGhlIHNhbXBsZSBub25jZQ==" ++ crlf ++ crlf in
  let frame := [x82; x83; x00; x00; x00; x00; x61; x62; x63] in
  exists u c1 c2, into_ws httparse_lib (push_back (head ++ frame) []) (mk_w [] []) = Ok u /\
    accept_with_limits 2 100 u = Ok c1 /\ fst (client_recv_n 1 c1) = [Err (IoError InvalidData)] /\
    accept u = Ok c2 /\ fst (client_recv_n 1 c2) = [Ok (OBinary (str "abc"))].
Proof.
  do 3 eexists. split; [vm_compute; reflexivity|]. split; [vm_compute; reflexivity|].
  split; [vm_compute; reflexivity|]. split; [vm_compute; reflexivity|]. vm_compute; reflexivity.
Qed.

(** [C39] The asynchronous server, likewise. *)
Theorem async_server_limits : forall u a h custom max_df max_msg extra,
  (async_accept_with_limits max_df max_msg extra u = Ok (a, h) \/
   async_accept_with_headers_and_limits custom max_df max_msg extra u = Ok (a, h) \/
   (max_df, max_msg) = (104857600, 209715200) /\
     (async_accept_plain extra u = Ok (a, h) \/ async_accept_with custom extra u = Ok (a, h))) ->
  forall n, poll_n mc_decode n (ac_in a) (ac_read a)
    = poll_n mc_decode n (apush_back (au_buffer u) (au_in u)) (framed_new (msg_codec_with_limits CtxServer max_df max_msg) []).
Proof. exact ThmConnect.async_server_limits_proof. Qed.
Print Assumptions async_server_limits.

Example async_server_limits_ex :
  let head := str "GET / HTTP/1.1" ++ crlf ++ str "Upgrade: websocket" ++ crlf ++ str "Connection: upgrade" ++ crlf ++
    str "Sec-WebSocket-Key: dGhlIHNhbXBsZSBub25jZQ==" ++ crlf ++ crlf in
  let frame := [x82; x83; x00; x00; x00; x00; x61; x62; x63] in
  exists u a1 h1 a2 h2, async_into_ws httparse_lib (apush_back (head ++ frame) []) (mk_fw (mk_bm [] 0) [] [] []) = Ok u /\
    async_accept_with_limits 2 100 0 u = Ok (a1, h1) /\
    poll_n mc_decode 1 (ac_in a1) (ac_read a1) = [PErr (ProtocolError "Exceeded maximum incoming DataFrame size")] /\
    async_accept_plain 0 u = Ok (a2, h2) /\
    poll_n mc_decode 1 (ac_in a2) (ac_read a2) = [PItem (OBinary (str "abc"))].
Proof.
  do 5 eexists. split; [vm_compute; reflexivity|]. split; [vm_compute; reflexivity|].
  split; [vm_compute; reflexivity|]. split; [vm_compute; reflexivity|]. vm_compute; reflexivity.
Qed.

(** [C39] Refuted for the blocking client: the message limit is ignored.  A message in three
    fragments that is within the limits asked for is refused; and one over the message limit
    asked for is delivered. *)
Theorem sync_client_limits_refuted :
  let u := mk_url (ascii "ws") (Some (ascii "h")) None [] None (ascii "/") in
  let crlf := [x0d; x0a] in
  let head := ascii "HTTP/1.1 101 Switching Protocols" ++ crlf ++ ascii "Connection: Upgrade" ++ crlf ++
    ascii "Upgrade: websocket" ++ crlf ++
    ascii "Sec-WebSocket-Accept: s3pPLMBiTxaQ9kYGzzhZRbK+xOo=" ++ crlf ++ crlf in
  let fragments := [x02; x03; x61; x62; x63; x00; x01; x64; x80; x01; x65] in
  (exists b c b' w',
     run_calls [Key (ascii "the sample nonce"); MaxDataframeSize 10; MaxMessageSize 1000] (builder_init u) = Ok b /\
     connect_on httparse_lib [] b (push_back (head ++ fragments) []) (mk_w [] []) = (Ok c, b', w') /\
     fst (client_recv_n 1 c) = [Err (ProtocolError "Exceeded maximum WebSocket message size")] /\
     fst (fst (recv_n 1 (receiver_with_limits false 10 1000) (push_back fragments [])))
       = [Ok (OBinary [x61; x62; x63; x64; x65])]) /\
  (exists b c b' w',
     run_calls [Key (ascii "the sample nonce"); MaxMessageSize 60] (builder_init u) = Ok b /\
     connect_on httparse_lib [] b (push_back (head ++ fragments) []) (mk_w [] []) = (Ok c, b', w') /\
     fst (client_recv_n 1 c) = [Ok (OBinary [x61; x62; x63; x64; x65])] /\
     fst (fst (recv_n 1 (receiver_with_limits false 104857600 60) (push_back fragments [])))
       = [Err (ProtocolError "Exceeded maximum WebSocket message size")]).
Proof. exact ThmConnect.sync_client_limits_refuted_proof. Qed.
Print Assumptions sync_client_limits_refuted.
