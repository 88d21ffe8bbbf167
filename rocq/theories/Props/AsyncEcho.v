(** The asynchronous example servers: C69, C70. *)
From Coq Require Import NArith ZArith String Bool List Lia Permutation.
From Coq.Strings Require Import Byte.
From Verif.Model Require Import Base Io Header Mask Dataframe Utf8 Text Base64 WsKey Headers
  Handshake Message Receiver Codec Framed Http Connect Examples AsyncExamples.
From Verif.Spec Require Import RfcFrame FrameSpec Schedule Unicode Drive Session Connection Polled Fields Upgrade Builder HttpHead Wire Endpoint Echo Polls.
From Verif.Proofs Require Import ExTac.
From Verif.Proofs Require ThmAsyncEcho.
Import ListNotations.
Local Open Scope string_scope.
Local Open Scope list_scope.
Local Open Scope N_scope.

(** ** The theorems *)

(** [C69] The task of a connection of the asynchronous echo server, on a transport whose writes
    do not fail (they may be cut and delayed in any way): if a Close comes, or the stream ends,
    it completes, and has written the answer to every message before the Close, in order, and
    one Close, flushed. *)
Theorem async_echo_ends : forall k extra df msg buf s w ms rest e, afails_never w ->
  run_messages (msg_codec_with_limits CtxServer df msg) buf s = (ms ++ rest, e) ->
  Forall (fun m => ~ closing m) ms ->
  (exists c more, rest = OClose c :: more) \/ rest = [] /\ e = PEnd ->
  exists w', async_echo k extra (mk_aclient (framed_new (msg_codec_with_limits CtxServer df msg) buf) s w) = (TReady, w') /\
    bm_data (fw_buf w') = [] /\
    octets (fw_out w') = octets (fw_out w ++ bm_data (fw_buf w)) ++ server_says (flat_map echo ms ++ [OClose None]).
Proof. exact ThmAsyncEcho.async_echo_ends_proof. Qed.
Print Assumptions async_echo_ends.

Definition server_codec : msg_codec := msg_codec_with_limits CtxServer 100 100.
Definition zeros : bytes := [x00; x00; x00; x00].
Definition no_key : mkey := mk_key x00 x00 x00 x00.
(** A text, a ping and a pong in pieces, a Close, and after it what is not a frame; the
    transport takes one byte, waits, and so on. *)
Example async_echo_ends_ex :
  let s := [ANotReady; AData x81 [x82]; AData x00 [x00; x00; x00; x68; x69; x89; x81]; ANotReady;
            AData x00 [x00; x00; x00; x70; x8a; x80; x00; x00; x00; x00; x88; x80; x00; x00; x00; x00; xff]] in
  let w := mk_fw (mk_bm [] 0) [] [AwNotReady; AwAccept 1; AwNotReady; AwAccept 2] [AfNotReady; AfReady] in
  run_messages server_codec [] s = ([OText (str "hi"); OPing (str "p"); OPong []] ++ [OClose None], PErr (IoError (OtherKind 0))) /\
  async_echo no_key 0 (mk_aclient (framed_new server_codec []) s w)
  = (TReady, mk_fw (mk_bm [] 0) ([x81; x02; x68; x69] ++ [x8a; x01; x70] ++ [x88; x00]) [] []).
Proof. split; vm_compute; reflexivity. Qed.

(** [C69] If reading fails first - a broken transport, a violation of the protocol, a stream
    that ends inside a frame - the task ends with that error.  What was written is the
    beginning of the answers; the rest of them is in the buffer, and there is no Close. *)
Theorem async_echo_breaks : forall k extra df msg buf s w ms err, afails_never w ->
  run_messages (msg_codec_with_limits CtxServer df msg) buf s = (ms, PErr err) ->
  Forall (fun m => ~ closing m) ms ->
  exists w', async_echo k extra (mk_aclient (framed_new (msg_codec_with_limits CtxServer df msg) buf) s w) = (TErr err, w') /\
    octets (fw_out w') ++ octets (bm_data (fw_buf w'))
    = octets (fw_out w ++ bm_data (fw_buf w)) ++ server_says (flat_map echo ms).
Proof. exact ThmAsyncEcho.async_echo_breaks_proof. Qed.
Print Assumptions async_echo_breaks.

(** A text, and in the next chunk a ping and then a frame that is not masked. *)
Example async_echo_breaks_ex :
  let s := [AData x81 [x81; x00; x00; x00; x00; x61]; ANotReady; AData x89 [x80; x00; x00; x00; x00; x81; x00]] in
  run_messages server_codec [] s = ([OText (str "a"); OPing []], PErr (DataFrameError "Expected masked data frame")) /\
  async_echo no_key 0 (mk_aclient (framed_new server_codec []) s (mk_fw (mk_bm [] 0) [] [AwAccept 0; AwNotReady] []))
  = (TErr (DataFrameError "Expected masked data frame"),
     mk_fw (mk_bm [x01; x61; x8a; x00] 4) [x81] [] []).
Proof. split; vm_compute; reflexivity. Qed.

(** [C69] Refuted: the answers to the messages before the error are not all written.  Here a
    text message and an illegal frame arrive together; the message is lost with the buffer.
    (The blocking echo server answers it, C66.) *)
Theorem async_echo_loses_refuted : exists s m err w' w2,
  run_messages (msg_codec_with_limits CtxServer 100 100) [] s = ([m], PErr err) /\ echo m = [m] /\
  async_echo (mk_key x00 x00 x00 x00) 0
      (mk_aclient (framed_new (msg_codec_with_limits CtxServer 100 100) []) s (mk_fw (mk_bm [] 0) [] [] []))
    = (TErr err, w') /\ fw_out w' = [] /\
  (let s' := map (fun e => match e with AData b bs => RData b bs | _ => RIntr end) s in
   autobahn_loop 100 (mk_key x00 x00 x00 x00) (mk_reader (receiver_with_limits true 100 100) [] s')
     (mk_writer (mk_sender false) (mk_w [] [])) = (Returned, mk_writer (mk_sender false) w2)) /\
  w_out w2 = [x81; x01; x61; x88; x00].
Proof. exact ThmAsyncEcho.async_echo_loses_refuted_proof. Qed.
Print Assumptions async_echo_loses_refuted.

(** [C69] The whole connection: after a valid request the asynchronous echo server accepts it,
    and from then on it is as above. *)
Theorem async_echo_server : forall X k extra s w u, sound_lib X -> afails_never w ->
  async_into_ws X s w = Ok u ->
  exists a h ms rest e r w',
    async_accept None 104857600 209715200 extra u = Ok (a, h) /\
    run_messages (fr_st (ac_read a)) (fr_buf (ac_read a)) (ac_in a) = (ms ++ rest, e) /\
    Forall (fun m => ~ closing m) ms /\
    async_autobahn_server k extra u = Ok (r, w') /\
    (((exists c more, rest = OClose c :: more) \/ rest = [] /\ e = PEnd) /\
     r = TReady /\ bm_data (fw_buf w') = [] /\
     octets (fw_out w') = octets (fw_out (ac_out a)) ++ server_says (flat_map echo ms ++ [OClose None])
     \/
     (exists err, rest = [] /\ e = PErr err /\ r = TErr err) /\
     octets (fw_out w') ++ octets (bm_data (fw_buf w'))
       = octets (fw_out (ac_out a)) ++ server_says (flat_map echo ms)).
Proof. exact ThmAsyncEcho.async_echo_server_proof. Qed.
Print Assumptions async_echo_server.

Definition an_async_request : bytes := str "GET / HTTP/1.1" ++ crlf ++ str "Upgrade: websocket" ++ crlf ++ str "Connection: upgrade" ++ crlf ++
  str "Sec-WebSocket-Key: dGhlIHNhbXBsZSBub25jZQ==" ++ crlf ++ crlf.
Example async_echo_server_ex :
  let s := apush_back (an_async_request ++ [x89]) [ANotReady; AData x80 zeros; ANotReady] in
  exists u w', async_into_ws httparse_lib s (mk_fw (mk_bm [] 0) [] [AwNotReady] []) = Ok u /\
    async_autobahn_server no_key 0 u = Ok (TReady, w') /\
    exists a h, async_accept None 104857600 209715200 0 u = Ok (a, h) /\
      fw_out w' = fw_out (ac_out a) ++ [x8a; x00] ++ [x88; x00].
Proof.
  cbv zeta. eexists _, _. split; [vm_compute; reflexivity|]. split; [vm_compute; reflexivity|].
  eexists _, _. split; [vm_compute; reflexivity|]. vm_compute. reflexivity.
Qed.

(** [C69] So a legal session of frames within the limits, cut in any way, with any delays, gets
    the answer to each of its messages and then a Close, whatever follows its Close. *)
Theorem async_echo_session : forall k extra df msg s w fs ms p ws, afails_never w ->
  delivers [] fs ms p -> under (capped msg) [] fs -> fits (capped df) fs -> on_wire true fs ws -> acarries s ws ->
  exists w', async_echo k extra (mk_aclient (framed_new (msg_codec_with_limits CtxServer df msg) []) s w) = (TReady, w') /\
    bm_data (fw_buf w') = [] /\
    forall before, (ms = before \/ exists c more, ms = before ++ OClose c :: more) ->
      Forall (fun m => ~ closing m) before ->
      octets (fw_out w') = octets (fw_out w ++ bm_data (fw_buf w)) ++ server_says (flat_map echo before ++ [OClose None]).
Proof. exact ThmAsyncEcho.async_echo_session_proof. Qed.
Print Assumptions async_echo_session.

Example async_echo_session_ex :
  let f := mk_df false no_rsv Text (str "f") in
  let fs := [f; whole_frame (OPing [])] in
  let ws := ([x01; x81] ++ zeros ++ str "f") ++ [x89; x80] ++ zeros in
  delivers [] fs [OPing []] [f] /\ under 100 [] fs /\ fits 100 fs /\ on_wire true fs ws /\
  acarries [ANotReady; AData x01 (tl ws)] ws /\ Forall (fun m => ~ closing m) [OPing []].
Proof.
  cbv zeta. split; [|split; [|split; [|split; [|split]]]].
  - apply del_fragment; [reflexivity|reflexivity|split; [discriminate|reflexivity]|].
    apply del_control; [exact I|exact I|]. constructor.
  - vm_compute. repeat split.
  - unfold fits. facts.
  - apply (wire_cons _ _ (Some no_key) ([x01; x81] ++ zeros ++ str "f")); [reflexivity|reflexivity|].
    rewrite <- app_nil_r. apply (wire_cons _ _ (Some no_key) ([x89; x80] ++ zeros) []); [reflexivity|reflexivity|]. constructor.
  - constructor. rewrite <- app_nil_r. apply (acarries_data x01). constructor.
  - repeat constructor. intros [].
Qed.

(** ** Which connections are served *)

(** [C70] The server of examples/async-server.rs serves, whatever else happens - bad clients,
    clients that never finish their handshake, errors of the listener - only clients whose
    handshake succeeded, none twice; and once the handshakes have been polled often enough it
    has served all of those. *)
Theorem good_clients_served : forall X es,
  (exists later, Permutation (completed (map (alone X) (arrived es)))
     (async_server_serves (in_yielded (incoming_run X es)) ++ later)) /\
  exists polls, only_polls polls /\
    Permutation (completed (map (alone X) (arrived es)))
      (async_server_serves (in_yielded (incoming_run X (es ++ polls)))).
Proof. exact ThmAsyncEcho.good_clients_served_proof. Qed.
Print Assumptions good_clients_served.

Definition quiet_out : fwrite := mk_fw (mk_bm [] 0) [] [] [].
(** A bad client, a listener error, a good client. *)
Definition three_events : list incoming_event :=
  [NewConnection 1 (apush_back (str "HELLO" ++ crlf ++ crlf) []) quiet_out; PollFuture 0; ListenerError WouldBlock;
   NewConnection 2 (apush_back an_async_request []) quiet_out].
Example good_clients_served_ex :
  map fst (async_server_serves (in_yielded (incoming_run httparse_lib (three_events ++ [PollFuture 0])))) = [2].
Proof. vm_compute. reflexivity. Qed.

(** [C70] The server of examples/async-autobahn-server.rs does the same as long as no handshake
    fails and the listener does not. *)
Theorem autobahn_clients_served : forall X es, listener_errors es = [] ->
  Forall (fun c => exists u, snd c = Ok u) (map (alone X) (arrived es)) ->
  exists polls, only_polls polls /\
    Permutation (completed (map (alone X) (arrived es)))
      (async_autobahn_serves (in_yielded (incoming_run X (es ++ polls)))).
Proof. exact ThmAsyncEcho.autobahn_clients_served_proof. Qed.
Print Assumptions autobahn_clients_served.

(** Two good clients, the second of which is complete first. *)
Definition two_clients : list incoming_event :=
  [NewConnection 1 (ANotReady :: ANotReady :: apush_back an_async_request []) quiet_out;
   NewConnection 2 (apush_back an_async_request []) quiet_out].
Example autobahn_clients_served_ex :
  listener_errors two_clients = [] /\
  Forall (fun c => exists u, snd c = Ok u) (map (alone httparse_lib) (arrived two_clients)) /\
  map fst (async_autobahn_serves (in_yielded (incoming_run httparse_lib (two_clients ++ [PollFuture 1; PollFuture 0; PollFuture 0; PollFuture 0])))) = [2; 1].
Proof.
  split; [reflexivity|]. split; [|vm_compute; reflexivity].
  repeat constructor; eexists; vm_compute; reflexivity.
Qed.

(** [C70] Refuted in general: one client that sends a bad request stops the server for
    everyone. *)
Theorem async_autobahn_survives_refuted : exists es u,
  In (2, Ok u) (outcomes (in_yielded (incoming_run httparse_lib es))) /\
  async_autobahn_serves (in_yielded (incoming_run httparse_lib es)) = [] /\
  async_server_serves (in_yielded (incoming_run httparse_lib es)) = [(2, u)].
Proof. exact ThmAsyncEcho.async_autobahn_survives_refuted_proof. Qed.
Print Assumptions async_autobahn_survives_refuted.

(** ** The server of examples/async-server.rs *)

(** [C70] A client of the server of examples/async-server.rs whose handshake succeeded: if it
    does not offer the protocol "rust-websocket" it gets a rejection and nothing else; otherwise
    it gets the acceptance, the message "Hello World!", and the answers of C69. *)
Theorem async_example_answers : forall X k extra s w u, sound_lib X -> afails_never w ->
  async_into_ws X s w = Ok u ->
  exists ps, @seen_protocols ws_error (au_request u) = Ok ps /\
  (~ In (ascii "rust-websocket") ps ->
   exists w', async_example_server k extra u = Ok (TReady, w') /\ bm_data (fw_buf w') = [] /\
     fw_out w' = fw_out w ++ bm_data (fw_buf w) ++ ascii "HTTP/1.1 400 Bad Request" ++ crlf ++ crlf) /\
  (In (ascii "rust-websocket") ps ->
   exists h a h' ms rest e r w',
    @use_protocol ws_error (ascii "rust-websocket") [] = Ok h /\
    async_accept None 104857600 209715200 extra
      (mk_aupgrade h (au_request u) (au_buffer u) (au_in u) (au_out u)) = Ok (a, h') /\
    run_messages (fr_st (ac_read a)) (fr_buf (ac_read a)) (ac_in a) = (ms ++ rest, e) /\
    Forall (fun m => ~ closing m) ms /\
    async_example_server k extra u = Ok (r, w') /\
    (((exists c more, rest = OClose c :: more) \/ rest = [] /\ e = PEnd) /\
     r = TReady /\ bm_data (fw_buf w') = [] /\
     octets (fw_out w') = octets (fw_out (ac_out a)) ++
       server_says (OText (ascii "Hello World!") :: flat_map echo ms ++ [OClose None])
     \/
     (exists err, rest = [] /\ e = PErr err /\ r = TErr err) /\
     octets (fw_out w') ++ octets (bm_data (fw_buf w'))
       = octets (fw_out (ac_out a)) ++ server_says (OText (ascii "Hello World!") :: flat_map echo ms))).
Proof. exact ThmAsyncEcho.async_example_answers_proof. Qed.
Print Assumptions async_example_answers.

Definition b_async_request : bytes := str "GET / HTTP/1.1" ++ crlf ++ str "Upgrade: websocket" ++ crlf ++ str "Connection: upgrade" ++ crlf ++
  str "Sec-WebSocket-Key: dGhlIHNhbXBsZSBub25jZQ==" ++ crlf ++ str "Sec-WebSocket-Protocol: chat, rust-websocket" ++ crlf ++ crlf.
Example async_example_answers_ex :
  (exists u, async_into_ws httparse_lib (apush_back an_async_request []) quiet_out = Ok u /\
     @seen_protocols ws_error (au_request u) = Ok [] /\
     async_example_server no_key 0 u = Ok (TReady, mk_fw (mk_bm [] 0) (str "HTTP/1.1 400 Bad Request" ++ crlf ++ crlf) [] [])) /\
  let sent := [x89; x81] ++ zeros ++ str "p" ++ [x8a; x80] ++ zeros ++ [x88; x80] ++ zeros in
  exists u h a h' w', async_into_ws httparse_lib (apush_back (b_async_request ++ sent) [ANotReady]) quiet_out = Ok u /\
     @seen_protocols ws_error (au_request u) = Ok [ascii "chat"; ascii "rust-websocket"] /\
     @use_protocol ws_error (ascii "rust-websocket") [] = Ok h /\
     async_accept None 104857600 209715200 0 (mk_aupgrade h (au_request u) (au_buffer u) (au_in u) (au_out u)) = Ok (a, h') /\
     async_example_server no_key 0 u = Ok (TReady, w') /\
     fw_out w' = fw_out (ac_out a) ++ ([x81; x0c] ++ str "Hello World!") ++ ([x8a; x01] ++ str "p") ++ [x88; x00].
Proof.
  split.
  - eexists. split; [vm_compute; reflexivity|]. split; [vm_compute; reflexivity|]. vm_compute. reflexivity.
  - cbv zeta. eexists _, _, _, _, _. split; [vm_compute; reflexivity|]. split; [vm_compute; reflexivity|].
    split; [vm_compute; reflexivity|]. split; [vm_compute; reflexivity|]. split; [vm_compute; reflexivity|]. vm_compute. reflexivity.
Qed.
