(** The HTTP codecs as streams of requests and responses: C81. *)
From Coq Require Import NArith ZArith String Bool List Lia.
From Coq.Strings Require Import Byte.
From Verif.Model Require Import Base Io Header Mask Dataframe Utf8 Text Base64 WsKey Headers
  Handshake Message Receiver Codec Framed Http Connect HttpStream.
From Verif.Spec Require Import Fields Upgrade HttpHead Wire Schedule HttpSeries.
From Verif.Proofs Require Import ExTac.
From Verif.Proofs Require ThmHttpStream.
Import ListNotations.
Local Open Scope string_scope.
Local Open Scope list_scope.
Local Open Scope N_scope.

(** ** Requests *)

(** [C81] A server that uses the codec on its own gets exactly the requests that were sent, in
    order, however they were cut into chunks, several in one or one in several; then, if the
    rest of the bytes is no whole head, the stream ends or fails as the transport does, and a
    connection closed inside a head is an error. *)
Theorem requests_in_order : forall X qs text rest s1 s2 e, sound_lib X ->
  requests_on X qs text -> ~ has_end rest -> undisturbed s1 -> aev_bytes s1 = text ++ rest ->
  runs_out rest s2 e ->
  http_requests X (s1 ++ s2) = (map presented qs, e).
Proof. exact ThmHttpStream.requests_in_order_proof. Qed.
Print Assumptions requests_in_order.

(** Two requests, the first in three chunks, the second in the chunk that ends the first, and
    the beginning of a third. *)
Definition two_requests_script : list aev :=
  [AData "G"%byte (str "ET /a HTT"); ANotReady; AData "P"%byte (str "/1.1" ++ crlf ++ str "Host: h" ++ [CR; LF; CR]);
   AData LF (str "PUT /b HTTP/1.0" ++ head_end ++ str "GE"); ANotReady].
Definition two_requests : list req_parts :=
  [(str "GET", str "/a", Http11, [(str "Host", str "h")]); (str "PUT", str "/b", Http10, [])].
Example requests_in_order_ex :
  requests_on httparse_lib two_requests
    (str "GET /a HTTP/1.1" ++ crlf ++ str "Host: h" ++ head_end ++ str "PUT /b HTTP/1.0" ++ head_end) /\
  ~ has_end (str "GE") /\ undisturbed two_requests_script /\ runs_out (str "GE") [] (HIo (OtherKind 0)) /\
  http_requests httparse_lib two_requests_script
  = ([mk_req Get (str "/a") Http11 (from_raw [(str "Host", str "h")]);
      mk_req (OtherMethod (str "PUT")) (str "/b") Http10 []], HIo (OtherKind 0)).
Proof.
  split; [|split; [|split; [|split]]].
  - change (str "GET /a HTTP/1.1" ++ crlf ++ str "Host: h" ++ head_end ++ str "PUT /b HTTP/1.0" ++ head_end)
      with ((str "GET /a HTTP/1.1" ++ crlf ++ str "Host: h" ++ head_end) ++ (str "PUT /b HTTP/1.0" ++ head_end) ++ []).
    apply more_requests.
    + exists [], (str "HTTP/1.1"), [CR; LF], (str "Host: h" ++ head_end).
      split; [constructor|]. split; [discriminate|]. split; [repeat constructor; discriminate|].
      split; [repeat constructor; discriminate|]. split; [constructor|]. split; [constructor|].
      split; [|reflexivity]. apply (next_line _ (str "Host", str "h") [] (str "Host: h" ++ crlf) crlf).
      * apply (a_field_line _ (str "Host") (str "h") (str " ") crlf); [discriminate|repeat constructor; discriminate| | | |constructor].
        -- constructor; [left; reflexivity|constructor].
        -- constructor; [right; vm_compute; split; discriminate|constructor].
        -- intros (r & [E|E]); discriminate E.
      * apply last_line. constructor.
    + vm_compute. repeat constructor.
    + split; [discriminate|]. right. left. eexists. reflexivity.
    + apply (proj1 (ThmHttp.split_exact_proof (str "GET /a HTTP/1.1" ++ crlf ++ str "Host: h" ++ head_end)
                      (str "GET /a HTTP/1.1" ++ crlf ++ str "Host: h" ++ head_end) [])). vm_compute. reflexivity.
    + apply more_requests; [| | | |constructor].
      * exists [], (str "HTTP/1.0"), [CR; LF], [CR; LF].
        split; [constructor|]. split; [discriminate|]. split; [repeat constructor; discriminate|].
        split; [repeat constructor; discriminate|]. split; [constructor|]. split; [constructor|].
        split; [apply last_line; constructor|reflexivity].
      * vm_compute. repeat constructor.
      * split; [discriminate|]. right. left. eexists. reflexivity.
      * apply (proj1 (ThmHttp.split_exact_proof (str "PUT /b HTTP/1.0" ++ head_end)
                      (str "PUT /b HTTP/1.0" ++ head_end) [])). vm_compute. reflexivity.
  - apply ThmHttp.split_waits_proof. reflexivity.
  - repeat constructor.
  - constructor.
  - vm_compute. reflexivity.
Qed.

(** [C81] The same for a client and responses. *)
Theorem responses_in_order : forall X rs text rest s1 s2 e, sound_lib X ->
  responses_on X rs text -> ~ has_end rest -> undisturbed s1 -> aev_bytes s1 = text ++ rest ->
  runs_out rest s2 e ->
  http_responses X (s1 ++ s2) = (map shown rs, e).
Proof. exact ThmHttpStream.responses_in_order_proof. Qed.
Print Assumptions responses_in_order.

(** The body of a response is taken for the beginning of the next head. *)
Example responses_in_order_ex :
  http_responses httparse_lib
    [AData "H"%byte (str "TTP/1.1 404 Not Found" ++ head_end ++ str "HTTP/1.0 200 O"); ANotReady;
     AData "K"%byte (head_end ++ str "Hello"); AErr ConnectionReset]
  = ([mk_resp Http11 404 (str "Not Found") []; mk_resp Http10 200 (str "OK") []], HIo ConnectionReset) /\
  runs_out (str "Hello") [AErr ConnectionReset] (HIo ConnectionReset).
Proof. split; [vm_compute; reflexivity|constructor]. Qed.

(** [C81] No request is held back: once its last byte is there, it is delivered whatever the
    transport does next. *)
Theorem requests_prompt : forall X qs text s1 s2, sound_lib X ->
  requests_on X qs text -> undisturbed s1 -> aev_bytes s1 = text ->
  exists more e, http_requests X (s1 ++ s2) = (map presented qs ++ more, e).
Proof. exact ThmHttpStream.requests_prompt_proof. Qed.
Print Assumptions requests_prompt.

Example requests_prompt_ex :
  http_requests httparse_lib ([AData "G"%byte (str "ET / HTTP/1.1" ++ head_end)] ++ [AErr ConnectionReset])
  = ([mk_req Get (str "/") Http11 []], HIo ConnectionReset) /\
  http_requests httparse_lib ([AData "G"%byte (str "ET / HTTP/1.1" ++ head_end)] ++ [AData "x"%byte head_end])
  = ([mk_req Get (str "/") Http11 []], HBad PEHeader).
Proof. split; vm_compute; reflexivity. Qed.

(** [C81] *)
Theorem responses_prompt : forall X rs text s1 s2, sound_lib X ->
  responses_on X rs text -> undisturbed s1 -> aev_bytes s1 = text ->
  exists more e, http_responses X (s1 ++ s2) = (map shown rs ++ more, e).
Proof. exact ThmHttpStream.responses_prompt_proof. Qed.
Print Assumptions responses_prompt.

Example responses_prompt_ex :
  http_responses httparse_lib ([AData "H"%byte (str "TTP/1.1 200 OK" ++ head_end)] ++ [AErr ConnectionReset])
  = ([mk_resp Http11 200 (str "OK") []], HIo ConnectionReset).
Proof. vm_compute. reflexivity. Qed.

(** [C81] A head that is none, between or after good ones, is an error, and the requests before
    it have been delivered; so have they been when what follows is the body of a request, for
    the codec knows no bodies. *)
Theorem bad_request_reported : forall X qs text bad e after s1 s2, sound_lib X ->
  requests_on X qs text -> ends_first bad -> try_request X bad = Fail e -> e <> PETooLarge ->
  undisturbed s1 -> aev_bytes s1 = text ++ bad ++ after ->
  http_requests X (s1 ++ s2) = (map presented qs, HBad e).
Proof. exact ThmHttpStream.bad_request_reported_proof. Qed.
Print Assumptions bad_request_reported.

(** A request with a body, then another one: the second is not read. *)
Example bad_request_reported_ex :
  let bad := str "name=value GET / HTTP/1.1" ++ head_end in
  ends_first bad /\ try_request httparse_lib bad = Fail PEHeader /\
  http_requests httparse_lib [AData "P"%byte (str "UT / HTTP/1.1" ++ head_end ++ bad)]
  = ([mk_req (OtherMethod (str "PUT")) (str "/") Http11 []], HBad PEHeader).
Proof.
  split; [|split; vm_compute; reflexivity].
  match goal with |- ends_first ?t => apply (proj1 (ThmHttp.split_exact_proof t t [])) end. vm_compute. reflexivity.
Qed.

(** [C81] *)
Theorem bad_response_reported : forall X rs text bad e after s1 s2, sound_lib X ->
  responses_on X rs text -> ends_first bad -> try_response X bad = Fail e -> e <> PETooLarge ->
  undisturbed s1 -> aev_bytes s1 = text ++ bad ++ after ->
  http_responses X (s1 ++ s2) = (map shown rs, HBad e).
Proof. exact ThmHttpStream.bad_response_reported_proof. Qed.
Print Assumptions bad_response_reported.

(** A response, and then one of a version that is not known. *)
Example bad_response_reported_ex :
  let bad := str "HTTP/3.1 200 OK" ++ head_end in
  ends_first bad /\ try_response httparse_lib bad = Fail PEVersion /\
  http_responses httparse_lib [AData "H"%byte (str "TTP/1.1 200 OK" ++ head_end ++ bad)]
  = ([mk_resp Http11 200 (str "OK") []], HBad PEVersion).
Proof.
  split; [|split; vm_compute; reflexivity].
  match goal with |- ends_first ?t => apply (proj1 (ThmHttp.split_exact_proof t t [])) end. vm_compute. reflexivity.
Qed.

(** ** Any bytes at all *)

(** [C81] Nothing is made up: whatever the bytes, in whatever chunks and with whatever errors,
    every request delivered is there whole in the bytes, and in that order. *)
Theorem requests_genuine : forall X s, sound_lib X ->
  requests_among X (fst (http_requests X s)) (aev_bytes s).
Proof. exact ThmHttpStream.requests_genuine_proof. Qed.
Print Assumptions requests_genuine.

Example requests_genuine_ex :
  http_requests httparse_lib
    [AData CR [LF; CR; LF]; AData "G"%byte (str "ET / HTTP/1.1" ++ head_end); AErr ConnectionReset; AData "x"%byte []]
  = ([mk_req Get (str "/") Http11 []], HIo ConnectionReset).
Proof. vm_compute. reflexivity. Qed.

(** [C81] *)
Theorem responses_genuine : forall X s, sound_lib X ->
  responses_among X (fst (http_responses X s)) (aev_bytes s).
Proof. exact ThmHttpStream.responses_genuine_proof. Qed.
Print Assumptions responses_genuine.

Example responses_genuine_ex :
  http_responses httparse_lib [AData "x"%byte (head_end ++ str "HTTP/1.1 200 OK" ++ head_end)] = ([], HBad PEVersion).
Proof. vm_compute. reflexivity. Qed.

(** [C81] And reading always comes to its end, without a panic. *)
Theorem http_reading_ends : forall X s,
  (snd (http_requests X s) <> HStuck /\ snd (http_requests X s) <> HPanics) /\
  (snd (http_responses X s) <> HStuck /\ snd (http_responses X s) <> HPanics).
Proof. exact ThmHttpStream.http_reading_ends_proof. Qed.
Print Assumptions http_reading_ends.

(** ** The sink *)

(** [C81] What goes out is the text of the items the sink took, in order and nothing else,
    however the transport behaves: written plus buffered. *)
Theorem http_sink_order : forall ops w rs w', http_ops ops w = (rs, w') ->
  fw_out w' ++ bm_data (fw_buf w') = fw_out w ++ bm_data (fw_buf w) ++ concat (http_taken ops rs).
Proof. exact ThmHttpStream.http_sink_order_proof. Qed.
Print Assumptions http_sink_order.

(** A transport that takes three bytes, is busy, then takes the rest. *)
Example http_sink_order_ex :
  http_ops [HSend (str "abcd") 0; HFlush; HSend (str "ef") 7; HFlush]
    (mk_fw (mk_bm [] 0) [] [AwAccept 2; AwNotReady] [])
  = ([SReady; SNotReady; SReady; SReady], mk_fw (mk_bm [] 7) (str "abcdef") [] []).
Proof. vm_compute. reflexivity. Qed.

(** ** There and back *)

(** [C81] There: the requests a client's sink took, once flushed, are the requests a server
    reads, each with its method, target, version and fields, in order and no others, however
    the client's transport took them and the server's delivers them. *)
Theorem requests_there : forall X qs ops w rs w' s, sound_lib X ->
  fw_out w = [] -> bm_data (fw_buf w) = [] -> http_ops ops w = (rs, w') -> bm_data (fw_buf w') = [] ->
  Forall2 (request_sent X) qs (http_taken ops rs) -> acarries s (fw_out w') ->
  http_requests X s = (qs, HEnds).
Proof. exact ThmHttpStream.requests_there_proof. Qed.
Print Assumptions requests_there.

Example requests_there_ex :
  let q := mk_req (OtherMethod (str "PUT")) (str "/b") Http11 [(str "Host", Raw [str "h" ++ [CR; LF] ++ str "x"])] in
  let text := str "PUT /b HTTP/1.1" ++ crlf ++ str "Host: h  x" ++ head_end in
  @request_line unit q = Ok text /\ sendable httparse_lib q /\
  meant q = mk_req (OtherMethod (str "PUT")) (str "/b") Http11 (from_raw [(str "Host", str "h  x")]) /\
  http_requests httparse_lib [AData "P"%byte (drop 1 text ++ take 5 text); AData "b"%byte (drop 6 text)]
  = ([meant q; meant q], HEnds).
Proof.
  split; [vm_compute; reflexivity|]. split; [|split; vm_compute; reflexivity].
  split; [right; eexists; split; [reflexivity|discriminate]|]. split; [discriminate|].
  split; [repeat constructor; discriminate|]. split; [repeat constructor; discriminate|].
  split; [split; [discriminate|]; right; left; eexists; reflexivity|].
  split; [split; cbn; intros HI; decompose [or] HI; try discriminate; contradiction|].
  split; [right; reflexivity|]. split; [|vm_compute; repeat constructor].
  apply Forall_cons; [|apply Forall_nil]. split; [discriminate|]. split; [repeat constructor; discriminate|].
  cbn [snd].
  apply Forall_cons; [right; right; right; vm_compute; split; discriminate|].
  apply Forall_cons; [right; left; reflexivity|]. apply Forall_cons; [right; right; left; reflexivity|].
  apply Forall_cons; [right; right; right; vm_compute; split; discriminate|apply Forall_nil].
Qed.

(** [C81] And back: likewise the responses of a server. *)
Theorem responses_back : forall X l ops w rs w' s, sound_lib X ->
  fw_out w = [] -> bm_data (fw_buf w) = [] -> http_ops ops w = (rs, w') -> bm_data (fw_buf w') = [] ->
  Forall2 (response_sent X) l (http_taken ops rs) -> acarries s (fw_out w') ->
  http_responses X s = (l, HEnds).
Proof. exact ThmHttpStream.responses_back_proof. Qed.
Print Assumptions responses_back.

Example responses_back_ex :
  let text := str "HTTP/1.1 404 Not Found" ++ crlf ++ str "A: b" ++ head_end in
  response_sent httparse_lib (mk_resp Http11 404 (str "Not Found") (from_raw [(str "A", str "b")])) text /\
  http_responses httparse_lib [AData "H"%byte (drop 1 text ++ text)]
  = ([mk_resp Http11 404 (str "Not Found") (from_raw [(str "A", str "b")]);
      mk_resp Http11 404 (str "Not Found") (from_raw [(str "A", str "b")])], HEnds).
Proof.
  split; [|vm_compute; reflexivity].
  apply (a_response_sent _ Http11 404 (str "Not Found") [(str "A", Raw [str "b"])] (str "404 Not Found"));
    [right; reflexivity| | |vm_compute; reflexivity].
  - exists (str "404"). split; [apply (a_code "4" "0" "4"); vm_compute; discriminate|].
    split; [reflexivity|]. repeat constructor; discriminate.
  - split; [|vm_compute; repeat constructor].
    apply Forall_cons; [|apply Forall_nil]. split; [discriminate|]. split; [repeat constructor; discriminate|].
    apply Forall_cons; [right; right; right; vm_compute; split; discriminate|apply Forall_nil].
Qed.

(** ** What does depend on the chunks *)

(** [C81] For other bytes what is delivered does depend on the chunks: two empty lines too many
    in front of a request are skipped if they come on their own, and lose the request if they
    come with it. *)
Theorem http_chunks_refuted : exists s1 s2, undisturbed s1 /\ undisturbed s2 /\
  aev_bytes s1 = aev_bytes s2 /\
  fst (http_requests httparse_lib s1) = [mk_req Get (str "/") Http11 []] /\
  http_requests httparse_lib s2 = ([], HIo (OtherKind 0)).
Proof. exact ThmHttpStream.http_chunks_refuted_proof. Qed.
Print Assumptions http_chunks_refuted.

(** [C81] A head with more than 100 fields is not reported but passed over in silence, and a
    whole request that came with it is held back until something else happens. *)
Theorem large_head_reported_refuted : exists big s f, ends_first big /\
  try_request httparse_lib big = Fail PETooLarge /\ undisturbed s /\
  aev_bytes s = big ++ str "GET / HTTP/1.1" ++ head_end /\
  framed_poll (http_decode (try_request httparse_lib)) (s ++ [ANotReady]) (framed_new tt []) = (PNotReady, f, []) /\
  fr_buf f = str "GET / HTTP/1.1" ++ head_end /\
  http_requests httparse_lib s = ([mk_req Get (str "/") Http11 []], HEnds).
Proof. exact ThmHttpStream.large_head_reported_refuted_proof. Qed.
Print Assumptions large_head_reported_refuted.
