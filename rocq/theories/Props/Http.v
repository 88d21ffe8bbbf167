(** The HTTP heads of the handshake in the byte stream: C42. *)
From Coq Require Import NArith ZArith String Bool List Lia.
From Coq.Strings Require Import Byte.
From Verif.Model Require Import Base Io Header Mask Dataframe Utf8 Text Base64 WsKey Headers
  Handshake Message Receiver Codec Framed Http.
From Verif.Spec Require Import Fields HttpHead.
From Verif.Proofs Require Import ExTac.
From Verif.Proofs Require ThmHttp.
Import ListNotations.
Local Open Scope string_scope.
Local Open Scope list_scope.
Local Open Scope N_scope.

(** ** Splitting a buffer *)

(** [C42] [split_off_http] takes exactly the bytes up to and including the first CRLFCRLF. *)
Theorem split_exact : forall src h r,
  split_off_http src = Some (h, r) <-> src = h ++ r /\ ends_first h.
Proof. exact ThmHttp.split_exact_proof. Qed.
Print Assumptions split_exact.

Example split_exact_ex : split_off_http (str "GET / HTTP/1.1" ++ [x0d; x0a; x0d; x0a] ++ str "xyz")
  = Some (str "GET / HTTP/1.1" ++ [x0d; x0a; x0d; x0a], str "xyz").
Proof. reflexivity. Qed.

(** [C42] And it waits for more exactly as long as there is none. *)
Theorem split_waits : forall src, split_off_http src = None <-> ~ has_end src.
Proof. exact ThmHttp.split_waits_proof. Qed.
Print Assumptions split_waits.

Example split_waits_ex : split_off_http (str "GET / HTTP/1.1" ++ [x0d; x0a; x0d]) = None.
Proof. reflexivity. Qed.

(** [C42] What is split off does not depend on what follows: more bytes only make the rest
    longer. *)
Theorem split_extends : forall src h r x,
  split_off_http src = Some (h, r) -> split_off_http (src ++ x) = Some (h, r ++ x).
Proof. exact ThmHttp.split_extends_proof. Qed.
Print Assumptions split_extends.

Example split_extends_ex :
  split_off_http (str "a" ++ head_end ++ str "b") = Some (str "a" ++ head_end, str "b") /\
  split_off_http (str "a" ++ head_end ++ str "b" ++ head_end) = Some (str "a" ++ head_end, str "b" ++ head_end).
Proof. split; reflexivity. Qed.

(** ** What the parser takes *)

(** [C42] A request is read exactly from the head of one: what the parser takes from the
    buffer is a request line, at most 100 fields and the empty line (possibly after empty
    lines), all of it and nothing behind it, and it yields the method, target, version and
    fields written there. *)
Theorem request_exact : forall X i q rest, sound_lib X ->
  try_request X i = Done q rest <->
  exists head m t v fs, i = head ++ rest /\ request_head X m t v fs head /\
    (length fs <= 100)%nat /\ target_accepted X t /\
    q = mk_req (method_named m) t v (from_raw fs).
Proof. exact ThmHttp.request_exact_proof. Qed.
Print Assumptions request_exact.

Example request_exact_ex :
  try_request httparse_lib (str "GET /chat HTTP/1.1" ++ [x0d; x0a] ++ str "Host: a" ++ [x0d; x0a; x0d; x0a; x81])
  = Done (mk_req Get (str "/chat") Http11 (from_raw [(str "Host", str "a")])) [x81].
Proof. reflexivity. Qed.
Example sound_lib_ex : sound_lib httparse_lib.
Proof. repeat split. Qed.

(** [C42] The same for a response. *)
Theorem response_exact : forall X i q rest, sound_lib X ->
  try_response X i = Done q rest <->
  exists head v code reason fs, i = head ++ rest /\ response_head X v code reason fs head /\
    (length fs <= 100)%nat /\ q = mk_resp v code reason (from_raw fs).
Proof. exact ThmHttp.response_exact_proof. Qed.
Print Assumptions response_exact.

Example response_exact_ex :
  try_response httparse_lib (str "HTTP/1.1 101 Switching Protocols" ++ [x0d; x0a] ++ str "Upgrade: websocket" ++ [x0d; x0a; x0d; x0a; x81])
  = Done (mk_resp Http11 101 (str "Switching Protocols") (from_raw [(str "Upgrade", str "websocket")])) [x81].
Proof. reflexivity. Qed.

(** [C42] Before the last byte of the head is there the parser only asks for more. *)
Theorem request_prefix : forall X m t v fs c d, sound_lib X ->
  request_head X m t v fs (c ++ d) -> (length fs <= 100)%nat -> target_accepted X t ->
  d <> [] -> try_request X c = Partial.
Proof. exact ThmHttp.request_prefix_proof. Qed.
Print Assumptions request_prefix.

(** All but the last byte. *)
Example request_prefix_ex :
  try_request httparse_lib (str "GET /chat HTTP/1.1" ++ [x0d; x0a] ++ str "Host: a" ++ [x0d; x0a; x0d]) = Partial.
Proof. reflexivity. Qed.

(** [C42] *)
Theorem response_prefix : forall X v code r fs c d, sound_lib X ->
  response_head X v code r fs (c ++ d) -> (length fs <= 100)%nat ->
  d <> [] -> try_response X c = Partial.
Proof. exact ThmHttp.response_prefix_proof. Qed.
Print Assumptions response_prefix.

Example response_prefix_ex :
  try_response httparse_lib (str "HTTP/1.1 101 Switching Pro") = Partial /\
  try_response httparse_lib (str "HTTP/1.1 101 Switching Protocols" ++ [x0d; x0a] ++ str "Upgrade: web") = Partial.
Proof. split; reflexivity. Qed.

(** ** Asynchronous reading *)

(** [C42] The asynchronous server gets the request however the bytes of its head arrive: in
    any chunks, with any pauses; and what came with the last chunk is kept, in order: buffer
    and transport together are exactly the stream after the head. *)
Theorem async_request_read : forall X m t v fs head s s', sound_lib X ->
  request_head X m t v fs head -> (length fs <= 100)%nat -> target_accepted X t ->
  ends_first head -> aflows s head s' ->
  exists rest s2, await_head (try_request X) s =
      (PItem (inl (mk_req (method_named m) t v (from_raw fs))), mk_framed tt rest true false, s2)
    /\ s' = apush_back rest s2.
Proof. exact ThmHttp.async_request_read_proof. Qed.
Print Assumptions async_request_read.

Example async_request_read_ex :
  let head := str "GET / HTTP/1.1" ++ head_end in
  request_head httparse_lib (str "GET") (str "/") Http11 [] head /\ ends_first head /\
  aflows [AData "G"%byte (str "ET / HTT"); ANotReady; AData "P"%byte (str "/1.1" ++ head_end ++ [x81; x00]); ANotReady]
    head [AData x81 [x00]; ANotReady] /\
  await_head (try_request httparse_lib)
    [AData "G"%byte (str "ET / HTT"); ANotReady; AData "P"%byte (str "/1.1" ++ head_end ++ [x81; x00]); ANotReady]
  = (PItem (inl (mk_req Get (str "/") Http11 [])), mk_framed tt [x81; x00] true false, [ANotReady]).
Proof.
  split; [|split; [|split]].
  - exists [], (str "HTTP/1.1"), [CR; LF], [CR; LF].
    split; [constructor|]. split; [discriminate|].
    split; [repeat constructor; discriminate|]. split; [repeat constructor; discriminate|].
    split; [constructor|]. split; [constructor|]. split; [constructor; constructor|reflexivity].
  - apply (ThmHttp.split_exact_proof (str "GET / HTTP/1.1" ++ head_end) _ []). reflexivity.
  - apply (aflows_read "G" (str "ET / HTT")). apply aflows_wait; [discriminate|].
    apply (aflows_part "P" (str "/1.1" ++ head_end) x81 [x00]).
  - reflexivity.
Qed.

(** [C42] The same for the client and the response. *)
Theorem async_response_read : forall X v code r fs head s s', sound_lib X ->
  response_head X v code r fs head -> (length fs <= 100)%nat ->
  ends_first head -> aflows s head s' ->
  exists rest s2, await_head (try_response X) s =
      (PItem (inl (mk_resp v code r (from_raw fs))), mk_framed tt rest true false, s2)
    /\ s' = apush_back rest s2.
Proof. exact ThmHttp.async_response_read_proof. Qed.
Print Assumptions async_response_read.

Example async_response_read_ex :
  await_head (try_response httparse_lib)
    [AData "H"%byte (str "TTP/1.1 101 X"); ANotReady; AData x0d [x0a]; AData x0d [x0a; x89]; ANotReady]
  = (PItem (inl (mk_resp Http11 101 (str "X") [])), mk_framed tt [x89] true false, [ANotReady]).
Proof. reflexivity. Qed.

(** [C42] A block the parser refuses (other than as too large) is reported, however it
    arrives. *)
Theorem async_request_refused : forall X h e s s', ends_first h ->
  try_request X h = Fail e -> e <> PETooLarge -> aflows s h s' ->
  exists rest s2, await_head (try_request X) s =
      (PItem (inr e), mk_framed tt rest true false, s2) /\ s' = apush_back rest s2.
Proof. exact ThmHttp.async_request_refused_proof. Qed.
Print Assumptions async_request_refused.

Example async_request_refused_ex :
  try_request httparse_lib (str "GET / HTTP/2.0" ++ head_end) = Fail PEVersion.
Proof. reflexivity. Qed.

(** [C42] A stream without CRLFCRLF never yields a request or response, only its end: nothing
    came, or the connection was closed inside a head. *)
Theorem async_no_head : forall A (try : bytes -> pres A) s, undisturbed s ->
  ~ has_end (aev_bytes s) ->
  fst (fst (await_head try s)) =
    match aev_bytes s with [] => PEnd | _ => PErr (IoError (OtherKind 0)) end.
Proof. exact ThmHttp.async_no_head_proof. Qed.
Print Assumptions async_no_head.

Example async_no_head_ex : undisturbed [AData "G"%byte (str "ET"); ANotReady] /\
  await_head (try_request httparse_lib) [AData "G"%byte (str "ET"); ANotReady]
  = (PErr (IoError (OtherKind 0)), mk_framed tt (str "GET") true true, []).
Proof. split; [repeat constructor|reflexivity]. Qed.

(** ** Blocking reading *)

(** [C42] The blocking server gets the request however the bytes of its head are cut into
    reads, up to hyper's 409600 + 8192 bytes of buffer, and buffer and stream together show
    exactly what came after the head. *)
Theorem sync_request_read : forall X m t v fs head after s, sound_lib X -> sound_room X ->
  request_head X m t v fs head -> (length fs <= 100)%nat -> target_accepted X t ->
  llen head <= 417792 -> first_come head after s ->
  exists rest s2, parse_request X s
      = (Ok (mk_req (method_named m) t v (from_raw fs)), rest, s2) /\
    spread (push_back rest s2) = after.
Proof. exact ThmHttp.sync_request_read_proof. Qed.
Print Assumptions sync_request_read.

(** [C42] The same for the client and the response. *)
Theorem sync_response_read : forall X v code r fs head after s, sound_lib X -> sound_room X ->
  response_head X v code r fs head -> (length fs <= 100)%nat ->
  llen head <= 417792 -> first_come head after s ->
  exists rest s2, parse_response X s = (Ok (mk_resp v code r (from_raw fs)), rest, s2) /\
    spread (push_back rest s2) = after.
Proof. exact ThmHttp.sync_response_read_proof. Qed.
Print Assumptions sync_response_read.

Example sync_read_ex :
  let head := str "GET / HTTP/1.1" ++ head_end in
  let s := [RData "G"%byte (str "ET / HTT"); RData "P"%byte (str "/1.1" ++ head_end ++ [x81; x00]); RErr WouldBlock] in
  first_come head [inl x81; inl x00; inr (RErr WouldBlock)] s /\
  parse_request httparse_lib s = (Ok (mk_req Get (str "/") Http11 []), [x81; x00], [RErr WouldBlock]).
Proof. split; vm_compute; reflexivity. Qed.
Example sound_room_ex : sound_room httparse_lib.
Proof. split; [|reflexivity]. intros n H. apply N.lt_add_lt_sub_l. rewrite N.add_0_r. exact H. Qed.

(** [C42] Conversely a request the blocking server gets was there: the stream began with the
    bytes of its head, and buffer and stream together show what came after. *)
Theorem sync_request_only : forall X s q rest s2, sound_lib X ->
  parse_request X s = (Ok q, rest, s2) ->
  exists head m t v fs, first_come head (spread (push_back rest s2)) s /\
    request_head X m t v fs head /\ (length fs <= 100)%nat /\ target_accepted X t /\
    q = mk_req (method_named m) t v (from_raw fs).
Proof. exact ThmHttp.sync_request_only_proof. Qed.
Print Assumptions sync_request_only.

Example sync_request_only_ex :
  parse_request httparse_lib [RData "G"%byte (str "ET"); RData " "%byte (str "/ HTTP/1.1" ++ [x0a; x0a; x81]); RData x00 []]
  = (Ok (mk_req Get (str "/") Http11 []), [x81], [RData x00 []]).
Proof. reflexivity. Qed.

(** [C42] *)
Theorem sync_response_only : forall X s q rest s2, sound_lib X ->
  parse_response X s = (Ok q, rest, s2) ->
  exists head v code r fs, first_come head (spread (push_back rest s2)) s /\
    response_head X v code r fs head /\ (length fs <= 100)%nat /\
    q = mk_resp v code r (from_raw fs).
Proof. exact ThmHttp.sync_response_only_proof. Qed.
Print Assumptions sync_response_only.

Example sync_response_only_ex :
  parse_response httparse_lib [RData "H"%byte (str "TTP/1.1 404 Not Found" ++ head_end ++ str "no")]
  = (Ok (mk_resp Http11 404 (str "Not Found") []), str "no", []).
Proof. reflexivity. Qed.

(** [C10] Reading a head ends with a head or an error, on every stream. *)
Theorem sync_head_total : forall X s,
  (exists r, fst (fst (parse_request X s)) = Ok r) \/ (exists e, fst (fst (parse_request X s)) = Err e).
Proof. exact ThmHttp.sync_head_total_proof. Qed.
Print Assumptions sync_head_total.

Example sync_head_total_ex :
  fst (fst (parse_request httparse_lib [RData "G"%byte (str "ET / HTTP/2.0" ++ head_end)])) = Err PEVersion /\
  exists k, fst (fst (parse_request httparse_lib [])) = Err (PEIo k).
Proof. split; [reflexivity|]. eexists. reflexivity. Qed.

(** [C42] A stream that ends, fails or is interrupted inside the head makes the handshake
    fail with that, with the bytes of the head that came left in the buffer. *)
Theorem sync_request_cut : forall X m t v fs c d after k s, sound_lib X -> sound_room X ->
  request_head X m t v fs (c ++ d) -> (length fs <= 100)%nat -> target_accepted X t ->
  d <> [] -> llen c < 417792 -> first_come c after s -> stops after = Some k ->
  exists s2, parse_request X s = (Err (PEIo k), c, s2).
Proof. exact ThmHttp.sync_request_cut_proof. Qed.
Print Assumptions sync_request_cut.

Example sync_cut_ex :
  parse_request httparse_lib [RData "G"%byte (str "ET / HTT"); RIntr; RData "P"%byte (str "/1.1" ++ head_end)]
  = (Err (PEIo Interrupted), str "GET / HTT", [RData "P"%byte (str "/1.1" ++ head_end)]).
Proof. reflexivity. Qed.

(** [C42] *)
Theorem sync_response_cut : forall X v code r fs c d after k s, sound_lib X -> sound_room X ->
  response_head X v code r fs (c ++ d) -> (length fs <= 100)%nat ->
  d <> [] -> llen c < 417792 -> first_come c after s -> stops after = Some k ->
  exists s2, parse_response X s = (Err (PEIo k), c, s2).
Proof. exact ThmHttp.sync_response_cut_proof. Qed.
Print Assumptions sync_response_cut.

Example sync_response_cut_ex :
  parse_response httparse_lib [RData "H"%byte (str "TTP/1.1 1"); RErr WouldBlock; RData "0"%byte (str "1")]
  = (Err (PEIo WouldBlock), str "HTTP/1.1 1", [RData "0"%byte (str "1")]).
Proof. reflexivity. Qed.

(** ** Heads that get no answer *)

(** [C48] A request with more than 100 fields is too large for the parser. *)
Theorem request_too_many : forall X m t v fs head rest, sound_lib X ->
  request_head X m t v fs head -> (100 < length fs)%nat ->
  try_request X (head ++ rest) = Fail PETooLarge.
Proof. exact ThmHttp.request_too_many_proof. Qed.
Print Assumptions request_too_many.

(** [C48] The blocking server then reports the request as too large; the asynchronous one
    throws it away without a word: when the stream ends it looks as if nothing had come. *)
Theorem async_too_many_dropped : forall X m t v fs head s, sound_lib X ->
  request_head X m t v fs head -> (100 < length fs)%nat -> ends_first head -> aflows s head [] ->
  await_head (try_request X) s = (PEnd, mk_framed tt [] true true, []).
Proof. exact ThmHttp.async_too_many_dropped_proof. Qed.
Print Assumptions async_too_many_dropped.

Definition many : list field := repeat (str "A", str "b") 101.
Definition many_text : bytes :=
  str "GET / HTTP/1.1" ++ [CR; LF] ++ concat (repeat (str "A:b" ++ [CR; LF]) 101) ++ [CR; LF].
Example too_many_ex :
  try_request httparse_lib many_text = Fail PETooLarge /\
  split_off_http many_text = Some (many_text, []) /\
  await_head (try_request httparse_lib) (match many_text with b :: bs => [AData b bs] | [] => [] end)
  = (PEnd, mk_framed tt [] true true, []).
Proof. vm_compute. auto. Qed.

(** [C48] So not every complete request gets an answer: after empty lines, which the blocking
    server skips, the asynchronous one leaves a request that came with them in its buffer
    until more bytes come, though it answers the same bytes cut differently. *)
Theorem async_answers_refuted : exists X q b bs c cs,
  sound_lib X /\
  fst (fst (parse_request X [RData b (bs ++ c :: cs)])) = Ok q /\
  framed_poll (http_decode (try_request X)) [AData b bs; AData c cs; ANotReady] (framed_new tt [])
    = (PItem (inl q), mk_framed tt [] true false, [ANotReady]) /\
  framed_poll (http_decode (try_request X)) [AData b (bs ++ c :: cs); ANotReady] (framed_new tt [])
    = (PNotReady, mk_framed tt (c :: cs) false false, []).
Proof. exact ThmHttp.async_answers_refuted_proof. Qed.
Print Assumptions async_answers_refuted.

(** [C48] And a request whose lines end with LF alone, which the blocking server answers, the
    asynchronous one never sees: it waits, and at the end reports a broken connection. *)
Theorem async_lf_refuted : exists X q b bs,
  sound_lib X /\
  fst (fst (parse_request X [RData b bs])) = Ok q /\
  framed_poll (http_decode (try_request X)) [AData b bs; ANotReady] (framed_new tt [])
    = (PNotReady, mk_framed tt (b :: bs) false false, []) /\
  fst (fst (await_head (try_request X) [AData b bs; ANotReady])) = PErr (IoError (OtherKind 0)).
Proof. exact ThmHttp.async_lf_refuted_proof. Qed.
Print Assumptions async_lf_refuted.

(** [C49] An interrupted read, which everything after the handshake retries, makes the
    blocking handshake fail. *)
Theorem sync_interrupted_refuted : exists X b bs c cs,
  sound_lib X /\ sound_room X /\
  (exists q, fst (fst (parse_request X [RData b bs; RData c cs])) = Ok q) /\
  fst (fst (parse_request X [RData b bs; RIntr; RData c cs])) = Err (PEIo Interrupted).
Proof. exact ThmHttp.sync_interrupted_refuted_proof. Qed.
Print Assumptions sync_interrupted_refuted.
