(** The clients of the Autobahn test suite: C78. *)
From Coq Require Import NArith ZArith String Bool List Lia.
From Coq.Strings Require Import Byte.
From Verif.Model Require Import Base Io Header Mask Dataframe Utf8 Text Base64 WsKey Headers
  Handshake Message Receiver Codec Framed Http Connect Examples AsyncExamples Suite.
From Verif.Spec Require Import RfcFrame FrameSpec Schedule Unicode Drive Session Connection Polled Fields Upgrade Builder HttpHead Wire Endpoint Echo Polls Chat Suite.
From Verif.Proofs Require Import ExTac.
From Verif.Proofs Require ThmSuite.
Import ListNotations.
Local Open Scope string_scope.
Local Open Scope list_scope.
Local Open Scope N_scope.

(** ** The blocking loops *)

(** [C78] The URLs the test suite's clients use are the fuzzing server's address followed by the
    path; the number of a test case is written in decimal without leading zeros, so that
    different cases have different URLs, none of them that of the count or of the reports. *)
Theorem suite_urls :
  count_url = url_of (ascii "/getCaseCount") /\ reports_url = url_of (ascii "/updateReports?agent=rust-websocket") /\
  (forall n, n < 2 ^ 64 -> exists p, case_path n p /\ case_url n = url_of p) /\
  (forall n m, n < 2 ^ 64 -> m < 2 ^ 64 -> case_url n = case_url m -> n = m) /\
  (forall n, case_url n <> count_url /\ case_url n <> reports_url) /\ count_url <> reports_url.
Proof. exact ThmSuite.suite_urls_proof. Qed.
Print Assumptions suite_urls.

Example case_url_ex : case_url 301 = ascii "ws://127.0.0.1:9001/runCase?case=301&agent=rust-websocket" /\ numeral (ascii "301") 301.
Proof.
  split; [reflexivity|]. apply (numeral_more (ascii "30") 30 x31 1); [|split; [lia|reflexivity]].
  apply (numeral_more (ascii "3") 3 x30 0); [|split; [lia|reflexivity]]. apply (numeral_one x33 3). split; [lia|reflexivity].
Qed.

(** [C78] A test case of the blocking client: whatever the fuzzing server sends, and however its
    stream ends, the messages up to the first Close or the first error are answered in order as
    an echo has to (pings with pongs, pongs not at all), each in a frame masked with a key of its
    own, and then exactly one Close without a status is written. *)
Theorem case_echoed : forall W n c ks, made c -> never_fails (c_out c) -> W (case_url n) = Connected c None ks ->
  exists ms x w', hears c ms x /\ run_case W n = (Returned, [(case_url n, Some w')]) /\
    octets (w_out w') = octets (w_out (c_out c)) ++ client_says (with_keys ks (flat_map echo ms ++ [OClose None])).
Proof. exact ThmSuite.case_echoed_proof. Qed.
Print Assumptions case_echoed.

(** [C78] How many cases there are: the blocking client takes every text for the number of cases,
    the last one counting, and none meaning no cases; a text that is not a number is a panic.
    Pings are answered; in the end a Close is written, with the status 1002 after an error. *)
Theorem count_heard : forall W c ks, made c -> never_fails (c_out c) -> W count_url = Connected c None ks ->
  exists ms x e n w', hears c ms x /\ get_case_count W = (e, n, [(count_url, Some w')]) /\
    (forall k, announces (texts ms) k -> e = Returned /\ n = k /\
       octets (w_out w') = octets (w_out (c_out c)) ++
         client_says (with_keys ks (pongs ms ++ [match x with Ok _ => OClose None | _ => OClose (Some (mk_close 1002 [])) end]))) /\
    ((exists t, In t (texts ms) /\ forall k, ~ names_number t k) -> e = Panicked).
Proof. exact ThmSuite.count_heard_proof. Qed.
Print Assumptions count_heard.

(** [C78] Updating the reports: the blocking client waits for a Close or an error, answers pings
    meanwhile, and writes one Close. *)
Theorem reports_updated : forall W c ks, made c -> never_fails (c_out c) -> W reports_url = Connected c None ks ->
  exists ms x w', hears c ms x /\ update_reports W = (Returned, [(reports_url, Some w')]) /\
    octets (w_out w') = octets (w_out (c_out c)) ++ client_says (with_keys ks (pongs ms ++ [OClose None])).
Proof. exact ThmSuite.reports_updated_proof. Qed.
Print Assumptions reports_updated.

(** [C78] The whole suite, blocking: when the fuzzing server announces [n] cases and lets itself
    be reached, the client makes exactly these connections, in this order, each to its end: the
    count, the cases from 1 to [n], and the reports. *)
Theorem suite_runs : forall W n, tells W n -> n < 2 ^ 64 - 1 ->
  (forall i, 1 <= i <= n -> reached W (case_url i)) -> reached W reports_url ->
  exists vs, autobahn_client W = (Returned, vs) /\ Forall (fun v => snd v <> None) vs /\
    map fst vs = count_url :: map case_url (upto 1 (N.to_nat n)) ++ [reports_url].
Proof. exact ThmSuite.suite_runs_proof. Qed.
Print Assumptions suite_runs.

(** [C78] The first case that cannot be connected to ends the blocking client with a panic: the
    cases after it are not run and the reports are not updated. *)
Theorem suite_stops : forall W n k, tells W n -> n < 2 ^ 64 - 1 -> 1 <= k <= n ->
  (forall i, 1 <= i < k -> reached W (case_url i)) -> W (case_url k) = NotConnected ->
  exists vs, autobahn_client W = (Panicked, vs) /\ map fst vs = count_url :: map case_url (upto 1 (N.to_nat k)).
Proof. exact ThmSuite.suite_stops_proof. Qed.
Print Assumptions suite_stops.

(** A fuzzing server: the handshake is granted, then come the bytes of the URL's connection. *)
Definition a_url : url := mk_url (ascii "ws") (Some (ascii "127.0.0.1")) (Some 9001) [] None (ascii "/").
Definition a_head : bytes := str "HTTP/1.1 101 Switching Protocols" ++ crlf ++ str "Connection: Upgrade" ++ crlf ++
    str "Upgrade: websocket" ++ crlf ++ str "Sec-WebSocket-Accept: s3pPLMBiTxaQ9kYGzzhZRbK+xOo=" ++ crlf ++ crlf.
Definition dialled (bs : bytes) : attempt :=
  match connect_on httparse_lib (ascii "the sample nonce") (builder_init a_url)
      (push_back (a_head ++ bs) []) (mk_w [] [WAccept 3; WIntr; WAccept 2000; WAccept 1]) with
  | (Ok c, _, _) => Connected c None (fun n => mk_key x00 x00 x00 (match n with O => x00 | _ => xff end))
  | _ => NotConnected
  end.
Definition fuzzer (u : bytes) : attempt :=
  if beqb u count_url then dialled [x81; x01; x32; x88; x00]
  else if beqb u (case_url 1) then dialled [x82; x01; x61; x8a; x00; x89; x01; x70; x88; x02; x03; xe8; xff]
  else if beqb u (case_url 2) then dialled [x81; x01; x62; xff; xff]
  else if beqb u reports_url then dialled [x88; x00]
  else NotConnected.
Example suite_runs_ex :
  reached fuzzer (case_url 1) /\ reached fuzzer (case_url 2) /\ tells fuzzer 2 /\
  exists vs, autobahn_client fuzzer = (Returned, vs) /\
   map fst vs = [count_url; case_url 1; case_url 2; reports_url] /\
   exists w, nth_error vs 1 = Some (case_url 1, Some w) /\
     drop (llen (w_out w) - 20) (w_out w) = [x82; x81; x00; x00; x00; x00; x61] ++ [x8a; x81; x00; x00; x00; xff; x70] ++ [x88; x80; x00; x00; x00; xff].
Proof.
  assert (M : forall bs c f ks, dialled bs = Connected c f ks -> made c).
  { intros bs c f ks H. unfold dialled in H.
    match type of H with match connect_on ?X ?r ?b ?s ?w with _ => _ end = _ => destruct (connect_on X r b s w) as [[[c'|e| |] b'] w'] eqn:E end;
      try discriminate H. injection H as <- _ _. unfold made. eauto 10. }
  split; [|split; [|split]].
  - unfold reached. eexists _, _. split; [vm_compute; reflexivity|]. split; [eapply (M [x82; x01; x61; x8a; x00; x89; x01; x70; x88; x02; x03; xe8; xff]); vm_compute; reflexivity|].
    vm_compute. repeat constructor.
  - unfold reached. eexists _, _. split; [vm_compute; reflexivity|]. split; [eapply (M [x81; x01; x62; xff; xff]); vm_compute; reflexivity|].
    vm_compute. repeat constructor.
  - unfold tells. eexists _, _, [OText [x32]], (Ok (OClose None)). split; [vm_compute; reflexivity|].
    split; [eapply (M [x81; x01; x32; x88; x00]); vm_compute; reflexivity|]. split; [vm_compute; repeat constructor|].
    split; [split; [vm_compute; reflexivity|split; [repeat constructor; intros []|exact I]]|].
    apply (announces_last [] [x32] 2); [constructor|]. split; [reflexivity|]. left. apply numeral_one. split; [lia|reflexivity].
  - eexists. split; [vm_compute; reflexivity|]. split; [reflexivity|]. eexists. split; [reflexivity|]. vm_compute. reflexivity.
Qed.
(** The second case cannot be reached. *)
Example suite_stops_ex :
  let W u := if beqb u (case_url 2) then NotConnected else fuzzer u in
  fst (autobahn_client W) = Panicked /\ map fst (snd (autobahn_client W)) = [count_url; case_url 1; case_url 2].
Proof. cbv zeta. split; vm_compute; reflexivity. Qed.

(** [C78] Without a server, or when its handshake fails, the blocking client takes it that there
    are no cases: it only tries to update the reports, and ends as if all had gone well. *)
Theorem suite_without_server : forall W, W count_url = NotConnected -> W reports_url = NotConnected ->
  autobahn_client W = (Returned, [(count_url, None); (reports_url, None)]).
Proof. exact ThmSuite.suite_without_server_proof. Qed.
Print Assumptions suite_without_server.

(** ** Asynchronous *)

(** [C78] A test case of the asynchronous client: the messages up to the first Close are answered
    as above, and every answer has been flushed when the next message is asked for - so none is
    lost if reading fails then (the asynchronous echo server loses them, C69).  A Close is
    written after a Close and after an error, but not if the stream just ends. *)
Theorem async_case_echoed : forall W extra n a ks, amade a -> afails_never (ac_out a) -> W (case_url n) = AConnected a ks ->
  exists ms rest e w', run_messages (fr_st (ac_read a)) (fr_buf (ac_read a)) (ac_in a) = (ms ++ rest, e) /\
    Forall (fun m => ~ closing m) ms /\ (rest = [] \/ exists c more, rest = OClose c :: more) /\
    arun_case W extra n = (Returned, (case_url n, Some w')) /\ bm_data (fw_buf w') = [] /\
    octets (fw_out w') = octets (fw_out (ac_out a)) ++ client_says (with_keys ks (flat_map echo ms ++
      match rest, e with [], PEnd => [] | _, _ => [OClose None] end)).
Proof. exact ThmSuite.async_case_echoed_proof. Qed.
Print Assumptions async_case_echoed.

(** [C78] How many cases there are, asynchronously: the first message has to be a text with a
    number in it; anything else - even a ping before it - makes the client panic, as does a
    failed connection. *)
Theorem async_count_heard : forall W a ks, amade a -> W count_url = AConnected a ks ->
  exists o, aget_case_count W = (o, [(count_url, Some (ac_out a))]) /\
    (forall n, o = Some n <-> exists t l e, names_number t n /\
       run_messages (fr_st (ac_read a)) (fr_buf (ac_read a)) (ac_in a) = (OText t :: l, e)) /\
    (o = None -> forall extra, async_autobahn_client W extra = (Panicked, [(count_url, Some (ac_out a))])).
Proof. exact ThmSuite.async_count_heard_proof. Qed.
Print Assumptions async_count_heard.

(** [C78] The whole suite, asynchronously: when the first message from the server is the number
    [n], the client dials the cases from 1 to [n] in order and then the reports, whatever
    becomes of the cases - those that cannot be connected to, or fail, are skipped.  Only for the
    reports the connection has to be made and the Close sent: it panics otherwise. *)
Theorem async_suite_runs : forall W extra a0 ks0 t l e n,
  amade a0 -> W count_url = AConnected a0 ks0 ->
  run_messages (fr_st (ac_read a0)) (fr_buf (ac_read a0)) (ac_in a0) = (OText t :: l, e) -> names_number t n -> n < 2 ^ 64 - 1 ->
  (forall i a ks, W (case_url i) = AConnected a ks -> amade a) ->
  exists r vs, async_autobahn_client W extra = (r, vs) /\
    map fst vs = count_url :: map case_url (upto 1 (N.to_nat n)) ++ [reports_url] /\
    (W reports_url = ANotConnected -> r = Panicked) /\
    (forall a ks, W reports_url = AConnected a ks -> amade a -> afails_never (ac_out a) ->
       r = Returned /\ exists vs' w', vs = vs' ++ [(reports_url, Some w')] /\ bm_data (fw_buf w') = [] /\
         octets (fw_out w') = octets (fw_out (ac_out a)) ++ client_says [(OClose None, ks O)]).
Proof. exact ThmSuite.async_suite_runs_proof. Qed.
Print Assumptions async_suite_runs.

Definition adialled (s : list aev) : aattempt :=
  match async_connect_on httparse_lib (ascii "the sample nonce") (builder_init a_url) 0
      (apush_back a_head s) (mk_fw (mk_bm [] 0) [] [AwAccept 5; AwNotReady] [AfReady; AfNotReady]) with
  | Ok (a, _) => AConnected a (fun _ => mk_key x00 x00 x00 x00)
  | _ => ANotConnected
  end.
(** The first case is a text and then what is not a frame; the second cannot be reached. *)
Definition afuzzer (u : bytes) : aattempt :=
  if beqb u count_url then adialled [ANotReady; AData x81 [x01; x32]; AData x88 [x00]]
  else if beqb u (case_url 1) then adialled [AData x81 [x01; x61; xff]; ANotReady; AData xff []]
  else if beqb u reports_url then adialled []
  else ANotConnected.
Example async_suite_runs_ex :
  (exists a ks, afuzzer (case_url 1) = AConnected a ks /\ amade a /\ afails_never (ac_out a)) /\
  exists vs, async_autobahn_client afuzzer 0 = (Returned, vs) /\
   map fst vs = [count_url; case_url 1; case_url 2; reports_url] /\
   exists w, nth_error vs 1 = Some (case_url 1, Some w) /\ bm_data (fw_buf w) = [] /\
     drop (llen (fw_out w) - 13) (fw_out w) = [x81; x81; x00; x00; x00; x00; x61] ++ [x88; x80; x00; x00; x00; x00].
Proof.
  assert (M : forall s a ks, adialled s = AConnected a ks -> amade a).
  { intros s a ks H. unfold adialled in H.
    match type of H with match async_connect_on ?X ?r ?b ?x ?s ?w with _ => _ end = _ => destruct (async_connect_on X r b x s w) as [[a' h]|e| |] eqn:E end;
      try discriminate H. injection H as <- _. unfold amade. eauto 10. }
  split.
  - eexists _, _. split; [vm_compute; reflexivity|]. split; [eapply (M [AData x81 [x01; x61; xff]; ANotReady; AData xff []]); vm_compute; reflexivity|].
    split; vm_compute; repeat constructor.
  - eexists. split; [vm_compute; reflexivity|]. split; [reflexivity|]. eexists. split; [reflexivity|]. split; vm_compute; reflexivity.
Qed.

(** [C78] Refuted: the two clients do not do the same.  A server that sends a ping before the
    number of cases is answered by the blocking client, which then runs the cases; the
    asynchronous one gives up. *)
Theorem async_count_after_ping_refuted : exists bs,
  (forall ks fuel w, never_fails w -> (10 < fuel)%nat -> exists w',
     count_loop fuel ks 0 (mk_reader (receiver_with_limits false 100 100) bs []) (mk_writer (mk_sender true) w)
     = (Returned, 7, mk_writer (mk_sender true) w')) /\
  (forall W w ks, W count_url = AConnected (mk_aclient (framed_new (msg_codec_with_limits CtxClient 100 100) bs) [] w) ks ->
     forall extra, async_autobahn_client W extra = (Panicked, [(count_url, Some w)])).
Proof. exact ThmSuite.async_count_after_ping_refuted_proof. Qed.
Print Assumptions async_count_after_ping_refuted.
