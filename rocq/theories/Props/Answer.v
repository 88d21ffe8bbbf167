(** The answer a server writes: C34. *)
From Coq Require Import NArith ZArith String Bool List Lia.
From Coq.Strings Require Import Byte.
From Verif.Model Require Import Base Io Header Mask Dataframe Utf8 Text Base64 Sha1 WsKey Headers
  Handshake Message Receiver Codec Framed Http Connect.
From Verif.Spec Require Import RfcFrame FrameSpec Unicode Rfc4648 Accept Fields Upgrade Builder HttpHead Connection Wire
  Answer.
From Verif.Proofs Require Import ExTac.
From Verif.Proofs Require ThmAnswer.
Import ListNotations.
Local Open Scope string_scope.
Local Open Scope list_scope.
Local Open Scope N_scope.

(** [C34] The blocking server's answer to a request it found valid, whatever headers were chosen
    and are added and whatever the transport does.  Accepting writes a response with the
    request's version and status 101, whose headers complete the handshake for the request's key
    and are otherwise the chosen and the custom ones; the connection holds these headers.  If
    the transport fails, a proper beginning of that response was written, and the stream is
    handed back.  It panics exactly if a header cannot be written. *)
Theorem accept_written : forall m t v fs custom max_df max_msg h0 buffer s w,
  unique_names h0 -> all_unique custom -> validate m v (from_raw fs) = Ok tt ->
  exists k h, key_field fs k /\ accepting custom h0 k h /\
    let text := answer_text v (ascii "101 Switching Protocols") (fields h) in
    match internal_accept custom max_df max_msg (mk_upgrade h0 (mk_req m t v (from_raw fs)) buffer s w) with
    | Ok c => c_headers c = h /\ w_out (c_out c) = w_out w ++ text /\ ~ unwritable h
    | Err (s', w', e) => s' = s /\ ~ unwritable h /\ ~ never_fails w /\
        exists n, w_out w' = w_out w ++ firstn n text /\ firstn n text <> text
    | Panic => unwritable h
    | OutOfFuel => False
    end.
Proof. exact ThmAnswer.accept_written_proof. Qed.
Print Assumptions accept_written.

(** The example of RFC 6455, 1.3; and a transport that breaks after twenty bytes. *)
Example accept_written_ex :
  let fs := [(ascii "Upgrade", ascii "websocket"); (ascii "Connection", ascii "Upgrade");
             (ascii "Sec-WebSocket-Key", ascii "dGhlIHNhbXBsZSBub25jZQ==")] in
  let u w := mk_upgrade [(ascii "Sec-WebSocket-Protocol", Typed (VProtocol [ascii "chat"]))]
               (mk_req Get (ascii "/") Http11 (from_raw fs)) None [] w in
  validate Get Http11 (from_raw fs) = Ok tt /\
  (exists c, accept (u (mk_w [] [])) = Ok c /\
     w_out (c_out c) = ascii "HTTP/1.1 101 Switching Protocols" ++ [CR; LF] ++ ascii "Sec-WebSocket-Protocol: chat" ++ [CR; LF] ++
       ascii "Sec-WebSocket-Accept: s3pPLMBiTxaQ9kYGzzhZRbK+xOo=" ++ [CR; LF] ++
       ascii "Connection: Upgrade" ++ [CR; LF] ++ ascii "Upgrade: websocket" ++ [CR; LF; CR; LF]) /\
  accept (u (mk_w [] [WAccept 19; WErr ConnectionReset]))
  = Err ([], mk_w (ascii "HTTP/1.1 101 Switchi") [], ConnectionReset).
Proof. split; [reflexivity|]. split; [eexists; split; [reflexivity|]; vm_compute; reflexivity|]. vm_compute. reflexivity. Qed.

(** [C34] Rejecting writes a response with the request's version and status 400, whose headers
    are the chosen and the custom ones and nothing else, and hands the stream back. *)
Theorem reject_written : forall m t v req custom h0 buffer s w,
  unique_names h0 -> all_unique custom ->
  exists h, rejecting custom h0 h /\
    let text := answer_text v (ascii "400 Bad Request") (fields h) in
    match reject custom (mk_upgrade h0 (mk_req m t v req) buffer s w) with
    | Ok (s', w') => s' = s /\ w_out w' = w_out w ++ text /\ ~ unwritable h
    | Err (s', w', e) => s' = s /\ ~ unwritable h /\ ~ never_fails w /\
        exists n, w_out w' = w_out w ++ firstn n text /\ firstn n text <> text
    | Panic => unwritable h
    | OutOfFuel => False
    end.
Proof. exact ThmAnswer.reject_written_proof. Qed.
Print Assumptions reject_written.

Example reject_written_ex :
  exists w', reject (Some [(ascii "Server", Raw [ascii "x"])])
    (mk_upgrade [] (mk_req Get (ascii "/") Http11 []) (Some (ascii "more")) (push_back (ascii "later") []) (mk_w [] []))
  = Ok (push_back (ascii "later") [], w') /\
  w_out w' = ascii "HTTP/1.1 400 Bad Request" ++ [CR; LF] ++ ascii "Server: x" ++ [CR; LF; CR; LF].
Proof. eexists. split; reflexivity. Qed.

(** [C34] The same for the asynchronous server: behind what was buffered for the transport
    before, accepting writes the response with status 101, and rejecting the one with status
    400; and they fail only if the transport does. *)
Theorem async_answer_written : forall m t v fs custom max_df max_msg extra h0 buffer s w,
  unique_names h0 -> all_unique custom -> validate m v (from_raw fs) = Ok tt ->
  let u := mk_aupgrade h0 (mk_req m t v (from_raw fs)) buffer s w in
  let sent text w' := fw_out w' = fw_out w ++ bm_data (fw_buf w) ++ text /\ bm_data (fw_buf w') = [] in
  (exists k h, key_field fs k /\ accepting custom h0 k h /\
    match async_accept custom max_df max_msg extra u with
    | Ok (a, h') => h' = h /\ sent (answer_text v (ascii "101 Switching Protocols") (fields h)) (ac_out a) /\ ~ unwritable h
    | Err e => ~ afails_never w /\ ~ unwritable h
    | Panic => unwritable h
    | OutOfFuel => False
    end) /\
  (exists h, rejecting custom h0 h /\
    match async_reject custom extra u with
    | Ok (f, s', w') => s' = s /\ sent (answer_text v (ascii "400 Bad Request") (fields h)) w' /\ ~ unwritable h
    | Err e => ~ afails_never w /\ ~ unwritable h
    | Panic => unwritable h
    | OutOfFuel => False
    end).
Proof. exact ThmAnswer.async_answer_written_proof. Qed.
Print Assumptions async_answer_written.

Example async_answer_written_ex :
  let fs := [(ascii "Upgrade", ascii "websocket"); (ascii "Connection", ascii "Upgrade");
             (ascii "Sec-WebSocket-Key", ascii "dGhlIHNhbXBsZSBub25jZQ==")] in
  let w := mk_fw (mk_bm [] 0) [] [] [] in
  let u := mk_aupgrade [] (mk_req Get (ascii "/") Http11 (from_raw fs)) [] [] w in
  exists a h, async_accept_plain 0 u = Ok (a, h) /\
    fw_out (ac_out a) = ascii "HTTP/1.1 101 Switching Protocols" ++ [CR; LF] ++
      ascii "Sec-WebSocket-Accept: s3pPLMBiTxaQ9kYGzzhZRbK+xOo=" ++ [CR; LF] ++
      ascii "Connection: Upgrade" ++ [CR; LF] ++ ascii "Upgrade: websocket" ++ [CR; LF; CR; LF].
Proof. do 2 eexists. split; [vm_compute; reflexivity|]. vm_compute. reflexivity. Qed.
