(** After the handshake: messages between any client and any server: C09, C16, C36. *)
From Coq Require Import NArith ZArith String Bool List Lia Permutation.
From Coq.Strings Require Import Byte.
From Verif.Model Require Import Base Io Header Mask Dataframe Utf8 Text Base64 Sha1 WsKey Headers
  Handshake Message Receiver Codec Framed Http Connect.
From Verif.Spec Require Import RfcFrame FrameSpec Unicode Schedule Drive Session Sink Rfc4648 Fields Upgrade Builder
  HttpHead Connection Endpoint.
From Verif.Proofs Require Import ExTac.
From Verif.Proofs Require ThmSession.
Import ListNotations.
Local Open Scope string_scope.
Local Open Scope list_scope.
Local Open Scope N_scope.

(** ** Conversations *)

(** [C36] What any client (blocking or asynchronous) that made it through the handshake sends
    is received by any server that accepted a handshake: the same messages, in the same order,
    whatever the transports do, if no frame is larger than the server takes. *)
Theorem client_to_server : forall X dc ds ce se l wire,
  client_end X dc ce -> server_end ds se ->
  Forall (fun p => sendable (capped ds) (fst p)) l ->
  puts ce l wire -> gets se wire (map fst l).
Proof. exact ThmSession.client_to_server_proof. Qed.
Print Assumptions client_to_server.

(** An asynchronous client puts a text on the wire; a server that accepted receives it. *)
Example client_to_server_ex :
  let u := mk_url (ascii "ws") (Some (ascii "h")) None [] None (ascii "/") in
  let head := str "HTTP/1.1 101 Switching Protocols" ++ crlf ++ str "Connection: Upgrade" ++ crlf ++
    str "Upgrade: websocket" ++ crlf ++ str "Sec-WebSocket-Accept: s3pPLMBiTxaQ9kYGzzhZRbK+xOo=" ++ crlf ++ crlf in
  let req := str "GET / HTTP/1.1" ++ crlf ++ str "Upgrade: websocket" ++ crlf ++ str "Connection: upgrade" ++ crlf ++
    str "Sec-WebSocket-Key: dGhlIHNhbXBsZSBub25jZQ==" ++ crlf ++ crlf in
  let wire := [x81; x82; x01; x02; x03; x04; x69; x6b] in
  exists a h up sc,
    async_connect_on httparse_lib (ascii "the sample nonce") (builder_init u) 0 (apush_back head [])
      (mk_fw (mk_bm [] 0) [] [] []) = Ok (a, h) /\
    puts (Async a) [(OText (str "hi"), mk_key x01 x02 x03 x04)] wire /\
    into_ws httparse_lib (push_back req [RData x81 [x82; x01]; RData x02 [x03; x04; x69; x6b]]) (mk_w [] []) = Ok up /\
    internal_accept None 100 100 up = Ok sc /\ fst (client_recv_n 1 sc) = [Ok (OText (str "hi"))].
Proof.
  cbv zeta. do 4 eexists. split; [vm_compute; reflexivity|]. split.
  - eapply (async_puts _ _ [Send (owned_ops (OText (str "hi"))) (mk_key x01 x02 x03 x04) 0; Flush]).
    + repeat constructor. exists (OText (str "hi")). split; [reflexivity|]. facts.
    + vm_compute; reflexivity.
    + reflexivity.
    + reflexivity.
    + vm_compute; reflexivity.
  - split; [vm_compute; reflexivity|]. split; [vm_compute; reflexivity|]. vm_compute; reflexivity.
Qed.

(** [C36] And the other way round. *)
Theorem server_to_client : forall X dc ds ce se l wire,
  client_end X dc ce -> server_end ds se ->
  Forall (fun p => sendable (capped dc) (fst p)) l ->
  puts se l wire -> gets ce wire (map fst l).
Proof. exact ThmSession.server_to_client_proof. Qed.
Print Assumptions server_to_client.

Example conversation_ex :
  let req := str "GET / HTTP/1.1" ++ crlf ++ str "Upgrade: websocket" ++ crlf ++ str "Connection: upgrade" ++ crlf ++
    str "Sec-WebSocket-Key: dGhlIHNhbXBsZSBub25jZQ==" ++ crlf ++ crlf in
  exists up sc c',
    into_ws httparse_lib (push_back req []) (mk_w [] [WAccept 100; WIntr]) = Ok up /\
    internal_accept None 100 100 up = Ok sc /\
    client_run [SendMessage (OText (str "hello")) (mk_key x01 x02 x03 x04);
                SendMessage (OClose None) (mk_key x00 x00 x00 x00)] sc = ([Sent (Ok tt); Sent (Ok tt)], c') /\
    w_out (c_out c') = w_out (c_out sc) ++ [x81; x05] ++ str "hello" ++ [x88; x00].
Proof.
  eexists _, _, _. split; [vm_compute; reflexivity|]. split; [vm_compute; reflexivity|].
  split; vm_compute; reflexivity.
Qed.

(** [C09] A client masks every frame with the key drawn for it, a server none: the bytes on the
    wire are the RFC's encoding of those frames. *)
Theorem client_masks : forall X d e l wire max, client_end X d e -> max < 2 ^ 64 ->
  Forall (fun p => sendable max (fst p)) l -> puts e l wire ->
  octets wire = concat (map (fun p : owned * mkey =>
    rfc_encode (rfc_of_frame (whole_frame (fst p)) (Some (snd p)))) l).
Proof. exact ThmSession.client_masks_proof. Qed.
Print Assumptions client_masks.

(** A blocking client, after its handshake, says "hi". *)
Example client_masks_ex :
  let u := mk_url (ascii "ws") (Some (ascii "h")) None [] None (ascii "/") in
  let head := str "HTTP/1.1 101 Switching Protocols" ++ crlf ++ str "Connection: Upgrade" ++ crlf ++
    str "Upgrade: websocket" ++ crlf ++ str "Sec-WebSocket-Accept: s3pPLMBiTxaQ9kYGzzhZRbK+xOo=" ++ crlf ++ crlf in
  exists c, client_end httparse_lib (b_max_df (builder_init u)) (Blocking c) /\
    sendable 100 (OText (str "hi")) /\
    puts (Blocking c) [(OText (str "hi"), mk_key x01 x02 x03 x04)] [x81; x82; x01; x02; x03; x04; x69; x6b].
Proof.
  cbv zeta. eexists. split; [|split].
  - eapply (blocking_client _ (ascii "the sample nonce") (builder_init (mk_url (ascii "ws") (Some (ascii "h")) None [] None (ascii "/")))
      (push_back (str "HTTP/1.1 101 Switching Protocols" ++ crlf ++ str "Connection: Upgrade" ++ crlf ++
    str "Upgrade: websocket" ++ crlf ++ str "Sec-WebSocket-Accept: s3pPLMBiTxaQ9kYGzzhZRbK+xOo=" ++ crlf ++ crlf) []) (mk_w [] [WAccept 9])).
    vm_compute. reflexivity.
  - facts.
  - eapply blocking_puts; [vm_compute; reflexivity|repeat constructor|vm_compute; reflexivity].
Qed.

(** [C09] *)
Theorem server_does_not_mask : forall d e l wire max, server_end d e -> max < 2 ^ 64 ->
  Forall (fun p => sendable max (fst p)) l -> puts e l wire ->
  octets wire = concat (map (fun p : owned * mkey =>
    rfc_encode (rfc_of_frame (whole_frame (fst p)) None)) l).
Proof. exact ThmSession.server_does_not_mask_proof. Qed.
Print Assumptions server_does_not_mask.

Example server_does_not_mask_ex :
  let req := str "GET / HTTP/1.1" ++ crlf ++ str "Upgrade: websocket" ++ crlf ++ str "Connection: upgrade" ++ crlf ++
    str "Sec-WebSocket-Key: dGhlIHNhbXBsZSBub25jZQ==" ++ crlf ++ crlf in
  exists up c, into_ws httparse_lib (push_back req []) (mk_w [] []) = Ok up /\ internal_accept None 100 100 up = Ok c /\
    puts (Blocking c) [(OPing [x61], mk_key x01 x02 x03 x04)] [x89; x01; x61].
Proof.
  cbv zeta. eexists _, _. split; [vm_compute; reflexivity|]. split; [vm_compute; reflexivity|].
  eapply blocking_puts; [vm_compute; reflexivity|repeat constructor|vm_compute; reflexivity].
Qed.
