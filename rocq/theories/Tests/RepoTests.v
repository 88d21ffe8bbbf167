(** The project's own unit tests and documentation tests, run on the model.  These are tests: they
    prove nothing about other inputs.  They check the transcription of the code, which cannot be
    run here, against what its authors say it does.  The masking keys, random in the code, are
    arbitrary ones.  Left out: tests that need a network, and benchmarks. *)
From Coq Require Import NArith String Bool List.
From Coq.Strings Require Import Byte.
From Verif.Model Require Import Base Io Header Mask Dataframe Utf8 Text Sha1 Base64 WsKey Headers Message Receiver Codec Framed Handshake Http HttpStream Connect.
Import ListNotations.
Local Open Scope string_scope.
Local Open Scope list_scope.
Local Open Scope N_scope.

Definition fox : bytes := str "The quick brown fox jumps over the lazy dog".
Definition some_key : mkey := mk_key x37 xfa x21 x3d.
Definition input (b : bytes) : script := match b with [] => [] | x :: l => [RData x l] end.
Definition ainput (b : bytes) : list aev := match b with [] => [] | x :: l => [AData x l] end.

(** ** websocket-base/src/ws/util/mask.rs:62-71 *)
Example test_mask_data :
  let key := mk_key x01 x02 x03 x04 in
  let original := [x0a; x0b; x0c; x0d; x0e; x0f; x10; x11] in
  let obtained := mask_data key original in
  obtained = [x0b; x09; x0f; x09; x0f; x0d; x13; x15] /\ mask_data key obtained = original.
Proof. vm_compute. split; reflexivity. Qed.

(** ** websocket-base/src/ws/util/header.rs:140-194 *)
Definition simple_header : dfheader := mk_header FIN 1 None 43.
Definition complex_header : dfheader := mk_header RSV1 2 (Some (mk_key x02 x04 x08 x10)) 512.
Definition complex_bytes : bytes := [x42; xfe; x02; x00; x02; x04; x08; x10].
Example test_read_header_simple : fst (read_header rd_exact (input [x81; x2b])) = Ok simple_header.
Proof. vm_compute. reflexivity. Qed.
Example test_write_header_simple : write_header simple_header = Ok [x81; x2b].
Proof. vm_compute. reflexivity. Qed.
Example test_read_header_complex : fst (read_header rd_exact (input complex_bytes)) = Ok complex_header.
Proof. vm_compute. reflexivity. Qed.
Example test_write_header_complex : write_header complex_header = Ok complex_bytes.
Proof. vm_compute. reflexivity. Qed.

(** ** websocket-base/src/dataframe.rs:225-289 *)
Definition fox_frame : dataframe := mk_df true no_rsv Text fox.
Example test_read_dataframe : fst (read_dataframe false (input ([x81; x2b] ++ fox))) = Ok fox_frame.
Proof. vm_compute. reflexivity. Qed.
Example read_incomplete_payloads :
  let data := [x8a; x08; x19; xac; xab; x8a; x52; x4e; x05; x00] in
  let payload := [x19; xac; xab; x8a; x52; x4e; x05; x00] in
  let read n := fst (read_dataframe false (input (firstn n data))) in
  read 1%nat = Err NoDataAvailable /\ read 6%nat = Err NoDataAvailable /\
  match read 10%nat with Ok f => f_data f = payload | _ => False end /\
  match fst (read_dataframe false (input (data ++ [xff]))) with Ok f => f_data f = payload | _ => False end.
Proof. vm_compute. repeat split; reflexivity. Qed.
Example test_write_dataframe :
  let '(r, w) := write_to (df_ops fox_frame) None (mk_w [] []) in r = Ok tt /\ w_out w = [x81; x2b] ++ fox.
Proof. vm_compute. split; reflexivity. Qed.

(** ** websocket-base/src/codec/ws.rs:357-411 *)
Definition size_right (d : dataframe_ops) : bool :=
  let right k := match write_to d k (mk_w [] []) with
                 | (Ok _, w) => llen (w_out w) =? frame_size d (match k with Some _ => true | None => false end)
                 | _ => false
                 end in
  right (Some some_key) && right None.
Definition lots (n : N) : bytes := repeat x2a (N.to_nat n).
Example owned_message_predicts_size :
  forallb (fun m => size_right (owned_ops m))
    [OText (str "nilbog"); OBinary [x01; x02; x03; x04]; OBinary (lots 256); OBinary (lots 65535); OBinary (lots 65555);
     OPing (str "beep"); OPong (str "boop"); OClose None; OClose (Some (mk_close 64 (str "because")))] = true.
Proof. vm_compute. reflexivity. Qed.
Example cow_message_predicts_size :
  forallb (fun m => size_right (msg_ops m))
    [msg_binary [x01; x02; x03; x04]; msg_binary (lots 256); msg_binary (lots 65535); msg_binary (lots 65555);
     msg_text (str "nilbog"); msg_ping (str "beep"); msg_pong (str "boop"); msg_close; msg_close_because 64 (str "because")] = true.
Proof. vm_compute. reflexivity. Qed.

(** ** websocket-base/src/codec/ws.rs:414-483 *)
Definition serialized (m : message) (k : option mkey) : bytes := w_out (snd (write_to (msg_ops m) k (mk_w [] []))).
Definition received (c : context) (b : bytes) : list owned := fst (run_messages (msg_codec_new c) [] (ainput b)).
(** [sink.send(m)] into a [Cursor], which takes everything at once. *)
Definition sent (is_server : bool) (m : message) : bytes :=
  let w := mk_fw (mk_bm [] 8192) [] [AwAccept 65535] [AfReady] in
  match start_send is_server (msg_ops m) some_key 0 w with
  | (SReady, w') => match poll_complete w' with (SReady, w'') => fw_out w'' | _ => [] end
  | _ => []
  end.
Example message_codec_client_send_receive :
  received CtxClient (serialized (msg_text (str "50 schmeckels")) None) = [OText (str "50 schmeckels")] /\
  received CtxServer (sent false (msg_text (str "ethan bradberry"))) = [to_owned (msg_text (str "ethan bradberry"))].
Proof. vm_compute. split; reflexivity. Qed.
Example message_codec_server_send_receive :
  received CtxServer (serialized (msg_text (str "50 schmeckels")) (Some some_key)) = [OText (str "50 schmeckels")] /\
  sent true (msg_text (str "ethan bradberry")) = serialized (msg_text (str "ethan bradberry")) None.
Proof. vm_compute. split; reflexivity. Qed.

(** ** websocket-base/src/message.rs:278-337 (documentation) *)
Example doc_kinds :
  is_close (OClose None) = true /\ is_control (OPing []) = true /\ is_control (OPong []) = true /\ is_control (OClose None) = true /\
  is_data (OText (str "1337")) = true /\ is_data (OBinary []) = true /\ is_ping (OPing (str "ping")) = true /\ is_pong (OPong (str "pong")) = true.
Proof. vm_compute. repeat split; reflexivity. Qed.

(** ** src/header/*.rs: [Headers::to_string] of a map with one field *)
Definition shown (n : bytes) (v : hval) : result bytes unit := print_headers (hset n (Typed v) []).
(** key.rs:67-92 *)
Example test_header_key :
  shown n_key (VKey (repeat x41 16)) = Ok (str "Sec-WebSocket-Key: QUFBQUFBQUFBQUFBQUFBQQ==" ++ crlf).
Proof. vm_compute. reflexivity. Qed.
Definition is_ok {A E : Type} (r : result A E) : bool := match r with Ok _ => true | _ => false end.
Example test_header_from_str :
  is_ok (key_from_str (str "YSByZWFsbCBnb29kIGtleQ==")) = true /\
  is_ok (key_from_str (str "YSBzaG9ydCBrZXk=")) = false /\
  is_ok (key_from_str (str "YSB2ZXJ5IHZlcnkgbG9uZyBrZXk=")) = false.
Proof. vm_compute. repeat split; reflexivity. Qed.
(** accept.rs:65-89 *)
Example test_header_accept :
  match key_from_str (str "dGhlIHNhbXBsZSBub25jZQ==") with
  | Ok key => shown n_accept (VAccept (accept_new key)) = Ok (str "Sec-WebSocket-Accept: s3pPLMBiTxaQ9kYGzzhZRbK+xOo=" ++ crlf)
  | _ => False
  end.
Proof. vm_compute. reflexivity. Qed.
Example test_header_from_str_accept :
  is_ok (accept_from_str (str "YSBzaW1wbGUgc2FtcGwgbm9uY2U=")) = true /\
  is_ok (accept_from_str (str "YSBzaG9ydCBub25jZQ==")) = false /\
  is_ok (accept_from_str (str "YSByZWFsbHkgbWFsaWNpb3VzIG5vbmNl")) = false.
Proof. vm_compute. repeat split; reflexivity. Qed.
(** version.rs:56-64 *)
Example test_websocket_version : shown n_version (VVersion WebSocket13) = Ok (str "Sec-WebSocket-Version: 13" ++ crlf).
Proof. vm_compute. reflexivity. Qed.
(** origin.rs:48-56 *)
Example test_header_origin : shown n_origin (VOrigin (str "foo bar")) = Ok (str "Origin: foo bar" ++ crlf).
Proof. vm_compute. reflexivity. Qed.
(** protocol.rs:50-61 *)
Example test_header_protocol :
  shown n_protocol (VProtocol [str "foo"; str "bar"]) = Ok (str "Sec-WebSocket-Protocol: foo, bar" ++ crlf).
Proof. vm_compute. reflexivity. Qed.
(** extensions.rs:136-149 *)
Example test_header_extensions :
  match parse_extensions [str "foo, bar; baz; qux=quux"] with
  | Some l => shown n_extensions (VExtensions l) = Ok (str "Sec-WebSocket-Extensions: foo, bar; baz; qux=quux" ++ crlf)
  | None => False
  end.
Proof. vm_compute. reflexivity. Qed.

(** ** src/client/builder.rs *)
(** [Url::parse] of the test's address (External: url 1.x), in parts. *)
Definition address (scheme : bytes) (host : bytes) (port : option N) (user : bytes) (password : option bytes) (resource : bytes) : builder :=
  builder_init (mk_url scheme (Some host) port user password resource).
Definition protos (r : result builder unit) : list bytes :=
  match r with Ok b => match get_protocols (E := unit) (b_headers b) with Ok (Some l) => l | _ => [] end | _ => [] end.
Definition exts (r : result builder unit) : list bytes :=
  match r with Ok b => match get_extensions (E := unit) (b_headers b) with Ok (Some l) => map x_name l | _ => [] end | _ => [] end.
(** builder.rs:1014-1035 *)
Example build_client_with_protocols :
  protos (add_protocol (str "protobeard") (address (str "ws") (str "127.0.0.1") (Some 8080) [] None (str "/hello/world"))) = [str "protobeard"] /\
  protos (rbind (add_protocol (str "rust-websocket") (address (str "ws") (str "example.org") None [] None (str "/hello")))
            (fun b => add_protocols [str "electric"; str "boogaloo"] (clear_protocols b))) = [str "electric"; str "boogaloo"].
Proof. vm_compute. split; reflexivity. Qed.
(** builder.rs:1038-1045 *)
Example build_client_with_username_password :
  hfind n_authorization (b_headers (build_request (repeat x00 16)
    (address (str "ws") (str "127.0.0.1") (Some 8080) (str "john") (Some (str "pswd")) (str "/hello"))))
  = Some (Typed (VBasic (str "john") (Some (str "pswd")))).
Proof. vm_compute. reflexivity. Qed.
(** builder.rs:180-184, :204-208, :239-247, :266-279 (documentation) *)
Example doc_protocols :
  let b := address (str "wss") (str "my-twitch-clone.rs") None [] None (str "/") in
  protos (add_protocol (str "my-chat-proto") b) = [str "my-chat-proto"] /\
  protos (add_protocols [str "pubsub"; str "sub.events"] b) = [str "pubsub"; str "sub.events"].
Proof. vm_compute. split; reflexivity. Qed.
Example doc_extensions :
  let b := address (str "wss") (str "moxie-chat.org") None [] None (str "/") in
  exts (add_extension (mk_ext (str "permessage-deflate") []) b) = [str "permessage-deflate"] /\
  exts (add_extensions [mk_ext (str "permessage-deflate") []; mk_ext (str "crypt-omemo") []] b) = [str "permessage-deflate"; str "crypt-omemo"].
Proof. vm_compute. split; reflexivity. Qed.
(** builder.rs:368-375 (documentation): [Authorization<String>] has no constructor of its own. *)
Example doc_custom_headers :
  hfind n_authorization (b_headers (custom_headers (hset n_authorization (Typed (VOther [str "let me in"])) [])
    (address (str "ws") (str "moz.illest") None [] None (str "/")))) = Some (Typed (VOther [str "let me in"])).
Proof. vm_compute. reflexivity. Qed.
(** builder.rs:478-500 (documentation) *)
Fixpoint contains (p l : bytes) : bool :=
  beqb p (firstn (List.length p) l) || match l with [] => false | _ :: l' => contains p l' end.
Definition test_ws : builder := set_key (str "the sample nonce") (address (str "wss") (str "test.ws") None [] None (str "/")).
Example doc_connect_on :
  match connect_on httparse_lib (repeat x00 16) test_ws
          (input (str "HTTP/1.1 101 Switching Protocols" ++ crlf ++ str "Upgrade: websocket" ++ crlf ++ str "Connection: Upgrade" ++ crlf
                  ++ str "Sec-WebSocket-Accept: s3pPLMBiTxaQ9kYGzzhZRbK+xOo=" ++ crlf ++ crlf)) (mk_w [] []) with
  | (Ok c, _, _) => contains (str "dGhlIHNhbXBsZSBub25jZQ==") (w_out (c_out c)) = true
  | _ => False
  end.
Proof. vm_compute. reflexivity. Qed.
(** builder.rs:743-765 (documentation) *)
Example doc_async_connect_on :
  match async_connect_on httparse_lib (repeat x00 16) test_ws 0
          (ainput (str "HTTP/1.1 101 Switching Protocols" ++ crlf ++ str "Upgrade: websocket" ++ crlf
                   ++ str "Sec-WebSocket-Protocol: proto-metheus" ++ crlf ++ str "Connection: Upgrade" ++ crlf
                   ++ str "Sec-WebSocket-Accept: s3pPLMBiTxaQ9kYGzzhZRbK+xOo=" ++ crlf ++ crlf))
          (mk_fw (mk_bm [] 8192) [] [AwAccept 65535] [AfReady]) with
  | Ok (_, h) => get_protocols (E := unit) h = Ok (Some [str "proto-metheus"])
  | _ => False
  end.
Proof. vm_compute. reflexivity. Qed.

(** ** src/codec/http.rs:262-311 *)
Definition http_sent (data : bytes) : spoll :=
  match http_start_send data 0 (mk_fw (mk_bm [] 8192) [] [AwAccept 65535] [AfReady]) with
  | (SReady, w) => fst (poll_complete w)
  | (r, _) => r
  end.
Example test_client_http_codec :
  match request_line (E := unit) (mk_req Get (str "/") Http11 []) with Ok d => http_sent d = SReady | _ => False end /\
  match http_responses httparse_lib (ainput (str "HTTP/1.1 404 Not Found" ++ crlf ++ crlf ++ str "pssst extra data here")) with
  | (r :: _, _) => rs_status r = 404
  | _ => False
  end.
Proof. vm_compute. split; reflexivity. Qed.
Example test_server_http_codec :
  match http_requests httparse_lib (ainput (str "GET / HTTP/1.0" ++ crlf ++ str "Host: www.rust-lang.org" ++ crlf ++ crlf)) with
  | (q :: _, _) => rq_method q = Get
  | _ => False
  end /\
  match print_response (E := unit) Http11 (str "404 Not Found") [] with Ok d => http_sent d = SReady | _ => False end.
Proof. vm_compute. split; reflexivity. Qed.
