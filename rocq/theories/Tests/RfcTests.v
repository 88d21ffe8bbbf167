(** The examples printed in the RFCs, run on the model.  These are tests, like Tests/RepoTests.v: they
    check the transcription, and prove nothing about other inputs. *)
From Coq Require Import NArith String Bool List.
From Coq.Strings Require Import Byte.
From Verif.Model Require Import Base Io Header Mask Dataframe Utf8 Text Sha1 Base64 WsKey Headers Message Receiver Codec Framed Handshake Http Connect.
From Verif.Tests Require Import RepoTests.
Import ListNotations.
Local Open Scope string_scope.
Local Open Scope list_scope.
Local Open Scope N_scope.

(** The blocking and the asynchronous receiver, on the same bytes, until they end. *)
Fixpoint recv_all (n : nat) (r : receiver) (s : script) : list owned * result owned ws_error :=
  match n with
  | O => ([], OutOfFuel)
  | S n' =>
      match recv_message r s with
      | (Ok m, r', s') => let '(l, e) := recv_all n' r' s' in (m :: l, e)
      | (e, _, _) => ([], e)
      end
  end.
(** Both get [ms] and then find the stream at its end. *)
Definition both_get (server : bool) (b : bytes) (ms : list owned) : Prop :=
  recv_all 9 (receiver_new server) (input b) = (ms, Err NoDataAvailable) /\
  run_messages (msg_codec_new (if server then CtxServer else CtxClient)) [] (ainput b) = (ms, PEnd).
(** Both refuse what follows [ms] with the same error. *)
Definition both_refuse (server : bool) (b : bytes) (ms : list owned) (e : ws_error) : Prop :=
  recv_all 9 (receiver_new server) (input b) = (ms, Err e) /\
  run_messages (msg_codec_new (if server then CtxServer else CtxClient)) [] (ainput b) = (ms, PErr e).
Ltac check := vm_compute; repeat split; reflexivity.

(** ** RFC 6455 section 5.7 *)
Definition hello := str "Hello".
Definition masked_hello : bytes := [x81; x85; x37; xfa; x21; x3d; x7f; x9f; x4d; x51; x58].
Example rfc6455_unmasked_text : both_get false ([x81; x05] ++ hello) [OText hello] /\ serialized (msg_text hello) None = [x81; x05] ++ hello.
Proof. check. Qed.
Example rfc6455_masked_text : both_get true masked_hello [OText hello] /\ serialized (msg_text hello) (Some some_key) = masked_hello.
Proof. check. Qed.
Example rfc6455_fragmented_text : both_get false ([x01; x03; x48; x65; x6c] ++ [x80; x02; x6c; x6f]) [OText hello].
Proof. check. Qed.
Example rfc6455_ping : both_get false ([x89; x05] ++ hello) [OPing hello] /\ serialized (msg_ping hello) None = [x89; x05] ++ hello.
Proof. check. Qed.
Example rfc6455_masked_pong :
  both_get true (x8a :: tl masked_hello) [OPong hello] /\ serialized (msg_pong hello) (Some some_key) = x8a :: tl masked_hello.
Proof. check. Qed.
Example rfc6455_binary_256 :
  both_get false ([x82; x7e; x01; x00] ++ lots 256) [OBinary (lots 256)] /\
  serialized (msg_binary (lots 256)) None = [x82; x7e; x01; x00] ++ lots 256.
Proof. check. Qed.
Example rfc6455_binary_64k :
  firstn 10 (serialized (msg_binary (lots 65536)) None) = [x82; x7f; x00; x00; x00; x00; x00; x01; x00; x00].
Proof. check. Qed.

(** ** RFC 6455 section 1.2 and 1.3: the opening handshake *)
Definition line (s : string) : bytes := str s ++ crlf.
Definition sample_request : bytes :=
  line "GET /chat HTTP/1.1" ++ line "Host: server.example.com" ++ line "Upgrade: websocket" ++ line "Connection: Upgrade"
  ++ line "Sec-WebSocket-Key: dGhlIHNhbXBsZSBub25jZQ==" ++ line "Origin: http://example.com"
  ++ line "Sec-WebSocket-Protocol: chat, superchat" ++ line "Sec-WebSocket-Version: 13" ++ crlf.
Definition sample_response : bytes :=
  line "HTTP/1.1 101 Switching Protocols" ++ line "Upgrade: websocket" ++ line "Connection: Upgrade"
  ++ line "Sec-WebSocket-Accept: s3pPLMBiTxaQ9kYGzzhZRbK+xOo=" ++ line "Sec-WebSocket-Protocol: chat" ++ crlf.
Example rfc6455_server_side :
  match into_ws httparse_lib (input sample_request) (mk_w [] []) with
  | Ok u =>
      match accept u with
      | Ok c => contains (line "Sec-WebSocket-Accept: s3pPLMBiTxaQ9kYGzzhZRbK+xOo=") (w_out (c_out c)) = true /\
                firstn (List.length (line "HTTP/1.1 101 Switching Protocols")) (w_out (c_out c)) = line "HTTP/1.1 101 Switching Protocols"
      | _ => False
      end
  | _ => False
  end.
Proof. check. Qed.
Example rfc6455_client_side :
  match connect_on httparse_lib (repeat x00 16)
          (set_key (str "the sample nonce") (address (str "ws") (str "server.example.com") None [] None (str "/chat")))
          (input sample_response) (mk_w [] []) with
  | (Ok c, _, w) => get_protocols (E := unit) (c_headers c) = Ok (Some [str "chat"]) /\
                    contains (line "Sec-WebSocket-Key: dGhlIHNhbXBsZSBub25jZQ==") (w_out w) = true
  | _ => False
  end.
Proof. check. Qed.

(** ** RFC 6455 section 5: what is refused *)
Example rfc6455_refused :
  (* a reserved bit, 5.2 *)
  both_refuse false ([xc1; x05] ++ hello) [] (ProtocolError "Unsupported reserved bits received") /\
  (* a reserved opcode, 5.2 *)
  both_refuse false ([x83; x05] ++ hello) [] (ProtocolError "Unsupported opcode received") /\
  (* a length that is not the shortest form, 5.2 *)
  both_refuse false ([x81; x7e; x00; x05] ++ hello) [] (DataFrameError "Invalid data frame length") /\
  (* a control frame in parts, 5.5 *)
  both_refuse false ([x09; x05] ++ hello) [] (ProtocolError "Illegal fragmented control frame") /\
  (* a frame that continues nothing, 5.4 *)
  both_refuse false ([x80; x05] ++ hello) [] (ProtocolError "Unexpected continuation data frame opcode") /\
  (* masked by a server, 5.1, and not masked by a client, 5.1 *)
  both_refuse false masked_hello [] (DataFrameError "Expected unmasked data frame") /\
  both_refuse true ([x81; x05] ++ hello) [] (DataFrameError "Expected masked data frame") /\
  (* text that is not UTF-8, 8.1 *)
  both_refuse false [x81; x02; xc0; x80] [] Utf8Error.
Proof. check. Qed.

(** ** RFC 4648 section 10 *)
Example rfc4648_vectors :
  map (fun s => b64_encode (str s)) [""; "f"; "fo"; "foo"; "foob"; "fooba"; "foobar"]
  = map str [""; "Zg=="; "Zm8="; "Zm9v"; "Zm9vYg=="; "Zm9vYmE="; "Zm9vYmFy"] /\
  map (fun s => b64_decode (str s)) [""; "Zg=="; "Zm8="; "Zm9v"; "Zm9vYg=="; "Zm9vYmE="; "Zm9vYmFy"]
  = map (fun s => Some (str s)) [""; "f"; "fo"; "foo"; "foob"; "fooba"; "foobar"].
Proof. check. Qed.

(** ** RFC 3174 section 7.3, and FIPS 180-1 appendix B *)
Definition hex (l : bytes) : N := fold_left (fun n b => n * 256 + b2n b) l 0.
Example sha1_vectors :
  hex (sha1 (str "abc")) = 0xA9993E364706816ABA3E25717850C26C9CD0D89D /\
  hex (sha1 (str "abcdbcdecdefdefgefghfghighijhijkijkljklmklmnlmnomnopnopq")) = 0x84983E441C3BD26EBAAE4AA1F95129E5E54670F1 /\
  hex (sha1 (repeat x61 (N.to_nat 1000))) = 0x291E9A6C66994949B57BA5E650361E98FC36B1BA /\
  hex (sha1 (concat (repeat (str "0123456701234567012345670123456701234567012345670123456701234567") 10))) = 0xDEA356A2CDDD90C7A7ECEDC5EBB563934F460452.
Proof. check. Qed.

(** ** RFC 3629 section 7, and what section 3 and 10 exclude *)
Example rfc3629_vectors :
  forallb utf8_valid
    [[x41; xe2; x89; xa2; xce; x91; x2e];
     [xed; x95; x9c; xea; xb5; xad; xec; x96; xb4];
     [xe6; x97; xa5; xe6; x9c; xac; xe8; xaa; x9e];
     [xef; xbb; xbf; xf0; xa3; x8e; xb4]] = true /\
  existsb utf8_valid
    [[xc0; x80]; [x2f; xc0; xae; x2e; x2f]; [xed; xa0; x80]; [xf4; x90; x80; x80]; [xf8; x88; x80; x80; x80]; [xff]; [x80]; [xe2; x89]] = false.
Proof. check. Qed.
