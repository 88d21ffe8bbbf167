(** websocket-base/src/header.rs: the framework-independent Sec-WebSocket-Key and
    Sec-WebSocket-Accept values. *)
From Coq Require Import NArith String Bool List.
From Coq.Strings Require Import Byte.
From Verif.Model Require Import Base Base64 Sha1.
Import ListNotations.
Local Open Scope string_scope.
Local Open Scope list_scope.
Local Open Scope N_scope.

(** websocket-base/src/header.rs:24 [WebSocketKey(pub [u8; 16])] and :71
    [WebSocketAccept([u8; 20])].  Simplification: byte lists; that their lengths are 16
    and 20 is a hypothesis of theorems or proved of the results. *)
Definition ws_key := bytes.
Definition ws_accept := bytes.

(** websocket-base/src/header.rs:35-51 [WebSocketKey::from_str] *)
Definition key_from_str (s : bytes) : result ws_key ws_error :=
  match b64_decode s with
  | Some v => if negb (llen v =? 16) then Err (ProtocolError "Sec-WebSocket-Key must be 16 bytes")
              else Ok v
  | None => Err (ProtocolError "Invalid Sec-WebSocket-Accept")
  end.
(** websocket-base/src/header.rs:61-64 [WebSocketKey::serialize] *)
Definition key_serialize (k : ws_key) : bytes := b64_encode k.

(** websocket-base/src/header.rs:67 [MAGIC_GUID] *)
Definition MAGIC_GUID : bytes := str "258EAFA5-E914-47DA-95CA-C5AB0DC85B11".

(** websocket-base/src/header.rs:82-98 [WebSocketAccept::from_str] *)
Definition accept_from_str (s : bytes) : result ws_accept ws_error :=
  match b64_decode s with
  | Some v => if negb (llen v =? 20) then Err (ProtocolError "Sec-WebSocket-Accept must be 20 bytes")
              else Ok v
  | None => Err (ProtocolError "Invalid Sec-WebSocket-Accept ")
  end.
(** websocket-base/src/header.rs:103-110 [WebSocketAccept::new] *)
Definition accept_new (k : ws_key) : ws_accept := sha1 (key_serialize k ++ MAGIC_GUID).
(** websocket-base/src/header.rs:112-115 [WebSocketAccept::serialize] *)
Definition accept_serialize (a : ws_accept) : bytes := b64_encode a.
