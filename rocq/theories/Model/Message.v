(** websocket-base/src/message.rs *)
From Coq Require Import NArith String Bool List.
From Coq.Strings Require Import Byte.
From Verif.Model Require Import Base Io Header Mask Dataframe Utf8.
Import ListNotations.
Local Open Scope string_scope.
Local Open Scope list_scope.
Local Open Scope N_scope.

(** message.rs:17-28 [Type] *)
Inductive mtype : Type := TText | TBinary | TPing | TPong | TClose.
Definition mtype_u8 (t : mtype) : N :=
  match t with TText => 1 | TBinary => 2 | TPing => 9 | TPong => 10 | TClose => 8 end.
(** derived [PartialEq] *)
Definition mtype_eqb (a b : mtype) : bool := mtype_u8 a =? mtype_u8 b.

(** message.rs:39-47 [Message]; the borrowed/owned distinction of [Cow] is not
    modelled (it has no observable effect).  [cd_status_code] is a [u16]. *)
Record message : Type := mk_msg {
  m_opcode : mtype;
  m_status : option N;
  m_payload : bytes
}.

(** message.rs:50-120: constructors. *)
Definition msg_text (s : bytes) : message := mk_msg TText None s.
Definition msg_binary (d : bytes) : message := mk_msg TBinary None d.
Definition msg_close : message := mk_msg TClose None [].
Definition msg_close_because (code : N) (reason : bytes) : message :=
  mk_msg TClose (Some code) reason.
Definition msg_ping (d : bytes) : message := mk_msg TPing None d.
Definition msg_pong (d : bytes) : message := mk_msg TPong None d.

(** message.rs:126-133 [into_pong]: result and the message afterwards. *)
Definition into_pong (m : message) : result unit unit * message :=
  if mtype_eqb (m_opcode m) TPing
  then (Ok tt, mk_msg TPong (m_status m) (m_payload m))
  else (Err tt, m).

(** message.rs:136-175: [DataFrame for Message]. *)
Definition msg_ops (m : message) : dataframe_ops :=
  mk_ops true (mtype_u8 (m_opcode m)) no_rsv
    (llen (m_payload m) + match m_status m with Some _ => 2 | None => 0 end)
    (match m_status m with
     | Some code => [be16 code; m_payload m]
     | None => [m_payload m]
     end)
    None
    (match m_status m with
     | Some code => be16 code ++ m_payload m
     | None => m_payload m
     end).

(** message.rs:199-214: the loop over the frames (index [i], data so far). *)
Fixpoint gather (i : N) (data : bytes) (frames : list dataframe_ops)
  : result bytes ws_error :=
  match frames with
  | [] => Ok data
  | d :: frames' =>
      if (0 <? i) && negb (df_opcode d =? op_u8 Continuation)
      then Err (ProtocolError "Unexpected non-continuation data frame")
      else match df_reserved d with
           | (false, false, false) => gather (i + 1) (data ++ df_take_payload d) frames'
           | _ => Err (ProtocolError "Unsupported reserved bits received")
           end
  end.

(** message.rs:189-244 [Message::from_dataframes] *)
Definition from_dataframes (frames : list dataframe_ops) : result message ws_error :=
  match frames with
  | [] => Err (ProtocolError "No dataframes provided")
  | first :: _ =>
      let opc := opcode_new (df_opcode first) in
      rbind (gather 0 [] frames) (fun data =>
      match opc with
      | Some Text =>
          if utf8_valid data then Ok (msg_text data) else Err Utf8Error
      | Some Binary => Ok (msg_binary data)
      | Some Close =>
          match data with
          | [] => Ok msg_close
          | [_] => Err (of_io UnexpectedEof) (* read_u16 on one byte *)
          | a :: b :: rest =>
              if utf8_valid rest then Ok (msg_close_because (of_be [a; b]) rest)
              else Err Utf8Error
          end
      | Some Ping => Ok (msg_ping data)
      | Some Pong => Ok (msg_pong data)
      | _ => Err (ProtocolError "Unsupported opcode received")
      end)
  end.

(** message.rs:489-494 [CloseData] *)
Record close_data : Type := mk_close { c_status : N; c_reason : bytes }.

(** message.rs:505-512 [CloseData::into_bytes] *)
Definition close_into_bytes (c : close_data) : bytes := be16 (c_status c) ++ c_reason c.

(** message.rs:256-271 [OwnedMessage]; the [String]s are UTF-8 byte lists. *)
Inductive owned : Type :=
| OText (s : bytes)
| OBinary (d : bytes)
| OClose (c : option close_data)
| OPing (d : bytes)
| OPong (d : bytes).

(** message.rs:280-344 *)
Definition is_close (m : owned) : bool := match m with OClose _ => true | _ => false end.
Definition is_control (m : owned) : bool :=
  match m with OClose _ => true | OPing _ => true | OPong _ => true | _ => false end.
Definition is_data (m : owned) : bool := negb (is_control m).
Definition is_ping (m : owned) : bool := match m with OPing _ => true | _ => false end.
Definition is_pong (m : owned) : bool := match m with OPong _ => true | _ => false end.

(** message.rs:367-437: [DataFrame for OwnedMessage]. *)
Definition owned_ops (m : owned) : dataframe_ops :=
  mk_ops true
    (mtype_u8 match m with
              | OText _ => TText | OBinary _ => TBinary | OClose _ => TClose
              | OPing _ => TPing | OPong _ => TPong end)
    no_rsv
    (match m with
     | OText d | OBinary d | OPing d | OPong d => llen d
     | OClose (Some c) => llen (c_reason c) + 2
     | OClose None => 0
     end)
    (match m with
     | OText d | OBinary d | OPing d | OPong d => [d]
     | OClose (Some c) => [be16 (c_status c); c_reason c]
     | OClose None => []
     end)
    None
    (match m with
     | OText d | OBinary d | OPing d | OPong d => d
     | OClose (Some c) => be16 (c_status c) ++ c_reason c
     | OClose None => []
     end).

(** message.rs:451-470 [From<Message> for OwnedMessage] *)
Definition to_owned (m : message) : owned :=
  match m_opcode m with
  | TText => OText (utf8_lossy (m_payload m))
  | TClose =>
      match m_status m with
      | Some code => OClose (Some (mk_close code (utf8_lossy (m_payload m))))
      | None => OClose None
      end
  | TBinary => OBinary (m_payload m)
  | TPing => OPing (m_payload m)
  | TPong => OPong (m_payload m)
  end.

(** message.rs:472-485 [From<OwnedMessage> for Message] *)
Definition of_owned (m : owned) : message :=
  match m with
  | OText s => msg_text s
  | OBinary d => msg_binary d
  | OClose (Some c) => msg_close_because (c_status c) (c_reason c)
  | OClose None => msg_close
  | OPing d => msg_ping d
  | OPong d => msg_pong d
  end.

(** message.rs:439-449 [From<String>], [From<Vec<u8>>] *)
Definition owned_of_string (s : bytes) : owned := OText s.
Definition owned_of_vec (d : bytes) : owned := OBinary d.

(** message.rs:359-364 [OwnedMessage::from_dataframes] *)
Definition owned_from_dataframes (frames : list dataframe_ops) : result owned ws_error :=
  rbind (from_dataframes frames) (fun m => Ok (to_owned m)).

(** message.rs:349-356 / 179-186: [message_size] and [serialize] are [frame_size]
    and [write_to] of the message seen as a frame. *)
Definition message_size (m : message) (masked : bool) : N := frame_size (msg_ops m) masked.
Definition owned_size (m : owned) (masked : bool) : N := frame_size (owned_ops m) masked.
