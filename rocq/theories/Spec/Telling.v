(** What may be expected of an error message. *)
From Coq Require Import NArith String List.
From Coq.Strings Require Import Byte.
From Verif.Model Require Import Base Headers Handshake Report.
From Verif.Spec Require Import Fields.
Import ListNotations.
Local Open Scope string_scope.
Local Open Scope list_scope.

(** The text is to be read somewhere in what is printed. *)
Definition mentions (t : bytes) (report : list bytes) : Prop :=
  exists before after, In (before ++ t ++ after) report.
(** Everything a cause has to say is. *)
Definition mentions_all (c : cause) (report : list bytes) : Prop :=
  mentions (ca_text c) report /\ Forall (fun t => mentions t report) (ca_sources c).

(** The ways in which the failure of something the library uses becomes a [WebSocketError]. *)
Inductive route : Type :=
| ReadWrite | NotUtf8 | HttpFailed | UrlFailed | TlsFailed
| CodecIo | CodecHttp | UpgradeIo | UpgradeHttp | UpgradeCodecIo | UpgradeCodecHttp.
Definition along (r : route) (e : io_error) : base_error :=
  match r with
  | ReadWrite => base_of_io e
  | NotUtf8 => base_of_utf8 (ie_cause e)
  | HttpFailed => base_of_other (other_of_http (ie_cause e))
  | UrlFailed => base_of_other (other_of_url (ie_cause e))
  | TlsFailed => base_of_other (other_of_tls (ie_cause e))
  | CodecIo => base_of_other (other_of_codec (codec_of_io e))
  | CodecHttp => base_of_other (other_of_codec (codec_of_http (ie_cause e)))
  | UpgradeIo => base_of_other (other_of_into_ws (into_ws_of_io e))
  | UpgradeHttp => base_of_other (other_of_into_ws (into_ws_of_http (ie_cause e)))
  | UpgradeCodecIo => base_of_other (other_of_into_ws (into_ws_of_codec (codec_of_io e)))
  | UpgradeCodecHttp => base_of_other (other_of_into_ws (into_ws_of_codec (codec_of_http (ie_cause e))))
  end.

(** What sort of failure it was, in the words a user is shown. *)
Definition sort_of (r : route) : bytes :=
  match r with
  | ReadWrite => ascii "WebSocketError: I/O failure"
  | NotUtf8 => ascii "WebSocketError: UTF-8 failure"
  | UrlFailed => ascii "WebSocketError: WebSocket URL parse error: "
  | TlsFailed => ascii "WebSocketError: WebSocket SSL error: "
  | HttpFailed | CodecHttp | UpgradeHttp | UpgradeCodecHttp => ascii "WebSocketError: WebSocket HTTP error: "
  | CodecIo | UpgradeIo | UpgradeCodecIo => ascii "WebSocketError: WebSocket I/O error: "
  end.
(** [t] is what a list of lines begins with. *)
Definition opens_with (t : bytes) (report : list bytes) : Prop :=
  exists after rest, report = (t ++ after) :: rest.

(** The conditions of an upgrade request a refusal can name, each with the words for it. *)
Inductive refused_for : into_ws_error -> bytes -> Prop :=
| for_method : refused_for IWMethodNotGet (ascii "Request method must be GET")
| for_http : refused_for IWUnsupportedHttpVersion (ascii "Unsupported request HTTP version")
| for_version : refused_for IWUnsupportedWebsocketVersion (ascii "Unsupported WebSocket version")
| for_key : refused_for IWNoSecWsKeyHeader (ascii "Missing Sec-WebSocket-Key header")
| for_ws_upgrade : refused_for IWNoWsUpgradeHeader (ascii "Invalid Upgrade WebSocket header")
| for_upgrade : refused_for IWNoUpgradeHeader (ascii "Missing Upgrade WebSocket header")
| for_ws_connection : refused_for IWNoWsConnectionHeader (ascii "Invalid Connection WebSocket header")
| for_connection : refused_for IWNoConnectionHeader (ascii "Missing Connection WebSocket header").

(** What may be wrong with the URL a client is to connect to, each with the words for it. *)
Inductive url_fault : ws_url_error -> bytes -> Prop :=
| fault_fragment : url_fault CannotSetFragment (ascii "cannot set fragment")
| fault_scheme : url_fault InvalidScheme (ascii "invalid scheme")
| fault_host : url_fault WsNoHostName (ascii "no host name provided").
