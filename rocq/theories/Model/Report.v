(** What errors tell: [Display] and [source] of the library's error types, and the conversions
    between them (websocket-base/src/result.rs, src/result.rs, src/server/upgrade/mod.rs,
    src/codec/http.rs). *)
From Coq Require Import NArith String Bool List.
From Coq.Strings Require Import Byte.
From Verif.Model Require Import Base Io Text Headers Handshake.
Import ListNotations.
Local Open Scope string_scope.
Local Open Scope list_scope.

(** External: an error of a dependency or of std (io, UTF-8, hyper, url, native-tls): what it
    prints, and what the chain of its sources prints. *)
Record cause : Type := mk_cause { ca_text : bytes; ca_sources : list bytes }.
(** [std::io::Error]: its kind, and the rest. *)
Record io_error : Type := mk_io_error { ie_kind : io_kind; ie_cause : cause }.

(** src/result.rs:184-191 [WSUrlErrorKind] *)
Inductive ws_url_error : Type := CannotSetFragment | InvalidScheme | WsNoHostName.
(** src/result.rs:37-65 [WebSocketOtherError]; a [StatusCode] is what it prints. *)
Inductive other_error : Type :=
| OEProtocol (reason : bytes)
| OERequest (reason : bytes)
| OEResponse (reason : bytes)
| OEStatus (status : bytes)
| OERedirect (status location : bytes)
| OEHttp (c : cause)
| OEUrl (c : cause)
| OEIo (c : cause)
| OEWsUrl (e : ws_url_error)
| OETls (c : cause)
| OETlsFailure
| OETlsInterruption.
(** websocket-base/src/result.rs:27-40 [WebSocketError].  Simplification: [Other] holds any
    boxed error; the library puts only a [WebSocketOtherError] there (src/result.rs:206-210). *)
Inductive base_error : Type :=
| BEProtocol (reason : bytes)
| BEDataFrame (reason : bytes)
| BENoData
| BEIo (c : cause)
| BEUtf8 (c : cause)
| BEOther (e : other_error).
(** src/server/upgrade/mod.rs:169-191 [HyperIntoWsError] with its causes. *)
Inductive into_ws_error : Type :=
| IWMethodNotGet | IWUnsupportedHttpVersion | IWUnsupportedWebsocketVersion | IWNoSecWsKeyHeader
| IWNoWsUpgradeHeader | IWNoUpgradeHeader | IWNoWsConnectionHeader | IWNoConnectionHeader
| IWIo (c : cause) | IWParsing (c : cause).
(** src/codec/http.rs:213-220 [HttpCodecError] *)
Inductive http_codec_error : Type := HCIo (c : cause) | HCHttp (c : cause).
(** External (native-tls [HandshakeError]): a failure with its cause, or interrupted. *)
Inductive tls_handshake_error : Type := TlsFailure (c : cause) | TlsWouldBlock.

(** src/result.rs:193-202 [Display for WSUrlErrorKind] *)
Definition show_ws_url (e : ws_url_error) : bytes :=
  str "WebSocket Url Error: " ++
  match e with
  | CannotSetFragment => str "WebSocket URL cannot set fragment"
  | InvalidScheme => str "WebSocket URL invalid scheme"
  | WsNoHostName => str "WebSocket URL no host name provided"
  end.
(** src/result.rs:67-102 [Display for WebSocketOtherError] *)
Definition show_other (e : other_error) : bytes :=
  match e with
  | OERequest r => str "WebSocket request error: " ++ r
  | OEResponse r => str "WebSocket response error: " ++ r
  | OEStatus s => str "WebSocketError: Received unexpected status code (" ++ s ++ str ")"
  | OERedirect s l => str "WebSocketError: Redirected (" ++ s ++ str ") to " ++ l
  | OEHttp c => str "WebSocket HTTP error: " ++ ca_text c
  | OEUrl c => str "WebSocket URL parse error: " ++ ca_text c
  | OEIo c => str "WebSocket I/O error: " ++ ca_text c
  | OEWsUrl k => show_ws_url k
  | OETls c => str "WebSocket SSL error: " ++ ca_text c
  | OEProtocol r => str "WebSocketError: " ++ r
  | OETlsFailure => str "WebSocketError: " ++ str "TLS Handshake failure"
  | OETlsInterruption => str "WebSocketError: " ++ str "TLS Handshake interrupted"
  end.
(** websocket-base/src/result.rs:42-54 [Display for WebSocketError] *)
Definition show_base (e : base_error) : bytes :=
  str "WebSocketError: " ++
  match e with
  | BEProtocol _ => str "WebSocket protocol error"
  | BEDataFrame _ => str "WebSocket data frame error"
  | BENoData => str "No data available"
  | BEIo _ => str "I/O failure"
  | BEUtf8 _ => str "UTF-8 failure"
  | BEOther x => show_other x
  end.
(** src/server/upgrade/mod.rs:192-217 [Display for HyperIntoWsError] *)
Definition show_into_ws (e : into_ws_error) : bytes :=
  match e with
  | IWMethodNotGet => str "Request method must be GET"
  | IWUnsupportedHttpVersion => str "Unsupported request HTTP version"
  | IWUnsupportedWebsocketVersion => str "Unsupported WebSocket version"
  | IWNoSecWsKeyHeader => str "Missing Sec-WebSocket-Key header"
  | IWNoWsUpgradeHeader => str "Invalid Upgrade WebSocket header"
  | IWNoUpgradeHeader => str "Missing Upgrade WebSocket header"
  | IWNoWsConnectionHeader => str "Invalid Connection WebSocket header"
  | IWNoConnectionHeader => str "Missing Connection WebSocket header"
  | IWIo c => ca_text c
  | IWParsing c => ca_text c
  end.
(** src/codec/http.rs:221-228 [Display for HttpCodecError] *)
Definition show_codec (e : http_codec_error) : bytes :=
  match e with HCIo c => ca_text c | HCHttp c => ca_text c end.

(** The chain of sources of an error that is given as a source: itself and its own. *)
Definition chain (c : cause) : list bytes := ca_text c :: ca_sources c.
(** src/result.rs:104-116 [source] of WebSocketOtherError; a WSUrlErrorKind has none
    (:204). *)
Definition sources_other (e : other_error) : list bytes :=
  match e with
  | OEHttp c | OEUrl c | OETls c | OEIo c => chain c
  | OEWsUrl k => [show_ws_url k]
  | _ => []
  end.
(** websocket-base/src/result.rs:56-65 [source] of WebSocketError *)
Definition sources_base (e : base_error) : list bytes :=
  match e with
  | BEIo c => chain c
  | BEUtf8 c => chain c
  | BEOther x => sources_other x
  | _ => []
  end.
(** src/server/upgrade/mod.rs:219-227, src/codec/http.rs:230-237 *)
Definition sources_into_ws (e : into_ws_error) : list bytes :=
  match e with IWIo c | IWParsing c => chain c | _ => [] end.
Definition sources_codec (e : http_codec_error) : list bytes :=
  match e with HCIo c => chain c | HCHttp c => chain c end.

(** All that a program printing an error and its sources shows. *)
Definition report_base (e : base_error) : list bytes := show_base e :: sources_base e.
Definition report_other (e : other_error) : list bytes := show_other e :: sources_other e.
Definition report_into_ws (e : into_ws_error) : list bytes := show_into_ws e :: sources_into_ws e.
Definition report_codec (e : http_codec_error) : list bytes := show_codec e :: sources_codec e.

(** websocket-base/src/result.rs:67-74 [From<io::Error>], :76-80 [From<Utf8Error>] *)
Definition base_of_io (e : io_error) : base_error :=
  match ie_kind e with
  | UnexpectedEof => BENoData
  | _ => BEIo (ie_cause e)
  end.
Definition base_of_utf8 (c : cause) : base_error := BEUtf8 c.
(** src/result.rs:118-122, :124-128, :131-135, :138-145, :157-161 *)
Definition other_of_http (c : cause) : other_error := OEHttp c.
Definition other_of_url (c : cause) : other_error := OEUrl c.
Definition other_of_tls (c : cause) : other_error := OETls c.
Definition other_of_tls_handshake (e : tls_handshake_error) : other_error :=
  match e with TlsFailure _ => OETlsFailure | TlsWouldBlock => OETlsInterruption end.
Definition other_of_ws_url (e : ws_url_error) : other_error := OEWsUrl e.
(** src/result.rs:148-155 *)
Definition other_of_codec (e : http_codec_error) : other_error :=
  match e with HCIo c => OEIo c | HCHttp c => OEHttp c end.
(** src/result.rs:163-180 *)
Definition other_of_into_ws (e : into_ws_error) : other_error :=
  match e with
  | IWIo c => OEIo c
  | IWParsing c => OEHttp c
  | IWMethodNotGet => OEProtocol (str "Request method must be GET")
  | IWUnsupportedHttpVersion => OEProtocol (str "Unsupported request HTTP version")
  | IWUnsupportedWebsocketVersion => OEProtocol (str "Unsupported WebSocket version")
  | IWNoSecWsKeyHeader => OEProtocol (str "Missing Sec-WebSocket-Key header")
  | IWNoWsUpgradeHeader => OEProtocol (str "Invalid Upgrade WebSocket header")
  | IWNoUpgradeHeader => OEProtocol (str "Missing Upgrade WebSocket header")
  | IWNoWsConnectionHeader => OEProtocol (str "Invalid Connection WebSocket header")
  | IWNoConnectionHeader => OEProtocol (str "Missing Connection WebSocket header")
  end.
(** src/result.rs:206-210 [From<WebSocketOtherError> for WebSocketError]; :212-218 [towse] is
    one of the above followed by it. *)
Definition base_of_other (e : other_error) : base_error := BEOther e.
(** src/server/upgrade/mod.rs:229-233, :235-239, :242-249; src/codec/http.rs:239-249 *)
Definition into_ws_of_io (e : io_error) : into_ws_error := IWIo (ie_cause e).
Definition into_ws_of_http (c : cause) : into_ws_error := IWParsing c.
Definition into_ws_of_codec (e : http_codec_error) : into_ws_error :=
  match e with HCIo c => IWIo c | HCHttp c => IWParsing c end.
Definition codec_of_io (e : io_error) : http_codec_error := HCIo (ie_cause e).
Definition codec_of_http (c : cause) : http_codec_error := HCHttp c.

(** The errors of Model/Base.v with the causes they stand for. *)
Definition base_of (io utf8 : cause) (e : ws_error) : base_error :=
  match e with
  | ProtocolError m => BEProtocol (str m)
  | DataFrameError m => BEDataFrame (str m)
  | NoDataAvailable => BENoData
  | IoError _ => BEIo io
  | Utf8Error => BEUtf8 utf8
  | OtherError m => BEOther (OEProtocol (str m))
  end.
