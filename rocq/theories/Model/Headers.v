(** The HTTP headers of the handshake: hyper's header map (External) and the typed headers
    of src/header. *)
From Coq Require Import NArith String Bool List.
From Coq.Strings Require Import Byte.
From Verif.Model Require Import Base Utf8 Text Base64 WsKey.
Import ListNotations.
Local Open Scope string_scope.
Local Open Scope list_scope.
Local Open Scope N_scope.

(** ** Values *)

(** src/header/extensions.rs:82-88 [Parameter] and :29-35 [Extension] *)
Record parameter : Type := mk_param { p_name : bytes; p_value : option bytes }.
Record extension : Type := mk_ext { x_name : bytes; x_params : list parameter }.
(** src/header/version.rs:8-13 [WebSocketVersion] *)
Inductive ws_version : Type :=
| WebSocket13
| UnknownVersion (s : bytes).
(** External (hyper 0.10 header::Upgrade): [ProtocolName] and [Protocol]. *)
Inductive protocol_name : Type :=
| PHttp | PTls | PWebSocket | PH2c
| PUnregistered (s : bytes).
Record protocol : Type := mk_proto { pr_name : protocol_name; pr_version : option bytes }.
(** External (hyper 0.10 header::Connection): [ConnectionOption]. *)
Inductive conn_option : Type :=
| KeepAlive | CloseOption
| ConnectionHeader (s : bytes).

(** A typed header value.  [VOther] stands for a header type the library does not use:
    [fmt] is the list of lines it prints. *)
Inductive hval : Type :=
| VProtocol (l : list bytes)
| VExtensions (l : list extension)
| VKey (k : ws_key)
| VAccept (a : ws_accept)
| VVersion (v : ws_version)
| VOrigin (s : bytes)
| VUpgrade (l : list protocol)
| VConnection (l : list conn_option)
| VHost (host : bytes) (port : option N)
| VBasic (user : bytes) (password : option bytes)
| VLocation (s : bytes)
| VOther (fmt : list bytes).

(** External (hyper 0.10 header::internals::Item): raw lines as received or set with
    [set_raw], or a typed value.
    Simplification: hyper also caches the typed value parsed from raw lines; parsing is a
    function of the lines, so the cache is not observable.  A value whose Rust type is not
    the one asked for is a [VOther] or another constructor. *)
Inductive item : Type :=
| Raw (lines : list bytes)
| Typed (v : hval).

(** External (hyper 0.10 header::Headers, a VecMap keyed by case-insensitive names). *)
Definition headers := list (bytes * item).

(** External: [VecMap::get]. *)
Fixpoint hfind (n : bytes) (h : headers) : option item :=
  match h with
  | [] => None
  | (m, i) :: h' => if eq_nocase m n then Some i else hfind n h'
  end.
(** External: [VecMap::insert]: replaces name and value in place, or adds at the end. *)
Fixpoint hset (n : bytes) (i : item) (h : headers) : headers :=
  match h with
  | [] => [(n, i)]
  | (m, j) :: h' => if eq_nocase m n then (n, i) :: h' else (m, j) :: hset n i h'
  end.
(** External: [VecMap::remove]. *)
Fixpoint hremove (n : bytes) (h : headers) : headers :=
  match h with
  | [] => []
  | (m, j) :: h' => if eq_nocase m n then h' else (m, j) :: hremove n h'
  end.
(** External: a value changed through [VecMap::get_mut]: the stored name stays. *)
Fixpoint hupdate (n : bytes) (i : item) (h : headers) : headers :=
  match h with
  | [] => []
  | (m, j) :: h' => if eq_nocase m n then (m, i) :: h' else (m, j) :: hupdate n i h'
  end.
(** External: [Headers::has]. *)
Definition hhas (n : bytes) (h : headers) : bool :=
  match hfind n h with Some _ => true | None => false end.
(** External: [Headers::extend(other.iter())]: inserts every item of [other] in order. *)
Definition hextend (h other : headers) : headers :=
  fold_left (fun acc p => hset (fst p) (snd p) acc) other h.

(** ** Parsing *)

(** External (hyper 0.10 header::parsing::from_one_raw_str): one non-empty line of UTF-8,
    trimmed, handed to [FromStr]. *)
Definition one_raw_str (lines : list bytes) : option bytes :=
  match lines with
  | [[]] => None
  | [s] => if utf8_valid s then Some (trim s) else None
  | _ => None
  end.
(** External (hyper 0.10 header::parsing::from_comma_delimited): every line must be UTF-8;
    empty elements are skipped, elements that do not parse are dropped. *)
Definition comma_elements (s : bytes) : list bytes :=
  filter (fun t => match t with [] => false | _ => true end) (map trim (split_on x2c s)).
Fixpoint comma_delimited (lines : list bytes) : option (list bytes) :=
  match lines with
  | [] => Some []
  | s :: ls =>
    if utf8_valid s then
      match comma_delimited ls with
      | Some es => Some (comma_elements s ++ es)
      | None => None
      end
    else None
  end.

(** External (hyper 0.10 header::common::connection): [ConnectionOption::from_str]. *)
Definition conn_of_str (s : bytes) : conn_option :=
  if eq_nocase s (str "keep-alive") then KeepAlive
  else if eq_nocase s (str "close") then CloseOption
  else ConnectionHeader s.
(** External (hyper 0.10 header::common::upgrade): [ProtocolName::from_str]. *)
Definition pname_of_str (s : bytes) : protocol_name :=
  if beqb s (str "HTTP") then PHttp
  else if beqb s (str "TLS") then PTls
  else if beqb s (str "h2c") then PH2c
  else if eq_nocase s (str "websocket") then PWebSocket
  else PUnregistered s.
(** External (hyper 0.10 header::common::upgrade): [Protocol::from_str]. *)
Definition proto_of_str (s : bytes) : protocol :=
  let '(n, v) := split2 x2f s in mk_proto (pname_of_str n) v.

(** src/header/extensions.rs:55-64, the closure parsing one parameter.  [splitn(1, '=')]
    yields a single piece, so the value is never set. *)
Definition param_of_str (x : bytes) : parameter :=
  let '(n, v) := split1 x3d x in
  mk_param (trim n) (match v with Some w => Some (trim w) | None => None end).
(** src/header/extensions.rs:49-67 [Extension::from_str].  [split] yields at least one
    piece, so INVALID_EXTENSION is not reachable; the model gives the empty extension
    there. *)
Definition ext_of_str (s : bytes) : extension :=
  match map trim (split_on x3b s) with
  | n :: ps => mk_ext n (map param_of_str ps)
  | [] => mk_ext [] []
  end.

Definition ok {A E : Type} (r : result A E) : option A :=
  match r with Ok a => Some a | _ => None end.
Definition obind {A B : Type} (o : option A) (f : A -> option B) : option B :=
  match o with Some a => f a | None => None end.

(** src/header/key.rs:49-51 [parse_header] *)
Definition parse_key (lines : list bytes) : option ws_key :=
  obind (one_raw_str lines) (fun s => ok (key_from_str s)).
(** src/header/accept.rs:45-47 [parse_header] *)
Definition parse_accept (lines : list bytes) : option ws_accept :=
  obind (one_raw_str lines) (fun s => ok (accept_from_str s)).
(** src/header/version.rs:29-34 [parse_header] *)
Definition parse_version (lines : list bytes) : option ws_version :=
  obind (one_raw_str lines)
    (fun s => Some (if beqb s (str "13") then WebSocket13 else UnknownVersion s)).
(** src/header/origin.rs:23-25 [parse_header] *)
Definition parse_origin (lines : list bytes) : option bytes := one_raw_str lines.
(** External (hyper 0.10 header::Location). *)
Definition parse_location (lines : list bytes) : option bytes := one_raw_str lines.
(** src/header/protocol.rs:25-27 [parse_header] *)
Definition parse_protocols (lines : list bytes) : option (list bytes) := comma_delimited lines.
(** src/header/extensions.rs:111-113 [parse_header] *)
Definition parse_extensions (lines : list bytes) : option (list extension) :=
  obind (comma_delimited lines) (fun es => Some (map ext_of_str es)).
(** External (hyper 0.10 header::Upgrade). *)
Definition parse_upgrade (lines : list bytes) : option (list protocol) :=
  obind (comma_delimited lines) (fun es => Some (map proto_of_str es)).
(** External (hyper 0.10 header::Connection). *)
Definition parse_connection (lines : list bytes) : option (list conn_option) :=
  obind (comma_delimited lines) (fun es => Some (map conn_of_str es)).

(** ** Lookup *)

(** External (hyper 0.10 Headers::get / Item::typed).  [None]: no such header, or its lines
    do not parse.  [Panic]: the item holds only a value of a foreign type
    (["item.raw must exist"]). *)
Definition hget {A E : Type} (n : bytes) (parse : list bytes -> option A)
  (proj : hval -> option A) (h : headers) : result (option A) E :=
  match hfind n h with
  | None => Ok None
  | Some (Raw ls) => Ok (parse ls)
  | Some (Typed v) => match proj v with Some a => Ok (Some a) | None => Panic end
  end.

(** Header names: src/header/{key,accept,version,origin,protocol,extensions}.rs
    [header_name]; the others are hyper's. *)
Definition n_key := str "Sec-WebSocket-Key".
Definition n_accept := str "Sec-WebSocket-Accept".
Definition n_version := str "Sec-WebSocket-Version".
Definition n_origin := str "Origin".
Definition n_protocol := str "Sec-WebSocket-Protocol".
Definition n_extensions := str "Sec-WebSocket-Extensions".
Definition n_upgrade := str "Upgrade".
Definition n_connection := str "Connection".
Definition n_host := str "Host".
Definition n_authorization := str "Authorization".
Definition n_location := str "Location".

(** The type of a typed value ([Any::downcast] in hyper's Item). *)
Definition as_key (v : hval) := match v with VKey k => Some k | _ => None end.
Definition as_accept (v : hval) := match v with VAccept k => Some k | _ => None end.
Definition as_version (v : hval) := match v with VVersion k => Some k | _ => None end.
Definition as_origin (v : hval) := match v with VOrigin k => Some k | _ => None end.
Definition as_protocol (v : hval) := match v with VProtocol k => Some k | _ => None end.
Definition as_extensions (v : hval) := match v with VExtensions k => Some k | _ => None end.
Definition as_upgrade (v : hval) := match v with VUpgrade k => Some k | _ => None end.
Definition as_connection (v : hval) := match v with VConnection k => Some k | _ => None end.
Definition as_location (v : hval) := match v with VLocation k => Some k | _ => None end.

Definition get_key {E} (h : headers) : result (option ws_key) E := hget n_key parse_key as_key h.
Definition get_accept {E} (h : headers) : result (option ws_accept) E :=
  hget n_accept parse_accept as_accept h.
Definition get_version {E} (h : headers) : result (option ws_version) E :=
  hget n_version parse_version as_version h.
Definition get_origin {E} (h : headers) : result (option bytes) E :=
  hget n_origin parse_origin as_origin h.
Definition get_protocols {E} (h : headers) : result (option (list bytes)) E :=
  hget n_protocol parse_protocols as_protocol h.
Definition get_extensions {E} (h : headers) : result (option (list extension)) E :=
  hget n_extensions parse_extensions as_extensions h.
Definition get_upgrade {E} (h : headers) : result (option (list protocol)) E :=
  hget n_upgrade parse_upgrade as_upgrade h.
Definition get_connection {E} (h : headers) : result (option (list conn_option)) E :=
  hget n_connection parse_connection as_connection h.
Definition get_location {E} (h : headers) : result (option bytes) E :=
  hget n_location parse_location as_location h.

(** src/lib.rs:63-73 [upsert_header!], for the two list headers it is used with: nothing
    happens when the header is present but does not parse.  [get_mut] leaves the item typed. *)
Definition upsert {A E : Type} (n : bytes) (parse : list bytes -> option (list A))
  (proj : hval -> option (list A)) (inj : list A -> hval) (more : list A) (h : headers)
  : result headers E :=
  if hhas n h then
    rbind (hget n parse proj h) (fun o =>
      match o with
      | Some l => Ok (hupdate n (Typed (inj (l ++ more))) h)
      | None => Ok h
      end)
  else Ok (hset n (Typed (inj more)) h).

(** ** Printing *)

(** src/header/extensions.rs:96-104 [Parameter::fmt] *)
Definition print_param (p : parameter) : bytes :=
  p_name p ++ match p_value p with Some v => str "=" ++ v | None => [] end.
(** src/header/extensions.rs:70-78 [Extension::fmt] *)
Definition print_ext (e : extension) : bytes :=
  x_name e ++ flat_map (fun p => str "; " ++ print_param p) (x_params e).
(** src/header/version.rs:15-22, 37-41 *)
Definition print_version (v : ws_version) : bytes :=
  match v with WebSocket13 => str "13" | UnknownVersion s => s end.
(** External (hyper 0.10 header::common::upgrade): [Display] of [Protocol]. *)
Definition print_pname (n : protocol_name) : bytes :=
  match n with
  | PHttp => str "HTTP" | PTls => str "TLS" | PH2c => str "h2c"
  | PWebSocket => str "websocket" | PUnregistered s => s
  end.
Definition print_proto (p : protocol) : bytes :=
  print_pname (pr_name p) ++ match pr_version p with Some v => str "/" ++ v | None => [] end.
(** External (hyper 0.10 header::common::connection): [Display] of [ConnectionOption]. *)
Definition print_conn (c : conn_option) : bytes :=
  match c with KeepAlive => str "keep-alive" | CloseOption => str "close" | ConnectionHeader s => s end.

(** The lines a typed value prints as ([HeaderFormat::fmt_header] of each type):
    src/header/key.rs:55-57, accept.rs:51-53, version.rs:37-41, origin.rs:28-33,
    protocol.rs:30-35, extensions.rs:116-121; Upgrade, Connection, Host, Authorization and
    Location are External (hyper 0.10). *)
Definition val_lines (v : hval) : list bytes :=
  match v with
  | VProtocol l => [join (str ", ") l]
  | VExtensions l => [join (str ", ") (map print_ext l)]
  | VKey k => [key_serialize k]
  | VAccept a => [accept_serialize a]
  | VVersion v => [print_version v]
  | VOrigin s => [s]
  | VUpgrade l => [join (str ", ") (map print_proto l)]
  | VConnection l => [join (str ", ") (map print_conn l)]
  | VHost h p =>
    [match p with
     | None => h
     | Some n => if (n =? 80) || (n =? 443) then h else h ++ str ":" ++ dec n
     end]
  | VBasic u p =>
    [str "Basic " ++ b64_encode (u ++ str ":" ++ match p with Some w => w | None => [] end)]
  | VLocation s => [s]
  | VOther ls => ls
  end.
Definition item_lines (i : item) : list bytes :=
  match i with Raw ls => ls | Typed v => val_lines v end.

(** External (hyper 0.10 header NewlineReplacer): CR and LF are printed as spaces. *)
Definition no_newlines (s : bytes) : bytes :=
  map (fun b => if Byte.eqb b x0d || Byte.eqb b x0a then x20 else b) s.
Definition crlf : bytes := [x0d; x0a].
Definition print_line (n s : bytes) : bytes := n ++ str ": " ++ no_newlines s ++ crlf.
(** External (hyper 0.10): [Display] of [Headers].  Raw lines that are not UTF-8 make the
    formatter fail, which [format!] turns into a panic. *)
Definition item_printable (i : item) : bool :=
  match i with Raw ls => forallb utf8_valid ls | Typed _ => true end.
Definition print_headers {E : Type} (h : headers) : result bytes E :=
  if forallb (fun p => item_printable (snd p)) h
  then Ok (flat_map (fun p => flat_map (print_line (fst p)) (item_lines (snd p))) h)
  else Panic.

(** External (hyper 0.10 Headers::from_raw): the header lines of a parsed head, in order;
    trailing spaces of a value are cut; repeated names share an item. *)
Fixpoint cut_spaces (s : bytes) : bytes :=
  match s with
  | [] => []
  | b :: r => match cut_spaces r with
              | [] => if Byte.eqb b x20 then [] else [b]
              | r' => b :: r'
              end
  end.
Fixpoint happend (n s : bytes) (h : headers) : headers :=
  match h with
  | [] => [(n, Raw [s])]
  | (m, i) :: h' =>
    if eq_nocase m n
    then (m, match i with Raw ls => Raw (ls ++ [s]) | Typed _ => i end) :: h'
    else (m, i) :: happend n s h'
  end.
Definition from_raw (l : list (bytes * bytes)) : headers :=
  fold_left (fun h p => happend (fst p) (cut_spaces (snd p)) h) l [].
