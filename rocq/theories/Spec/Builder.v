(** What a user of the client builder relies on: what a history of calls asks for, and which
    responses complete the handshake. *)
From Coq Require Import NArith String List Bool.
From Coq.Strings Require Import Byte.
From Verif.Model Require Import Base Headers Handshake.
From Verif.Spec Require Import Fields Rfc4648 Upgrade.
Import ListNotations.
Local Open Scope string_scope.
Local Open Scope list_scope.
Local Open Scope N_scope.

(** The calls that change a builder (the public methods of ClientBuilder). *)
Inductive call : Type :=
| AddProtocol (p : bytes) | AddProtocols (ps : list bytes) | ClearProtocols
| AddExtension (e : extension) | AddExtensions (es : list extension) | ClearExtensions
| MaxDataframeSize (n : N) | MaxMessageSize (n : N)
| Key (k : bytes) | ClearKey
| Version (v : ws_version) | ClearVersion
| SetOrigin (o : bytes) | ClearOrigin
| CustomHeaders (c : headers)
| ClearHeader (n : bytes).
Definition perform (c : call) (b : builder) : result builder unit :=
  match c with
  | AddProtocol p => add_protocol p b
  | AddProtocols ps => add_protocols ps b
  | ClearProtocols => Ok (clear_protocols b)
  | AddExtension e => add_extension e b
  | AddExtensions es => add_extensions es b
  | ClearExtensions => Ok (clear_extensions b)
  | MaxDataframeSize n => Ok (set_max_df n b)
  | MaxMessageSize n => Ok (set_max_msg n b)
  | Key k => Ok (set_key k b)
  | ClearKey => Ok (clear_key b)
  | Version v => Ok (set_version v b)
  | ClearVersion => Ok (clear_version b)
  | SetOrigin o => Ok (set_origin o b)
  | ClearOrigin => Ok (clear_origin b)
  | CustomHeaders c => Ok (custom_headers c b)
  | ClearHeader n => Ok (clear_header n b)
  end.
Fixpoint run_calls (cs : list call) (b : builder) : result builder unit :=
  match cs with
  | [] => Ok b
  | c :: cs' => rbind (perform c b) (run_calls cs')
  end.

(** Custom headers and [clear_header] leave the field [n] alone; header maps have unique names. *)
Definition leaves_alone (n : bytes) (c : call) : Prop :=
  match c with
  | CustomHeaders h => unset n h
  | ClearHeader m => ~ same_name m n
  | _ => True
  end.

(** What was asked for, latest call first. *)
Fixpoint asked_protocols (latest_first : list call) : list bytes :=
  match latest_first with
  | [] => []
  | AddProtocol p :: cs => asked_protocols cs ++ [p]
  | AddProtocols ps :: cs => asked_protocols cs ++ ps
  | ClearProtocols :: _ => []
  | _ :: cs => asked_protocols cs
  end.
Fixpoint asked_extensions (latest_first : list call) : list extension :=
  match latest_first with
  | [] => []
  | AddExtension e :: cs => asked_extensions cs ++ [e]
  | AddExtensions es :: cs => asked_extensions cs ++ es
  | ClearExtensions :: _ => []
  | _ :: cs => asked_extensions cs
  end.
Fixpoint asked_key (latest_first : list call) : option bytes :=
  match latest_first with
  | [] => None
  | Key k :: _ => Some k
  | ClearKey :: _ => None
  | _ :: cs => asked_key cs
  end.
Fixpoint asked_version (latest_first : list call) : option ws_version :=
  match latest_first with
  | [] => None
  | Version v :: _ => Some v
  | ClearVersion :: _ => None
  | _ :: cs => asked_version cs
  end.
Fixpoint asked_limits (latest_first : list call) (df msg : N) : N * N :=
  match latest_first with
  | [] => (df, msg)
  | MaxDataframeSize n :: cs => (n, snd (asked_limits cs df msg))
  | MaxMessageSize n :: cs => (fst (asked_limits cs df msg), n)
  | _ :: cs => asked_limits cs df msg
  end.
Fixpoint asked_origin (latest_first : list call) : option bytes :=
  match latest_first with
  | [] => None
  | SetOrigin o :: _ => Some o
  | ClearOrigin :: _ => None
  | _ :: cs => asked_origin cs
  end.
Definition or_else {A : Type} (o : option A) (d : A) : A := match o with Some a => a | None => d end.

(** Holding a list: typed, or absent and empty. *)
Definition holds_list {A : Type} (inj : list A -> hval) (n : bytes) (l : list A) (h : headers) : Prop :=
  stored n (Typed (inj l)) h \/ (l = [] /\ unset n h).

(** The key of a request as the builder holds it: set by [key()], drawn at random, or given as
    a raw header. *)
Definition key_held (h : headers) (k : bytes) : Prop :=
  stored (ascii "Sec-WebSocket-Key") (Typed (VKey k)) h \/
  exists ls, stored (ascii "Sec-WebSocket-Key") (Raw ls) h /\
    key_field (map (fun l => (ascii "Sec-WebSocket-Key", l)) ls) k.

(** A Location field: one line of text that is not only spaces. *)
Definition location_field (fs : list field) (loc : bytes) : Prop :=
  exists v, values (ascii "Location") fs = [v] /\ utf8_text v /\ Exists (fun b => b <> x20) v /\
            element loc v.
(** The conditions a client puts on the headers of a 101 response, in order. *)
Definition response_conditions (accept : bytes) (fs : list field) : list (Prop * client_error) :=
  [ (accept_field fs accept, ResponseError "Sec-WebSocket-Accept is invalid");
    (readable (ascii "Upgrade") fs /\
     lists_only (fun t => same_name t (ascii "websocket")) (ascii "Upgrade") fs,
     ResponseError "Upgrade field must be WebSocket") ].
(** What RFC 6455 4.1 requires of the response (points 1 to 4) beyond the accept field. *)
Definition rfc_response (status : N) (fs : list field) : Prop :=
  status = 101 /\
  (exists v, values (ascii "Upgrade") fs = [v] /\ exists t, element t v /\ same_name t (ascii "websocket")) /\
  lists (fun t => same_name t (ascii "upgrade")) (ascii "Connection") fs.

(** Words that can stand in a list header: visible ASCII without the separators (this includes
    the tokens of RFC 7230). *)
Definition list_word (s : bytes) : Prop :=
  s <> [] /\ Forall (fun b => 0x21 <= Byte.to_N b <= 0x7e /\ b <> ","%byte /\ b <> ";"%byte) s.
Definition simple_extension (e : extension) : Prop :=
  list_word (x_name e) /\ Forall (fun p => list_word (print_param p)) (x_params e).
(** The same extension, each parameter being one name without a value. *)
Definition without_values (e : extension) : extension :=
  mk_ext (x_name e) (map (fun p => mk_param (print_param p) None) (x_params e)).
