(** The handshake seen from outside: header maps as lists of fields, and the conditions under
    which each side accepts the other. *)
From Coq Require Import NArith String List.
From Coq.Strings Require Import Byte.
From Verif.Model Require Import Base Headers Handshake.
From Verif.Spec Require Import Fields Rfc4648 Accept.
Import ListNotations.
Local Open Scope string_scope.
Local Open Scope list_scope.
Local Open Scope N_scope.

(** The fields a header map is sent as. *)
Definition fields (h : headers) : list field :=
  flat_map (fun p : bytes * item => map (fun l : bytes => (fst p, l)) (item_lines (snd p))) h.
(** No name occurs twice (hyper's map guarantees it; every operation keeps it). *)
Definition unique_names (h : headers) : Prop :=
  NoDup (map (fun p : bytes * item => map upcase (fst p)) h).
(** What is stored under a name. *)
Inductive stored (n : bytes) (i : item) : headers -> Prop :=
| stored_here : forall m h, same_name m n -> stored n i ((m, i) :: h)
| stored_next : forall m j h, ~ same_name m n -> stored n i h -> stored n i ((m, j) :: h).
Definition unset (n : bytes) (h : headers) : Prop :=
  Forall (fun p : bytes * item => ~ same_name (fst p) n) h.

(** The conditions a server puts on a request, in the order in which they are reported. *)
Definition request_conditions (m : http_method) (v : http_version) (fs : list field)
  : list (Prop * upgrade_error) :=
  [ (m = Get, MethodNotGet);
    (v <> Http09 /\ v <> Http10, UnsupportedHttpVersion);
    (version_acceptable fs, UnsupportedWebsocketVersion);
    ((exists k, key_field fs k), NoSecWsKeyHeader);
    (readable (ascii "Upgrade") fs, NoUpgradeHeader);
    (lists names_websocket (ascii "Upgrade") fs, NoWsUpgradeHeader);
    (readable (ascii "Connection") fs, NoConnectionHeader);
    (lists (fun t => same_name t (ascii "upgrade")) (ascii "Connection") fs, NoWsConnectionHeader) ].

(** What RFC 6455 4.2.1 requires of a request (points 1 to 6). *)
Definition rfc_request (m : http_method) (v : http_version) (fs : list field) : Prop :=
  m = Get /\ (v = Http11 \/ v = Http20) /\
  List.length (values (ascii "Host") fs) = 1%nat /\
  lists (fun t => same_name t (ascii "websocket")) (ascii "Upgrade") fs /\
  lists (fun t => same_name t (ascii "upgrade")) (ascii "Connection") fs /\
  (exists k, key_field fs k) /\
  single (ascii "Sec-WebSocket-Version") (ascii "13") fs.

(** Custom headers on top of those chosen before: a custom item replaces one of its name. *)
Definition overlaid (custom : option headers) (h : headers) (n : bytes) (i : item) : Prop :=
  match custom with
  | Some c => stored n i c \/ (unset n c /\ stored n i h)
  | None => stored n i h
  end.
Definition handshake_name (n : bytes) : Prop :=
  Exists (same_name n) [ascii "Sec-WebSocket-Accept"; ascii "Connection"; ascii "Upgrade"].
Definition all_unique (custom : option headers) : Prop :=
  match custom with Some c => unique_names c | None => True end.
(** The three fields a server adds to complete the handshake. *)
Definition completes (k : bytes) (fs : list field) : Prop :=
  (exists d, rfc_token k d /\ values (ascii "Sec-WebSocket-Accept") fs = [base64_text d]) /\
  values (ascii "Connection") fs = [ascii "Upgrade"] /\
  values (ascii "Upgrade") fs = [ascii "websocket"].
