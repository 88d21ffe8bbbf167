(** Heads as one side writes them and the other reads them. *)
From Coq Require Import NArith String List.
From Coq.Strings Require Import Byte.
From Verif.Model Require Import Base Headers Handshake Http.
From Verif.Spec Require Import Fields Upgrade Builder HttpHead.
Import ListNotations.
Local Open Scope string_scope.
Local Open Scope list_scope.
Local Open Scope N_scope.

(** A value on the wire: line breaks in it become spaces. *)
Definition one_line (v : bytes) : bytes :=
  map (fun b => if Byte.eqb b CR then SP else if Byte.eqb b LF then SP else b) v.
(** A value as it is read: without the blanks in front. *)
Fixpoint no_lead (v : bytes) : bytes :=
  match v with
  | b :: r => if Byte.eqb b SP then no_lead r else if Byte.eqb b HTAB then no_lead r else v
  | [] => []
  end.
Definition as_read (v : bytes) : bytes := no_lead (one_line v).
Definition read_back (fs : list field) : list field := map (fun f => (fst f, as_read (snd f))) fs.

(** A field that the HTTP library of the other side can read: its name is one, and its value
    has no control characters but tabs and line breaks. *)
Definition legible (X : http_lib) (f : field) : Prop :=
  fst f <> [] /\ text_of (l_name X) COLON (fst f) /\
  Forall (fun b => b = HTAB \/ b = CR \/ b = LF \/ (32 <= Byte.to_N b /\ Byte.to_N b <> 127)) (snd f).
Definition legible_all (X : http_lib) (fs : list field) : Prop :=
  Forall (legible X) fs /\ (List.length fs <= 100)%nat.

(** A name or a target within one line. *)
Definition no_break (t : bytes) : Prop := ~ In CR t /\ ~ In LF t.

(** An HTTP library that knows the words of the handshake. *)
Definition speaks (X : http_lib) : Prop :=
  sound_lib X /\ text_of (l_method X) SP (ascii "GET") /\
  Forall (fun b => l_reason X b = true) (ascii "Switching Protocols").

(** A client that was configured without breaking the handshake: the calls [cs] on a new
    builder leave key and version to [key], [version] and the defaults, and the request can
    be written down.  [rnd] is the key drawn at random when none is given. *)
Definition configured (X : http_lib) (u : url) (cs : list call) (rnd : bytes) (b : builder) : Prop :=
  run_calls cs (builder_init u) = Ok b /\
  Forall (leaves_alone (ascii "Sec-WebSocket-Key")) cs /\
  Forall (leaves_alone (ascii "Sec-WebSocket-Version")) cs /\
  or_else (asked_version (rev cs)) WebSocket13 = WebSocket13 /\
  List.length (or_else (asked_key (rev cs)) rnd) = 16%nat /\
  text_of (l_target X) SP (u_resource u) /\ target_accepted X (u_resource u) /\ no_break (u_resource u) /\
  legible_all X (fields (b_headers (build_request rnd b))).

(** The fields of the request it makes, as the server reads them. *)
Definition request_fields (rnd : bytes) (b : builder) : list field :=
  read_back (fields (b_headers (build_request rnd b))).
(** The bytes of the request. *)
Definition request_text (rnd : bytes) (b : builder) (text : bytes) : Prop :=
  @print_request unit (build_request rnd b) = Ok text.
(** The bytes of the response to a request with the fields [rfs], by a server that chose the
    headers [h0] and adds [custom]; and the headers in it. *)
Definition response_text (custom : option headers) (h0 : headers) (rfs : list field)
  (h : headers) (text : bytes) : Prop :=
  @prepare_headers unit custom h0 (from_raw rfs) = Ok h /\
  @print_response unit Http11 switching_protocols h = Ok text.
