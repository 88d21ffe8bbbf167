(** HTTP/1 message heads as text (RFC 7230 3, 3.1, 3.2, with the leniencies of 3.5: line ends
    may be LF alone, empty lines before the start line are skipped).  Which bytes a method, a
    target, a field name and a reason phrase may have is left to the HTTP library. *)
From Coq Require Import NArith String List.
From Coq.Strings Require Import Byte.
From Verif.Model Require Import Base Io Headers Handshake Framed Http.
From Verif.Spec Require Import Fields.
Import ListNotations.
Local Open Scope string_scope.
Local Open Scope list_scope.
Local Open Scope N_scope.

Definition CR : byte := x0d.
Definition LF : byte := x0a.
Definition SP : byte := x20.
Definition HTAB : byte := x09.
Definition COLON : byte := x3a.

Inductive line_end : bytes -> Prop :=
| crlf_end : line_end [CR; LF]
| lf_end : line_end [LF].
(** Any number of empty lines. *)
Inductive empty_lines : bytes -> Prop :=
| no_line : empty_lines []
| one_more : forall e t, line_end e -> empty_lines t -> empty_lines (e ++ t).

(** Text of the allowed bytes, [c] not among them. *)
Definition text_of (ok : byte -> bool) (c : byte) (t : bytes) : Prop :=
  Forall (fun b => ok b = true /\ b <> c) t.
(** The bytes of a field value: visible characters, space, tab, and everything above ASCII. *)
Definition value_text (v : bytes) : Prop :=
  Forall (fun b => b = HTAB \/ (32 <= Byte.to_N b /\ Byte.to_N b <> 127)) v.
Definition starts_blank (v : bytes) : Prop := exists r, v = SP :: r \/ v = HTAB :: r.

(** [name ":" blanks value line-end] *)
Inductive field_line (X : http_lib) : field -> bytes -> Prop :=
| a_field_line : forall n v pad e, n <> [] -> text_of (l_name X) COLON n ->
    Forall (fun b => b = SP \/ b = HTAB) pad ->
    value_text v -> ~ starts_blank v -> line_end e ->
    field_line X (n, v) (n ++ COLON :: pad ++ v ++ e).
(** Field lines and the empty line. *)
Inductive field_lines (X : http_lib) : list field -> bytes -> Prop :=
| last_line : forall e, line_end e -> field_lines X [] e
| next_line : forall f fs l t, field_line X f l -> field_lines X fs t ->
    field_lines X (f :: fs) (l ++ t).

(** [HTTP/1.0] or [HTTP/1.1] *)
Inductive version_text : http_version -> bytes -> Prop :=
| version_10 : version_text Http10 (ascii "HTTP/1.0")
| version_11 : version_text Http11 (ascii "HTTP/1.1").

(** The head of a request: method, target, version, fields. *)
Definition request_head (X : http_lib) (m t : bytes) (v : http_version) (fs : list field)
  (text : bytes) : Prop :=
  exists skipped vt e ls,
    empty_lines skipped /\ m <> [] /\ text_of (l_method X) SP m /\ text_of (l_target X) SP t /\
    version_text v vt /\ line_end e /\ field_lines X fs ls /\
    text = skipped ++ m ++ SP :: t ++ SP :: vt ++ e ++ ls.

(** Three digits. *)
Inductive code_text : N -> bytes -> Prop :=
| a_code : forall a b c, Byte.to_N a - 48 <= 9 -> Byte.to_N b - 48 <= 9 -> Byte.to_N c - 48 <= 9 ->
    48 <= Byte.to_N a -> 48 <= Byte.to_N b -> 48 <= Byte.to_N c ->
    code_text (100 * (Byte.to_N a - 48) + 10 * (Byte.to_N b - 48) + (Byte.to_N c - 48)) [a; b; c].
(** The rest of a status line: a space and the reason, or nothing. *)
Inductive reason_end (X : http_lib) : bytes -> bytes -> Prop :=
| with_reason : forall r e, Forall (fun b => l_reason X b = true /\ b <> CR /\ b <> LF) r ->
    line_end e -> reason_end X r (SP :: r ++ e)
| without_reason : forall e, line_end e -> reason_end X [] e.
(** The head of a response: version, status, reason, fields. *)
Definition response_head (X : http_lib) (v : http_version) (code : N) (r : bytes)
  (fs : list field) (text : bytes) : Prop :=
  exists skipped vt ct rt ls,
    empty_lines skipped /\ version_text v vt /\ code_text code ct /\ reason_end X r rt /\
    field_lines X fs ls /\ text = skipped ++ vt ++ SP :: ct ++ rt ++ ls.

(** What the HTTP library must get right for its heads to be readable without ambiguity: a
    line end is not part of a method or a field name, nor is the colon part of a name. *)
Definition sound_lib (X : http_lib) : Prop :=
  l_method X CR = false /\ l_method X LF = false /\
  l_name X CR = false /\ l_name X LF = false /\ l_name X COLON = false.

(** The method and target hyper makes of the texts. *)
Definition method_named (m : bytes) : http_method :=
  if list_eq_dec Byte.byte_eq_dec m (ascii "GET") then Get else OtherMethod m.
Definition target_accepted (X : http_lib) (t : bytes) : Prop :=
  t <> [] /\ (t = ascii "*" \/ (exists r, t = "/"%byte :: r) \/ l_url X t = true).

(** ** The end of a head in a stream *)

Definition head_end : bytes := [CR; LF; CR; LF].
(** [h] ends with the first empty CRLF line in it. *)
Definition ends_first (h : bytes) : Prop :=
  (exists p, h = p ++ head_end) /\ forall a b, h = a ++ head_end ++ b -> b = [].
Definition has_end (l : bytes) : Prop := exists a b, l = a ++ head_end ++ b.

(** ** Streams, cut anywhere *)

(** [aflows s c s']: an asynchronous transport delivers the bytes [c], in any number of reads
    and without anything else happening than not being ready, and is [s'] afterwards. *)
Inductive aflows : list aev -> bytes -> list aev -> Prop :=
| aflows_nil : forall s, aflows s [] s
| aflows_read : forall b bs c s s', aflows s c s' -> aflows (AData b bs :: s) ((b :: bs) ++ c) s'
| aflows_part : forall b bs x r s, aflows (AData b (bs ++ x :: r) :: s) (b :: bs) (AData x r :: s)
| aflows_wait : forall c s s', c <> [] -> aflows s c s' -> aflows (ANotReady :: s) c s'.

(** What a reader gets to see of a script: bytes, and the other events between them, however
    the bytes are grouped into reads. *)
Fixpoint spread (s : script) : list (byte + rd_ev) :=
  match s with
  | [] => []
  | RData b bs :: s' => inl b :: map inl bs ++ spread s'
  | e :: s' => inr e :: spread s'
  end.
(** [s] first delivers [c], in any number of reads and without anything else happening, and
    then shows [t]. *)
Definition first_come (c : bytes) (t : list (byte + rd_ev)) (s : script) : Prop :=
  spread s = map inl c ++ t.

(** hyper's buffer has room until it has its largest size. *)
Definition sound_room (X : http_lib) : Prop :=
  (forall n, n < MAX_BUFFER_SIZE -> 0 < l_room X n) /\ l_room X MAX_BUFFER_SIZE = 0.
Definition apush_back (bs : bytes) (s : list aev) : list aev :=
  match bs with
  | [] => s
  | b :: bs' => AData b bs' :: s
  end.
(** A stream on which nothing but data and pauses happen. *)
Definition undisturbed (s : list aev) : Prop :=
  Forall (fun e => match e with AErr _ => False | _ => True end) s.
(** What makes a reader stop where a stream shows this next, if it is not a byte. *)
Definition stops (t : list (byte + rd_ev)) : option io_kind :=
  match t with
  | [] => Some UnexpectedEof
  | inr REof :: _ => Some UnexpectedEof
  | inr RIntr :: _ => Some Interrupted
  | inr (RErr k) :: _ => Some k
  | _ => None
  end.

(** In a script an interruption is [RIntr], not an error [Interrupted]. *)
Definition proper (s : script) : Prop := ~ In (RErr Interrupted) s.
(** Two scripts show the same bytes and events in the same order, however they are cut into
    chunks. *)
Definition same_stream (s1 s2 : script) : Prop := spread s1 = spread s2.
