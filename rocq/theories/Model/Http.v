(** The HTTP heads of the handshake on the wire.  External: httparse 1.x and
    hyper 0.10 (http::h1::parse_request, parse_response, buffer::BufReader); the asynchronous
    codecs are those of src/codec/http.rs. *)
From Coq Require Import NArith String Bool List.
From Coq.Strings Require Import Byte.
From Verif.Model Require Import Base Io Header Mask Dataframe Utf8 Text Base64 WsKey Headers
  Handshake Message Receiver Codec Framed.
Import ListNotations.
Local Open Scope string_scope.
Local Open Scope list_scope.
Local Open Scope N_scope.

(** External: what is left open about the dependencies.  Which bytes httparse allows in a
    method, a request target, a header name and a reason phrase; which request targets that
    are neither [*] nor start with [/] hyper's [RequestUri::from_str] takes (it asks [url]);
    and how many bytes hyper's [BufReader::read_into_buf] asks for when [n] are buffered
    (0: the buffer is full and does not grow any more). *)
Record http_lib : Type := mk_lib {
  l_method : byte -> bool;
  l_target : byte -> bool;
  l_name : byte -> bool;
  l_reason : byte -> bool;
  l_url : bytes -> bool;
  l_room : N -> N }.

(** External: the outcome of one attempt at parsing a buffer: a value and what follows it, the
    buffer ends too early ([httparse::Status::Partial]), or an error. *)
Inductive pres (A : Type) : Type :=
| Done (a : A) (rest : bytes)
| Partial
| Fail (e : parse_error).
Arguments Done {A} a rest.
Arguments Partial {A}.
Arguments Fail {A} e.
Definition pbind {A B : Type} (p : pres A) (f : A -> bytes -> pres B) : pres B :=
  match p with
  | Done a r => f a r
  | Partial => Partial
  | Fail e => Fail e
  end.

(** External (httparse [skip_empty_lines!]). *)
Fixpoint skip_empty (i : bytes) : pres unit :=
  match i with
  | [] => Partial
  | x0d :: r => match r with
                | [] => Partial
                | x0a :: r' => skip_empty r'
                | _ => Fail PEHeader
                end
  | x0a :: r => skip_empty r
  | _ => Done tt i
  end.
(** External (httparse [parse_token], [parse_uri]): the text before the first space. *)
Fixpoint until_space (ok : byte -> bool) (e : parse_error) (i : bytes) : pres bytes :=
  match i with
  | [] => Partial
  | b :: r =>
      if Byte.eqb b x20 then Done [] r
      else if ok b then pbind (until_space ok e r) (fun t r' => Done (b :: t) r')
      else Fail e
  end.
(** External (httparse [expect!]): a fixed text. *)
Fixpoint literal (t : bytes) (e : parse_error) (i : bytes) : pres unit :=
  match t with
  | [] => Done tt i
  | c :: t' =>
      match i with
      | [] => Partial
      | b :: r => if Byte.eqb b c then literal t' e r else Fail e
      end
  end.
(** External (httparse [parse_version]): [HTTP/1.0] or [HTTP/1.1]. *)
Definition version_digit (i : bytes) : pres http_version :=
  match i with
  | [] => Partial
  | x30 :: r => Done Http10 r
  | x31 :: r => Done Http11 r
  | _ => Fail PEVersion
  end.
Definition http_version_p (i : bytes) : pres http_version :=
  pbind (literal (str "HTTP/1.") PEVersion i) (fun _ r => version_digit r).
(** External (httparse [newline!]): CR LF or LF. *)
Definition newline (e : parse_error) (i : bytes) : pres unit :=
  match i with
  | [] => Partial
  | x0d :: r => literal [x0a] e r
  | x0a :: r => Done tt r
  | _ => Fail e
  end.

(** External (httparse [parse_headers_iter]): the rest of a header name, up to the colon. *)
Fixpoint header_name (ok : byte -> bool) (i : bytes) : pres bytes :=
  match i with
  | [] => Partial
  | b :: r =>
      if Byte.eqb b x3a then Done [] r
      else if ok b then pbind (header_name ok r) (fun t r' => Done (b :: t) r')
      else Fail PEHeader
  end.
(** External (httparse): spaces and tabs between the colon and the value. *)
Fixpoint skip_blanks (i : bytes) : bytes :=
  match i with
  | x20 :: r => skip_blanks r
  | x09 :: r => skip_blanks r
  | _ => i
  end.
(** External (httparse [is_header_value_token]). *)
Definition value_byte (b : byte) : bool :=
  Byte.eqb b x09 || ((32 <=? b2n b) && negb (b2n b =? 127)).
(** External (httparse): a header value and its line end. *)
Fixpoint header_value (i : bytes) : pres bytes :=
  match i with
  | [] => Partial
  | b :: r =>
      if value_byte b then pbind (header_value r) (fun t r' => Done (b :: t) r')
      else pbind (newline PEHeader i) (fun _ r' => Done [] r')
  end.
(** External (httparse [parse_headers_iter]) with room for [n] more headers, up to the empty
    line. *)
Fixpoint header_lines (ok : byte -> bool) (n : nat) (i : bytes) : pres (list (bytes * bytes)) :=
  match i with
  | [] => Partial
  | x0d :: r => pbind (literal [x0a] PEHeader r) (fun _ r' => Done [] r')
  | x0a :: r => Done [] r
  | b :: r =>
      if ok b then
        match n with
        | O => Fail PETooLarge
        | S n' =>
            pbind (header_name ok r) (fun t r1 =>
            pbind (header_value (skip_blanks r1)) (fun v r2 =>
            pbind (header_lines ok n' r2) (fun l r3 => Done ((b :: t, v) :: l) r3)))
        end
      else Fail PEHeader
  end.
(** External (hyper 0.10 http::h1::MAX_HEADERS). *)
Definition MAX_HEADERS : nat := 100.

(** External (hyper 0.10 [Method::from_str]). *)
Definition method_of_str (s : bytes) : option http_method :=
  match s with
  | [] => None
  | _ => if beqb s (str "GET") then Some Get else Some (OtherMethod s)
  end.
(** External (hyper 0.10 [RequestUri::from_str]). *)
Definition target_ok (X : http_lib) (s : bytes) : bool :=
  match s with
  | [] => false
  | b :: _ => beqb s (str "*") || Byte.eqb b x2f || l_url X s
  end.

(** External (hyper 0.10 http::h1: [TryParse] for a request). *)
Definition try_request (X : http_lib) (i : bytes) : pres request :=
  pbind (skip_empty i) (fun _ r0 =>
  pbind (until_space (l_method X) PEHeader r0) (fun m r1 =>
  pbind (until_space (l_target X) PEHeader r1) (fun t r2 =>
  pbind (http_version_p r2) (fun v r3 =>
  pbind (newline PEHeader r3) (fun _ r4 =>
  pbind (header_lines (l_name X) MAX_HEADERS r4) (fun hs r5 =>
  match method_of_str m with
  | None => Fail PEMethod
  | Some me =>
      if target_ok X t then Done (mk_req me t v (from_raw hs)) r5 else Fail PEUri
  end)))))).

(** External (httparse [parse_code]). *)
Definition digit (i : bytes) : pres N :=
  match i with
  | [] => Partial
  | b :: r => if (48 <=? b2n b) && (b2n b <=? 57) then Done (b2n b - 48) r else Fail PEStatus
  end.
Definition status_code (i : bytes) : pres N :=
  pbind (digit i) (fun a r1 => pbind (digit r1) (fun b r2 => pbind (digit r2) (fun c r3 =>
    Done (100 * a + 10 * b + c) r3))).
(** External (httparse [parse_reason]). *)
Fixpoint reason_text (ok : byte -> bool) (i : bytes) : pres bytes :=
  match i with
  | [] => Partial
  | x0d :: r => pbind (literal [x0a] PEStatus r) (fun _ r' => Done [] r')
  | x0a :: r => Done [] r
  | b :: r =>
      if ok b then pbind (reason_text ok r) (fun t r' => Done (b :: t) r') else Fail PEStatus
  end.
Definition reason (ok : byte -> bool) (i : bytes) : pres bytes :=
  match i with
  | [] => Partial
  | x20 :: r => reason_text ok r
  | x0d :: r => pbind (literal [x0a] PEStatus r) (fun _ r' => Done [] r')
  | x0a :: r => Done [] r
  | _ => Fail PEStatus
  end.
(** External (hyper 0.10 http::h1: [TryParse] for a response). *)
Definition try_response (X : http_lib) (i : bytes) : pres response :=
  pbind (skip_empty i) (fun _ r0 =>
  pbind (http_version_p r0) (fun v r1 =>
  pbind (literal [x20] PEVersion r1) (fun _ r2 =>
  pbind (status_code r2) (fun c r3 =>
  pbind (reason (l_reason X) r3) (fun t r4 =>
  pbind (header_lines (l_name X) MAX_HEADERS r4) (fun hs r5 =>
  Done (mk_resp v c t (from_raw hs)) r5)))))).

(** External (hyper 0.10 buffer.rs): 8192 + 4096 * 100. *)
Definition MAX_BUFFER_SIZE : N := 8192 + 4096 * 100.
(** External (hyper 0.10 http::h1::parse, with [BufReader::read_into_buf]): parse what is
    buffered; if that is not enough read once more.  [Interrupted] is not retried.  Returns
    the outcome, the bytes left unread in the buffer, and the stream. *)
Fixpoint parse_loop {A : Type} (try : bytes -> pres A) (room : N -> N) (fuel : nat)
  (buf : bytes) (s : script) : result A parse_error * bytes * script :=
  match try buf with
  | Done a rest => (Ok a, rest, s)
  | Fail e => (Err e, buf, s)
  | Partial =>
      match fuel with
      | O => (OutOfFuel, buf, s)
      | S fuel' =>
          match rd_read (room (llen buf)) s with
          | (Ok [], s') =>
              (Err (if llen buf =? MAX_BUFFER_SIZE then PETooLarge else PEIo UnexpectedEof),
               buf, s')
          | (Ok d, s') => parse_loop try room fuel' (buf ++ d) s'
          | (Err k, s') => (Err (PEIo k), buf, s')
          | (Panic, s') => (Panic, buf, s')
          | (OutOfFuel, s') => (OutOfFuel, buf, s')
          end
      end
  end.
(** External (hyper 0.10 http::h1::parse_request and parse_response) on a new [BufReader]. *)
Definition parse_request (X : http_lib) (s : script) : result request parse_error * bytes * script :=
  parse_loop (try_request X) (l_room X) (S (script_bytes s)) [] s.
Definition parse_response (X : http_lib) (s : script) : result response parse_error * bytes * script :=
  parse_loop (try_response X) (l_room X) (S (script_bytes s)) [] s.

(** ** The asynchronous codecs *)

(** src/codec/http.rs:65-70 [split_off_http]: the bytes up to and including the first
    [\r\n\r\n], and the rest. *)
Fixpoint split_off_http (src : bytes) : option (bytes * bytes) :=
  if beqb (take 4 src) [x0d; x0a; x0d; x0a] then Some (take 4 src, drop 4 src)
  else
    match src with
    | [] => None
    | b :: r =>
        match split_off_http r with
        | Some (head, rest) => Some (b :: head, rest)
        | None => None
        end
    end.

(** src/codec/http.rs:94-112 and :188-206 [decode].  The head is parsed from a reader holding
    exactly these bytes: the first read yields all of them, the second nothing, so a partial
    head is [UnexpectedEof] (or [TooLarge]) and, like [TooLarge], answered with [Ok(None)].
    Simplification: a decoding error ends the stream of the only user of this codec
    ([into_future]), so it is passed on as an item. *)
Definition http_decode {A : Type} (try : bytes -> pres A) (st : unit) (src : bytes)
  : result (option (A + parse_error)) ws_error * unit * bytes :=
  match split_off_http src with
  | None => (Ok None, tt, src)
  | Some (head, rest) =>
      match try head with
      | Done a _ => (Ok (Some (inl a)), tt, rest)
      | Partial => (Ok None, tt, rest)
      | Fail PETooLarge => (Ok None, tt, rest)
      | Fail e => (Ok (Some (inr e)), tt, rest)
      end
  end.

(** External (futures 0.1 [Stream::into_future], driven by an executor that polls again
    whenever the transport was not ready): the first item, error, or end. *)
Fixpoint first_item {St Item : Type}
  (decode : St -> bytes -> result (option Item) ws_error * St * bytes)
  (fuel : nat) (s : list aev) (f : framed St) : poll Item * framed St * list aev :=
  match fuel with
  | O => (POutOfFuel, f, s)
  | S fuel' =>
      match framed_poll decode s f with
      | (PNotReady, f', s') => first_item decode fuel' s' f'
      | r => r
      end
  end.
Definition await_head {A : Type} (try : bytes -> pres A) (s : list aev)
  : poll (A + parse_error) * framed unit * list aev :=
  first_item (http_decode try) (S (List.length s)) s (framed_new tt []).

(** External (httparse 1.x): its tables, used in examples only; [l_url] takes no other target
    and the buffer has all the room hyper allows. *)
Definition httparse_token (b : byte) : bool :=
  let n := b2n b in
  ((48 <=? n) && (n <=? 57)) || ((65 <=? n) && (n <=? 90)) || ((94 <=? n) && (n <=? 122)) ||
  (n =? 33) || ((35 <=? n) && (n <=? 39)) || (n =? 42) || (n =? 43) || (n =? 45) || (n =? 46) ||
  (n =? 124) || (n =? 126).
Definition httparse_lib : http_lib :=
  mk_lib httparse_token (fun b => (33 <=? b2n b) && negb (b2n b =? 127)) httparse_token
    (fun b => (b2n b =? 9) || ((32 <=? b2n b) && (b2n b <=? 126))) (fun _ => false)
    (fun n => MAX_BUFFER_SIZE - n).
