(** The HTTP codecs on their own (src/codec/http.rs), as the documentation offers them: a
    [Framed] with [HttpClientCodec] sends requests and reads responses, one with
    [HttpServerCodec] reads requests and sends responses, any number of them. *)
From Coq Require Import NArith String Bool List.
From Coq.Strings Require Import Byte.
From Verif.Model Require Import Base Io Text Headers Handshake Message Receiver Codec Framed Http Connect.
Import ListNotations.
Local Open Scope string_scope.
Local Open Scope list_scope.
Local Open Scope N_scope.

(** External (hyper 0.10): [Display] of [Method]. *)
Definition method_text (m : http_method) : bytes :=
  match m with Get => str "GET" | OtherMethod s => s end.
(** src/codec/http.rs:76-81: the text of a request.  External: a [RequestUri] prints as it
    came (as for [seen_uri]). *)
Definition request_line {E} (q : request) : result bytes E :=
  rbind (print_headers (rq_headers q)) (fun hs =>
    Ok (method_text (rq_method q) ++ str " " ++ rq_uri q ++ str " "
        ++ print_version_http (rq_version q) ++ crlf ++ hs ++ crlf)).

(** External (tokio-codec 0.1 [FramedWrite2::start_send]) with src/codec/http.rs:76-87 or
    :173-181 [encode] of an item whose text is [data]; [encode] does not fail. *)
Definition http_start_send (data : bytes) (extra : N) (w : fwrite) : spoll * fwrite :=
  let send w := (SReady, mk_fw (http_encode data extra (fw_buf w)) (fw_out w) (fw_ws w) (fw_fs w)) in
  if BACKPRESSURE <=? llen (bm_data (fw_buf w)) then
    match poll_complete w with
    | (SErr e, w') => (SErr e, w')
    | (_, w') =>
        if BACKPRESSURE <=? llen (bm_data (fw_buf w')) then (SNotReady, w') else send w'
    end
  else send w.

(** How a consumer of the stream ([for_each], [fold], [collect]) comes to its end: the stream
    does, or with the error of a head ([HttpCodecError::Http]) or of the transport
    ([HttpCodecError::Io]), or by a panic.  ([HStuck]: out of fuel.) *)
Inductive http_end : Type :=
| HEnds | HBad (e : parse_error) | HIo (k : io_kind) | HPanics | HStuck.
(** External: such a consumer, polled again whenever the transport was not ready. *)
Fixpoint http_run {A : Type} (try : bytes -> pres A) (fuel : nat) (s : list aev) (f : framed unit)
  : list A * http_end :=
  match fuel with
  | O => ([], HStuck)
  | S fuel' =>
      match framed_poll (http_decode try) s f with
      | (PItem (inl a), f', s') => let '(l, e) := http_run try fuel' s' f' in (a :: l, e)
      | (PItem (inr e), _, _) => ([], HBad e)
      | (PNotReady, f', s') => http_run try fuel' s' f'
      | (PEnd, _, _) => ([], HEnds)
      | (PErr e, _, _) => ([], HIo (io_of e))
      | (PPanic, _, _) => ([], HPanics)
      | (POutOfFuel, _, _) => ([], HStuck)
      end
  end.
Definition http_all {A : Type} (try : bytes -> pres A) (s : list aev) : list A * http_end :=
  http_run try (List.length (aev_bytes s) + List.length s + 2) s (framed_new tt []).
(** src/codec/http.rs:184-208: the requests a server reads; :90-114: the responses a client
    reads. *)
Definition http_requests (X : http_lib) (s : list aev) : list request * http_end :=
  http_all (try_request X) s.
Definition http_responses (X : http_lib) (s : list aev) : list response * http_end :=
  http_all (try_response X) s.
