(** Series of HTTP messages on one connection (RFC 7230 6.3: one after the other, in order). *)
From Coq Require Import NArith String List.
From Coq.Strings Require Import Byte.
From Verif.Model Require Import Base Io Headers Handshake Framed Http HttpStream.
From Verif.Spec Require Import Fields Upgrade HttpHead Wire.
Import ListNotations.
Local Open Scope string_scope.
Local Open Scope list_scope.
Local Open Scope N_scope.

(** A request as its parts, and as hyper presents it. *)
Definition req_parts : Type := bytes * bytes * http_version * list field.
Definition presented (q : req_parts) : request :=
  let '(m, t, v, fs) := q in mk_req (method_named m) t v (from_raw fs).
(** Requests one after the other: each at most 100 fields, with a target hyper takes, and
    ending with its first empty line. *)
Inductive requests_on (X : http_lib) : list req_parts -> bytes -> Prop :=
| no_requests : requests_on X [] []
| more_requests : forall m t v fs head qs text,
    request_head X m t v fs head -> (List.length fs <= 100)%nat -> target_accepted X t ->
    ends_first head -> requests_on X qs text ->
    requests_on X ((m, t, v, fs) :: qs) (head ++ text).

Definition resp_parts : Type := http_version * N * bytes * list field.
Definition shown (r : resp_parts) : response :=
  let '(v, c, why, fs) := r in mk_resp v c why (from_raw fs).
Inductive responses_on (X : http_lib) : list resp_parts -> bytes -> Prop :=
| no_responses : responses_on X [] []
| more_responses : forall v c why fs head rs text,
    response_head X v c why fs head -> (List.length fs <= 100)%nat ->
    ends_first head -> responses_on X rs text ->
    responses_on X ((v, c, why, fs) :: rs) (head ++ text).

(** Requests among other bytes: each of them is there, whole, one after the other. *)
Inductive requests_among (X : http_lib) : list request -> bytes -> Prop :=
| among_none : forall text, requests_among X [] text
| among_other : forall b qs text, requests_among X qs text -> requests_among X qs (b :: text)
| among_one : forall m t v fs head qs text,
    request_head X m t v fs head -> (List.length fs <= 100)%nat -> target_accepted X t ->
    requests_among X qs text ->
    requests_among X (presented (m, t, v, fs) :: qs) (head ++ text).
Inductive responses_among (X : http_lib) : list response -> bytes -> Prop :=
| amongst_none : forall text, responses_among X [] text
| amongst_other : forall b rs text, responses_among X rs text -> responses_among X rs (b :: text)
| amongst_one : forall v c why fs head rs text,
    response_head X v c why fs head -> (List.length fs <= 100)%nat ->
    responses_among X rs text ->
    responses_among X (shown (v, c, why, fs) :: rs) (head ++ text).
(** How a reader that has read everything up to [rest], which is no whole head, sees the
    transport come to its end: closed ([[]]) or failing. *)
Inductive runs_out : bytes -> list aev -> http_end -> Prop :=
| closed_after : runs_out [] [] HEnds
| closed_inside : forall b rest, runs_out (b :: rest) [] (HIo (OtherKind 0))
| failing : forall rest k s, runs_out rest (AErr k :: s) (HIo k).

(** What a task does with the sink: hand over an item (by its text; the allocator adds
    [extra]), or flush. *)
Inductive http_op : Type := HSend (text : bytes) (extra : N) | HFlush.
Fixpoint http_ops (ops : list http_op) (w : fwrite) : list spoll * fwrite :=
  match ops with
  | [] => ([], w)
  | op :: ops' =>
      let '(r, w1) := match op with
                      | HSend t extra => http_start_send t extra w
                      | HFlush => poll_complete w
                      end in
      let '(rs, w2) := http_ops ops' w1 in (r :: rs, w2)
  end.
(** The items the sink took. *)
Fixpoint http_taken (ops : list http_op) (rs : list spoll) : list bytes :=
  match ops, rs with
  | HSend t _ :: ops', SReady :: rs' => t :: http_taken ops' rs'
  | _ :: ops', _ :: rs' => http_taken ops' rs'
  | _, _ => []
  end.

(** A request that the other side can read as it was meant. *)
Definition sendable (X : http_lib) (q : request) : Prop :=
  (rq_method q = Get \/ exists s, rq_method q = OtherMethod s /\ s <> ascii "GET") /\
  method_text (rq_method q) <> [] /\ text_of (l_method X) SP (method_text (rq_method q)) /\
  text_of (l_target X) SP (rq_uri q) /\ target_accepted X (rq_uri q) /\ no_break (rq_uri q) /\
  (rq_version q = Http10 \/ rq_version q = Http11) /\
  legible_all X (fields (rq_headers q)).
(** A request as it was meant: the fields as they are read back. *)
Definition meant (q : request) : request :=
  mk_req (rq_method q) (rq_uri q) (rq_version q) (from_raw (read_back (fields (rq_headers q)))).
(** A response with the status [c], the reason [why] and the headers [h]: its text, if the
    other side can read it as it was meant; and what that is. *)
Definition status_line (X : http_lib) (c : N) (why : bytes) (status : bytes) : Prop :=
  exists ct, code_text c ct /\ status = ct ++ SP :: why /\
    Forall (fun b => l_reason X b = true /\ b <> CR /\ b <> LF) why.
Inductive response_sent (X : http_lib) : response -> bytes -> Prop :=
| a_response_sent : forall v c why h status text, (v = Http10 \/ v = Http11) ->
    status_line X c why status -> legible_all X (fields h) ->
    @print_response unit v status h = Ok text ->
    response_sent X (mk_resp v c why (from_raw (read_back (fields h)))) text.
Inductive request_sent (X : http_lib) : request -> bytes -> Prop :=
| a_request_sent : forall q text, sendable X q -> @request_line unit q = Ok text ->
    request_sent X (meant q) text.
