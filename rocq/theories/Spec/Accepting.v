(** Callers of a blocking server and what may be expected of it. *)
From Coq Require Import NArith String List Permutation.
From Coq.Strings Require Import Byte.
From Verif.Model Require Import Base Io Headers Handshake Http Connect Accepting.
From Verif.Spec Require Import Fields HttpHead.
Import ListNotations.
Local Open Scope string_scope.
Local Open Scope list_scope.
Local Open Scope N_scope.

(** The beginning of a request head that is not all of it. *)
Definition unfinished (X : http_lib) (text : bytes) : Prop :=
  exists d m t v fs, d <> [] /\ request_head X m t v fs (text ++ d) /\
    (length fs <= 100)%nat /\ target_accepted X t.
(** A caller that sends [text], in any chunks, and then nothing, staying on the line. *)
Definition falls_silent (text : bytes) (c : caller) : Prop :=
  exists s w, c = Caller s true w /\ first_come text [] s.
(** hyper never reads past its largest buffer. *)
Definition bounded_room (X : http_lib) : Prop :=
  forall n, n <= MAX_BUFFER_SIZE -> n + l_room X n <= MAX_BUFFER_SIZE.

(** The [accept] of this caller never returns. *)
Definition hangs (X : http_lib) (c : caller) : bool :=
  match accept_returns X c with None => true | Some _ => false end.
Definition hanging (X : http_lib) (cs : list caller) : nat := length (filter (hangs X) cs).

(** The callers that are in the [accept] of some thread. *)
Fixpoint held (l : list (option caller)) : list caller :=
  match l with
  | [] => []
  | Some c :: l' => c :: held l'
  | None :: l' => held l'
  end.
(** Nothing can happen any more. *)
Definition standstill (X : http_lib) (p : pool) : Prop := forall e, pool_step X p e = p.
(** Every event changes something. *)
Fixpoint effective (X : http_lib) (p : pool) (es : list pool_event) : Prop :=
  match es with
  | [] => True
  | e :: es' => pool_step X p e <> p /\ effective X (pool_step X p e) es'
  end.

(** A valid opening request (RFC 6455, 1.2), and callers: one that sends it, in two pieces, one
    that sends its beginning and then nothing, one that says nothing at all. *)
Definition good_request : bytes :=
  ascii "GET /chat HTTP/1.1" ++ [CR; LF] ++ ascii "Host: a" ++ [CR; LF] ++
  ascii "Upgrade: websocket" ++ [CR; LF] ++ ascii "Connection: Upgrade" ++ [CR; LF] ++
  ascii "Sec-WebSocket-Key: dGhlIHNhbXBsZSBub25jZQ==" ++ [CR; LF] ++
  ascii "Sec-WebSocket-Version: 13" ++ head_end.
Definition chunk (b : bytes) : script := match b with [] => [] | x :: r => [RData x r] end.
Definition good_caller : caller :=
  Caller (chunk (firstn 50 good_request) ++ chunk (skipn 50 good_request)) true (mk_w [] []).
Definition half_caller : caller := Caller (chunk (firstn 50 good_request)) true (mk_w [] []).
Definition mute_caller : caller := Caller [] true (mk_w [] []).
