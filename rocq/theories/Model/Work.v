(** How much there is to do for what a peer sends: how often the decoders and parsers are called, and
    on what.  The functions here follow the loops of the other files and say nothing new about what
    these return. *)
From Coq Require Import NArith String Bool List.
From Coq.Strings Require Import Byte.
From Verif.Model Require Import Base Io Header Mask Dataframe Utf8 Message Receiver Codec Framed Headers Handshake Http.
Import ListNotations.
Local Open Scope list_scope.
Local Open Scope N_scope.

(** ** The asynchronous side *)
Section Calls.
  Variables St Item : Type.
  Variable decode : St -> bytes -> result (option Item) ws_error * St * bytes.

  (** The calls of [decode] (codec and buffer) in [Framed.framed_decode], *)
  Definition decode_calls (f : framed St) : list (St * bytes) :=
    if fr_readable f then [(fr_st f, fr_buf f)] else [].
  (** in one [Framed.framed_poll], *)
  Fixpoint poll_calls (s : list aev) (f : framed St) : list (St * bytes) :=
    decode_calls f ++
    match framed_decode decode f with
    | (Some _, _) => []
    | (None, f') =>
        if fr_eof f' then []
        else
          match s with
          | [] => decode_calls (mk_framed (fr_st f') (fr_buf f') true true)
          | AData b bs :: s' => poll_calls s' (mk_framed (fr_st f') (fr_buf f' ++ b :: bs) true false)
          | _ => []
          end
    end.
  (** in [Framed.framed_run], *)
  Fixpoint run_calls (fuel : nat) (s : list aev) (f : framed St) : list (St * bytes) :=
    match fuel with
    | O => []
    | S fuel' =>
        poll_calls s f ++
        match framed_poll decode s f with
        | (PItem _, f', s') => run_calls fuel' s' f'
        | (PNotReady, f', s') => run_calls fuel' s' f'
        | _ => []
        end
    end.
  (** and in [Http.first_item]. *)
  Fixpoint first_calls (fuel : nat) (s : list aev) (f : framed St) : list (St * bytes) :=
    match fuel with
    | O => []
    | S fuel' =>
        poll_calls s f ++
        match framed_poll decode s f with
        | (PNotReady, f', s') => first_calls fuel' s' f'
        | _ => []
        end
    end.
End Calls.
Arguments decode_calls {St}.
Arguments poll_calls {St Item}.
Arguments run_calls {St Item}.
Arguments first_calls {St Item}.

(** The calls of [MessageCodec::decode] behind [Framed.run_messages]. *)
Definition message_calls (c : msg_codec) (buf : bytes) (s : list aev) : list (msg_codec * bytes) :=
  run_calls mc_decode (length buf + length (aev_bytes s) + length s + 2) s (framed_new c buf).

(** What one call of [MessageCodec::decode] (websocket-base/src/codec/ws.rs:278-326) does: it adds up the
    lengths of all frames that it keeps (:279), takes bytes from the buffer, and reads in vain a
    header, of at most 14 bytes, that is not followed by the rest of its frame (:113-142).
    Simplification: parsing, unmasking and joining look at every byte taken a fixed number of
    times, which is counted as once. *)
Definition decode_work (call : msg_codec * bytes) : N :=
  let '(c, src) := call in
  let '(_, _, src') := mc_decode c src in
  llen (mc_buffer c) + (llen src - llen src') + 14.

Definition sum (l : list N) : N := fold_right N.add 0 l.
(** All that an asynchronous connection does for what it receives. *)
Definition stream_work (c : msg_codec) (buf : bytes) (s : list aev) : N :=
  sum (map decode_work (message_calls c buf s)).

(** ** The blocking side *)

(** What one call of [recv_message] does (src/receiver.rs:127-186): it adds up the lengths of all frames that
    are kept (:131), and reads.  The same simplification. *)
Definition recv_work (r : receiver) (s : script) : N :=
  let '(_, _, s') := recv_message r s in
  llen (r_buffer r) + (N.of_nat (script_bytes s) - N.of_nat (script_bytes s')).
(** What the calls of [Receiver.recv_n] do together. *)
Fixpoint receive_work (n : nat) (r : receiver) (s : script) : N :=
  match n with
  | O => 0
  | S n' => let '(_, r', s') := recv_message r s in recv_work r s + receive_work n' r' s'
  end.

(** ** Handshakes *)

(** External (hyper 0.10 http::h1::parse): the buffers that [Http.parse_loop] hands to the parser. *)
Fixpoint attempts {A : Type} (try : bytes -> pres A) (room : N -> N) (fuel : nat) (buf : bytes) (s : script) : list bytes :=
  buf ::
  match try buf with
  | Partial =>
      match fuel with
      | O => []
      | S fuel' =>
          match rd_read (room (llen buf)) s with
          | (Ok (b :: d), s') => attempts try room fuel' (buf ++ b :: d) s'
          | _ => []
          end
      end
  | _ => []
  end.
(** Bytes that the parser is given, all told, while the blocking server (src/server/upgrade/sync.rs:185-187)
    reads a request. *)
Definition request_work (X : http_lib) (s : script) : N :=
  sum (map llen (attempts (try_request X) (l_room X) (S (script_bytes s)) [] s)).
(** Bytes that are searched for the end of the head (src/codec/http.rs:65-70), all told, while the asynchronous
    server (src/server/upgrade/async.rs:235-245) awaits a request. *)
Definition async_request_work (X : http_lib) (s : list aev) : N :=
  sum (map (fun call : unit * bytes => llen (snd call))
         (first_calls (http_decode (try_request X)) (S (List.length s)) s (framed_new tt []))).
