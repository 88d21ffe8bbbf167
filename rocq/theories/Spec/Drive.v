(** Programs using the library, as any user would write them. *)
From Coq Require Import NArith List.
From Coq.Strings Require Import Byte.
From Verif.Model Require Import Base Io Header Mask Dataframe Message Receiver Codec Framed.
Import ListNotations.

(** Send a list of frames, each with the key drawn for it; collect the results. *)
Fixpoint send_all (s : sender) (l : list (dataframe_ops * mkey)) (w : wstream)
  : list (result unit ws_error) * wstream :=
  match l with
  | [] => ([], w)
  | (d, k) :: l' =>
      let '(r, w1) := send_frame s d k w in
      let '(rs, w2) := send_all s l' w1 in
      (r :: rs, w2)
  end.

(** Call [decode] on a buffer until it asks for more bytes or fails ([n] calls at
    most): the items, the error if any, codec and buffer afterwards. *)
Fixpoint decode_until {St Item : Type}
  (decode : St -> bytes -> result (option Item) ws_error * St * bytes)
  (n : nat) (st : St) (src : bytes) : list Item * option ws_error * St * bytes :=
  match n with
  | O => ([], None, st, src)
  | S n' =>
      match decode st src with
      | (Ok (Some i), st', src') =>
          let '(l, e, st2, src2) := decode_until decode n' st' src' in (i :: l, e, st2, src2)
      | (Ok None, st', src') => ([], None, st', src')
      | (Err e, st', src') => ([], Some e, st', src')
      | (_, st', src') => ([], Some (OtherError (String.EmptyString)), st', src')
      end
  end.
Definition decode_buffer {St Item : Type}
  (decode : St -> bytes -> result (option Item) ws_error * St * bytes)
  (st : St) (src : bytes) : list Item * option ws_error * St * bytes :=
  decode_until decode (S (length src)) st src.

(** Feed chunks one after the other, calling [decode] as above after each; stop at the
    first error. *)
Fixpoint decode_chunks {St Item : Type}
  (decode : St -> bytes -> result (option Item) ws_error * St * bytes)
  (st : St) (src : bytes) (chunks : list bytes) : list Item * option ws_error * St * bytes :=
  match decode_buffer decode st src with
  | (l, Some e, st', src') => (l, Some e, st', src' ++ concat chunks)
  | (l, None, st', src') =>
      match chunks with
      | [] => (l, None, st', src')
      | c :: chunks' =>
          let '(l2, e, st2, src2) := decode_chunks decode st' (src' ++ c) chunks' in
          (l ++ l2, e, st2, src2)
      end
  end.

(** Call [decode] exactly [n] times and collect the results, errors included. *)
Fixpoint decode_n {St Item : Type}
  (decode : St -> bytes -> result (option Item) ws_error * St * bytes)
  (n : nat) (st : St) (src : bytes) : list (result (option Item) ws_error) * St * bytes :=
  match n with
  | O => ([], st, src)
  | S n' =>
      let '(r, st1, src1) := decode st src in
      let '(rs, st2, src2) := decode_n decode n' st1 src1 in
      (r :: rs, st2, src2)
  end.

(** The states a receiver can be in as long as no call has failed, whatever the streams
    it is given. *)
Inductive receiving (r0 : receiver) : receiver -> Prop :=
| recv_start : receiving r0 r0
| recv_next : forall r s m r' s', receiving r0 r -> recv_message r s = (Ok m, r', s') ->
    receiving r0 r'.
Inductive decoding (c0 : msg_codec) : msg_codec -> Prop :=
| dec_start : decoding c0 c0
| dec_next : forall c src x c' src', decoding c0 c -> mc_decode c src = (Ok x, c', src') ->
    decoding c0 c'.

(** All the bytes in one chunk. *)
Definition at_once (l : bytes) : list aev :=
  match l with [] => [] | b :: bs => [AData b bs] end.
