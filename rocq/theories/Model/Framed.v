(** External: tokio-codec 0.1 [Framed] (FramedRead2 / FramedWrite2), the loops that
    drive the codecs of an asynchronous [Client] (src/client/async.rs:
    [Client<S> = Framed<S, MessageCodec<OwnedMessage>>]). *)
From Coq Require Import NArith String Bool List.
From Coq.Strings Require Import Byte.
From Verif.Model Require Import Base Io Header Mask Dataframe Utf8 Message Receiver Codec.
Import ListNotations.
Local Open Scope string_scope.
Local Open Scope list_scope.
Local Open Scope N_scope.

(** What one [poll_read] of the transport does; an exhausted script is end of file. *)
Inductive aev : Type :=
| AData (b : byte) (bs : bytes)
| ANotReady
| AErr (k : io_kind).

(** [Poll<Option<Item>, Error>] (plus a panic of the code below it). *)
Inductive poll (Item : Type) : Type :=
| PItem (i : Item)
| PEnd
| PNotReady
| PErr (e : ws_error)
| PPanic
| POutOfFuel.
Arguments PItem {Item} i.
Arguments PEnd {Item}.
Arguments PNotReady {Item}.
Arguments PErr {Item} e.
Arguments PPanic {Item}.
Arguments POutOfFuel {Item}.

Section FramedRead.
  Variables St Item : Type.
  (** [Decoder::decode] of the codec *)
  Variable decode : St -> bytes -> result (option Item) ws_error * St * bytes.

  (** [FramedRead2]: codec, buffer, [is_readable], [eof]. *)
  Record framed : Type := mk_framed {
    fr_st : St;
    fr_buf : bytes;
    fr_readable : bool;
    fr_eof : bool
  }.

  (** The first half of the loop of [FramedRead2::poll]: call [decode], or at end
      of file [decode_eof] (the trait's default: [None] with bytes left is an
      [io::Error] of kind [Other]).  [None] as a result means: go on and read. *)
  Definition framed_decode (f : framed) : option (poll Item) * framed :=
    if fr_readable f then
      let '(r, st', buf') := decode (fr_st f) (fr_buf f) in
      let f' := mk_framed st' buf' true (fr_eof f) in
      match r with
      | Ok (Some i) => (Some (PItem i), f')
      | Ok None =>
          if fr_eof f then
            match buf' with
            | [] => (Some PEnd, f')
            | _ :: _ => (Some (PErr (of_io (OtherKind 0))), f')
            end
          else (None, mk_framed st' buf' false false)
      | Err e => (Some (PErr e), f')
      | Panic => (Some PPanic, f')
      | OutOfFuel => (Some POutOfFuel, f')
      end
    else (None, f).

  (** [FramedRead2::poll] *)
  Fixpoint framed_poll (s : list aev) (f : framed) : poll Item * framed * list aev :=
    match framed_decode f with
    | (Some r, f') => (r, f', s)
    | (None, f') =>
        if fr_eof f' then (PPanic, f', s) (* assert!(!self.eof) *)
        else
          match s with
          | [] =>
              (* read_buf returned 0: eof; loop once more, now always readable *)
              let f'' := mk_framed (fr_st f') (fr_buf f') true true in
              match framed_decode f'' with
              | (Some r, f3) => (r, f3, [])
              | (None, f3) => (PPanic, f3, [])
              end
          | AData b bs :: s' =>
              framed_poll s' (mk_framed (fr_st f') (fr_buf f' ++ b :: bs) true false)
          | ANotReady :: s' => (PNotReady, f', s')
          | AErr k :: s' => (PErr (of_io k), f', s')
          end
    end.

  (** A consumer of the stream ([for_each], [fold], ...): polls until the end or
      the first error; [PNotReady] means it is polled again later.  Returns the
      items and how it ended. *)
  Fixpoint framed_run (fuel : nat) (s : list aev) (f : framed) : list Item * poll Item :=
    match fuel with
    | O => ([], POutOfFuel)
    | S fuel' =>
        match framed_poll s f with
        | (PItem i, f', s') =>
            let '(l, e) := framed_run fuel' s' f' in (i :: l, e)
        | (PNotReady, f', s') => framed_run fuel' s' f'
        | (r, _, _) => ([], r)
        end
    end.
End FramedRead.
Arguments mk_framed {St}.
Arguments fr_st {St}.
Arguments fr_buf {St}.
Arguments fr_readable {St}.
Arguments fr_eof {St}.
Arguments framed_decode {St Item}.
Arguments framed_poll {St Item}.
Arguments framed_run {St Item}.

(** Bytes of a read script, and a bound on the number of polls of [framed_run]. *)
Fixpoint aev_bytes (s : list aev) : bytes :=
  match s with
  | [] => []
  | AData b bs :: s' => b :: bs ++ aev_bytes s'
  | _ :: s' => aev_bytes s'
  end.

(** A freshly created [Framed] ([FramedParts::new] sets [is_readable = false] when
    the buffer is empty; [Framed::from_parts] with left-over bytes sets it to
    [true]: framed_read2_with_buffer, [is_readable: buf.len() > 0]). *)
Definition framed_new {St : Type} (st : St) (buf : bytes) : framed St :=
  mk_framed st buf (match buf with [] => false | _ => true end) false.

(** The decoder of frames as a stateful decoder (it keeps no state). *)
Definition df_decoder (c : df_codec) (src : bytes)
  : result (option dataframe) ws_error * df_codec * bytes :=
  let '(r, src') := df_decode c src in (r, c, src').

(** All frames / messages of a read script. *)
Definition run_frames (c : df_codec) (buf : bytes) (s : list aev)
  : list dataframe * poll dataframe :=
  framed_run df_decoder (length buf + length (aev_bytes s) + length s + 2) s (framed_new c buf).
Definition run_messages (c : msg_codec) (buf : bytes) (s : list aev)
  : list owned * poll owned :=
  framed_run mc_decode (length buf + length (aev_bytes s) + length s + 2) s (framed_new c buf).

(** ** The sink half *)

(** Outcomes of [poll_write] and [poll_flush]; exhausted scripts accept all. *)
Inductive awev : Type :=
| AwAccept (n : N)   (* at most n + 1 bytes *)
| AwNotReady
| AwZero
| AwErr (k : io_kind).
Inductive afev : Type := AfReady | AfNotReady | AfErr (k : io_kind).

(** FramedWrite2: the buffer and the transport. *)
Record fwrite : Type := mk_fw {
  fw_buf : bytesmut;
  fw_out : bytes;
  fw_ws : list awev;
  fw_fs : list afev
}.

Inductive spoll : Type := SReady | SNotReady | SErr (e : ws_error).

Definition BACKPRESSURE : N := 8192.

(** FramedWrite2::poll_complete: the write loop (structural on the script). *)
Fixpoint flush_go (ws : list awev) (data : bytes) (out : bytes)
  : option spoll * bytes * bytes * list awev :=
  match data with
  | [] => (None, [], out, ws)
  | _ :: _ =>
      match ws with
      | [] => (None, [], out ++ data, [])
      | AwAccept n :: ws' => flush_go ws' (drop (n + 1) data) (out ++ take (n + 1) data)
      | AwNotReady :: ws' => (Some SNotReady, data, out, ws')
      | AwZero :: ws' => (Some (SErr (of_io WriteZero)), data, out, ws')
      | AwErr k :: ws' => (Some (SErr (of_io k)), data, out, ws')
      end
  end.

Definition poll_complete (w : fwrite) : spoll * fwrite :=
  let '(r, data, out, ws) := flush_go (fw_ws w) (bm_data (fw_buf w)) (fw_out w) in
  (* split_to keeps the allocation behind: capacity shrinks by what was taken *)
  let cap := bm_cap (fw_buf w) - (llen (bm_data (fw_buf w)) - llen data) in
  let b := mk_bm data cap in
  match r with
  | Some e => (e, mk_fw b out ws (fw_fs w))
  | None =>
      match fw_fs w with
      | [] => (SReady, mk_fw b out ws [])
      | AfReady :: fs => (SReady, mk_fw b out ws fs)
      | AfNotReady :: fs => (SNotReady, mk_fw b out ws fs)
      | AfErr k :: fs => (SErr (of_io k), mk_fw b out ws fs)
      end
  end.

(** FramedWrite2::start_send with the codec's [encode]; [SNotReady] hands the item
    back.  [d] is the item as a frame, [k] the mask drawn, [extra] allocator slack. *)
Definition start_send (is_server : bool) (d : dataframe_ops) (k : mkey) (extra : N)
  (w : fwrite) : spoll * fwrite :=
  let send w :=
    match codec_encode is_server d k extra (fw_buf w) with
    | (Ok _, b) => (SReady, mk_fw b (fw_out w) (fw_ws w) (fw_fs w))
    | (Err e, b) => (SErr e, mk_fw b (fw_out w) (fw_ws w) (fw_fs w))
    | (_, b) => (SErr (OtherError "panic"), mk_fw b (fw_out w) (fw_ws w) (fw_fs w))
    end in
  if BACKPRESSURE <=? llen (bm_data (fw_buf w)) then
    match poll_complete w with
    | (SErr e, w') => (SErr e, w')
    | (_, w') =>
        if BACKPRESSURE <=? llen (bm_data (fw_buf w')) then (SNotReady, w')
        else send w'
    end
  else send w.
