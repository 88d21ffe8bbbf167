(** websocket-base/src/codec/ws.rs: the asynchronous side. *)
From Coq Require Import NArith String Bool List.
From Coq.Strings Require Import Byte.
From Verif.Model Require Import Base Io Header Mask Dataframe Utf8 Message Receiver.
Import ListNotations.
Local Open Scope string_scope.
Local Open Scope list_scope.
Local Open Scope N_scope.

(** codec/ws.rs:43-50 [Context] *)
Inductive context : Type := CtxServer | CtxClient.

(** codec/ws.rs:71-75 [DataFrameCodec] *)
Record df_codec : Type := mk_dfc { dc_is_server : bool; dc_max : N }.

(** codec/ws.rs:97-104 [DataFrameCodec::new_with_limits] *)
Definition df_codec_with_limits (c : context) (max_df : N) : df_codec :=
  mk_dfc (match c with CtxServer => true | CtxClient => false end) (N.min max_df u32_max).
(** codec/ws.rs:93-95 [DataFrameCodec::new] *)
Definition df_codec_new (c : context) : df_codec :=
  df_codec_with_limits c DEFAULT_MAX_DATAFRAME_SIZE.

(** codec/ws.rs:112-148 [DataFrameCodec::decode]: result and the buffer after. *)
Definition df_decode (c : df_codec) (src : bytes)
  : result (option dataframe) ws_error * bytes :=
  match read_header cur_exact (mk_cursor 0 src) with
  | (Ok h, cur) =>
      if dc_max c <? h_len h
      then (Err (ProtocolError "Exceeded maximum incoming DataFrame size"), src)
      else if llen src <? h_len h + cur_pos cur then (Ok None, src)
      else
        let src1 := drop (cur_pos cur) src in
        let body := take (h_len h) src1 in
        let src2 := drop (h_len h) src1 in
        match read_dataframe_body h body (dc_is_server c) with
        | Ok f => (Ok (Some f), src2)
        | Err e => (Err e, src2)
        | Panic => (Panic, src2)
        | OutOfFuel => (OutOfFuel, src2)
        end
  | (Err NoDataAvailable, _) => (Ok None, src)
  | (Err e, _) => (Err e, src)
  | (Panic, _) => (Panic, src)
  | (OutOfFuel, _) => (OutOfFuel, src)
  end.

(** codec/ws.rs:218-226 [MessageCodec] *)
Record msg_codec : Type := mk_mc {
  mc_buffer : list dataframe;
  mc_df : df_codec;
  mc_max_msg : N
}.

(** codec/ws.rs:260-268 [MessageCodec::new_with_limits] *)
Definition msg_codec_with_limits (c : context) (max_df max_msg : N) : msg_codec :=
  mk_mc [] (df_codec_with_limits c max_df) (N.min max_msg u32_max).
(** codec/ws.rs:256-258 [MessageCodec::new] *)
Definition msg_codec_new (c : context) : msg_codec :=
  msg_codec_with_limits c DEFAULT_MAX_DATAFRAME_SIZE DEFAULT_MAX_MESSAGE_SIZE.

Definition mc_with_buffer (c : msg_codec) (b : list dataframe) : msg_codec :=
  mk_mc b (mc_df c) (mc_max_msg c).

(** The [?] and [Ok(Some(..))] around [OwnedMessage::from_dataframes]. *)
Definition some_owned (r : result owned ws_error) : result (option owned) ws_error :=
  rbind r (fun m => Ok (Some m)).

(** codec/ws.rs:280-323: the [while let] loop; [cur] is [current_message_length].
    Every iteration that continues takes at least two bytes from [src]. *)
Fixpoint mc_loop (fuel : nat) (c : msg_codec) (cur : N) (src : bytes)
  : result (option owned) ws_error * msg_codec * bytes :=
  match fuel with
  | O => (OutOfFuel, c, src)
  | S fuel' =>
      match df_decode (mc_df c) src with
      | (Ok None, src') => (Ok None, c, src')
      | (Ok (Some frame), src') =>
          let is_first := match mc_buffer c with [] => true | _ => false end in
          let op := op_u8 (f_opcode frame) in
          if (op =? 0) && is_first then
            (Err (ProtocolError "Unexpected continuation data frame opcode"), c, src')
          else if (8 <=? op) && (op <=? 15) then
            (some_owned (owned_from_dataframes [df_ops frame]), c, src')
          else if ((1 <=? op) && (op <=? 7)) && negb is_first then
            (Err (ProtocolError "Unexpected data frame opcode"), c, src')
          else
            let cur' := cur + (llen (f_data frame) + PER_DATAFRAME_OVERHEAD) in
            let c' := mc_with_buffer c (mc_buffer c ++ [frame]) in
            if f_finished frame then
              (some_owned (owned_from_dataframes (map df_ops (mc_buffer c'))),
               mc_with_buffer c' [], src')
            else if MAX_DATAFRAMES_IN_ONE_MESSAGE <=? llen (mc_buffer c') then
              (Err (ProtocolError "Exceeded count of data frames in one WebSocket message"), c', src')
            else if mc_max_msg c' <? cur' then
              (Err (ProtocolError "Exceeded maximum WebSocket message size"), c', src')
            else mc_loop fuel' c' cur' src'
      | (Err e, src') => (Err e, c, src')
      | (Panic, src') => (Panic, c, src')
      | (OutOfFuel, src') => (OutOfFuel, c, src')
      end
  end.

(** codec/ws.rs:278-326 [MessageCodec::decode] *)
Definition mc_decode (c : msg_codec) (src : bytes)
  : result (option owned) ws_error * msg_codec * bytes :=
  mc_loop (S (length src)) c (data_total (mc_buffer c)) src.

(** External: [bytes 0.4 BytesMut] as contents and capacity.
    [remaining_mut] is the free capacity; [reserve n] makes it at least [n] (the
    amount actually allocated is [cap], chosen by the allocator, hence the
    [max]); [Writer] copies at most [remaining_mut] bytes per [write]. *)
Record bytesmut : Type := mk_bm { bm_data : bytes; bm_cap : N }.
Definition remaining_mut (b : bytesmut) : N := bm_cap b - llen (bm_data b).
Definition bm_reserve (n extra : N) (b : bytesmut) : bytesmut :=
  if n <=? remaining_mut b then b
  else mk_bm (bm_data b) (llen (bm_data b) + n + extra).
(** [write_all] on [dst.writer()]: [write] returns [min remaining len]; when no
    room is left it returns 0, which [write_all] turns into [WriteZero]. *)
Definition bm_write_all (buf : bytes) (b : bytesmut) : result unit io_kind * bytesmut :=
  let n := N.min (remaining_mut b) (llen buf) in
  let b' := mk_bm (bm_data b ++ take n buf) (bm_cap b) in
  if n =? llen buf then (Ok tt, b') else (Err WriteZero, b').

(** codec/ws.rs:158-165 [DataFrameCodec::encode] and 336-343
    [MessageCodec::encode] (same code for a frame and for a message seen as a
    frame).  [k] is what [gen_mask()] returns, [extra] the allocator's slack. *)
Definition codec_encode (is_server : bool) (d : dataframe_ops) (k : mkey) (extra : N)
  (dst : bytesmut) : result unit ws_error * bytesmut :=
  let masked := negb is_server in
  let sz := frame_size d masked in
  let dst1 := if remaining_mut dst <? sz then bm_reserve sz extra dst else dst in
  match frame_bytes d (if masked then Some k else None) with
  | Ok data => let '(r, dst2) := bm_write_all data dst1 in (io_to_ws r, dst2)
  | Err e => (Err e, dst1)
  | Panic => (Panic, dst1)
  | OutOfFuel => (OutOfFuel, dst1)
  end.
