(** websocket-base/src/ws/dataframe.rs (the trait) and
    websocket-base/src/dataframe.rs (the default frame). *)
From Coq Require Import NArith String Bool List.
From Coq.Strings Require Import Byte.
From Verif.Model Require Import Base Io Header Mask.
Import ListNotations.
Local Open Scope string_scope.
Local Open Scope list_scope.
Local Open Scope N_scope.

(** [[bool; 3]] *)
Definition rsv := (bool * bool * bool)%type.
Definition no_rsv : rsv := (false, false, false).

(** ws/dataframe.rs:14-50: an implementation of the trait [DataFrame], as the
    results of its methods.  [df_writes] is the sequence of [write_all] calls
    made by [write_payload] and [df_write_err] an error it returns of its own. *)
Record dataframe_ops : Type := mk_ops {
  df_is_last : bool;
  df_opcode : N;
  df_reserved : rsv;
  df_size : N;
  df_writes : list bytes;
  df_write_err : option ws_error;
  df_take_payload : bytes
}.

(** ws/dataframe.rs:27-44 [frame_size] *)
Definition frame_size (d : dataframe_ops) (masked : bool) : N :=
  1 + (if df_size d <=? 125 then 1 else if df_size d <=? 65535 then 3 else 9)
    + (if masked then 4 else 0)
    + df_size d.

(** ws/dataframe.rs:54-69: the flags. *)
Definition df_flags (d : dataframe_ops) : N :=
  let '(r1, r2, r3) := df_reserved d in
  let f := 0 in
  let f := if df_is_last d then fl_insert f FIN else f in
  let f := if r1 then fl_insert f RSV1 else f in
  let f := if r2 then fl_insert f RSV2 else f in
  let f := if r3 then fl_insert f RSV3 else f in
  f.

(** ws/dataframe.rs:83-89: [write_payload] into the local [Vec], through a
    [Masker] when there is a key.  A [Vec] endpoint accepts everything. *)
Definition payload_into (d : dataframe_ops) (key : option mkey) (data : bytes)
  : result bytes ws_error :=
  let r :=
    match key with
    | Some k =>
        match masker_write_list (masker_new k (mk_w data [])) (df_writes d) with
        | (Ok _, m) => Ok (w_out (m_end m))
        | (Err e, _) => Err (of_io e)
        | (Panic, _) => Panic
        | (OutOfFuel, _) => OutOfFuel
        end
    | None => Ok (data ++ concat (df_writes d))
    end in
  match r, df_write_err d with
  | Ok _, Some e => Err e
  | _, _ => r
  end.

(** ws/dataframe.rs:54-89: everything [write_to] does before touching the
    writer.  [key] is [Some k] iff masking was asked, [k] being what
    [gen_mask()] returned. *)
Definition frame_bytes (d : dataframe_ops) (key : option mkey) : result bytes ws_error :=
  rbind (write_header (mk_header (df_flags d) (df_opcode d) key (df_size d)))
        (payload_into d key).

(** ws/dataframe.rs:53-92 [write_to] *)
Definition write_to (d : dataframe_ops) (key : option mkey) (w : wstream)
  : result unit ws_error * wstream :=
  match frame_bytes d key with
  | Ok data => let '(r, w') := write_all data w in (io_to_ws r, w')
  | Err e => (Err e, w)
  | Panic => (Panic, w)
  | OutOfFuel => (OutOfFuel, w)
  end.

(** dataframe.rs:155-188 [Opcode] *)
Inductive opcode : Type :=
| Continuation | Text | Binary
| NonControl1 | NonControl2 | NonControl3 | NonControl4 | NonControl5
| Close | Ping | Pong
| Control1 | Control2 | Control3 | Control4 | Control5.

(** [opcode as u8] *)
Definition op_u8 (o : opcode) : N :=
  match o with
  | Continuation => 0 | Text => 1 | Binary => 2
  | NonControl1 => 3 | NonControl2 => 4 | NonControl3 => 5
  | NonControl4 => 6 | NonControl5 => 7
  | Close => 8 | Ping => 9 | Pong => 10
  | Control1 => 11 | Control2 => 12 | Control3 => 13
  | Control4 => 14 | Control5 => 15
  end.

(** dataframe.rs:195-215 [Opcode::new] *)
Definition opcode_new (op : N) : option opcode :=
  match op with
  | 0 => Some Continuation | 1 => Some Text | 2 => Some Binary
  | 3 => Some NonControl1 | 4 => Some NonControl2 | 5 => Some NonControl3
  | 6 => Some NonControl4 | 7 => Some NonControl5
  | 8 => Some Close | 9 => Some Ping | 10 => Some Pong
  | 11 => Some Control1 | 12 => Some Control2 | 13 => Some Control3
  | 14 => Some Control4 | 15 => Some Control5
  | _ => None
  end.

(** dataframe.rs:18-27 [DataFrame] *)
Record dataframe : Type := mk_df {
  f_finished : bool;
  f_reserved : rsv;
  f_opcode : opcode;
  f_data : bytes
}.

(** dataframe.rs:31-38 [DataFrame::new] *)
Definition df_new (finished : bool) (o : opcode) (data : bytes) : dataframe :=
  mk_df finished no_rsv o data.

(** dataframe.rs:120-151: the trait for the default frame. *)
Definition df_ops (f : dataframe) : dataframe_ops :=
  mk_ops (f_finished f) (op_u8 (f_opcode f)) (f_reserved f) (llen (f_data f))
         [f_data f] None (f_data f).

(** dataframe.rs:44-82 [read_dataframe_body] *)
Definition read_dataframe_body (h : dfheader) (body : bytes) (should_be_masked : bool)
  : result dataframe ws_error :=
  let finished := fl_contains (h_flags h) FIN in
  let reserved := (fl_contains (h_flags h) RSV1, fl_contains (h_flags h) RSV2,
                   fl_contains (h_flags h) RSV3) in
  match opcode_new (h_opcode h) with
  | None => Panic (* expect("Invalid header opcode!") *)
  | Some op =>
      match h_mask h with
      | Some k =>
          if negb should_be_masked
          then Err (DataFrameError "Expected unmasked data frame")
          else Ok (mk_df finished reserved op (mask_data k body))
      | None =>
          if should_be_masked
          then Err (DataFrameError "Expected masked data frame")
          else Ok (mk_df finished reserved op body)
      end
  end.

(** dataframe.rs:91-97 / 110-116: [Vec::with_capacity] (panics above
    [isize::MAX]; running out of memory below that is not modelled), the payload
    and the body. *)
Definition read_payload (h : dfheader) (should_be_masked : bool) (s : script)
  : result dataframe ws_error * script :=
  if isize_max <? h_len h then (Panic, s)
  else
    match rd_take_to_end (h_len h) s with
    | (Ok data, s') =>
        if llen data <? h_len h then (Err (of_io UnexpectedEof), s')
        else (read_dataframe_body h data should_be_masked, s')
    | (Err k, s') => (Err (of_io k), s')
    | (Panic, s') => (Panic, s')
    | (OutOfFuel, s') => (OutOfFuel, s')
    end.

(** dataframe.rs:85-98 [read_dataframe] *)
Definition read_dataframe (should_be_masked : bool) (s : script)
  : result dataframe ws_error * script :=
  sbind (read_header rd_exact s) (fun h s => read_payload h should_be_masked s).

(** dataframe.rs:101-117 [read_dataframe_with_limit] *)
Definition read_dataframe_with_limit (should_be_masked : bool) (limit : N) (s : script)
  : result dataframe ws_error * script :=
  sbind (read_header rd_exact s) (fun h s =>
    if limit <? h_len h then (Err (of_io InvalidData), s)
    else read_payload h should_be_masked s).
