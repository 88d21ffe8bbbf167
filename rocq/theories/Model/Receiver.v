(** src/receiver.rs, src/sender.rs and the provided methods of
    websocket-base/src/ws/{receiver,sender}.rs: the blocking side. *)
From Coq Require Import NArith String Bool List.
From Coq.Strings Require Import Byte.
From Verif.Model Require Import Base Io Header Mask Dataframe Utf8 Message.
Import ListNotations.
Local Open Scope string_scope.
Local Open Scope list_scope.
Local Open Scope N_scope.

(** src/receiver.rs:17-20 (and websocket-base/src/codec/ws.rs:30-33) *)
Definition DEFAULT_MAX_DATAFRAME_SIZE : N := 104857600.
Definition DEFAULT_MAX_MESSAGE_SIZE : N := 209715200.
Definition MAX_DATAFRAMES_IN_ONE_MESSAGE : N := 1048576.
Definition PER_DATAFRAME_OVERHEAD : N := 64.

(** src/receiver.rs:79-85 [Receiver] *)
Record receiver : Type := mk_recv {
  r_buffer : list dataframe;
  r_mask : bool;
  r_max_df : N;
  r_max_msg : N
}.

(** src/receiver.rs:100-110 [Receiver::new_with_limits] *)
Definition receiver_with_limits (mask : bool) (max_df max_msg : N) : receiver :=
  mk_recv [] mask (N.min max_df u32_max) (N.min max_msg u32_max).
(** src/receiver.rs:91-93 [Receiver::new] *)
Definition receiver_new (mask : bool) : receiver :=
  receiver_with_limits mask DEFAULT_MAX_DATAFRAME_SIZE DEFAULT_MAX_MESSAGE_SIZE.

Definition with_buffer (r : receiver) (b : list dataframe) : receiver :=
  mk_recv b (r_mask r) (r_max_df r) (r_max_msg r).

(** [self.buffer.iter().map(|x| x.data.len()).sum()] *)
Definition data_total (l : list dataframe) : N :=
  fold_left (fun acc f => acc + llen (f_data f)) l 0.

(** src/receiver.rs:119-124 [recv_dataframe] *)
Definition recv_dataframe (r : receiver) (s : script) : result dataframe ws_error * script :=
  read_dataframe_with_limit (r_mask r) (r_max_df r) s.

(** src/receiver.rs:152-183: [while !finished], then the [mem::replace] of line
    185.  [cur] is [current_message_length]. *)
Fixpoint recv_loop (fuel : nat) (r : receiver) (cur : N) (s : script)
  : result (list dataframe) ws_error * receiver * script :=
  match fuel with
  | O => (OutOfFuel, r, s)
  | S fuel' =>
      match recv_dataframe r s with
      | (Ok next, s') =>
          let op := op_u8 (f_opcode next) in
          if op =? 0 then
            let cur' := cur + (llen (f_data next) + PER_DATAFRAME_OVERHEAD) in
            let r' := with_buffer r (r_buffer r ++ [next]) in
            if f_finished next then
              (Ok (r_buffer r'), with_buffer r' [], s')
            else if MAX_DATAFRAMES_IN_ONE_MESSAGE <=? llen (r_buffer r') then
              (Err (ProtocolError "Exceeded count of data frames in one WebSocket message"), r', s')
            else if r_max_msg r' <=? cur' then
              (Err (ProtocolError "Exceeded maximum WebSocket message size"), r', s')
            else recv_loop fuel' r' cur' s'
          else if (8 <=? op) && (op <=? 15) then (Ok [next], r, s')
          else (Err (ProtocolError "Unexpected data frame opcode"), r, s')
      | (Err e, s') => (Err e, r, s')
      | (Panic, s') => (Panic, r, s')
      | (OutOfFuel, s') => (OutOfFuel, r, s')
      end
  end.

(** src/receiver.rs:127-186 [recv_message_dataframes].  Every iteration of the
    loop that does not return takes at least two bytes from the script, so its
    length in bytes is enough fuel. *)
Definition recv_message_dataframes (r : receiver) (s : script)
  : result (list dataframe) ws_error * receiver * script :=
  let cur := data_total (r_buffer r) in
  match r_buffer r with
  | [] =>
      match recv_dataframe r s with
      | (Ok first, s') =>
          match f_opcode first with
          | Continuation =>
              (Err (ProtocolError "Unexpected continuation data frame opcode"), r, s')
          | _ =>
              let cur' := cur + (llen (f_data first) + PER_DATAFRAME_OVERHEAD) in
              let r' := with_buffer r [first] in
              if f_finished first then (Ok [first], with_buffer r' [], s')
              else recv_loop (S (script_bytes s')) r' cur' s'
          end
      | (Err e, s') => (Err e, r, s')
      | (Panic, s') => (Panic, r, s')
      | (OutOfFuel, s') => (OutOfFuel, r, s')
      end
  | _ :: _ => recv_loop (S (script_bytes s)) r cur s
  end.

(** ws/receiver.rs:41-47 [recv_message], with [M = OwnedMessage]. *)
Definition recv_message (r : receiver) (s : script)
  : result owned ws_error * receiver * script :=
  match recv_message_dataframes r s with
  | (Ok frames, r', s') => (owned_from_dataframes (map df_ops frames), r', s')
  | (Err e, r', s') => (Err e, r', s')
  | (Panic, r', s') => (Panic, r', s')
  | (OutOfFuel, r', s') => (OutOfFuel, r', s')
  end.

(** ws/receiver.rs:100-104 [MessageIterator::next] never returns [None]: taking
    [n] items is [n] calls of [recv_message]. *)
Fixpoint recv_n (n : nat) (r : receiver) (s : script)
  : list (result owned ws_error) * receiver * script :=
  match n with
  | O => ([], r, s)
  | S n' =>
      let '(x, r', s') := recv_message r s in
      let '(xs, r'', s'') := recv_n n' r' s' in
      (x :: xs, r'', s'')
  end.

(** src/sender.rs:59-73 [Sender] *)
Record sender : Type := mk_sender { s_mask : bool }.

(** ws/sender.rs:17-35 [send_dataframe]/[send_message]; [k] is what
    [gen_mask()] returns for this call. *)
Definition send_frame (s : sender) (d : dataframe_ops) (k : mkey) (w : wstream)
  : result unit ws_error * wstream :=
  write_to d (if s_mask s then Some k else None) w.
Definition send_message (s : sender) (m : owned) (k : mkey) (w : wstream)
  : result unit ws_error * wstream :=
  send_frame s (owned_ops m) k w.
