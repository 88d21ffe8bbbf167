(** External: the loops of [std::io::Read] over any [read], and hyper 0.10's [BufReader]
    (src/buffer.rs), through which a blocking connection reads.  [Io.rd_exact] and
    [Io.rd_take_to_end] are these loops on an unbuffered stream in closed form; that the
    closed forms and the buffer make no difference is proved in Props/Buffered.v. *)
From Coq Require Import NArith String Bool List.
From Coq.Strings Require Import Byte.
From Verif.Model Require Import Base Io Header Mask Dataframe Utf8 Message Receiver.
Import ListNotations.
Local Open Scope string_scope.
Local Open Scope list_scope.
Local Open Scope N_scope.

Section Loops.
  Variable R : Type.
  (** [Read::read] with a buffer of [n] bytes *)
  Variable read : N -> R -> result bytes io_kind * R.

  (** External ([std::io::default_read_exact]): read into what is left of the buffer until it
      is full; retry when interrupted. *)
  Fixpoint std_exact (fuel : nat) (n : N) (r : R) : result bytes io_kind * R :=
    if n =? 0 then (Ok [], r) else
    match fuel with
    | O => (OutOfFuel, r)
    | S fuel' =>
        match read n r with
        | (Ok [], r') => (Err UnexpectedEof, r')
        | (Ok d, r') =>
            match std_exact fuel' (n - llen d) r' with
            | (Ok x, r'') => (Ok (d ++ x), r'')
            | e => e
            end
        | (Err Interrupted, r') => std_exact fuel' n r'
        | (Err k, r') => (Err k, r')
        | e => e
        end
    end.

  (** External ([std::io::Take::read] under [default_read_to_end]): read until nothing is left
      or [n] bytes are there.  How many bytes it asks for, at most the [n] that are left, is
      its own choice [want]. *)
  Fixpoint std_take (want : N -> N) (fuel : nat) (n : N) (r : R) : result bytes io_kind * R :=
    if n =? 0 then (Ok [], r) else
    match fuel with
    | O => (OutOfFuel, r)
    | S fuel' =>
        match read (N.min n (want n)) r with
        | (Ok [], r') => (Ok [], r')
        | (Ok d, r') =>
            match std_take want fuel' (n - llen d) r' with
            | (Ok x, r'') => (Ok (d ++ x), r'')
            | e => e
            end
        | (Err Interrupted, r') => std_take want fuel' n r'
        | (Err k, r') => (Err k, r')
        | e => e
        end
    end.
End Loops.
Arguments std_exact {R}.
Arguments std_take {R}.

(** External (hyper 0.10 [BufReader]): the unread bytes [buf[pos..cap]] and the stream. *)
Record bufreader : Type := mk_br { br_buf : bytes; br_in : script }.
(** External (hyper 0.10 [Read for BufReader]): what is buffered is given out first; with an
    empty buffer of [size] bytes a read of at least that size goes to the stream itself, a
    smaller one fills the buffer first. *)
Definition br_read (size n : N) (r : bufreader) : result bytes io_kind * bufreader :=
  match br_buf r with
  | _ :: _ => (Ok (take n (br_buf r)), mk_br (drop n (br_buf r)) (br_in r))
  | [] =>
      if size <=? n then let '(x, s) := rd_read n (br_in r) in (x, mk_br [] s)
      else
        match rd_read size (br_in r) with
        | (Ok d, s) => (Ok (take n d), mk_br (drop n d) s)
        | (x, s) => (x, mk_br [] s)
        end
  end.

(** Every call of [read] takes at least one event or byte of the script. *)
Definition br_fuel (r : bufreader) : nat :=
  S (length (br_buf r) + script_bytes (br_in r) + length (br_in r)).
Definition br_exact (size n : N) (r : bufreader) : result bytes io_kind * bufreader :=
  std_exact (br_read size) (br_fuel r) n r.
Definition br_take (size : N) (want : N -> N) (n : N) (r : bufreader)
  : result bytes io_kind * bufreader :=
  std_take (br_read size) want (br_fuel r) n r.

(** websocket-base/src/dataframe.rs:101-117 [read_dataframe_with_limit] reading through a
    [BufReader], as [recv_dataframe] of src/client/sync.rs:170-172 and of src/receiver.rs:37-39
    does (cf. [Dataframe.read_dataframe_with_limit]). *)
Definition br_recv_frame (size : N) (want : N -> N) (rc : receiver) (r : bufreader)
  : result dataframe ws_error * bufreader :=
  sbind (read_header (br_exact size) r) (fun h r =>
    if r_max_df rc <? h_len h then (Err (of_io InvalidData), r)
    else if isize_max <? h_len h then (Panic, r)
    else
      match br_take size want (h_len h) r with
      | (Ok data, r') =>
          if llen data <? h_len h then (Err (of_io UnexpectedEof), r')
          else (read_dataframe_body h data (r_mask rc), r')
      | (Err k, r') => (Err (of_io k), r')
      | (Panic, r') => (Panic, r')
      | (OutOfFuel, r') => (OutOfFuel, r')
      end).
(** Successive [recv_dataframe]s. *)
Fixpoint br_recv_frames (size : N) (want : N -> N) (n : nat) (rc : receiver) (r : bufreader)
  : list (result dataframe ws_error) * bufreader :=
  match n with
  | O => ([], r)
  | S n' =>
      let '(x, r1) := br_recv_frame size want rc r in
      let '(xs, r2) := br_recv_frames size want n' rc r1 in
      (x :: xs, r2)
  end.

(** src/receiver.rs:152-185 and :127-186, :41-47 of websocket-base/src/ws/receiver.rs, reading
    through a [BufReader] (cf. [Receiver.recv_loop] and the following). *)
Fixpoint br_recv_loop (size : N) (want : N -> N) (fuel : nat) (r : receiver) (cur : N)
  (s : bufreader) : result (list dataframe) ws_error * receiver * bufreader :=
  match fuel with
  | O => (OutOfFuel, r, s)
  | S fuel' =>
      match br_recv_frame size want r s with
      | (Ok next, s') =>
          let op := op_u8 (f_opcode next) in
          if op =? 0 then
            let cur' := cur + (llen (f_data next) + PER_DATAFRAME_OVERHEAD) in
            let r' := with_buffer r (r_buffer r ++ [next]) in
            if f_finished next then
              (Ok (r_buffer r'), with_buffer r' [], s')
            else if MAX_DATAFRAMES_IN_ONE_MESSAGE <=? llen (r_buffer r') then
              (Err (ProtocolError "Exceeded count of data frames in one WebSocket message"), r', s')
            else if r_max_msg r' <=? cur' then
              (Err (ProtocolError "Exceeded maximum WebSocket message size"), r', s')
            else br_recv_loop size want fuel' r' cur' s'
          else if (8 <=? op) && (op <=? 15) then (Ok [next], r, s')
          else (Err (ProtocolError "Unexpected data frame opcode"), r, s')
      | (Err e, s') => (Err e, r, s')
      | (Panic, s') => (Panic, r, s')
      | (OutOfFuel, s') => (OutOfFuel, r, s')
      end
  end.
Definition br_bytes (s : bufreader) : nat := length (br_buf s) + script_bytes (br_in s).
Definition br_recv_message (size : N) (want : N -> N) (r : receiver) (s : bufreader)
  : result owned ws_error * receiver * bufreader :=
  let '(x, r', s') :=
    match r_buffer r with
    | [] =>
        match br_recv_frame size want r s with
        | (Ok first, s') =>
            match f_opcode first with
            | Continuation =>
                (Err (ProtocolError "Unexpected continuation data frame opcode"), r, s')
            | _ =>
                let cur' := data_total (r_buffer r) + (llen (f_data first) + PER_DATAFRAME_OVERHEAD) in
                let r' := with_buffer r [first] in
                if f_finished first then (Ok [first], with_buffer r' [], s')
                else br_recv_loop size want (S (br_bytes s')) r' cur' s'
            end
        | (Err e, s') => (Err e, r, s')
        | (Panic, s') => (Panic, r, s')
        | (OutOfFuel, s') => (OutOfFuel, r, s')
        end
    | _ :: _ => br_recv_loop size want (S (br_bytes s)) r (data_total (r_buffer r)) s
    end in
  match x with
  | Ok frames => (owned_from_dataframes (map df_ops frames), r', s')
  | Err e => (Err e, r', s')
  | Panic => (Panic, r', s')
  | OutOfFuel => (OutOfFuel, r', s')
  end.
Fixpoint br_recv_n (size : N) (want : N -> N) (n : nat) (r : receiver) (s : bufreader)
  : list (result owned ws_error) * receiver * bufreader :=
  match n with
  | O => ([], r, s)
  | S n' =>
      let '(x, r', s') := br_recv_message size want r s in
      let '(xs, r'', s'') := br_recv_n size want n' r' s' in
      (x :: xs, r'', s'')
  end.
