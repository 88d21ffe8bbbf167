(** The server of examples/parallel-server.rs: tasks of a thread pool that share a table of
    sinks and two channels.  One event below is one step of one task between two points where
    another task can come in; a run is any list of events.

    Simplified: what a client's [Framed] stream gives is an input (see Framed.v and C45-C46 for
    how it comes from the bytes), so is whether sending on its sink succeeds, and the messages
    "Hi there!" are counted, not encoded.  Printing other than [process_message]'s is left out. *)
From Coq Require Import NArith Bool List.
From Coq.Strings Require Import Byte.
From Verif.Model Require Import Base Io Dataframe Utf8 Message.
Import ListNotations.
Local Open Scope N_scope.

(** What polling a client's stream gives when it is ready. *)
Inductive sitem : Type := SMsg (m : owned) | SEnd | SFail.

(** Why the server stopped: [block_on_all] has returned, or the one task made of the four
    handlers has panicked (examples/parallel-server.rs:115-121). *)
Inductive down : Type :=
| BadClient      (* [incoming] gave an error: connection_handler, :33-58, ended *)
| StreamFailed   (* a client's stream gave an error: receive_handler, :61-68, ended *)
| InvalidId.     (* send_handler, :79-83: "Tried to send to invalid client id" *)

Record pserver : Type := mk_ps {
  ps_count : N;               (* [conn_id], :30, :163-183; [Id::max_value()] is reached once *)
  ps_inserting : list N;      (* ids taken whose sink is not yet in the table: between :44 and :52 *)
  ps_conns : list N;          (* [connections], :28 *)
  ps_pool_tasks : list N;     (* spawned "Send stream to connection pool", :50-51 *)
  ps_pool : list N;           (* the receive channel, :29 *)
  ps_current : option N;      (* the client whose stream receive_handler is reading, :62-67 *)
  ps_arrived : N -> list sitem; (* what each client's stream has ready *)
  ps_updates : nat;           (* spawned updates that have not run, :153-159 *)
  ps_msg_tasks : list N;      (* spawned "Send message to write handler", :155-156 *)
  ps_sends : list N;          (* the send channel, :70 *)
  ps_flight : list N;         (* sinks taken out of the table by a send, :86-93 *)
  ps_lost : list N;           (* sinks dropped because sending failed, :92 *)
  ps_greeted : list N;        (* completed sends *)
  ps_printed : list (N * bytes); (* what [process_message] printed, :135-139 *)
  ps_down : option down
}.

Inductive pevent : Type :=
| Accepted                    (* the answer to a handshake has been written: :43-51 *)
| Inserted (id : N)           (* :52 *)
| Refused                     (* [incoming] yields an error: :36, :58 *)
| PoolTask (id : N)           (* a task of :50-51 runs *)
| Arrives (id : N) (x : sitem) (* a client's stream has something more *)
| ReceivePolled               (* receive_handler makes a step: :61-68 *)
| Tick                        (* 100 ms have passed: :99-113 *)
| UpdateRuns                  (* a spawned update runs: :153-159 *)
| MsgTask (id : N)            (* a task of :155-156 runs *)
| SendPolled                  (* send_handler takes one message: :76-96 *)
| SendDone (id : N) (ok : bool). (* a spawned send completes: :86-93 *)

(** Membership and removal (of one occurrence) in a list of ids. *)
Definition has (id : N) (l : list N) : bool := existsb (N.eqb id) l.
Fixpoint without (id : N) (l : list N) : list N :=
  match l with
  | [] => []
  | x :: r => if id =? x then r else x :: without id r
  end.

(** examples/parallel-server.rs:172-183 [Counter::next] *)
Definition counter_next (count : N) : option (N * N) :=
  if count =? 2 ^ 32 - 1 then None else Some (count + 1, count + 1).

(** examples/parallel-server.rs:135-139 [process_message] *)
Definition process_message (id : N) (m : owned) : list (N * bytes) :=
  match m with OText t => [(id, t)] | _ => [] end.

(** One step.  An event of a task that does not exist changes nothing. *)
Definition par_step (s : pserver) (e : pevent) : pserver :=
  match s with
  | mk_ps count inserting conns pool_tasks pool current arrived updates msg_tasks sends flight lost greeted printed dn =>
    match dn with
    | Some _ => s
    | None =>
        match e with
        | Accepted =>
            (* :44-48: without an id the task panics, and poisons [conn_id]'s lock; it is not one
               of the four handlers, so the server goes on *)
            match counter_next count with
            | None => s
            | Some (id, count') =>
                mk_ps count' (id :: inserting) conns (id :: pool_tasks) pool current arrived updates
                  msg_tasks sends flight lost greeted printed None
            end
        | Inserted id =>
            if has id inserting then
              mk_ps count (without id inserting) (id :: conns) pool_tasks pool current arrived updates
                msg_tasks sends flight lost greeted printed None
            else s
        | Refused =>
            mk_ps count inserting conns pool_tasks pool current arrived updates
              msg_tasks sends flight lost greeted printed (Some BadClient)
        | PoolTask id =>
            if has id pool_tasks then
              mk_ps count inserting conns (without id pool_tasks) (pool ++ [id]) current arrived updates
                msg_tasks sends flight lost greeted printed None
            else s
        | Arrives id x =>
            mk_ps count inserting conns pool_tasks pool current
              (fun i => if i =? id then arrived i ++ [x] else arrived i) updates
              msg_tasks sends flight lost greeted printed None
        | ReceivePolled =>
            match current with
            | None =>
                match pool with
                | [] => s
                | id :: pool' =>
                    mk_ps count inserting conns pool_tasks pool' (Some id) arrived updates
                      msg_tasks sends flight lost greeted printed None
                end
            | Some id =>
                match arrived id with
                | [] => s
                | SMsg m :: r =>
                    mk_ps count inserting conns pool_tasks pool current
                      (fun i => if i =? id then r else arrived i) updates
                      msg_tasks sends flight lost greeted (printed ++ process_message id m) None
                | SEnd :: r =>
                    mk_ps count inserting conns pool_tasks pool None
                      (fun i => if i =? id then r else arrived i) updates
                      msg_tasks sends flight lost greeted printed None
                | SFail :: r =>
                    mk_ps count inserting conns pool_tasks pool current
                      (fun i => if i =? id then r else arrived i) updates
                      msg_tasks sends flight lost greeted printed (Some StreamFailed)
                end
            end
        | Tick =>
            mk_ps count inserting conns pool_tasks pool current arrived (S updates)
              msg_tasks sends flight lost greeted printed None
        | UpdateRuns =>
            match updates with
            | O => s
            | S n =>
                mk_ps count inserting conns pool_tasks pool current arrived n
                  (conns ++ msg_tasks) sends flight lost greeted printed None
            end
        | MsgTask id =>
            if has id msg_tasks then
              mk_ps count inserting conns pool_tasks pool current arrived updates
                (without id msg_tasks) (sends ++ [id]) flight lost greeted printed None
            else s
        | SendPolled =>
            match sends with
            | [] => s
            | id :: sends' =>
                if has id conns then
                  mk_ps count inserting (without id conns) pool_tasks pool current arrived updates
                    msg_tasks sends' (id :: flight) lost greeted printed None
                else
                  mk_ps count inserting conns pool_tasks pool current arrived updates
                    msg_tasks sends' flight lost greeted printed (Some InvalidId)
            end
        | SendDone id ok =>
            if has id flight then
              if ok then
                mk_ps count inserting (id :: conns) pool_tasks pool current arrived updates
                  msg_tasks sends (without id flight) lost (greeted ++ [id]) printed None
              else
                mk_ps count inserting conns pool_tasks pool current arrived updates
                  msg_tasks sends (without id flight) (id :: lost) greeted printed None
            else s
        end
    end
  end.

Fixpoint par_run (es : list pevent) (s : pserver) : pserver :=
  match es with
  | [] => s
  | e :: r => par_run r (par_step s e)
  end.

(** examples/parallel-server.rs:24-31, 70: at the start. *)
Definition par_start : pserver :=
  mk_ps 0 [] [] [] [] None (fun _ => []) 0 [] [] [] [] [] [] None.
