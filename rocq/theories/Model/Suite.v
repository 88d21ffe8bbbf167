(** The clients of the Autobahn test suite: examples/autobahn-client.rs and
    examples/async-autobahn-client.rs.  Printing is left out. *)
From Coq Require Import NArith String Bool List.
From Coq.Strings Require Import Byte.
From Verif.Model Require Import Base Io Header Mask Dataframe Utf8 Text Base64 WsKey Headers
  Handshake Message Receiver Codec Framed Http Connect Examples AsyncExamples.
Import ListNotations.
Local Open Scope string_scope.
Local Open Scope list_scope.
Local Open Scope N_scope.

(** External (std): [usize::from_str] on a 64-bit target: an optional plus sign, then at least
    one digit, less than 2^64. *)
Definition digit_value (b : byte) : option N :=
  let n := Byte.to_N b in if (48 <=? n) && (n <=? 57) then Some (n - 48) else None.
Fixpoint digits_value (acc : N) (l : bytes) : option N :=
  match l with
  | [] => Some acc
  | b :: r =>
      match digit_value b with
      | Some d => let acc' := acc * 10 + d in if acc' <? 2 ^ 64 then digits_value acc' r else None
      | None => None
      end
  end.
Definition parse_usize (l : bytes) : option N :=
  match l with
  | [] => None
  | b :: r =>
      if Byte.eqb b x2b then match r with [] => None | _ => digits_value 0 r end
      else digits_value 0 l
  end.
(** External (std): [usize::to_string]; twenty digits are enough for 64 bits. *)
Fixpoint decimal_from (fuel : nat) (n : N) (tail : bytes) : bytes :=
  match fuel with
  | O => tail
  | S fuel' =>
      let tail' := match Byte.of_N (48 + n mod 10) with Some b => b :: tail | None => tail end in
      if n / 10 =? 0 then tail' else decimal_from fuel' (n / 10) tail'
  end.
Definition decimal (n : N) : bytes := decimal_from 20 n [].

(** examples/autobahn-client.rs:8-9, 22, 66, 109 and examples/async-autobahn-client.rs:14-15, 28,
    88, 104: the URLs. *)
Definition suite_addr : bytes := str "ws://127.0.0.1:9001".
Definition suite_agent : bytes := str "rust-websocket".
Definition count_url : bytes := suite_addr ++ str "/getCaseCount".
Definition case_url (n : N) : bytes := suite_addr ++ str "/runCase?case=" ++ decimal n ++ str "&agent=" ++ suite_agent.
Definition reports_url : bytes := suite_addr ++ str "/updateReports?agent=" ++ suite_agent.

(** ** Blocking *)

(** The keys [gen_mask] draws on a connection, one for each frame sent. *)
Definition next_keys (ks : nat -> mkey) : nat -> mkey := fun n => ks (S n).

(** examples/autobahn-client.rs:33-59: a test case. *)
Fixpoint case_loop (fuel : nat) (ks : nat -> mkey) (r : reader) (w : writer) : ending * writer :=
  match fuel with
  | O => (NoFuel, w)
  | S fuel' =>
      match reader_recv r with
      | (Ok m, r') =>
          match m with
          | OText txt =>
              match writer_send (OText txt) (ks O) w with
              | (Ok _, w') => case_loop fuel' (next_keys ks) r' w'
              | (_, w') => (Panicked, w')
              end
          | OBinary bin =>
              match writer_send (OBinary bin) (ks O) w with
              | (Ok _, w') => case_loop fuel' (next_keys ks) r' w'
              | (_, w') => (Panicked, w')
              end
          | OClose _ =>
              match writer_send (OClose None) (ks O) w with
              | (Panic, w') => (Panicked, w')
              | (_, w') => (Returned, w')
              end
          | OPing data =>
              match writer_send (OPong data) (ks O) w with
              | (Ok _, w') => case_loop fuel' (next_keys ks) r' w'
              | (_, w') => (Panicked, w')
              end
          | OPong _ => case_loop fuel' ks r' w
          end
      | (Err _, _) =>
          match writer_send_frame (msg_ops msg_close) (ks O) w with
          | (Panic, w') => (Panicked, w')
          | (_, w') => (Returned, w')
          end
      | (Panic, _) => (Panicked, w)
      | (OutOfFuel, _) => (NoFuel, w)
      end
  end.

(** examples/autobahn-client.rs:80-103: the loop of [get_case_count]; [count] is the variable. *)
Fixpoint count_loop (fuel : nat) (ks : nat -> mkey) (count : N) (r : reader) (w : writer)
  : ending * N * writer :=
  match fuel with
  | O => (NoFuel, count, w)
  | S fuel' =>
      match reader_recv r with
      | (Ok m, r') =>
          match m with
          | OText txt =>
              match parse_usize txt with
              | Some n => count_loop fuel' ks n r' w
              | None => (Panicked, count, w)
              end
          | OClose _ =>
              match writer_send_frame (msg_ops msg_close) (ks O) w with
              | (Panic, w') => (Panicked, count, w')
              | (_, w') => (Returned, count, w')
              end
          | OPing data =>
              match writer_send (OPong data) (ks O) w with
              | (Ok _, w') => count_loop fuel' (next_keys ks) count r' w'
              | (_, w') => (Panicked, count, w')
              end
          | _ => count_loop fuel' ks count r' w
          end
      | (Err _, _) =>
          match writer_send_frame (msg_ops (msg_close_because 1002 [])) (ks O) w with
          | (Panic, w') => (Panicked, count, w')
          | (_, w') => (Returned, count, w')
          end
      | (Panic, _) => (Panicked, count, w)
      | (OutOfFuel, _) => (NoFuel, count, w)
      end
  end.

(** examples/autobahn-client.rs:123-144: the loop of [update_reports]. *)
Fixpoint reports_loop (fuel : nat) (ks : nat -> mkey) (r : reader) (w : writer) : ending * writer :=
  match fuel with
  | O => (NoFuel, w)
  | S fuel' =>
      match reader_recv r with
      | (Ok m, r') =>
          match m with
          | OClose _ =>
              match writer_send_frame (msg_ops msg_close) (ks O) w with
              | (Panic, w') => (Panicked, w')
              | (_, w') => (Returned, w')
              end
          | OPing data =>
              match writer_send (OPong data) (ks O) w with
              | (Ok _, w') => reports_loop fuel' (next_keys ks) r' w'
              | (_, w') => (Panicked, w')
              end
          | _ => reports_loop fuel' ks r' w
          end
      | (Err _, _) =>
          match writer_send_frame (msg_ops msg_close) (ks O) w with
          | (Panic, w') => (Panicked, w')
          | (_, w') => (Returned, w')
          end
      | (Panic, _) => (Panicked, w)
      | (OutOfFuel, _) => (NoFuel, w)
      end
  end.

(** What connecting to a URL gives ([connect_insecure], see Dial.v): a client and whether its
    stream can be split, or an error.  Every URL is used at most once (proved). *)
Inductive attempt : Type :=
| Connected (c : client) (fail : option io_kind) (ks : nat -> mkey)
| NotConnected.

(** A connection that was made: its URL and what has been written on it in the end. *)
Definition visit : Type := (bytes * option wstream)%type.

(** examples/autobahn-client.rs:65-106 [get_case_count]; the count is 0 without a connection. *)
Definition get_case_count (W : bytes -> attempt) : ending * N * list visit :=
  match W count_url with
  | NotConnected => (Returned, 0, [(count_url, None)])
  | Connected c fail ks =>
      match split fail c with
      | Ok (r, w) =>
          let '(e, n, w') := count_loop (loop_fuel r) ks 0 r w in (e, n, [(count_url, Some (wr_out w'))])
      | _ => (Panicked, 0, [(count_url, Some (c_out c))])
      end
  end.
(** examples/autobahn-client.rs:19-60: one turn of the loop over the cases. *)
Definition run_case (W : bytes -> attempt) (n : N) : ending * list visit :=
  match W (case_url n) with
  | NotConnected => (Panicked, [(case_url n, None)])
  | Connected c fail ks =>
      match split fail c with
      | Ok (r, w) => let '(e, w') := case_loop (loop_fuel r) ks r w in (e, [(case_url n, Some (wr_out w'))])
      | _ => (Panicked, [(case_url n, Some (c_out c))])
      end
  end.
(** examples/autobahn-client.rs:108-145 [update_reports] *)
Definition update_reports (W : bytes -> attempt) : ending * list visit :=
  match W reports_url with
  | NotConnected => (Returned, [(reports_url, None)])
  | Connected c fail ks =>
      match split fail c with
      | Ok (r, w) => let '(e, w') := reports_loop (loop_fuel r) ks r w in (e, [(reports_url, Some (wr_out w'))])
      | _ => (Panicked, [(reports_url, Some (c_out c))])
      end
  end.
(** examples/autobahn-client.rs:16-60: the [while] loop.  Adding one to the greatest [usize] is
    taken to panic (it does with overflow checks). *)
Fixpoint run_cases (fuel : nat) (W : bytes -> attempt) (current count : N) : ending * list visit :=
  if current <=? count then
    match fuel with
    | O => (NoFuel, [])
    | S fuel' =>
        if current =? 2 ^ 64 - 1 then (Panicked, [])
        else
          match run_case W current with
          | (Returned, v) => let '(e, vs) := run_cases fuel' W (current + 1) count in (e, v ++ vs)
          | (e, v) => (e, v)
          end
    end
  else (Returned, []).
(** examples/autobahn-client.rs:7-63 [main]: how it ends and the connections it made, in order. *)
Definition autobahn_client (W : bytes -> attempt) : ending * list visit :=
  match get_case_count W with
  | (Returned, n, v) =>
      match run_cases (N.to_nat n) W 1 n with
      | (Returned, vs) => let '(e, v') := update_reports W in (e, v ++ vs ++ v')
      | (e, vs) => (e, v ++ vs)
      end
  | (e, _, v) => (e, v)
  end.

(** ** Asynchronous *)

(** External (futures 0.1 [into_future], run to its end): the stream is polled until it is
    ready. *)
Fixpoint next_run (fuel : nat) (s : list aev) (f : framed msg_codec) : poll owned * framed msg_codec * list aev :=
  match fuel with
  | O => (POutOfFuel, f, s)
  | S fuel' =>
      match framed_poll mc_decode s f with
      | (PNotReady, f', s') => next_run fuel' s' f'
      | r => r
      end
  end.
(** External (futures 0.1 [Send], run to its end), for either side: the item is offered until it
    is taken, then the sink is flushed. *)
Fixpoint send_fully (n : nat) (server : bool) (m : owned) (k : mkey) (extra : N) (w : fwrite) : spoll * fwrite :=
  match n with
  | O => (SNotReady, w)
  | S n' =>
      match start_send server (owned_ops m) k extra w with
      | (SReady, w') => flush_all (S (length (fw_ws w') + length (fw_fs w'))) w'
      | (SNotReady, w') => send_fully n' server m k extra w'
      | (SErr e, w') => (SErr e, w')
      end
  end.
Definition client_sends (m : owned) (k : mkey) (extra : N) (w : fwrite) : spoll * fwrite :=
  send_fully (S (length (fw_ws w) + length (fw_fs w))) false m k extra w.
Definition next_fuel (s : list aev) : nat := S (length s).

(** examples/async-autobahn-client.rs:35-70: a test case, the [loop_fn]; each answer is sent and
    flushed before the next message is asked for. *)
Fixpoint acase_loop (fuel : nat) (ks : nat -> mkey) (extra : N) (f : framed msg_codec) (s : list aev) (w : fwrite)
  : tpoll * fwrite :=
  match fuel with
  | O => (TNoFuel, w)
  | S fuel' =>
      match next_run (next_fuel s) s f with
      | (PItem m, f', s') =>
          match m with
          | OText txt =>
              match client_sends (OText txt) (ks O) extra w with
              | (SReady, w') => acase_loop fuel' (next_keys ks) extra f' s' w'
              | (SErr e, w') => (TErr e, w')
              | (SNotReady, w') => (TNoFuel, w')
              end
          | OBinary bin =>
              match client_sends (OBinary bin) (ks O) extra w with
              | (SReady, w') => acase_loop fuel' (next_keys ks) extra f' s' w'
              | (SErr e, w') => (TErr e, w')
              | (SNotReady, w') => (TNoFuel, w')
              end
          | OPing data =>
              match client_sends (OPong data) (ks O) extra w with
              | (SReady, w') => acase_loop fuel' (next_keys ks) extra f' s' w'
              | (SErr e, w') => (TErr e, w')
              | (SNotReady, w') => (TNoFuel, w')
              end
          | OClose _ =>
              match client_sends (OClose None) (ks O) extra w with
              | (SReady, w') => (TReady, w')
              | (SErr e, w') => (TErr e, w')
              | (SNotReady, w') => (TNoFuel, w')
              end
          | OPong _ => acase_loop fuel' ks extra f' s' w
          end
      | (PEnd, _, _) => (TReady, w)
      | (PErr _, _, _) =>
          (* :38-41: a Close is sent, then [None] *)
          match client_sends (OClose None) (ks O) extra w with
          | (SReady, w') => (TReady, w')
          | (SErr e, w') => (TErr e, w')
          | (SNotReady, w') => (TNoFuel, w')
          end
      | (PPanic, _, _) => (TPanic, w)
      | (_, _, _) => (TNoFuel, w)
      end
  end.
Definition acase_fuel (f : framed msg_codec) (s : list aev) : nat :=
  S (S (length (fr_buf f) + length (aev_bytes s) + length s)).

Inductive aattempt : Type :=
| AConnected (a : aclient) (ks : nat -> mkey)
| ANotConnected.
Definition avisit : Type := (bytes * option fwrite)%type.

(** examples/async-autobahn-client.rs:87-100 [get_case_count]: the first message has to be a
    text with a number; anything else is an error, which [unwrap] makes a panic. *)
Definition aget_case_count (W : bytes -> aattempt) : option N * list avisit :=
  match W count_url with
  | ANotConnected => (None, [(count_url, None)])
  | AConnected a ks =>
      (match next_run (next_fuel (ac_in a)) (ac_in a) (ac_read a) with
       | (PItem (OText txt), _, _) => parse_usize txt
       | _ => None
       end, [(count_url, Some (ac_out a))])
  end.
(** examples/async-autobahn-client.rs:28-80: one test case; its error is printed and forgotten. *)
Definition arun_case (W : bytes -> aattempt) (extra : N) (n : N) : ending * avisit :=
  match W (case_url n) with
  | ANotConnected => (Returned, (case_url n, None))
  | AConnected a ks =>
      match acase_loop (acase_fuel (ac_read a) (ac_in a)) ks extra (ac_read a) (ac_in a) (ac_out a) with
      | (TReady, w) | (TErr _, w) => (Returned, (case_url n, Some w))
      | (TPanic, w) => (Panicked, (case_url n, Some w))
      | (_, w) => (NoFuel, (case_url n, Some w))
      end
  end.
(** examples/async-autobahn-client.rs:27: the [for] loop over [1..(case_count + 1)]: [left] more cases from [n] on. *)
Fixpoint arun_cases (left : nat) (W : bytes -> aattempt) (extra : N) (n : N) : ending * list avisit :=
  match left with
  | O => (Returned, [])
  | S left' =>
      match arun_case W extra n with
      | (Returned, v) => let '(e, vs) := arun_cases left' W extra (n + 1) in (e, v :: vs)
      | (e, v) => (e, [v])
      end
  end.
(** examples/async-autobahn-client.rs:102-113 [update_reports]: sends a Close; [unwrap]. *)
Definition aupdate_reports (W : bytes -> aattempt) (extra : N) : ending * list avisit :=
  match W reports_url with
  | ANotConnected => (Panicked, [(reports_url, None)])
  | AConnected a ks =>
      match client_sends (OClose None) (ks O) extra (ac_out a) with
      | (SReady, w) => (Returned, [(reports_url, Some w)])
      | (SErr _, w) => (Panicked, [(reports_url, Some w)])
      | (SNotReady, w) => (NoFuel, [(reports_url, Some w)])
      end
  end.
(** examples/async-autobahn-client.rs:13-85 [main]; [case_count + 1] is taken to panic on overflow. *)
Definition async_autobahn_client (W : bytes -> aattempt) (extra : N) : ending * list avisit :=
  match aget_case_count W with
  | (Some n, v) =>
      if n =? 2 ^ 64 - 1 then (Panicked, v)
      else
        match arun_cases (N.to_nat n) W extra 1 with
        | (Returned, vs) => let '(e, v') := aupdate_reports W extra in (e, v ++ vs ++ v')
        | (e, vs) => (e, v ++ vs)
        end
  | (None, v) => (Panicked, v)
  end.
