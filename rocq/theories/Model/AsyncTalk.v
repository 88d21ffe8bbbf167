(** The asynchronous chat client of examples/async-client.rs and the server of
    examples/async-server.rs, each at one end of a connection.  Both have finished the handshake;
    the network carries bytes, in order, in pieces of any size, after any delay, and holds at
    most so many of them in either direction. *)
From Coq Require Import NArith String Bool List.
From Coq.Strings Require Import Byte.
From Verif.Model Require Import Base Io Header Mask Dataframe Utf8 Text Base64 WsKey Headers
  Handshake Message Receiver Codec Framed Http Connect Examples AsyncExamples Suite AsyncChat.
Import ListNotations.
Local Open Scope string_scope.
Local Open Scope list_scope.

(** The task of the server for this connection (examples/async-server.rs:48-68): sending the
    greeting, from [s.split()] on, or over.  When it is over the stream is closed. *)
Inductive aserver : Type := AGreeting | AServing | AServed (r : tpoll).
(** One poll of it.  The greeting (examples/async-server.rs:52) is a [Send] like that of the Close
    ([close_poll] of Model/AsyncExamples.v); [and_then] polls what follows at once. *)
Definition aserver_poll (a : aserver) (k : mkey) (extra : N) (t : echo_task) : tpoll * aserver * echo_task :=
  let serve t :=
    match task_poll (task_fuel t) k extra t with
    | (TNotReady, t') => (TNotReady, AServing, t')
    | (r, t') => (r, AServed r, t')
    end in
  match a with
  | AGreeting =>
      match close_poll k extra t with
      | (TReady, t') => serve (mk_task (et_read t') (et_in t') false None false (et_out t'))
      | (TNotReady, t') => (TNotReady, AGreeting, t')
      | (r, t') => (r, AServed r, t')
      end
  | AServing => serve t
  | AServed r => (r, AServed r, t)
  end.

(** The whole.  What has arrived is in the scripts of the two tasks, [at_in] and [et_in];
    [tk_up] and [tk_down] are under way.  [tk_lines]: what the user will type; what was typed and
    not taken yet is in [at_user] (whether it waits in the channel or before it is left out).
    [tk_cend]: how the client has ended. *)
Record atalk : Type := mk_atalk {
  tk_client : achat; tk_cend : option tpoll; tk_lines : list bytes; tk_up : bytes;
  tk_at : aserver; tk_task : echo_task; tk_down : bytes
}.

Definition is_adata (e : aev) : bool := match e with AData _ _ => true | _ => false end.
(** A piece of [n] bytes arrives. *)
Definition apiece (n : nat) (q : bytes) : list aev :=
  match firstn n q with [] => [] | b :: bs => [AData b bs] end.
(** External (a [TcpStream] in a task): what has arrived can be read, then the task has to wait
    ([n] times, if it asks again), unless the other side is gone and nothing is under way: then
    comes the end of file.  Nothing arrives during a poll. *)
Definition can_read (gone : bool) (n : nat) (s : list aev) : list aev :=
  s ++ if gone then [] else repeat ANotReady n.
(** External: what is written is taken as long as there is room for it in the network; then the
    task has to wait ([n] times, if it asks again).  Flushing a [TcpStream] does nothing. *)
Definition writable (room n : nat) : list awev := repeat (AwAccept 0) room ++ repeat AwNotReady n.
Definition with_room (room n : nat) (w : fwrite) : fwrite := mk_fw (fw_buf w) (fw_out w) (writable room n) [].
Definition no_room (w : fwrite) : fwrite := mk_fw (fw_buf w) (fw_out w) [] [].
(** The bytes written since. *)
Definition awritten (w w' : fwrite) : bytes := skipn (length (fw_out w)) (fw_out w').

Definition is_nil_b (q : bytes) : bool := match q with [] => true | _ => false end.
Definition server_gone (t : atalk) : bool :=
  match tk_at t with AServed _ => is_nil_b (tk_down t) | _ => false end.
Definition client_gone (t : atalk) : bool :=
  match tk_cend t with Some _ => is_nil_b (tk_up t) | None => false end.
Definition room_up (cap : nat) (t : atalk) : nat := cap - (length (tk_up t) + length (aev_bytes (et_in (tk_task t)))).
Definition room_down (cap : nat) (t : atalk) : nat := cap - (length (tk_down t) + length (aev_bytes (at_in (tk_client t)))).

Definition with_scripts (s : list aev) (w : fwrite) (c : achat) : achat :=
  mk_achat (at_prog c) (at_read c) s (at_rdone c) (at_user c) (at_over c) (at_udone c) (at_flag c) (at_hold c) w (at_keys c) (at_shown c).
(** A poll of the client's task, by [block_on] (examples/async-client.rs:78). *)
Definition client_acts (cap : nat) (extra : N) (t : atalk) : atalk :=
  match tk_cend t with
  | Some _ => t
  | None =>
      let c := tk_client t in
      let n := S (achat_fuel c) in
      let '(r, c') := achat_poll extra
        (with_scripts (can_read (server_gone t) n (at_in c)) (with_room (room_up cap t) n (at_out c)) c) in
      mk_atalk (with_scripts (filter is_adata (at_in c')) (no_room (at_out c')) c')
        (match r with TNotReady => None | _ => Some r end) (tk_lines t)
        (tk_up t ++ awritten (at_out c) (at_out c')) (tk_at t) (tk_task t) (tk_down t)
  end.
(** A poll of the server's task, by the executor. *)
Definition server_acts (cap : nat) (k : mkey) (extra : N) (t : atalk) : atalk :=
  match tk_at t with
  | AServed _ => t
  | a =>
      let e := tk_task t in
      let n := S (S (task_fuel e)) in
      let '(_, a', e') := aserver_poll a k extra
        (mk_task (et_read e) (can_read (client_gone t) n (et_in e)) (et_done e) (et_hold e) (et_closing e)
           (with_room (room_down cap t) (n + n + n) (et_out e))) in
      mk_atalk (tk_client t) (tk_cend t) (tk_lines t) (tk_up t) a'
        (mk_task (et_read e') (filter is_adata (et_in e')) (et_done e') (et_hold e') (et_closing e') (no_room (et_out e')))
        (tk_down t ++ awritten (et_out e) (et_out e'))
  end.
(** The thread of examples/async-client.rs:28-53 reads lines until "/close". *)
Definition thread_over (c : achat) : bool :=
  at_over c || existsb (fun u => match u with Typed l => beqb l (str "/close") | Idle => false end) (at_user c).

Inductive aact : Type := APollClient (extra : N) | APollServer (k : mkey) (extra : N) | AUp (n : nat) | ADown (n : nat) | AType.
Definition atalk_step (cap : nat) (a : aact) (t : atalk) : atalk :=
  match a with
  | APollClient extra => client_acts cap extra t
  | APollServer k extra => server_acts cap k extra t
  | AUp n =>
      let e := tk_task t in
      mk_atalk (tk_client t) (tk_cend t) (tk_lines t) (skipn n (tk_up t)) (tk_at t)
        (mk_task (et_read e) (et_in e ++ apiece n (tk_up t)) (et_done e) (et_hold e) (et_closing e) (et_out e)) (tk_down t)
  | ADown n =>
      let c := tk_client t in
      mk_atalk (with_scripts (at_in c ++ apiece n (tk_down t)) (at_out c) c) (tk_cend t) (tk_lines t) (tk_up t)
        (tk_at t) (tk_task t) (skipn n (tk_down t))
  | AType =>
      match tk_lines t with
      | l :: ls =>
          let c := tk_client t in
          if thread_over c then t
          else mk_atalk
            (mk_achat (at_prog c) (at_read c) (at_in c) (at_rdone c) (at_user c ++ [Typed l]) (at_over c) (at_udone c)
               (at_flag c) (at_hold c) (at_out c) (at_keys c) (at_shown c))
            (tk_cend t) ls (tk_up t) (tk_at t) (tk_task t) (tk_down t)
      | [] => t
      end
  end.
Fixpoint atalk_run (cap : nat) (acts : list aact) (t : atalk) : atalk :=
  match acts with
  | [] => t
  | a :: acts' => atalk_run cap acts' (atalk_step cap a t)
  end.
(** Both sides have default limits and nothing was read ahead; [ks] are the keys the client will
    draw, [b1] and [b2] the room in the buffers of the sinks after the handshake. *)
Definition atalk_new (lines : list bytes) (ks : nat -> mkey) (b1 b2 : N) : atalk :=
  mk_atalk
    (achat_new AsyncClient (mk_aclient (framed_new (msg_codec_new CtxClient) []) [] (mk_fw (mk_bm [] b1) [] [] [])) [] ks)
    None lines [] AGreeting
    (mk_task (framed_new (msg_codec_with_limits CtxServer SERVER_MAX_DATAFRAME_SIZE SERVER_MAX_MESSAGE_SIZE) []) []
       false (Some (OText (str "Hello World!"))) true (mk_fw (mk_bm [] b2) [] [] []))
    [].
