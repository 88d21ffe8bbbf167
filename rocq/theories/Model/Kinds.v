(** Two programs, each with a client of either kind: the blocking one ([websocket::sync::Client]) or the
    asynchronous one ([websocket::async::Client], src/client/async.rs:65).  Both have finished the handshake;
    the network is the one of Model/Programs.v. *)
From Coq Require Import NArith String Bool List.
From Coq.Strings Require Import Byte.
From Verif.Model Require Import Base Io Header Mask Dataframe Text Headers Message Receiver Codec Framed
  Connect Examples AsyncExamples ChatClient Talk Narrow AsyncChat AsyncTalk Errand Dialogue Programs.
Import ListNotations.
Local Open Scope list_scope.

(** A program and its asynchronous client.  It says with [start_send] and then [poll_complete] until that is
    ready, which is [client.send(m)] (src/client/builder.rs:555, src/client/async.rs:40), and hears with [poll],
    which is [client.into_future()] (src/client/builder.rs:556).  External: [Sink::send] and
    [Stream::into_future] of futures 0.1.  Simplified: a program that calls these functions itself keeps its
    client when a message is refused, which is how it is here ([send] drops the client then).  [au_busy]: it has
    to go on with [poll_complete]. *)
Record auser : Type := mk_auser { au_past : list happening; au_read : framed msg_codec; au_out : fwrite; au_busy : bool }.

(** [start_send] (websocket-base/src/codec/ws.rs:336-343 in [FramedWrite2], Model/Framed.v).  As in
    Model/Programs.v, [Said] is noted when the message is taken, though the program goes on with
    [poll_complete].  Simplified: what there is room for at once is written in a step of its own
    ([auser_send]); there is nothing left to be flushed when a program says something, so that [SNotReady]
    (nothing happens) does not occur. *)
Definition auser_turn (server : bool) (f : program) (k : mkey) (extra : N) (a : auser) : option auser :=
  match au_busy a, f (au_past a) with
  | false, Some (Say m) =>
      match start_send server (owned_ops m) k extra (with_room 0 2 (au_out a)) with
      | (SReady, w') => Some (mk_auser (au_past a ++ [Said m]) (au_read a) (no_room w') true)
      | (SNotReady, _) => None
      | (SErr _, w') => Some (mk_auser (au_past a ++ [NotSaid m]) (au_read a) (no_room w') false)
      end
  | _, _ => None
  end.
(** [poll_complete], where the network, which holds [q] of what the program has written, takes up to [n] bytes
    more, if there is room.  [None]: nothing was written.  The network does not fail. *)
Definition auser_send (cap n : nat) (q : bytes) (a : auser) : option (auser * bytes) :=
  if au_busy a then
    match poll_complete (with_room (Nat.min n (cap - length q)) 1 (au_out a)) with
    | (SReady, w') => Some (mk_auser (au_past a) (au_read a) (no_room w') false, q ++ awritten (au_out a) w')
    | (SNotReady, w') =>
        match awritten (au_out a) w' with
        | [] => None
        | now => Some (mk_auser (au_past a) (au_read a) (no_room w') true, q ++ now)
        end
    | (SErr _, _) => None
    end
  else None.
(** [poll] of the stream (websocket-base/src/codec/ws.rs:278-325 in [FramedRead2], Model/Framed.v), where up to
    [n] bytes of what the network holds for the program, [q], can be read, and then it has to wait.  What was
    not read stays in the network.  Simplified: a poll that reads nothing and has nothing to give is [None];
    one that reads several times is several of these. *)
Definition auser_read (f : program) (n : nat) (q : bytes) (a : auser) : option (auser * bytes) :=
  match au_busy a, f (au_past a) with
  | false, Some Hear =>
      match framed_poll mc_decode (can_read false 1 (apiece n q)) (au_read a) with
      | (PItem m, r', s') => Some (mk_auser (au_past a ++ [Heard m]) r' (au_out a) false, aev_bytes s' ++ skipn n q)
      | (PNotReady, r', s') =>
          match firstn n q with
          | [] => None
          | _ => Some (mk_auser (au_past a) r' (au_out a) false, aev_bytes s' ++ skipn n q)
          end
      | (_, r', s') => Some (mk_auser (au_past a ++ [NotHeard]) r' (au_out a) false, aev_bytes s' ++ skipn n q)
      end
  | _, _ => None
  end.

(** A program with a client of either kind. *)
Inductive peer : Type := Blocking (u : user) | Polling (a : auser).
Definition peer_past (p : peer) : list happening := match p with Blocking u => u_past u | Polling a => au_past a end.
Definition peer_turn (client : bool) (f : program) (k : mkey) (extra : N) (q : bytes) (p : peer) : option (peer * bytes) :=
  match p with
  | Blocking u => match user_turn f k q u with Some (u', o) => Some (Blocking u', o) | None => None end
  | Polling a => match auser_turn (negb client) f k extra a with Some a' => Some (Polling a', []) | None => None end
  end.
Definition peer_send (cap n : nat) (q : bytes) (p : peer) : option (peer * bytes) :=
  match p with
  | Blocking u => match user_send cap n q u with Some (u', q') => Some (Blocking u', q') | None => None end
  | Polling a => match auser_send cap n q a with Some (a', q') => Some (Polling a', q') | None => None end
  end.
Definition peer_read (f : program) (n : nat) (q : bytes) (p : peer) : option (peer * bytes) :=
  match p with
  | Blocking u => match user_read f n q u with Some (u', q') => Some (Blocking u', q') | None => None end
  | Polling a => match auser_read f n q a with Some (a', q') => Some (Polling a', q') | None => None end
  end.

(** [p_up]: what the network holds for the server side; [p_down]: for the client side.  What may happen is as in
    Model/Programs.v; [true] is the client side, [extra] the slack of an asynchronous client's allocator. *)
Record pairing : Type := mk_pairing { p_client : peer; p_server : peer; p_up : bytes; p_down : bytes }.
Inductive pact : Type := PTurn (client : bool) (k : mkey) (extra : N) | PSend (client : bool) (n : nat) | PRead (client : bool) (n : nat).
Definition pairing_step (f1 f2 : program) (cap : nat) (a : pact) (t : pairing) : option pairing :=
  let '(mk_pairing c s u d) := t in
  match a with
  | PTurn true k x => match peer_turn true f1 k x d c with Some (c', o) => Some (mk_pairing c' s (u ++ o) d) | None => None end
  | PTurn false k x => match peer_turn false f2 k x u s with Some (s', o) => Some (mk_pairing c s' u (d ++ o)) | None => None end
  | PSend true n => match peer_send cap n u c with Some (c', q) => Some (mk_pairing c' s q d) | None => None end
  | PSend false n => match peer_send cap n d s with Some (s', q) => Some (mk_pairing c s' u q) | None => None end
  | PRead true n => match peer_read f1 n d c with Some (c', q) => Some (mk_pairing c' s u q) | None => None end
  | PRead false n => match peer_read f2 n u s with Some (s', q) => Some (mk_pairing c s' q d) | None => None end
  end.
Fixpoint pairing_run (f1 f2 : program) (cap : nat) (acts : list pact) (t : pairing) : pairing :=
  match acts with
  | [] => t
  | a :: acts' => pairing_run f1 f2 cap acts' (match pairing_step f1 f2 cap a t with Some t' => t' | None => t end)
  end.
(** What a side begins with: a blocking client with the stream it writes to, or an asynchronous one with the room
    in the buffer of its sink after the handshake (src/client/builder.rs:806-812,
    src/server/upgrade/async.rs:124-128: the limits). *)
Inductive start : Type := WithBlocking (w : wstream) | WithPolling (b : N).
Definition peer_new (client : bool) (s : start) : peer :=
  match s with
  | WithBlocking w => Blocking (user_new client w)
  | WithPolling b =>
      Polling (mk_auser []
        (framed_new (if client then msg_codec_new CtxClient else msg_codec_with_limits CtxServer SERVER_MAX_DATAFRAME_SIZE SERVER_MAX_MESSAGE_SIZE) [])
        (mk_fw (mk_bm [] b) [] [] []) false)
  end.
Definition pairing_new (s1 s2 : start) : pairing := mk_pairing (peer_new true s1) (peer_new false s2) [] [].
