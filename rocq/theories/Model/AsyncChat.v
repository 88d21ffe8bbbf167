(** The asynchronous chat clients: examples/async-client.rs and examples/ssl-client.rs.  They differ
    in what they connect to (see Dial.v), and in what they answer. *)
From Coq Require Import NArith String Bool List.
From Coq.Strings Require Import Byte.
From Verif.Model Require Import Base Io Header Mask Dataframe Utf8 Text Base64 WsKey Headers
  Handshake Message Receiver Codec Framed Http Connect Examples AsyncExamples Suite.
Import ListNotations.
Local Open Scope string_scope.
Local Open Scope list_scope.
Local Open Scope N_scope.

(** What the channel from the thread of examples/async-client.rs:28-53 (examples/ssl-client.rs:23-45) has for the task, poll by poll: a line that
    was typed (as [trim] leaves it), or nothing yet.  At its end nothing more is typed.  (At the
    end of standard input [read_line] gives empty lines; a failing one is left out.  The channel
    has no room but that of its one sender, so that the thread is at most one line ahead.) *)
Inductive uev : Type := Typed (t : bytes) | Idle.

Inductive chat_program : Type := AsyncClient | SslClient.
(** The closure given to [filter_map]: examples/async-client.rs:64-71, examples/ssl-client.rs:53-60. *)
Definition reply (p : chat_program) (m : owned) : option owned :=
  match m with
  | OClose e => match p with SslClient => Some (OClose e) | AsyncClient => None end
  | OPing d => Some (OPong d)
  | _ => None
  end.

(** The task: which program; the stream and whether [select]'s [Fuse] has seen its end; the channel, whether
    "/close" has come out of it (lines 49-51: the thread ends, its sender is dropped), and whether its
    [Fuse] has seen its end; the flag of [Select]; what [Forward] has buffered; the sink; the keys
    that [gen_mask] will give; the messages printed (examples/async-client.rs:65,
    examples/ssl-client.rs:54). *)
Record achat : Type := mk_achat {
  at_prog : chat_program; at_read : framed msg_codec; at_in : list aev; at_rdone : bool;
  at_user : list uev; at_over : bool; at_udone : bool;
  at_flag : bool; at_hold : option owned; at_out : fwrite; at_keys : nat -> mkey; at_shown : list owned
}.
(** examples/async-client.rs:56-76, examples/ssl-client.rs:47-63, when the connection has been made. *)
Definition achat_new (p : chat_program) (a : aclient) (us : list uev) (ks : nat -> mkey) : achat :=
  mk_achat p (ac_read a) (ac_in a) false us false false false None (ac_out a) ks [].
Definition with_flag (b : bool) (c : achat) : achat :=
  mk_achat (at_prog c) (at_read c) (at_in c) (at_rdone c) (at_user c) (at_over c) (at_udone c) b (at_hold c) (at_out c) (at_keys c) (at_shown c).
Definition with_out (h : option owned) (w : fwrite) (c : achat) : achat :=
  mk_achat (at_prog c) (at_read c) (at_in c) (at_rdone c) (at_user c) (at_over c) (at_udone c) (at_flag c) h w (at_keys c) (at_shown c).
Definition sent_out (w : fwrite) (c : achat) : achat :=
  mk_achat (at_prog c) (at_read c) (at_in c) (at_rdone c) (at_user c) (at_over c) (at_udone c) (at_flag c) None w (next_keys (at_keys c)) (at_shown c).

(** [filter_map] on the stream.  External (futures 0.1
    [FilterMap]): the loop of its [poll].  The last component: what was printed. *)
Fixpoint answered_poll (p : chat_program) (fuel : nat) (s : list aev) (f : framed msg_codec)
  : poll owned * framed msg_codec * list aev * list owned :=
  match fuel with
  | O => (POutOfFuel, f, s, [])
  | S fuel' =>
      match framed_poll mc_decode s f with
      | (PItem m, f', s') =>
          match reply p m with
          | Some m' => (PItem m', f', s', [m])
          | None => let '(r, f2, s2, l) := answered_poll p fuel' s' f' in (r, f2, s2, m :: l)
          end
      | r => (r, [])
      end
  end.
(** The two streams given to [select], in their [Fuse]s. *)
Definition stream_side (c : achat) : poll owned * achat :=
  if at_rdone c then (PEnd, c)
  else
    let '(p, f, s, l) :=
      answered_poll (at_prog c) (S (length (fr_buf (at_read c)) + length (aev_bytes (at_in c)) + length (at_in c))) (at_in c) (at_read c) in
    (p, mk_achat (at_prog c) f s (match p with PEnd => true | _ => false end)
          (at_user c) (at_over c) (at_udone c) (at_flag c) (at_hold c) (at_out c) (at_keys c) (at_shown c ++ l)).
(** examples/async-client.rs:39-43, examples/ssl-client.rs:31-35: a line becomes a message. *)
Definition line_message (t : bytes) : bool * owned :=
  if beqb t (str "/close") then (true, OClose None)
  else if beqb t (str "/ping") then (false, OPing (str "PING"))
  else (false, OText t).
(** External (futures 0.1 [mpsc::Receiver]): it ends once the sender is gone. *)
Definition user_side (c : achat) : poll owned * achat :=
  let upd us over done :=
    mk_achat (at_prog c) (at_read c) (at_in c) (at_rdone c) us over done (at_flag c) (at_hold c) (at_out c) (at_keys c) (at_shown c) in
  if at_udone c then (PEnd, c)
  else
    match at_user c with
    | Idle :: us => (PNotReady, upd us (at_over c) false)
    | Typed t :: us =>
        if at_over c then (PEnd, upd (at_user c) true true)
        else let '(over, m) := line_message t in (PItem m, upd us over false)
    | [] => if at_over c then (PEnd, upd [] true true) else (PNotReady, c)
    end.
(** External (futures 0.1 [Select]): the two take turns in going first. *)
Definition select_poll (c : achat) : poll owned * achat :=
  let flag := at_flag c in
  let first := if flag then user_side else stream_side in
  let second := if flag then stream_side else user_side in
  match first (with_flag (negb flag) c) with
  | (PEnd, c1) => second c1
  | (PNotReady, c1) =>
      match second c1 with
      | (PItem m, c2) => (PItem m, with_flag flag c2)
      | (PEnd, c2) => (PNotReady, c2)
      | r => r
      end
  | r => r
  end.

(** External (futures 0.1 [Forward]): its [poll]; at the end of the stream the sink is closed
    (see [forward_loop] in AsyncExamples.v). *)
Fixpoint achat_loop (fuel : nat) (extra : N) (c : achat) : tpoll * achat :=
  match fuel with
  | O => (TNoFuel, c)
  | S fuel' =>
      match select_poll c with
      | (PItem m, c1) =>
          match start_send false (owned_ops m) (at_keys c1 O) extra (at_out c1) with
          | (SReady, w) => achat_loop fuel' extra (sent_out w c1)
          | (SNotReady, w) => (TNotReady, with_out (Some m) w c1)
          | (SErr e, w) => (TErr e, with_out None w c1)
          end
      | (PEnd, c1) =>
          match poll_complete (at_out c1) with
          | (SReady, w) => (TReady, with_out None w c1)
          | (SNotReady, w) => (TNotReady, with_out None w c1)
          | (SErr e, w) => (TErr e, with_out None w c1)
          end
      | (PNotReady, c1) =>
          match poll_complete (at_out c1) with
          | (SErr e, w) => (TErr e, with_out None w c1)
          | (_, w) => (TNotReady, with_out None w c1)
          end
      | (PErr e, c1) => (TErr e, c1)
      | (PPanic, c1) => (TPanic, c1)
      | (POutOfFuel, c1) => (TNoFuel, c1)
      end
  end.
Definition achat_fuel (c : achat) : nat :=
  S (length (fr_buf (at_read c)) + length (aev_bytes (at_in c)) + length (at_in c) + length (at_user c)).
Definition achat_poll (extra : N) (c : achat) : tpoll * achat :=
  match at_hold c with
  | Some m =>
      match start_send false (owned_ops m) (at_keys c O) extra (at_out c) with
      | (SReady, w) => achat_loop (achat_fuel c) extra (sent_out w c)
      | (SNotReady, w) => (TNotReady, with_out (Some m) w c)
      | (SErr e, w) => (TErr e, with_out None w c)
      end
  | None => achat_loop (achat_fuel c) extra c
  end.
(** examples/async-client.rs:78, examples/ssl-client.rs:64: [block_on]; at most [n] polls.  An error is a panic, [unwrap]. *)
Fixpoint achat_run (n : nat) (extra : N) (c : achat) : tpoll * achat :=
  match n with
  | O => (TNotReady, c)
  | S n' =>
      match achat_poll extra c with
      | (TNotReady, c') => achat_run n' extra c'
      | r => r
      end
  end.
