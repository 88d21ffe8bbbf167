(** Two programs, each with a client of either kind, on a connection that ends: a program that has nothing more
    to do shuts down the side it writes to, with [shutdown_sender] (src/client/sync.rs:68-70), with
    [shutdown] of its [Writer] (src/sender.rs:51-53) or, where the client is the asynchronous one, with the
    [shutdown] of its stream.  Its partner can read what is under way and then finds the end.  All else is as
    in Model/Kinds.v. *)
From Coq Require Import NArith String Bool List.
From Coq.Strings Require Import Byte.
From Verif.Model Require Import Base Io Header Mask Dataframe Text Headers Message Receiver Codec Framed
  Connect Examples AsyncExamples ChatClient Talk Narrow AsyncChat AsyncTalk Errand Dialogue Programs Kinds.
Import ListNotations.
Local Open Scope list_scope.

(** Nothing more to do, and everything written: the sending side is shut down.  Simplified: at once. *)
Definition peer_gone (f : program) (p : peer) : bool :=
  match f (peer_past p) with
  | None => match p with Blocking u => match u_write u with None => true | Some _ => false end | Polling a => negb (au_busy a) end
  | Some _ => false
  end.
(** The program hears where the partner is gone ([gone]) and the network holds nothing for it any more ([q]): it
    gets what can be made of what it has read before, or the end.  For the blocking client a [recv_message]
    that reads 0 bytes (src/client/sync.rs:192-194, websocket-base/src/ws/receiver.rs:41-47), an error; for the
    asynchronous one a [poll] that reads 0 bytes ([FramedRead2], Model/Framed.v), [None] or an error.
    [NotHeard] stands for both, as in Model/Programs.v. *)
Definition peer_end (f : program) (gone : bool) (q : bytes) (p : peer) : option peer :=
  match gone, q with
  | true, [] =>
      match p with
      | Blocking u =>
          match u_write u, f (u_past u) with
          | None, Some Hear =>
              let (x, r') := reader_recv (u_reader u) in
              if must_wait x gone q then None
              else Some (Blocking (mk_user (u_past u ++ [match x with Ok m => Heard m | _ => NotHeard end]) r' (u_writer u) None))
          | _, _ => None
          end
      | Polling a =>
          match au_busy a, f (au_past a) with
          | false, Some Hear =>
              match framed_poll mc_decode (can_read gone 1 []) (au_read a) with
              | (PItem m, r', _) => Some (Polling (mk_auser (au_past a ++ [Heard m]) r' (au_out a) false))
              | (PNotReady, _, _) => None
              | (_, r', _) => Some (Polling (mk_auser (au_past a ++ [NotHeard]) r' (au_out a) false))
              end
          | _, _ => None
          end
      end
  | _, _ => None
  end.

(** What may happen: what may happen in Model/Kinds.v, or the client side ([true]) or the server side comes to
    the end of what its partner has written.  An asynchronous client that is polled again after the end finds
    it again ([auser_read]: the flag [eof] of [FramedRead2] stays). *)
Inductive eact : Type := EGo (a : pact) | EEnd (client : bool).
Definition ending_step (f1 f2 : program) (cap : nat) (a : eact) (t : pairing) : option pairing :=
  match a with
  | EGo a => pairing_step f1 f2 cap a t
  | EEnd true => match peer_end f1 (peer_gone f2 (p_server t)) (p_down t) (p_client t) with Some c => Some (mk_pairing c (p_server t) (p_up t) (p_down t)) | None => None end
  | EEnd false => match peer_end f2 (peer_gone f1 (p_client t)) (p_up t) (p_server t) with Some s => Some (mk_pairing (p_client t) s (p_up t) (p_down t)) | None => None end
  end.
Fixpoint ending_run (f1 f2 : program) (cap : nat) (acts : list eact) (t : pairing) : pairing :=
  match acts with
  | [] => t
  | a :: acts' => ending_run f1 f2 cap acts' (match ending_step f1 f2 cap a t with Some t' => t' | None => t end)
  end.
