(** What a connection that breaks ought to be for the programs at its ends: two queues of messages, either of
    which may break.  No bytes, no keys, no network. *)
From Coq Require Import NArith String Bool List.
From Verif.Model Require Import Base Io Message Errand Programs.
From Verif.Spec Require Import RfcFrame FrameSpec Session Queues Partings.
Import ListNotations.
Local Open Scope list_scope.

(** [bq_up]: the queue to the server is broken; [bq_down]: the one to the client. *)
Record bqueues : Type := mk_bqueues { bq : queues; bq_up : bool; bq_down : bool }.
(** A program has its turn ([true]: the client's); a queue breaks ([true]: the one to the server) and all but the
    first [k] of the messages in it are lost. *)
Inductive bturn : Type := BTurn (client : bool) | BBreak (up : bool) (k : nat).
(** A deed where the queue the program says into may be broken ([out]: what it says is lost), and the one it
    hears from ([inn]: when it is empty the program is told of the end). *)
Definition broken_deed (f : program) (out inn : bool) (past : list happening) (mine theirs : list owned) : option (list happening * list owned * list owned) :=
  match deed_or_end f inn past mine theirs with
  | Some (past', mine', theirs') => Some (past', if out then mine else mine', theirs')
  | None => None
  end.
Definition bqueue_step (f1 f2 : program) (a : bturn) (s : bqueues) : option bqueues :=
  let '(mk_bqueues (mk_queues p1 p2 u d) bu bd) := s in
  match a with
  | BTurn true => match broken_deed f1 bu bd p1 u d with Some (p1', u', d') => Some (mk_bqueues (mk_queues p1' p2 u' d') bu bd) | None => None end
  | BTurn false => match broken_deed f2 bd bu p2 d u with Some (p2', d', u') => Some (mk_bqueues (mk_queues p1 p2' u' d') bu bd) | None => None end
  | BBreak true k => if bu then None else Some (mk_bqueues (mk_queues p1 p2 (firstn k u) d) true bd)
  | BBreak false k => if bd then None else Some (mk_bqueues (mk_queues p1 p2 u (firstn k d)) bu true)
  end.
Fixpoint bqueue_run (f1 f2 : program) (turns : list bturn) (s : bqueues) : bqueues :=
  match turns with
  | [] => s
  | a :: turns' => bqueue_run f1 f2 turns' (match bqueue_step f1 f2 a s with Some s' => s' | None => s end)
  end.
Definition bqueues_new : bqueues := mk_bqueues queues_new false false.
