(** What a connection that ends ought to be for the programs at its ends: two queues of messages, and after
    the last message of a program that is done, the end. *)
From Coq Require Import NArith String Bool List.
From Verif.Model Require Import Base Io Message Errand Programs Kinds Endings.
From Verif.Spec Require Import RfcFrame FrameSpec Session Queues Pairings.
Import ListNotations.
Local Open Scope list_scope.

(** A deed ([Spec/Queues.v]) or, where the queue is empty and the other program is done ([over]), the news of
    it. *)
Definition deed_or_end (f : program) (over : bool) (past : list happening) (mine theirs : list owned) : option (list happening * list owned * list owned) :=
  match f past, theirs, over with
  | Some Hear, [], true => Some (past ++ [NotHeard], mine, [])
  | _, _, _ => deed_done f past mine theirs
  end.
Definition no_more (f : program) (past : list happening) : bool := match f past with None => true | Some _ => false end.
Definition parting_step (f1 f2 : program) (client : bool) (s : queues) : option queues :=
  let '(mk_queues p1 p2 u d) := s in
  if client
  then match deed_or_end f1 (no_more f2 p2) p1 u d with Some (p1', u', d') => Some (mk_queues p1' p2 u' d') | None => None end
  else match deed_or_end f2 (no_more f1 p1) p2 d u with Some (p2', d', u') => Some (mk_queues p1 p2' u' d') | None => None end.
Fixpoint parting_run (f1 f2 : program) (turns : list bool) (s : queues) : queues :=
  match turns with
  | [] => s
  | c :: turns' => parting_run f1 f2 turns' (match parting_step f1 f2 c s with Some s' => s' | None => s end)
  end.

(** The messages a program has said, and those it has heard. *)
Definition words_said (past : list happening) : list owned := flat_map (fun h => match h with Said m => [m] | _ => [] end) past.
Definition words_heard (past : list happening) : list owned := flat_map (fun h => match h with Heard m => [m] | _ => [] end) past.
(** Nothing can happen any more. *)
Definition ending_rests (f1 f2 : program) (cap : nat) (t : pairing) : Prop := forall a, ending_step f1 f2 cap a t = None.
(** Where nothing can happen any more: the program ([f], with the client [x]) is done; or it waits, where nothing
    is under way to it, for a program that is not done; or it has not finished saying something and the
    network is full. *)
Definition parted (cap : nat) (f g : program) (x y : peer) (out inn : bytes) : Prop :=
  f (peer_past x) = None /\ peer_free x \/
  f (peer_past x) = Some Hear /\ inn = [] /\ g (peer_past y) <> None \/
  ~ peer_free x /\ List.length out = cap.
