(** What a connection ought to be for the programs at its ends: two queues of messages. *)
From Coq Require Import NArith String Bool List.
From Verif.Model Require Import Base Message Errand Programs.
From Verif.Spec Require Import RfcFrame FrameSpec Session.
Import ListNotations.
Local Open Scope list_scope.

(** A control message of more than 125 octets is refused, anything else goes. *)
Definition goes (m : owned) : bool :=
  match m with OText _ | OBinary _ => true | _ => (size (payload_of m) <=? 125)%N end.
(** A deed of a program with the past [past]: [mine] is the queue it says into, [theirs] the one it
    hears from.  No bytes, no keys, no network. *)
Definition deed_done (f : program) (past : list happening) (mine theirs : list owned) : option (list happening * list owned * list owned) :=
  match f past with
  | None => None
  | Some (Say m) => if goes m then Some (past ++ [Said m], mine ++ [m], theirs) else Some (past ++ [NotSaid m], mine, theirs)
  | Some Hear => match theirs with [] => None | m :: rest => Some (past ++ [Heard m], mine, rest) end
  end.

Record queues : Type := mk_queues { q_past1 : list happening; q_past2 : list happening; q_up : list owned; q_down : list owned }.
(** [true]: it is the client's turn. *)
Definition queue_step (f1 f2 : program) (client : bool) (s : queues) : option queues :=
  let '(mk_queues p1 p2 u d) := s in
  if client
  then match deed_done f1 p1 u d with Some (p1', u', d') => Some (mk_queues p1' p2 u' d') | None => None end
  else match deed_done f2 p2 d u with Some (p2', d', u') => Some (mk_queues p1 p2' u' d') | None => None end.
Fixpoint queue_run (f1 f2 : program) (turns : list bool) (s : queues) : queues :=
  match turns with
  | [] => s
  | c :: turns' => queue_run f1 f2 turns' (match queue_step f1 f2 c s with Some s' => s' | None => s end)
  end.
Definition queues_new : queues := mk_queues [] [] [] [].

(** A program that says only what a [Message] can be (texts are UTF-8), up to the limit of the other
    side. *)
Definition minds (f : program) : Prop :=
  forall past m, f past = Some (Say m) -> typed m /\ (size (payload_of m) <= 104857600)%N.
(** Nothing can happen any more. *)
Definition link_rests (f1 f2 : program) (cap : nat) (t : link) : Prop := forall a, link_step f1 f2 cap a t = None.
Definition free (u : user) : Prop := u_write u = None.
