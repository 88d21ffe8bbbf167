(** Two programs on a connection that ends: C99. *)
From Coq Require Import NArith ZArith String Bool List Lia.
From Coq.Strings Require Import Byte.
From Verif.Model Require Import Base Io Header Mask Dataframe Utf8 Text Headers
  Message Receiver Codec Framed Connect Examples AsyncExamples ChatClient Talk Narrow AsyncChat AsyncTalk Errand Dialogue Programs Kinds Endings.
From Verif.Spec Require Import RfcFrame FrameSpec Schedule Unicode Drive Session Connection Polled Fields Echo Chat Talking AsyncChat Errands Dialogues Queues Pairings Partings.
From Verif.Proofs Require Import ExTac.
From Verif.Proofs Require ThmEndings.
Import ListNotations.
Local Open Scope string_scope.
Local Open Scope list_scope.
Local Open Scope nat_scope.

(** ** The theorems *)

(** [C99] A program that is done shuts down its sending side.  To the programs at its ends, a
    connection is then two queues of messages with an end: where a program is done and all it said has
    been heard, its partner is told so.  Whatever the programs, the kinds of their clients, the room of
    the network, its delays, the masking keys, the scheduling and the polls, what happens to them could
    have happened with such queues (Spec/Partings.v). *)
Theorem ending_is_queues : forall f1 f2 cap s1 s2 acts, minds f1 -> minds f2 -> works s1 -> works s2 ->
  let t := ending_run f1 f2 cap acts (pairing_new s1 s2) in
  exists turns, let s := parting_run f1 f2 turns queues_new in
    peer_past (p_client t) = q_past1 s /\ peer_past (p_server t) = q_past2 s /\
    (List.length (p_up t) <= cap)%nat /\ (List.length (p_down t) <= cap)%nat.
Proof. exact ThmEndings.ending_is_queues_proof. Qed.
Print Assumptions ending_is_queues.

(** The client says three messages, the second of which is refused, and is done; the server hears until
    it is told that there is nothing more, and then says how many messages it heard. *)
Definition leaver : program := fun past =>
  match past with
  | [] => Some (Say (OText (str "one")))
  | [_] => Some (Say (OPing (repeat x00 126)))
  | [_; _] => Some (Say (OBinary (str "two")))
  | _ => None
  end.
Definition counter : program := fun past =>
  match rev past with
  | NotHeard :: before => Some (Say (OBinary (firstn 100 (repeat x2a (List.length before)))))
  | Said _ :: _ => None
  | _ => Some Hear
  end.
Example leavers_mind : minds leaver /\ minds counter.
Proof.
  split; intros past m H; unfold leaver, counter in H;
    repeat match type of H with context [match ?x with _ => _ end] => destruct x; try discriminate H end;
    match type of H with Some (Say ?x) = _ => assert (m = x) as -> by congruence end;
    (split; [try exact I; apply ExTac.good_text; reflexivity|]);
    match goal with
    | |- (size (payload_of (_ (firstn ?n ?d))) <= _)%N => apply (ThmKinds.short n d); vm_compute; discriminate
    | _ => vm_compute; discriminate
    end.
Qed.
Definition ending_turns : list eact :=
  [EGo (PTurn true (mk_key x01 x02 x03 x04) 3); EGo (PSend true 3); EGo (PRead true 2); EEnd true;
   EGo (PTurn false (mk_key x00 x00 x00 x00) 0); EGo (PSend false 4); EGo (PRead false 3); EEnd false].
Example ending_is_queues_ex : forall s1 s2, In s1 [WithPolling 0; WithBlocking (mk_w [] [])] -> In s2 [WithPolling 0; WithBlocking (mk_w [] [])] ->
  let t := ending_run leaver counter 5 (concat (repeat ending_turns 40)) (pairing_new s1 s2) in
  peer_past (p_server t) = [Heard (OText (str "one")); Heard (OBinary (str "two")); NotHeard; Said (OBinary (str "**"))] /\
  q_past2 (parting_run leaver counter (concat (repeat [true; false] 8)) queues_new) = peer_past (p_server t).
Proof. intros s1 s2 [<-|[<-|[]]] [<-|[<-|[]]]; vm_compute; split; reflexivity. Qed.

(** [C99] And the other way: whatever could happen with queues that end and never hold more than the
    network has room for, happens to the programs in some run, with either kind of client at either
    end. *)
Theorem queues_are_ending : forall f1 f2 cap s1 s2 turns, minds f1 -> minds f2 -> works s1 -> works s2 ->
  (forall n, let s := parting_run f1 f2 (firstn n turns) queues_new in (up_bytes (q_up s) <= cap)%nat /\ (down_bytes (q_down s) <= cap)%nat) ->
  exists acts, let t := ending_run f1 f2 cap acts (pairing_new s1 s2) in let s := parting_run f1 f2 turns queues_new in
    peer_past (p_client t) = q_past1 s /\ peer_past (p_server t) = q_past2 s.
Proof. exact ThmEndings.queues_are_ending_proof. Qed.
Print Assumptions queues_are_ending.

Example queues_are_ending_ex : (forall n, let s := parting_run leaver counter (firstn n [true; true; true; false; false; false; false]) queues_new in
  (up_bytes (q_up s) <= 18)%nat /\ (down_bytes (q_down s) <= 4)%nat) /\
  nth 2 (q_past2 (parting_run leaver counter [true; true; true; false; false; false; false] queues_new)) (Said (OText [])) = NotHeard.
Proof.
  split; [|vm_compute; reflexivity]. intros n. do 8 (destruct n as [|n]; [split; apply PeanoNat.Nat.leb_le; vm_compute; reflexivity|]). split; apply PeanoNat.Nat.leb_le; cbn [firstn]; rewrite ?firstn_nil; vm_compute; reflexivity.
Qed.

(** [C99] Nothing is lost at the end: when a program is told that there is nothing more, its partner
    is done, and what the program had heard by then is all that its partner has said, in order. *)
Theorem end_after_all : forall f1 f2 cap s1 s2 acts, minds f1 -> minds f2 -> works s1 -> works s2 ->
  let t := ending_run f1 f2 cap acts (pairing_new s1 s2) in
  let p1 := peer_past (p_client t) in let p2 := peer_past (p_server t) in
  (forall a b, p1 = a ++ NotHeard :: b -> f2 p2 = None /\ words_heard a = words_said p2 /\ words_heard b = []) /\
  (forall a b, p2 = a ++ NotHeard :: b -> f1 p1 = None /\ words_heard a = words_said p1 /\ words_heard b = []).
Proof. exact ThmEndings.end_after_all_proof. Qed.
Print Assumptions end_after_all.

Example end_after_all_ex :
  let t := ending_run leaver counter 5 (concat (repeat ending_turns 40)) (pairing_new (WithBlocking (mk_w [] [])) (WithPolling 0)) in
  let p2 := peer_past (p_server t) in
  p2 = [Heard (OText (str "one")); Heard (OBinary (str "two"))] ++ NotHeard :: [Said (OBinary (str "**"))] /\
  words_said (peer_past (p_client t)) = [OText (str "one"); OBinary (str "two")].
Proof. vm_compute. split; reflexivity. Qed.

(** [C99] No program can tell one timing from another, or which kinds of client are used, by when and
    how its connection ends: of any two runs, what happens to a program in the one is an initial part
    of what happens to it in the other. *)
Theorem ending_unseen : forall f1 f2 cap cap' s1 s2 s1' s2' acts acts', minds f1 -> minds f2 -> works s1 -> works s2 -> works s1' -> works s2' ->
  let t := ending_run f1 f2 cap acts (pairing_new s1 s2) in
  let t' := ending_run f1 f2 cap' acts' (pairing_new s1' s2') in
  (prefix (peer_past (p_client t)) (peer_past (p_client t')) \/ prefix (peer_past (p_client t')) (peer_past (p_client t))) /\
  (prefix (peer_past (p_server t)) (peer_past (p_server t')) \/ prefix (peer_past (p_server t')) (peer_past (p_server t))).
Proof. exact ThmEndings.ending_unseen_proof. Qed.
Print Assumptions ending_unseen.

Example ending_unseen_ex :
  let t := ending_run leaver counter 1 (concat (repeat ending_turns 14)) (pairing_new (WithPolling 0) (WithPolling 0)) in
  let t' := ending_run leaver counter 100 (concat (repeat ending_turns 40)) (pairing_new (WithBlocking (mk_w [] [])) (WithBlocking (mk_w [] []))) in
  List.length (peer_past (p_server t)) = 1%nat /\ List.length (peer_past (p_server t')) = 4%nat /\
  peer_past (p_server t) = firstn 1 (peer_past (p_server t')).
Proof. vm_compute. repeat split; reflexivity. Qed.

(** [C99] Nobody waits for a program that is done: when nothing can happen any more, each of the two
    programs is done, or waits where nothing is under way to it for a program that is not done, or has
    not finished saying something and the network is full. *)
Theorem ending_rest : forall f1 f2 cap s1 s2 acts, minds f1 -> minds f2 -> works s1 -> works s2 -> (1 <= cap)%nat ->
  let t := ending_run f1 f2 cap acts (pairing_new s1 s2) in ending_rests f1 f2 cap t ->
  parted cap f1 f2 (p_client t) (p_server t) (p_up t) (p_down t) /\ parted cap f2 f1 (p_server t) (p_client t) (p_down t) (p_up t).
Proof. exact ThmEndings.ending_rest_proof. Qed.
Print Assumptions ending_rest.

Example ending_rest_ex :
  let t := ending_run leaver counter 7 (concat (repeat ending_turns 40)) (pairing_new (WithPolling 0) (WithBlocking (mk_w [] []))) in
  ending_rests leaver counter 7 t /\ leaver (peer_past (p_client t)) = None /\ counter (peer_past (p_server t)) = None /\ p_down t = [x82; x02; x2a; x2a].
Proof.
  split; [|vm_compute; repeat split; reflexivity]. match goal with |- ending_rests _ _ _ ?X => let v := eval vm_compute in X in assert (X = v) as -> by (vm_compute; reflexivity) end.
  intros [[[] k e|[] [|n]|[] [|n]]|[]]; reflexivity.
Qed.

(** [C99] A run that ended with neither program in the middle of saying something ended as it had to:
    in every other run, with clients of the same or other kinds, what has happened to either program
    is an initial part of what happened to it in this one; and if the other run ended like that too,
    it is the same. *)
Theorem ending_one_end : forall f1 f2 cap cap' s1 s2 s1' s2' acts acts', minds f1 -> minds f2 -> works s1 -> works s2 -> works s1' -> works s2' -> (1 <= cap)%nat ->
  let t := ending_run f1 f2 cap acts (pairing_new s1 s2) in
  let t' := ending_run f1 f2 cap' acts' (pairing_new s1' s2') in
  ending_rests f1 f2 cap t -> peer_free (p_client t) -> peer_free (p_server t) ->
  prefix (peer_past (p_client t')) (peer_past (p_client t)) /\ prefix (peer_past (p_server t')) (peer_past (p_server t)) /\
  ((1 <= cap')%nat -> ending_rests f1 f2 cap' t' -> peer_free (p_client t') -> peer_free (p_server t') ->
   peer_past (p_client t') = peer_past (p_client t) /\ peer_past (p_server t') = peer_past (p_server t)).
Proof. exact ThmEndings.ending_one_end_proof. Qed.
Print Assumptions ending_one_end.

Example ending_one_end_ex :
  let t := ending_run leaver counter 7 (concat (repeat ending_turns 40)) (pairing_new (WithPolling 0) (WithBlocking (mk_w [] []))) in
  let t' := ending_run leaver counter 9 (concat (repeat ending_turns 99)) (pairing_new (WithBlocking (mk_w [] [])) (WithPolling 0)) in
  ending_rests leaver counter 7 t /\ peer_free (p_client t) /\ peer_free (p_server t) /\
  peer_past (p_server t) = peer_past (p_server t') /\ List.length (peer_past (p_server t)) = 4%nat.
Proof.
  split; [exact (proj1 ending_rest_ex)|]. vm_compute. repeat split; reflexivity.
Qed.
