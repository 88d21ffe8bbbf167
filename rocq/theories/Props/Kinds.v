(** Two programs with clients of either kind: C98. *)
From Coq Require Import NArith ZArith String Bool List Lia.
From Coq.Strings Require Import Byte.
From Verif.Model Require Import Base Io Header Mask Dataframe Utf8 Text Headers
  Message Receiver Codec Framed Connect Examples AsyncExamples ChatClient Talk Narrow AsyncChat AsyncTalk Errand Dialogue Programs Kinds.
From Verif.Spec Require Import RfcFrame FrameSpec Schedule Unicode Drive Session Connection Polled Fields Echo Chat Talking AsyncChat Errands Dialogues Queues Pairings.
From Verif.Proofs Require Import ExTac.
From Verif.Proofs Require ThmKinds.
Import ListNotations.
Local Open Scope string_scope.
Local Open Scope list_scope.
Local Open Scope nat_scope.

(** ** The theorems *)

(** [C98] Whether a program uses the blocking client or the asynchronous one, and whichever its
    partner uses: to the programs at its ends, a connection is two queues of messages.  Whatever the
    programs, the room of the network, its delays, the masking keys, the scheduling and the polls,
    what happens to them could have happened with queues (Spec/Queues.v). *)
Theorem pairing_is_queues : forall f1 f2 cap s1 s2 acts, minds f1 -> minds f2 -> works s1 -> works s2 ->
  let t := pairing_run f1 f2 cap acts (pairing_new s1 s2) in
  exists turns, let s := queue_run f1 f2 turns queues_new in
    peer_past (p_client t) = q_past1 s /\ peer_past (p_server t) = q_past2 s /\
    (List.length (p_up t) <= cap)%nat /\ (List.length (p_down t) <= cap)%nat.
Proof. exact ThmKinds.pairing_is_queues_proof. Qed.
Print Assumptions pairing_is_queues.

(** The caller says something that is refused, then a text, and says back what it hears, cut to four
    octets, until it has said three messages; the other answers a text with a longer one and anything
    else with a Pong.  The caller has an asynchronous client, the other a blocking one. *)
Definition caller : program := fun past =>
  match rev past with
  | [] => Some (Say (OPing (repeat x00 126)))
  | NotSaid _ :: _ => Some (Say (OText (str "call")))
  | Said _ :: _ => Some Hear
  | Heard (OText d) :: _ => Some (Say (OBinary (firstn 4 d)))
  | Heard (OPong d) :: before => if (List.length before <? 6)%nat then Some (Say (OBinary (firstn 4 d))) else None
  | _ => None
  end.
Definition callee : program := fun past =>
  match rev past with
  | Heard (OText _) :: _ => Some (Say (OText (str "answer")))
  | Heard (OBinary d) :: _ => Some (Say (OPong (firstn 2 d)))
  | _ => Some Hear
  end.
Example callers_mind : minds caller /\ minds callee.
Proof.
  split; intros past m H; unfold caller, callee in H;
    repeat match type of H with context [match ?x with _ => _ end] => destruct x; try discriminate H end;
    match type of H with Some (Say ?x) = _ => assert (m = x) as -> by congruence end;
    (split; [try exact I; apply ExTac.good_text; reflexivity|]);
    match goal with
    | |- (size (payload_of (_ (firstn ?n ?d))) <= _)%N => apply (ThmKinds.short n d); vm_compute; discriminate
    | _ => vm_compute; discriminate
    end.
Qed.
Definition pairing_turns : list pact :=
  [PTurn true (mk_key x01 x02 x03 x04) 3; PSend true 3; PRead true 2; PTurn false (mk_key x00 x00 x00 x00) 0; PSend false 4; PRead false 3].
Definition polling : start := WithPolling 0.
Definition blocking : start := WithBlocking (mk_w [] []).
Example pairing_is_queues_ex :
  let t := pairing_run caller callee 5 (concat (repeat pairing_turns 40)) (pairing_new polling blocking) in
  peer_past (p_client t) = [NotSaid (OPing (repeat x00 126)); Said (OText (str "call")); Heard (OText (str "answer"));
     Said (OBinary (str "answ")); Heard (OPong (str "an")); Said (OBinary (str "an")); Heard (OPong (str "an"))] /\
  q_past1 (queue_run caller callee (concat (repeat [true; false] 12)) queues_new) = peer_past (p_client t).
Proof. vm_compute. split; reflexivity. Qed.

(** [C98] And the other way: whatever could happen with queues that never hold more than the network
    has room for, happens to the programs in some run, with either kind of client at either end. *)
Theorem queues_are_pairing : forall f1 f2 cap s1 s2 turns, minds f1 -> minds f2 -> works s1 -> works s2 ->
  (forall n, let s := queue_run f1 f2 (firstn n turns) queues_new in (up_bytes (q_up s) <= cap)%nat /\ (down_bytes (q_down s) <= cap)%nat) ->
  exists acts, let t := pairing_run f1 f2 cap acts (pairing_new s1 s2) in let s := queue_run f1 f2 turns queues_new in
    peer_past (p_client t) = q_past1 s /\ peer_past (p_server t) = q_past2 s.
Proof. exact ThmKinds.queues_are_pairing_proof. Qed.
Print Assumptions queues_are_pairing.

Example queues_are_pairing_ex : forall n, let s := queue_run caller callee (firstn n (concat (repeat [true; true; false; false] 3))) queues_new in
  (up_bytes (q_up s) <= 10)%nat /\ (down_bytes (q_down s) <= 8)%nat.
Proof.
  intros n. do 13 (destruct n as [|n]; [split; apply PeanoNat.Nat.leb_le; vm_compute; reflexivity|]). split; apply PeanoNat.Nat.leb_le; cbn [repeat concat app firstn];
    rewrite ?firstn_nil; vm_compute; reflexivity.
Qed.

(** [C98] No program can tell which kind of client it has been given, or which kind its partner uses,
    or one timing from another: of any two runs, what happens to a program in the one is an initial
    part of what happens to it in the other. *)
Theorem kind_unseen : forall f1 f2 cap cap' s1 s2 s1' s2' acts acts', minds f1 -> minds f2 -> works s1 -> works s2 -> works s1' -> works s2' ->
  let t := pairing_run f1 f2 cap acts (pairing_new s1 s2) in
  let t' := pairing_run f1 f2 cap' acts' (pairing_new s1' s2') in
  (prefix (peer_past (p_client t)) (peer_past (p_client t')) \/ prefix (peer_past (p_client t')) (peer_past (p_client t))) /\
  (prefix (peer_past (p_server t)) (peer_past (p_server t')) \/ prefix (peer_past (p_server t')) (peer_past (p_server t))).
Proof. exact ThmKinds.kind_unseen_proof. Qed.
Print Assumptions kind_unseen.

(** Two asynchronous clients with room for one byte in the network, two blocking ones with room for a
    hundred. *)
Example kind_unseen_ex :
  let t := pairing_run caller callee 1 (concat (repeat pairing_turns 24)) (pairing_new polling polling) in
  let t' := pairing_run caller callee 100 (concat (repeat pairing_turns 40)) (pairing_new blocking blocking) in
  List.length (peer_past (p_client t)) = 4%nat /\ List.length (peer_past (p_client t')) = 7%nat /\
  peer_past (p_client t) = firstn 4 (peer_past (p_client t')).
Proof. vm_compute. repeat split; reflexivity. Qed.

(** [C98] When nothing can happen any more, each of the two programs is done, or waits for a message
    where nothing is under way to it, or has not finished saying something and the network is full. *)
Theorem pairing_rest : forall f1 f2 cap s1 s2 acts, minds f1 -> minds f2 -> works s1 -> works s2 -> (1 <= cap)%nat ->
  let t := pairing_run f1 f2 cap acts (pairing_new s1 s2) in pairing_rests f1 f2 cap t ->
  (f1 (peer_past (p_client t)) = None \/ f1 (peer_past (p_client t)) = Some Hear /\ p_down t = [] \/ ~ peer_free (p_client t) /\ List.length (p_up t) = cap) /\
  (f2 (peer_past (p_server t)) = None \/ f2 (peer_past (p_server t)) = Some Hear /\ p_up t = [] \/ ~ peer_free (p_server t) /\ List.length (p_down t) = cap).
Proof. exact ThmKinds.pairing_rest_proof. Qed.
Print Assumptions pairing_rest.

Example pairing_rest_ex :
  let t := pairing_run caller callee 5 (concat (repeat pairing_turns 40)) (pairing_new polling blocking) in
  pairing_rests caller callee 5 t /\ caller (peer_past (p_client t)) = None /\ callee (peer_past (p_server t)) = Some Hear.
Proof.
  split; [|vm_compute; split; reflexivity]. match goal with |- pairing_rests _ _ _ ?X => let v := eval vm_compute in X in assert (X = v) as -> by (vm_compute; reflexivity) end.
  intros [[] k e|[] [|n]|[] [|n]]; reflexivity.
Qed.

(** [C98] A run that ended with neither program in the middle of saying something ended as it had to:
    in every other run, with clients of the same or other kinds, what has happened to either program
    is an initial part of what happened to it in this one; and if the other run ended like that too,
    it is the same.  To exchange one kind of client for the other changes nothing. *)
Theorem pairing_one_end : forall f1 f2 cap cap' s1 s2 s1' s2' acts acts', minds f1 -> minds f2 -> works s1 -> works s2 -> works s1' -> works s2' -> (1 <= cap)%nat ->
  let t := pairing_run f1 f2 cap acts (pairing_new s1 s2) in
  let t' := pairing_run f1 f2 cap' acts' (pairing_new s1' s2') in
  pairing_rests f1 f2 cap t -> peer_free (p_client t) -> peer_free (p_server t) ->
  prefix (peer_past (p_client t')) (peer_past (p_client t)) /\ prefix (peer_past (p_server t')) (peer_past (p_server t)) /\
  ((1 <= cap')%nat -> pairing_rests f1 f2 cap' t' -> peer_free (p_client t') -> peer_free (p_server t') ->
   peer_past (p_client t') = peer_past (p_client t) /\ peer_past (p_server t') = peer_past (p_server t)).
Proof. exact ThmKinds.pairing_one_end_proof. Qed.
Print Assumptions pairing_one_end.

Example pairing_one_end_ex :
  let t := pairing_run caller callee 5 (concat (repeat pairing_turns 40)) (pairing_new polling blocking) in
  let t' := pairing_run caller callee 1 (concat (repeat pairing_turns 99)) (pairing_new blocking polling) in
  pairing_rests caller callee 5 t /\ peer_free (p_client t) /\ peer_free (p_server t) /\
  peer_past (p_server t) = peer_past (p_server t') /\ List.length (peer_past (p_server t)) = 6%nat.
Proof.
  split; [exact (proj1 pairing_rest_ex)|]. vm_compute. repeat split; reflexivity.
Qed.
