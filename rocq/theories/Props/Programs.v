(** Two programs and the two queues of messages between them: C95. *)
From Coq Require Import NArith ZArith String Bool List Lia.
From Coq.Strings Require Import Byte.
From Verif.Model Require Import Base Io Header Mask Dataframe Utf8 Text Headers
  Message Receiver Codec Framed Connect Examples ChatClient Talk Narrow Errand Dialogue Programs.
From Verif.Spec Require Import RfcFrame FrameSpec Schedule Unicode Drive Session Connection Polled Fields Echo Chat Talking AsyncChat Errands Dialogues Queues.
From Verif.Proofs Require Import ExTac.
From Verif.Proofs Require ThmPrograms.
Import ListNotations.
Local Open Scope string_scope.
Local Open Scope list_scope.
Local Open Scope nat_scope.

(** ** The theorems *)

(** [C95] To the programs at its ends, a connection is two queues of messages: whatever the programs,
    the room of the network, its delays, the masking keys and the scheduling, what happens to them
    could have happened with queues (Spec/Queues.v), where there are no bytes and no network. *)
Theorem link_is_queues : forall f1 f2 cap w1 w2 acts, minds f1 -> minds f2 -> never_fails w1 -> never_fails w2 ->
  let t := link_run f1 f2 cap acts (link_new w1 w2) in
  exists turns, let s := queue_run f1 f2 turns queues_new in
    u_past (l_client t) = q_past1 s /\ u_past (l_server t) = q_past2 s /\
    (List.length (l_up t) <= cap)%nat /\ (List.length (l_down t) <= cap)%nat.
Proof. exact ThmPrograms.link_is_queues_proof. Qed.
Print Assumptions link_is_queues.

(** The client asks for a number and stops at "no"; the server says how many numbers it was asked
    for, up to two.  A Ping that is too long is refused and nothing comes of it. *)
Definition ask : owned := OText (str "more?").
Definition asking : program := fun past =>
  match rev past with
  | [] => Some (Say (OPing (repeat x00 126)))
  | NotSaid _ :: _ => Some (Say ask)
  | Said _ :: _ => Some Hear
  | Heard (OText d) :: _ => if beqb d (str "no") then None else Some (Say ask)
  | _ => None
  end.
Definition counting : program := fun past =>
  match rev past with
  | Heard _ :: _ :: _ :: _ :: _ => Some (Say (OText (str "no")))
  | Heard _ :: before => Some (Say (OText (str (if (List.length before =? 0)%nat then "1" else "2"))))
  | _ => Some Hear
  end.
Example programs_mind : minds asking /\ minds counting.
Proof.
  split; intros past m H; unfold asking, counting in H;
    repeat match type of H with context [match ?x with _ => _ end] => destruct x; try discriminate H end;
    injection H as <-; (split; [try exact I; apply ExTac.good_text; reflexivity|vm_compute; discriminate]).
Qed.
Definition link_turns : list dact :=
  [DTurn true (mk_key x01 x02 x03 x04); DSend true 3; DRead true 2; DTurn false (mk_key x00 x00 x00 x00); DSend false 4; DRead false 3].
Example link_is_queues_ex :
  let t := link_run asking counting 5 (concat (repeat link_turns 40)) (link_new (mk_w [] []) (mk_w [] [])) in
  u_past (l_client t) = [NotSaid (OPing (repeat x00 126)); Said ask; Heard (OText (str "1")); Said ask; Heard (OText (str "2")); Said ask; Heard (OText (str "no"))] /\
  q_past1 (queue_run asking counting (concat (repeat [true; false] 12)) queues_new) = u_past (l_client t).
Proof. vm_compute. split; reflexivity. Qed.

(** [C95] And the other way: whatever could happen with queues that never hold more than the network
    has room for, happens to the programs in some run. *)
Theorem queues_are_link : forall f1 f2 cap w1 w2 turns, minds f1 -> minds f2 -> never_fails w1 -> never_fails w2 ->
  (forall n, let s := queue_run f1 f2 (firstn n turns) queues_new in (up_bytes (q_up s) <= cap)%nat /\ (down_bytes (q_down s) <= cap)%nat) ->
  exists acts, let t := link_run f1 f2 cap acts (link_new w1 w2) in let s := queue_run f1 f2 turns queues_new in
    u_past (l_client t) = q_past1 s /\ u_past (l_server t) = q_past2 s.
Proof. exact ThmPrograms.queues_are_link_proof. Qed.
Print Assumptions queues_are_link.

Example queues_are_link_ex : forall n, let s := queue_run asking counting (firstn n (concat (repeat [true; true; false; false] 3))) queues_new in
  (up_bytes (q_up s) <= 11)%nat /\ (down_bytes (q_down s) <= 11)%nat.
Proof.
  intros n. do 13 (destruct n as [|n]; [split; apply PeanoNat.Nat.leb_le; vm_compute; reflexivity|]). split; apply PeanoNat.Nat.leb_le; cbn [repeat concat app firstn];
    rewrite ?firstn_nil; vm_compute; reflexivity.
Qed.

(** [C95] The programs cannot tell one timing from another: of any two runs, with any room in the
    network, any delays and keys, what happens to a program in the one is an initial part of what
    happens to it in the other. *)
Theorem timing_unseen : forall f1 f2 cap cap' w1 w2 w1' w2' acts acts', minds f1 -> minds f2 -> never_fails w1 -> never_fails w2 -> never_fails w1' -> never_fails w2' ->
  let t := link_run f1 f2 cap acts (link_new w1 w2) in
  let t' := link_run f1 f2 cap' acts' (link_new w1' w2') in
  (prefix (u_past (l_client t)) (u_past (l_client t')) \/ prefix (u_past (l_client t')) (u_past (l_client t))) /\
  (prefix (u_past (l_server t)) (u_past (l_server t')) \/ prefix (u_past (l_server t')) (u_past (l_server t))).
Proof. exact ThmPrograms.timing_unseen_proof. Qed.
Print Assumptions timing_unseen.

(** With room for one byte, and with room for a hundred. *)
Example timing_unseen_ex :
  let t := link_run asking counting 1 (concat (repeat link_turns 30)) (link_new (mk_w [] []) (mk_w [] [])) in
  let t' := link_run asking counting 100 (concat (repeat link_turns 30)) (link_new (mk_w [] []) (mk_w [] [])) in
  u_past (l_client t) = [NotSaid (OPing (repeat x00 126)); Said ask; Heard (OText (str "1")); Said ask] /\
  u_past (l_client t') = u_past (l_client t) ++ [Heard (OText (str "2")); Said ask; Heard (OText (str "no"))].
Proof. vm_compute. split; reflexivity. Qed.

(** [C95] When nothing can happen any more, each of the two programs is done, or waits for a message
    where there is none, or is in a write and the network is full. *)
Theorem link_rest : forall f1 f2 cap w1 w2 acts, minds f1 -> minds f2 -> never_fails w1 -> never_fails w2 -> (1 <= cap)%nat ->
  let t := link_run f1 f2 cap acts (link_new w1 w2) in link_rests f1 f2 cap t ->
  (f1 (u_past (l_client t)) = None \/ f1 (u_past (l_client t)) = Some Hear /\ l_down t = [] \/ ~ free (l_client t) /\ List.length (l_up t) = cap) /\
  (f2 (u_past (l_server t)) = None \/ f2 (u_past (l_server t)) = Some Hear /\ l_up t = [] \/ ~ free (l_server t) /\ List.length (l_down t) = cap).
Proof. exact ThmPrograms.link_rest_proof. Qed.
Print Assumptions link_rest.

Example link_rest_ex :
  let t := link_run asking counting 5 (concat (repeat link_turns 40)) (link_new (mk_w [] []) (mk_w [] [])) in
  link_rests asking counting 5 t /\ asking (u_past (l_client t)) = None /\ counting (u_past (l_server t)) = Some Hear.
Proof.
  split; [|vm_compute; split; reflexivity]. match goal with |- link_rests _ _ _ ?X => let v := eval vm_compute in X in assert (X = v) as -> by (vm_compute; reflexivity) end.
  intros [[] k|[] [|n]|[] [|n]]; reflexivity.
Qed.

(** [C95] A run that ended with neither program in a write ended as it had to: in every other run,
    what has happened to either program is an initial part of what happened to it in this one; and if
    the other run ended like that too, it is the same. *)
Theorem one_end : forall f1 f2 cap cap' w1 w2 w1' w2' acts acts', minds f1 -> minds f2 -> never_fails w1 -> never_fails w2 -> never_fails w1' -> never_fails w2' -> (1 <= cap)%nat ->
  let t := link_run f1 f2 cap acts (link_new w1 w2) in
  let t' := link_run f1 f2 cap' acts' (link_new w1' w2') in
  link_rests f1 f2 cap t -> free (l_client t) -> free (l_server t) ->
  prefix (u_past (l_client t')) (u_past (l_client t)) /\ prefix (u_past (l_server t')) (u_past (l_server t)) /\
  ((1 <= cap')%nat -> link_rests f1 f2 cap' t' -> free (l_client t') -> free (l_server t') ->
   u_past (l_client t') = u_past (l_client t) /\ u_past (l_server t') = u_past (l_server t)).
Proof. exact ThmPrograms.one_end_proof. Qed.
Print Assumptions one_end.

Example one_end_ex :
  let t := link_run asking counting 5 (concat (repeat link_turns 40)) (link_new (mk_w [] []) (mk_w [] [])) in
  let t' := link_run asking counting 1 (concat (repeat link_turns 90)) (link_new (mk_w [] []) (mk_w [] [])) in
  link_rests asking counting 5 t /\ free (l_client t) /\ free (l_server t) /\ u_past (l_server t) = u_past (l_server t') /\ List.length (u_past (l_server t)) = 6%nat.
Proof.
  split; [exact (proj1 link_rest_ex)|]. vm_compute. repeat split; reflexivity.
Qed.
