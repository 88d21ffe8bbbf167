(** A connection that breaks is two queues that break: C101. *)
From Coq Require Import NArith ZArith String Bool List Lia.
From Coq.Strings Require Import Byte.
From Verif.Model Require Import Base Io Header Mask Dataframe Utf8 Text Headers
  Message Receiver Codec Framed Connect Examples AsyncExamples ChatClient Talk Narrow AsyncChat AsyncTalk Errand Dialogue Programs Kinds Endings Breaking.
From Verif.Spec Require Import RfcFrame FrameSpec Schedule Unicode Drive Session Connection Polled Fields Echo Chat Talking AsyncChat Errands Dialogues Queues Pairings Partings Breaks BrokenQueues.
From Verif.Proofs Require Import ExTac.
From Verif.Proofs Require ThmBroken.
Import ListNotations.
Local Open Scope string_scope.
Local Open Scope list_scope.
Local Open Scope nat_scope.

(** ** C101: a connection that breaks is two queues that break *)

(** [C101] Whatever the programs, the kinds of their clients, the room of the network, the masking keys, the
    scheduling and the polls, and wherever in the bytes a direction breaks, what happens to the two
    programs, taken together, could have happened with two queues of messages (Spec/BrokenQueues.v) that
    break between messages. *)
Theorem breaking_is_queues : forall f1 f2 cap s1 s2 acts, minds f1 -> minds f2 -> works s1 -> works s2 ->
  let t := breaking_run f1 f2 cap acts (breaking_new s1 s2) in
  exists turns, let s := bqueue_run f1 f2 turns bqueues_new in
    bk_client_past t = q_past1 (bq s) /\ bk_server_past t = q_past2 (bq s) /\ bk_up t = bq_up s /\ bk_down t = bq_down s.
Proof. exact ThmBroken.breaking_is_queues_proof. Qed.
Print Assumptions breaking_is_queues.

(** The client says three messages; the way to the server breaks after the second, with four bytes of its
    frame under way.  With queues: after the second message the queue breaks and one message is left in it. *)
Definition talker : program := fun past =>
  match past with
  | [] => Some (Say (OText (str "one")))
  | [_] => Some (Say (OText (str "two")))
  | [_; _] => Some (Say (OBinary (str "three")))
  | [_; _; _] => Some Hear
  | _ => None
  end.
Definition listener : program := fun past =>
  match rev past with
  | NotHeard :: before => Some (Say (OBinary (firstn 100 (repeat x2a (List.length before)))))
  | Said _ :: _ => None
  | _ => Some Hear
  end.
Example talkers_mind : minds talker /\ minds listener.
Proof.
  split; intros past m H; unfold talker, listener in H;
    repeat match type of H with context [match ?x with _ => _ end] => destruct x; try discriminate H end;
    match type of H with Some (Say ?x) = _ => assert (m = x) as -> by congruence end;
    (split; [try exact I; apply ExTac.good_text; reflexivity|]);
    match goal with
    | |- (size (payload_of (_ (firstn ?n ?d))) <= _)%N => apply (ThmKinds.short n d); vm_compute; discriminate
    | _ => vm_compute; discriminate
    end.
Qed.
Definition talk_turns : list bkact :=
  [BkGo (PTurn true (mk_key x01 x02 x03 x04) 3); BkGo (PSend true 100); BkGo (PTurn true (mk_key x01 x02 x03 x04) 3); BkGo (PSend true 100); BkCut true 13] ++
  concat (repeat [BkGo (PTurn true (mk_key x01 x02 x03 x04) 3); BkGo (PSend true 3); BkGo (PRead true 2); BkEnd true;
   BkGo (PTurn false (mk_key x00 x00 x00 x00) 0); BkGo (PSend false 4); BkGo (PRead false 3); BkEnd false] 30).
Example breaking_is_queues_ex : forall s1 s2, In s1 [WithPolling 0; WithBlocking (mk_w [] [])] -> In s2 [WithPolling 0; WithBlocking (mk_w [] [])] ->
  let t := breaking_run talker listener 50 talk_turns (breaking_new s1 s2) in
  let s := bqueue_run talker listener [BTurn true; BTurn true; BBreak true 1; BTurn true; BTurn false; BTurn false; BTurn false; BTurn true] bqueues_new in
  bk_server_past t = [Heard (OText (str "one")); NotHeard; Said (OBinary (str "*"))] /\
  bk_server_past t = q_past2 (bq s) /\ bk_client_past t = q_past1 (bq s) /\ bq_up s = true.
Proof. intros s1 s2 [<-|[<-|[]]] [<-|[<-|[]]]; vm_compute; repeat split; reflexivity. Qed.

(** ** And the other way: at every turn nothing is left over, so that the frames under way are the queue *)

(** [C101] And the other way: whatever could happen with queues that break and never hold more than the
    network has room for, happens to the programs in some run, with either kind of client at either
    end. *)
Theorem queues_are_breaking : forall f1 f2 cap s1 s2 turns, minds f1 -> minds f2 -> works s1 -> works s2 -> (1 <= cap)%nat ->
  (forall n, let s := bq (bqueue_run f1 f2 (firstn n turns) bqueues_new) in (up_bytes (q_up s) <= cap)%nat /\ (down_bytes (q_down s) <= cap)%nat) ->
  exists acts, let t := breaking_run f1 f2 cap acts (breaking_new s1 s2) in let s := bqueue_run f1 f2 turns bqueues_new in
    bk_client_past t = q_past1 (bq s) /\ bk_server_past t = q_past2 (bq s) /\ bk_up t = bq_up s /\ bk_down t = bq_down s.
Proof. exact ThmBroken.queues_are_breaking_proof. Qed.
Print Assumptions queues_are_breaking.

Example queues_are_breaking_ex :
  let turns := [BTurn true; BTurn true; BBreak true 1; BTurn true; BTurn false; BTurn false; BTurn false; BTurn true] in
  (forall n, let s := bq (bqueue_run talker listener (firstn n turns) bqueues_new) in (up_bytes (q_up s) <= 18)%nat /\ (down_bytes (q_down s) <= 3)%nat) /\
  q_past2 (bq (bqueue_run talker listener turns bqueues_new)) = [Heard (OText (str "one")); NotHeard; Said (OBinary (str "*"))].
Proof.
  split; [|vm_compute; reflexivity]. intros n. do 9 (destruct n as [|n]; [split; apply PeanoNat.Nat.leb_le; vm_compute; reflexivity|]).
  split; apply PeanoNat.Nat.leb_le; cbn [firstn]; rewrite ?firstn_nil; vm_compute; reflexivity.
Qed.

(** [C101] So a connection that breaks does not show what clients are at its ends: what happened to two
    programs can happen to them with clients of any other kinds, on a network with room enough. *)
Theorem breaking_kinds : forall f1 f2 cap s1 s2 acts, minds f1 -> minds f2 -> works s1 -> works s2 ->
  let t := breaking_run f1 f2 cap acts (breaking_new s1 s2) in
  forall s1' s2', works s1' -> works s2' -> exists cap' acts', let t' := breaking_run f1 f2 cap' acts' (breaking_new s1' s2') in
    bk_client_past t' = bk_client_past t /\ bk_server_past t' = bk_server_past t /\ bk_up t' = bk_up t /\ bk_down t' = bk_down t.
Proof. exact ThmBroken.breaking_kinds_proof. Qed.
Print Assumptions breaking_kinds.

Example breaking_kinds_ex : works (WithPolling 7) /\ works (WithBlocking (mk_w [] [])) /\
  bk_server_past (breaking_run talker listener 50 talk_turns (breaking_new (WithPolling 7) (WithBlocking (mk_w [] [])))) =
  bk_server_past (breaking_run talker listener 50 talk_turns (breaking_new (WithBlocking (mk_w [] [])) (WithPolling 7))).
Proof. split; [exact I|]. split; [|vm_compute; reflexivity]. constructor. Qed.
