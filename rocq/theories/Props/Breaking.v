(** Two programs on a connection that may break: C100. *)
From Coq Require Import NArith ZArith String Bool List Lia.
From Coq.Strings Require Import Byte.
From Verif.Model Require Import Base Io Header Mask Dataframe Utf8 Text Headers
  Message Receiver Codec Framed Connect Examples AsyncExamples ChatClient Talk Narrow AsyncChat AsyncTalk Errand Dialogue Programs Kinds Endings Breaking.
From Verif.Spec Require Import RfcFrame FrameSpec Schedule Unicode Drive Session Connection Polled Fields Echo Chat Talking AsyncChat Errands Dialogues Queues Pairings Partings Breaks.
From Verif.Proofs Require Import ExTac.
From Verif.Proofs Require ThmBreaking.
Import ListNotations.
Local Open Scope string_scope.
Local Open Scope list_scope.
Local Open Scope nat_scope.

(** ** C100: a connection that breaks *)

(** [C100] At any moment either direction of the connection may break, and any of the bytes under way in it
    be lost from some byte on, with all that is written to it later.  Whatever the programs, the kinds of
    their clients and everything else, at every moment the messages a program has heard are the first of
    those its partner has said, in order: none altered, none out of order, none invented. *)
Theorem break_prefix : forall f1 f2 cap s1 s2 acts, minds f1 -> minds f2 -> works s1 -> works s2 ->
  let t := breaking_run f1 f2 cap acts (breaking_new s1 s2) in
  prefix (words_heard (bk_client_past t)) (words_said (bk_server_past t)) /\
  prefix (words_heard (bk_server_past t)) (words_said (bk_client_past t)).
Proof. exact ThmBreaking.break_prefix_proof. Qed.
Print Assumptions break_prefix.

(** The client says three messages and is done; the way to the server breaks in the middle of the second.
    The other program ([hearer]) hears until it is told of the end, and then says how many it heard. *)
Definition sayer : program := fun past =>
  match past with
  | [] => Some (Say (OText (str "one")))
  | [_] => Some (Say (OText (str "two")))
  | [_; _] => Some (Say (OBinary (str "three")))
  | [_; _; _] => Some Hear
  | _ => None
  end.
Definition hearer : program := fun past =>
  match rev past with
  | NotHeard :: before => Some (Say (OBinary (firstn 100 (repeat x2a (List.length before)))))
  | Said _ :: _ => None
  | _ => Some Hear
  end.
Example break_minds : minds sayer /\ minds hearer.
Proof.
  split; intros past m H; unfold sayer, hearer in H;
    repeat match type of H with context [match ?x with _ => _ end] => destruct x; try discriminate H end;
    match type of H with Some (Say ?x) = _ => assert (m = x) as -> by congruence end;
    (split; [try exact I; apply ExTac.good_text; reflexivity|]);
    match goal with
    | |- (size (payload_of (_ (firstn ?n ?d))) <= _)%N => apply (ThmKinds.short n d); vm_compute; discriminate
    | _ => vm_compute; discriminate
    end.
Qed.
Definition client_says : list bkact := [BkGo (PTurn true (mk_key x01 x02 x03 x04) 3); BkGo (PSend true 100)].
Definition break_turns : list bkact :=
  [BkGo (PTurn true (mk_key x01 x02 x03 x04) 3); BkGo (PSend true 3); BkGo (PRead true 2); BkEnd true;
   BkGo (PTurn false (mk_key x00 x00 x00 x00) 0); BkGo (PSend false 4); BkGo (PRead false 3); BkEnd false].
Definition break_run (kept : nat) : list bkact := client_says ++ client_says ++ [BkCut true kept] ++ concat (repeat break_turns 30).
Example break_prefix_ex : forall s1 s2, In s1 [WithPolling 0; WithBlocking (mk_w [] [])] -> In s2 [WithPolling 0; WithBlocking (mk_w [] [])] ->
  let t := breaking_run sayer hearer 50 (break_run 14) (breaking_new s1 s2) in
  bk_server_past t = [Heard (OText (str "one")); NotHeard; Said (OBinary (str "*"))] /\
  bk_client_past t = [Said (OText (str "one")); Said (OText (str "two")); Said (OBinary (str "three")); Heard (OBinary (str "*"))].
Proof. intros s1 s2 [<-|[<-|[]]] [<-|[<-|[]]]; vm_compute; split; reflexivity. Qed.

(** [C100] A program is told that there is nothing more only if the direction to it is broken, and after that it
    never hears anything: no message with a part missing is followed by another. *)
Theorem break_silence : forall f1 f2 cap s1 s2 acts, minds f1 -> minds f2 -> works s1 -> works s2 ->
  let t := breaking_run f1 f2 cap acts (breaking_new s1 s2) in
  (forall a b, bk_client_past t = a ++ NotHeard :: b -> bk_down t = true /\ words_heard b = []) /\
  (forall a b, bk_server_past t = a ++ NotHeard :: b -> bk_up t = true /\ words_heard b = []).
Proof. exact ThmBreaking.break_silence_proof. Qed.
Print Assumptions break_silence.

Example break_silence_ex :
  let t := breaking_run sayer hearer 50 (break_run 5) (breaking_new (WithBlocking (mk_w [] [])) (WithPolling 0)) in
  bk_server_past t = [] ++ NotHeard :: [Said (OBinary [])] /\ bk_up t = true /\ bk_down t = false.
Proof. vm_compute. repeat split; reflexivity. Qed.

(** [C100] Nobody waits for ever on a broken connection: where nothing can happen any more (but that a direction
    breaks), each of the programs is done, or waits on a direction that is not broken for a partner whose
    every finished message it has heard, or has not finished saying something where the direction is not
    broken and the network is full. *)
Theorem break_rest : forall f1 f2 cap s1 s2 acts, minds f1 -> minds f2 -> works s1 -> works s2 -> (1 <= cap)%nat ->
  let t := breaking_run f1 f2 cap acts (breaking_new s1 s2) in breaking_rests f1 f2 cap t ->
  let p := bk_pair t in
  bk_settled cap f1 (p_client p) (p_server p) (p_up p) (p_down p) (bk_up t) (bk_down t) /\
  bk_settled cap f2 (p_server p) (p_client p) (p_down p) (p_up p) (bk_down t) (bk_up t).
Proof. exact ThmBreaking.break_rest_proof. Qed.
Print Assumptions break_rest.

Example break_rest_ex : 
  let t := breaking_run sayer hearer 7 (break_run 4) (breaking_new (WithPolling 0) (WithBlocking (mk_w [] []))) in
  breaking_rests sayer hearer 7 t /\ hearer (bk_server_past t) = None /\ sayer (bk_client_past t) = None /\ bk_client_past t <> [].
Proof.
  split; [|vm_compute; repeat split; try reflexivity; discriminate]. match goal with |- breaking_rests _ _ _ ?X => let v := eval vm_compute in X in assert (X = v) as -> by (vm_compute; reflexivity) end.
  split; [intros [[] k e|[] [|n]|[] [|n]]|intros []]; reflexivity.
Qed.

(** [C100] What was not lost is heard, and nothing else: where a direction breaks and the program that writes to
    it is not in the middle of a message, its partner can hear no other messages than those said before;
    and where it is told of the end it has heard exactly those of them of which no byte was lost. *)
Theorem break_exact : forall f1 f2 cap s1 s2 acts up n later, minds f1 -> minds f2 -> works s1 -> works s2 ->
  let t := breaking_run f1 f2 cap acts (breaking_new s1 s2) in
  let t' := breaking_run f1 f2 cap (BkCut up n :: later) t in
  let writer (t : breaking) := if up then p_client (bk_pair t) else p_server (bk_pair t) in
  let reader (t : breaking) := if up then p_server (bk_pair t) else p_client (bk_pair t) in
  let bytes := if up then up_bytes else down_bytes in
  let lost := (List.length (if up then p_up (bk_pair t) else p_down (bk_pair t)) - n)%nat in
  let said := words_said (peer_past (writer t)) in let heard := words_heard (peer_past (reader t')) in
  (if up then bk_up t else bk_down t) = false -> peer_free (writer t) ->
  exists more, said = heard ++ more /\
    (In NotHeard (peer_past (reader t')) -> (bytes heard + lost <= bytes said)%nat /\ forall m rest, more = m :: rest -> (bytes said < bytes (heard ++ [m]) + lost)%nat).
Proof. exact ThmBreaking.break_exact_proof. Qed.
Print Assumptions break_exact.

Example break_exact_ex : 
  let t := breaking_run sayer hearer 50 (client_says ++ client_says) (breaking_new (WithBlocking (mk_w [] [])) (WithPolling 0)) in
  let t' := breaking_run sayer hearer 50 (BkCut true 9 :: concat (repeat break_turns 30)) t in
  bk_up t = false /\ (List.length (p_up (bk_pair t)) - 9)%nat = 9%nat /\ peer_free (p_client (bk_pair t)) /\
  up_bytes (words_said (bk_client_past t)) = 18%nat /\ up_bytes (words_heard (bk_server_past t')) = 9%nat /\
  bk_server_past t' = [Heard (OText (str "one")); NotHeard; Said (OBinary (str "*"))].
Proof. vm_compute. repeat split; reflexivity. Qed.

(** [C100] In particular, where no byte under way is lost, all that was said before the break is heard before the
    end. *)
Theorem break_keeps : forall f1 f2 cap s1 s2 acts up n later, minds f1 -> minds f2 -> works s1 -> works s2 ->
  let t := breaking_run f1 f2 cap acts (breaking_new s1 s2) in
  let t' := breaking_run f1 f2 cap (BkCut up n :: later) t in
  let writer (t : breaking) := if up then p_client (bk_pair t) else p_server (bk_pair t) in
  let reader (t : breaking) := if up then p_server (bk_pair t) else p_client (bk_pair t) in
  (if up then bk_up t else bk_down t) = false -> (List.length (if up then p_up (bk_pair t) else p_down (bk_pair t)) <= n)%nat -> peer_free (writer t) ->
  In NotHeard (peer_past (reader t')) -> words_heard (peer_past (reader t')) = words_said (peer_past (writer t)).
Proof. exact ThmBreaking.break_keeps_proof. Qed.
Print Assumptions break_keeps.

Example break_keeps_ex : 
  let t := breaking_run sayer hearer 50 (client_says ++ client_says) (breaking_new (WithBlocking (mk_w [] [])) (WithPolling 0)) in
  let t' := breaking_run sayer hearer 50 (BkCut true 18 :: concat (repeat break_turns 30)) t in
  bk_up t = false /\ List.length (p_up (bk_pair t)) = 18%nat /\ peer_free (p_client (bk_pair t)) /\
  bk_server_past t' = [Heard (OText (str "one")); Heard (OText (str "two")); NotHeard; Said (OBinary (str "**"))] /\
  words_said (bk_client_past t') = [OText (str "one"); OText (str "two"); OBinary (str "three")].
Proof. vm_compute. repeat split; reflexivity. Qed.
