(** From the handshake to the programs: C97. *)
From Coq Require Import NArith ZArith String Bool List Lia.
From Coq.Strings Require Import Byte.
From Verif.Model Require Import Base Io Header Mask Dataframe Utf8 Text Headers WsKey Handshake Http
  Message Receiver Codec Framed Connect Examples ChatClient Talk Narrow Errand Dialogue Programs Encounter.
From Verif.Spec Require Import RfcFrame FrameSpec Schedule Unicode Drive Session Fields Builder HttpHead Upgrade Wire Connection Polled Echo Chat Talking AsyncChat Errands Dialogues Queues CutOff Encounters.
From Verif.Proofs Require Import ExTac.
From Verif.Proofs Require ThmEncounter.
Import ListNotations.
Local Open Scope string_scope.
Local Open Scope list_scope.
Local Open Scope nat_scope.

(** ** The theorems *)

(** [C97] Two programs that begin with the handshake: whatever they do with their connection, whatever
    the room in the network, its delays and the scheduling, neither call of the handshake fails, and what
    happens to the programs could have happened with two queues of messages (Spec/Queues.v): nothing that is
    sent behind a head is lost with it, nothing of a head comes out as a message. *)
Theorem encounter_is_queues : forall u cs o f1 f2 cap acts, auspicious u cs o -> minds f1 -> minds f2 ->
  let t := encounter_run o f1 f2 cap acts (encounter_new o) in
  on_course t /\ (List.length (n_up t) <= cap)%nat /\ (List.length (n_down t) <= cap)%nat /\
  exists turns, let s := queue_run f1 f2 turns queues_new in past1 t = q_past1 s /\ past2 t = q_past2 s.
Proof. exact ThmEncounter.encounter_is_queues_proof. Qed.
Print Assumptions encounter_is_queues.

(** A server that greets, a client that answers; the server chose a protocol and adds a header. *)
Definition greeter : program := fun past => match past with [] => Some (Say (OText (str "hello"))) | [_] => Some Hear | _ => None end.
Definition guest : program := fun past => match past with [] => Some Hear | [_] => Some (Say (OText (str "bye"))) | _ => None end.
Example greeters_mind : minds guest /\ minds greeter.
Proof.
  split; intros past m H; unfold guest, greeter in H; repeat match type of H with context [match ?x with _ => _ end] => destruct x; try discriminate H end;
    injection H as <-; (split; [apply ExTac.good_text; reflexivity|vm_compute; discriminate]).
Qed.
Definition inn_url : url := mk_url (ascii "ws") (Some (ascii "example.org")) None [] None (ascii "/inn").
Definition inn_calls : list call := [AddProtocol (ascii "chat"); SetOrigin (ascii "http://example.org")].
Definition inn : occasion :=
  mk_occasion httparse_lib (ascii "the sample nonce") (match run_calls inn_calls (builder_init inn_url) with Ok b => b | _ => builder_init inn_url end) (mk_w [] [])
    [(n_protocol, Typed (VProtocol [ascii "chat"]))] (Some [(ascii "X", Raw [ascii "y"])]) (mk_w [] [WAccept 3]).
Example auspicious_ex : auspicious inn_url inn_calls inn.
Proof.
  split. { split; [repeat split|]. split; [repeat constructor; discriminate|]. repeat constructor. }
  split. { split; [intros n H; unfold inn, httparse_lib; cbn [o_lib l_room]; lia|reflexivity]. }
  split.
  { split; [reflexivity|]. split; [repeat constructor|]. split; [repeat constructor|].
    split; [reflexivity|]. split; [reflexivity|]. split; [repeat constructor; discriminate|].
    split; [split; [discriminate|right; left; eexists; reflexivity]|].
    split; [split; intros HI; cbn in HI; decompose [or] HI; try discriminate; contradiction|].
    split; [|vm_compute; lia]. apply ThmInterop.legible_check. vm_compute. reflexivity. }
  split; [reflexivity|]. split; [repeat constructor; intros []|]. split; [repeat constructor; intros []|]. split; [constructor|]. split; [repeat constructor|].
  do 3 eexists. split; [vm_compute; reflexivity|]. split; [vm_compute; discriminate|]. split; [split; vm_compute; reflexivity|].
  split; [split; [apply ThmInterop.legible_check; vm_compute; reflexivity|vm_compute; lia]|vm_compute; discriminate].
Qed.
(** The network has room for 40 bytes.  When the client's call returns, the greeting is in its buffer. *)
Definition inn_turns (n : nat) : list dact :=
  let k := mk_key x01 x02 x03 x04 in
  concat (repeat [DTurn true k; DSend true 100; DTurn false k; DSend false 100; DRead false 100; DTurn false k; DSend false 100; DRead true 100] n).
Example encounter_is_queues_ex :
  (let t := encounter_run inn guest greeter 40 (inn_turns 11) (encounter_new inn) in
   past1 t = [] /\ past2 t = [Said (OText (str "hello"))] /\
   match n_client t with CIn x => rd_buf (u_reader x) = x81 :: x05 :: str "hello" | _ => False end) /\
  let t := encounter_run inn guest greeter 40 (inn_turns 13) (encounter_new inn) in
  past1 t = [Heard (OText (str "hello")); Said (OText (str "bye"))] /\ past2 t = [Said (OText (str "hello")); Heard (OText (str "bye"))].
Proof. vm_compute. repeat split; reflexivity. Qed.

(** [C97] And the handshake comes about: if nothing can happen any more, both have their connection,
    and each of the two programs is done, or waits for a message where there is none, or is in a write
    and the network is full. *)
Theorem encounter_comes_about : forall u cs o f1 f2 cap acts, auspicious u cs o -> minds f1 -> minds f2 -> (1 <= cap)%nat ->
  let t := encounter_run o f1 f2 cap acts (encounter_new o) in encounter_rests o f1 f2 cap t ->
  exists x y, n_client t = CIn x /\ n_server t = SIn y /\
    (f1 (u_past x) = None \/ f1 (u_past x) = Some Hear /\ n_down t = [] \/ ~ free x /\ List.length (n_up t) = cap) /\
    (f2 (u_past y) = None \/ f2 (u_past y) = Some Hear /\ n_up t = [] \/ ~ free y /\ List.length (n_down t) = cap).
Proof. exact ThmEncounter.encounter_comes_about_proof. Qed.
Print Assumptions encounter_comes_about.

Example encounter_comes_about_ex :
  encounter_rests inn guest greeter 40 (encounter_run inn guest greeter 40 (inn_turns 13) (encounter_new inn)).
Proof.
  match goal with |- encounter_rests _ _ _ _ ?X => let v := eval vm_compute in X in assert (X = v) as -> by (vm_compute; reflexivity) end.
  intros [[] k|[] [|n]|[] [|n]]; reflexivity.
Qed.

(** [C97] The programs cannot tell from what comes through their connection how it was made: of any two
    runs, with other clients and other headers, other keys, another network, what happens to a program
    in the one is an initial part of what happens to it in the other; also if in one of them the handshake
    is left out (Model/Programs.v). *)
Theorem handshake_unseen : forall u cs o u' cs' o' f1 f2 cap cap' w1 w2 acts acts', auspicious u cs o -> auspicious u' cs' o' -> minds f1 -> minds f2 ->
  never_fails w1 -> never_fails w2 ->
  let t := encounter_run o f1 f2 cap acts (encounter_new o) in
  let t' := encounter_run o' f1 f2 cap' acts' (encounter_new o') in
  let l := link_run f1 f2 cap' acts' (link_new w1 w2) in
  (prefix (past1 t) (past1 t') \/ prefix (past1 t') (past1 t)) /\ (prefix (past2 t) (past2 t') \/ prefix (past2 t') (past2 t)) /\
  (prefix (past1 t) (u_past (l_client l)) \/ prefix (u_past (l_client l)) (past1 t)) /\
  (prefix (past2 t) (u_past (l_server l)) \/ prefix (u_past (l_server l)) (past2 t)).
Proof. exact ThmEncounter.handshake_unseen_proof. Qed.
Print Assumptions handshake_unseen.

(** With another builder and other headers, and with no handshake at all, after as many steps. *)
Definition other_inn : occasion :=
  mk_occasion httparse_lib (ascii "another 16 bytes") (builder_init inn_url) (mk_w [] []) [] None (mk_w [] []).
Example other_auspicious_ex : auspicious inn_url [] other_inn.
Proof.
  split; [apply auspicious_ex|]. split; [apply auspicious_ex|]. split.
  { split; [reflexivity|]. split; [constructor|]. split; [constructor|]. split; [reflexivity|]. split; [reflexivity|]. split; [repeat constructor; discriminate|].
    split; [split; [discriminate|right; left; eexists; reflexivity]|].
    split; [split; intros HI; cbn in HI; decompose [or] HI; try discriminate; contradiction|].
    split; [|vm_compute; lia]. apply ThmInterop.legible_check. vm_compute. reflexivity. }
  split; [reflexivity|]. split; [constructor|]. split; [exact I|]. split; [constructor|]. split; [constructor|].
  do 3 eexists. split; [vm_compute; reflexivity|]. split; [vm_compute; discriminate|]. split; [split; vm_compute; reflexivity|].
  split; [split; [apply ThmInterop.legible_check; vm_compute; reflexivity|vm_compute; lia]|vm_compute; discriminate].
Qed.
Example handshake_unseen_ex :
  past1 (encounter_run inn guest greeter 40 (inn_turns 11) (encounter_new inn)) = [] /\
  past1 (encounter_run other_inn guest greeter 200 (inn_turns 6) (encounter_new other_inn)) = [Heard (OText (str "hello")); Said (OText (str "bye"))] /\
  u_past (l_client (link_run guest greeter 40 (inn_turns 2) (link_new (mk_w [] []) (mk_w [] [])))) = [Heard (OText (str "hello"))].
Proof. vm_compute. repeat split; reflexivity. Qed.

(** [C97] A run that ended with neither program in a write ended as it had to, however the connection
    was made: in every other run, what has happened to either program is an initial part of what
    happened to it in this one, and if the other run ended like that too, it is the same. *)
Theorem encounter_one_end : forall u cs o u' cs' o' f1 f2 cap cap' acts acts' x y, auspicious u cs o -> auspicious u' cs' o' -> minds f1 -> minds f2 -> (1 <= cap)%nat ->
  let t := encounter_run o f1 f2 cap acts (encounter_new o) in
  let t' := encounter_run o' f1 f2 cap' acts' (encounter_new o') in
  encounter_rests o f1 f2 cap t -> n_client t = CIn x -> n_server t = SIn y -> free x -> free y ->
  prefix (past1 t') (past1 t) /\ prefix (past2 t') (past2 t) /\
  forall x' y', (1 <= cap')%nat -> encounter_rests o' f1 f2 cap' t' -> n_client t' = CIn x' -> n_server t' = SIn y' -> free x' -> free y' ->
  past1 t' = past1 t /\ past2 t' = past2 t.
Proof. exact ThmEncounter.encounter_one_end_proof. Qed.
Print Assumptions encounter_one_end.

Example encounter_one_end_ex :
  let t := encounter_run inn guest greeter 40 (inn_turns 13) (encounter_new inn) in
  match n_client t, n_server t with CIn x, SIn y => free x /\ free y | _, _ => False end.
Proof. vm_compute. split; reflexivity. Qed.

(** [C97] And the other way: whatever could happen with queues that never hold more than the network
    has room for, happens to the programs in some run that begins with the handshake, whatever client
    and server are configured to write in it. *)
Theorem queues_are_encounter : forall u cs o f1 f2 cap turns, auspicious u cs o -> minds f1 -> minds f2 -> (1 <= cap)%nat ->
  (forall n, let s := queue_run f1 f2 (firstn n turns) queues_new in (up_bytes (q_up s) <= cap)%nat /\ (down_bytes (q_down s) <= cap)%nat) ->
  exists acts, let t := encounter_run o f1 f2 cap acts (encounter_new o) in let s := queue_run f1 f2 turns queues_new in
    past1 t = q_past1 s /\ past2 t = q_past2 s.
Proof. exact ThmEncounter.queues_are_encounter_proof. Qed.
Print Assumptions queues_are_encounter.

Example queues_are_encounter_ex : forall n, let s := queue_run guest greeter (firstn n [false; true; true; false]) queues_new in
  (up_bytes (q_up s) <= 9)%nat /\ (down_bytes (q_down s) <= 9)%nat.
Proof.
  intros n. do 5 (destruct n as [|n]; [split; apply PeanoNat.Nat.leb_le; vm_compute; reflexivity|]). split; apply PeanoNat.Nat.leb_le; cbn [firstn]; vm_compute; reflexivity.
Qed.
