(** The blocking server reads the request inside [accept], so a caller that falls silent keeps a
    thread for good: C74. *)
From Coq Require Import NArith ZArith String Bool List Lia Permutation.
From Coq.Strings Require Import Byte.
From Verif.Model Require Import Base Io Text Headers Handshake Http Connect Accepting.
From Verif.Spec Require Import Fields Upgrade HttpHead Accepting.
From Verif.Proofs Require Import ExTac.
From Verif.Proofs Require ThmAccepting.
Import ListNotations.
Local Open Scope string_scope.
Local Open Scope list_scope.
Local Open Scope N_scope.

(** ** One call of [accept] *)

(** [C74] A caller that has sent only a part of a request head and stays on the line keeps
    [accept] waiting for ever. *)
Theorem silent_waits : forall X text c, sound_lib X -> sound_room X -> unfinished X text ->
  llen text < 417792 -> falls_silent text c -> accept_returns X c = None.
Proof. exact ThmAccepting.silent_waits_proof. Qed.
Print Assumptions silent_waits.

(** Half a request. *)
Example silent_waits_ex : unfinished httparse_lib (firstn 50 good_request) /\
  falls_silent (firstn 50 good_request) half_caller /\ accept_returns httparse_lib half_caller = None.
Proof.
  split; [exact ThmAccepting.half_unfinished|].
  split; [exists (chunk (firstn 50 good_request)), (mk_w [] []); split; reflexivity|reflexivity].
Qed.

(** [C74] Once the whole head is there [accept] returns, with that request, accepted or refused,
    whatever follows: nothing, or more. *)
Theorem finished_returns : forall X m t v fs head after s silent w, sound_lib X -> sound_room X ->
  request_head X m t v fs head -> (length fs <= 100)%nat -> target_accepted X t ->
  llen head <= 417792 -> first_come head after s ->
  let q := mk_req (method_named m) t v (from_raw fs) in
  (exists u, accept_returns X (Caller s silent w) = Some (Ok u) /\ up_request u = q) \/
  (exists f e, accept_returns X (Caller s silent w) = Some (Err (Some f, e)) /\ rf_request f = Some q).
Proof. exact ThmAccepting.finished_returns_proof. Qed.
Print Assumptions finished_returns.

(** The whole request, in two pieces; the caller then waits for the answer. *)
Example finished_returns_ex :
  match accept_returns httparse_lib good_caller with
  | Some (Ok u) => rq_uri (up_request u) = str "/chat"
  | _ => False
  end.
Proof. vm_compute. reflexivity. Qed.
(** A request that is no upgrade is refused at once too. *)
Example finished_refused_ex :
  match accept_returns httparse_lib (Caller (chunk (str "GET / HTTP/1.1" ++ head_end)) true (mk_w [] [])) with
  | Some (Err (Some f, NoSecWsKeyHeader)) => True
  | _ => False
  end.
Proof. vm_compute. exact I. Qed.

(** [C74] It returns too when the caller hangs up, or its connection fails, wherever that is. *)
Theorem hung_up_returns : forall X s w, sound_lib X -> ~ In (RErr forever) s ->
  exists r, accept_returns X (Caller s false w) = Some r.
Proof. exact ThmAccepting.hung_up_returns_proof. Qed.
Print Assumptions hung_up_returns.

(** The same half of a request, but then the caller hangs up. *)
Example hung_up_returns_ex :
  match accept_returns httparse_lib (Caller (chunk (firstn 50 good_request)) false (mk_w [] [])) with
  | Some (Err (Some f, UpParsing (PEIo UnexpectedEof))) => rf_buffer f = Some (firstn 50 good_request)
  | _ => False
  end.
Proof. vm_compute. reflexivity. Qed.

(** [C74] And when the caller has sent 417792 bytes or more. *)
Theorem flood_returns : forall X text c, sound_lib X -> sound_room X -> bounded_room X ->
  417792 <= llen text -> falls_silent text c -> exists r, accept_returns X c = Some r.
Proof. exact ThmAccepting.flood_returns_proof. Qed.
Print Assumptions flood_returns.

(** So many bytes [x]. *)
Example flood_returns_ex : bounded_room httparse_lib /\ exists text c,
  llen text = 417793 /\ falls_silent text c.
Proof.
  split; [intros n Hn; cbn [l_room httparse_lib]; lia|].
  assert (H : forall n, falls_silent (repeat "x"%byte (S n)) (Caller [RData "x"%byte (repeat "x"%byte n)] true (mk_w [] []))).
  { intro n. exists [RData "x"%byte (repeat "x"%byte n)], (mk_w [] []). split; [reflexivity|].
    unfold first_come. cbn [spread]. rewrite !app_nil_r. reflexivity. }
  eexists. eexists. split; [|apply H with (n := N.to_nat 417792)].
  unfold llen. rewrite repeat_length, Nnat.Nat2N.inj_succ, Nnat.N2Nat.id. reflexivity.
Qed.

(** ** Several threads *)

(** [C74] Whatever the order of events, callers are taken in the order in which they came, none
    is lost or served twice, and what a call gives is what [accept] makes of its caller. *)
Theorem pool_accounts : forall X n cs es, let p := pool_run X (pool_new n cs) es in
  exists taken, cs = taken ++ po_waiting p /\
    Permutation taken (map fst (po_given p) ++ held (po_threads p)) /\
    (forall c r, In (c, r) (po_given p) -> accept_returns X c = Some r) /\
    (length (held (po_threads p)) <= n)%nat.
Proof. exact ThmAccepting.pool_accounts_proof. Qed.
Print Assumptions pool_accounts.

(** Two threads, three callers; the one that came last is served first. *)
Example pool_accounts_ex :
  let p := pool_run httparse_lib (pool_new 2 [half_caller; NoCaller WouldBlock; good_caller])
             [Take 0; Return 0; Take 1; Take 0; Return 1; Take 1; Return 1] in
  map fst (po_given p) = [NoCaller WouldBlock; good_caller] /\ po_threads p = [Some half_caller; None].
Proof. vm_compute. split; reflexivity. Qed.

(** [C74] As many silent callers as there are threads stop the server: nobody who comes after
    them is ever taken, let alone served. *)
Theorem pool_stopped : forall X n before after es, (n <= hanging X before)%nat ->
  let p := pool_run X (pool_new n (before ++ after)) es in
  (exists l, po_waiting p = l ++ after) /\
  (length (po_given p) + length (held (po_threads p)) <= length before)%nat.
Proof. exact ThmAccepting.pool_stopped_proof. Qed.
Print Assumptions pool_stopped.

Example pool_stopped_ex : hanging httparse_lib [half_caller; good_caller; mute_caller] = 2%nat.
Proof. vm_compute. reflexivity. Qed.

(** [C74] There are no more than two things to do for each caller, so the server comes to a
    standstill (until somebody calls). *)
Theorem pool_ends : forall X n cs es, effective X (pool_new n cs) es -> (length es <= 2 * length cs)%nat.
Proof. exact ThmAccepting.pool_ends_proof. Qed.
Print Assumptions pool_ends.

Example pool_ends_ex : effective httparse_lib (pool_new 1 [good_caller; mute_caller]) [Take 0; Return 0; Take 0].
Proof. repeat split; intro H; apply (f_equal (fun p => length (po_waiting p) + length (po_given p))%nat) in H; vm_compute in H; discriminate H. Qed.

(** [C74] With fewer silent callers than threads everybody else has then been served, exactly
    once. *)
Theorem pool_serves : forall X n cs es, (hanging X cs < n)%nat ->
  let p := pool_run X (pool_new n cs) es in standstill X p ->
  Permutation (map fst (po_given p)) (filter (fun c => negb (hangs X c)) cs).
Proof. exact ThmAccepting.pool_serves_proof. Qed.
Print Assumptions pool_serves.

Example pool_serves_ex :
  let p := pool_run httparse_lib (pool_new 2 [half_caller; good_caller; good_caller]) [Take 1; Take 0; Return 0; Take 0; Return 0] in
  hanging httparse_lib [half_caller; good_caller; good_caller] = 1%nat /\
  standstill httparse_lib p /\ map fst (po_given p) = [good_caller; good_caller].
Proof.
  split; [vm_compute; reflexivity|]. split; [|vm_compute; reflexivity].
  set (p := pool_run _ _ _). assert (H1 : po_waiting p = []) by (vm_compute; reflexivity).
  assert (H2 : po_threads p = [None; Some half_caller]) by (vm_compute; reflexivity).
  assert (H3 : accept_returns httparse_lib half_caller = None) by (vm_compute; reflexivity).
  clearbody p. intros [i|i]; unfold pool_step; rewrite H2, ?H1; destruct i as [|[|i]]; cbn [nth_error]; rewrite ?H3;
    try reflexivity; destruct i; reflexivity.
Qed.

(** [C74] So the promise that a caller is served whatever others do is not kept: with the server
    in one thread, as in the examples and the documentation, one caller that says nothing is
    enough; all others, however many come and however long they wait, get no answer. *)
Theorem others_matter_refuted : exists X mute good u,
  accept_returns X good = Some (Ok u) /\ falls_silent [] mute /\
  forall callers es, ~ In good (map fst (po_given (pool_run X (pool_new 1 (mute :: good :: callers)) es))) /\
    po_given (pool_run X (pool_new 1 (mute :: good :: callers)) es) = [].
Proof. exact ThmAccepting.others_matter_refuted_proof. Qed.
Print Assumptions others_matter_refuted.
