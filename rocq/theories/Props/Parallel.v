(** The server of examples/parallel-server.rs: C77. *)
From Coq Require Import NArith ZArith String Bool List Lia Permutation.
From Coq.Strings Require Import Byte.
From Verif.Model Require Import Base Io Dataframe Utf8 Message Parallel.
From Verif.Spec Require Import Parallel.
From Verif.Proofs Require Import ExTac.
From Verif.Proofs Require ThmParallel.
Import ListNotations.
Local Open Scope list_scope.
Local Open Scope N_scope.

(** ** Where a client's sink is *)

(** [C77] Every client gets an identifier of its own (the first one 1, the second 2, ...), and
    its sink is always in exactly one place: about to be put into the table, in the table, out
    for a send, or dropped because a send failed. *)
Theorem one_place_each : forall es, let s := par_run es par_start in
  let all := ps_inserting s ++ ps_conns s ++ ps_flight s ++ ps_lost s in
  NoDup all /\ (forall i, In i all <-> 1 <= i <= ps_count s) /\ ps_count s <= 2 ^ 32 - 1 /\
  (ps_down s = None -> ps_count s = N.min (handshakes es) (2 ^ 32 - 1)).
Proof. exact ThmParallel.one_place_each_proof. Qed.
Print Assumptions one_place_each.

(** Two clients; the first one's greeting is being sent, the second one is about to be put into
    the table. *)
Example one_place_each_ex :
  let s := par_run [Accepted; Inserted 1; Tick; UpdateRuns; MsgTask 1; SendPolled; Accepted] par_start in
  (ps_inserting s, ps_conns s, ps_flight s, ps_lost s) = ([2], [], [1], []).
Proof. reflexivity. Qed.

(** ** What is heard *)

(** [C77] The server hears its clients one after another: what it prints is, for some clients
    whose streams have come to their end, everything each of them sent, one whole client after
    the other, and then a beginning of what one further client sent. *)
Theorem heard_in_turn : forall es, let s := par_run es par_start in
  exists finished last,
  NoDup (finished ++ match ps_current s with Some c => [c] | None => [] end) /\
  Forall (fun i => comes_to_end (sends_of i es) = true) finished /\
  ps_printed s = flat_map (fun i => from i (texts_of (sends_of i es))) finished ++ last /\
  match ps_current s with
  | None => last = []
  | Some c => exists ts more, last = from c ts /\ texts_of (sends_of c es) = ts ++ more
  end.
Proof. exact ThmParallel.heard_in_turn_proof. Qed.
Print Assumptions heard_in_turn.

(** Two clients send two texts each; the first stream ends, the second does not. *)
Example heard_in_turn_ex :
  let es := [Accepted; Accepted; PoolTask 2; PoolTask 1; Arrives 1 (SMsg (OText [x61])); Arrives 2 (SMsg (OText [x62]));
             ReceivePolled; ReceivePolled; ReceivePolled; Arrives 2 (SMsg (OPing [])); Arrives 2 SEnd; ReceivePolled; ReceivePolled;
             ReceivePolled; ReceivePolled; Arrives 1 (SMsg (OText [x63]))] in
  ps_printed (par_run es par_start) = [(2, [x62]); (1, [x61])] /\ ps_current (par_run es par_start) = Some 1.
Proof. split; reflexivity. Qed.

(** [C77] As long as the stream that the server is reading does not end, it hears nobody else,
    whatever the others send and however long they wait. *)
Theorem others_wait : forall es es' c, let s := par_run es par_start in
  ps_current s = Some c -> comes_to_end (sends_of c (es ++ es')) = false ->
  exists ts, ps_printed (par_run es' s) = ps_printed s ++ from c ts.
Proof. exact ThmParallel.others_wait_proof. Qed.
Print Assumptions others_wait.

(** The first client says one thing and stays connected; the second one waits for ever. *)
Example others_wait_ex :
  let es := [Accepted; Accepted; PoolTask 1; PoolTask 2; Arrives 2 (SMsg (OText [x62])); ReceivePolled] in
  let es' := [Arrives 1 (SMsg (OText [x61])); ReceivePolled; ReceivePolled; Arrives 2 (SMsg (OText [x63])); ReceivePolled] in
  ps_current (par_run es par_start) = Some 1 /\ comes_to_end (sends_of 1 (es ++ es')) = false /\
  ps_printed (par_run es' (par_run es par_start)) = [(1, [x61])].
Proof. repeat split; reflexivity. Qed.

(** ** Everybody is heard if every stream ends *)

(** [C77] If every client's stream has come to its end (and its hand-over has run), the server,
    as long as it is up, needs only to be polled to have printed exactly the texts of every
    client, each client's in the order they were sent. *)
Theorem all_heard : forall es, let s := par_run es par_start in
  ps_down s = None -> ps_pool_tasks s = [] ->
  (forall i, 1 <= i <= ps_count s -> comes_to_end (sends_of i es) = true) ->
  exists n, let s' := par_run (repeat ReceivePolled n) s in
    ps_down s' = None /\
    forall i, 1 <= i <= ps_count s ->
      map snd (filter (fun p => fst p =? i) (ps_printed s')) = texts_of (sends_of i es).
Proof. exact ThmParallel.all_heard_proof. Qed.
Print Assumptions all_heard.

(** Two clients whose texts arrive alternately; both streams end. *)
Example all_heard_ex :
  let es := [Accepted; Accepted; PoolTask 2; PoolTask 1; Arrives 1 (SMsg (OText [x61])); Arrives 2 (SMsg (OText [x62]));
             Arrives 1 (SMsg (OText [x63])); Arrives 2 SEnd; Arrives 1 SEnd] in
  let s := par_run es par_start in
  ps_down s = None /\ ps_pool_tasks s = [] /\ ps_count s = 2 /\
  ps_printed (par_run (repeat ReceivePolled 7) s) = [(2, [x62]); (1, [x61]); (1, [x63])].
Proof. repeat split; reflexivity. Qed.

(** ** Why the server stops *)

(** [C77] The server stops only because a handshake or the listener failed, because a stream
    failed, or because an update ran while greetings of an earlier one still waited for the send
    handler: slow clients and failing sends do not stop it. *)
Theorem stops_only : forall es, let s := par_run es par_start in
  match ps_down s with
  | None => True
  | Some BadClient => In Refused es
  | Some StreamFailed => exists c, comes_to_failure (sends_of c es) = true
  | Some InvalidId => ~ unhurried par_start es
  end.
Proof. exact ThmParallel.stops_only_proof. Qed.
Print Assumptions stops_only.

(** Two updates in good time, a slow client, a failing send: the server is still up. *)
Example stops_only_ex :
  let es := [Accepted; Inserted 1; Accepted; Inserted 2; Tick; UpdateRuns; MsgTask 2; MsgTask 1; SendPolled; SendPolled;
             SendDone 1 false; Tick; UpdateRuns; Accepted; Inserted 3; SendDone 2 true] in
  unhurried par_start es /\ ps_down (par_run es par_start) = None /\ ps_greeted (par_run es par_start) = [2].
Proof. cbn. repeat split; congruence. Qed.

(** [C77] When the stream that the server is reading fails, the server stops: polling it is
    enough. *)
Theorem failing_stream_stops : forall es c, let s := par_run es par_start in
  ps_down s = None -> ps_current s = Some c -> comes_to_failure (sends_of c es) = true ->
  exists n, forall es', ps_down (par_run (repeat ReceivePolled n ++ es') s) = Some StreamFailed.
Proof. exact ThmParallel.failing_stream_stops_proof. Qed.
Print Assumptions failing_stream_stops.

(** A text, then a frame that cannot be decoded. *)
Example failing_stream_stops_ex :
  let es := [Accepted; PoolTask 1; ReceivePolled; Arrives 1 (SMsg (OText [x61])); Arrives 1 SFail] in
  ps_down (par_run es par_start) = None /\ ps_current (par_run es par_start) = Some 1 /\
  comes_to_failure (sends_of 1 es) = true /\
  ps_down (par_run (repeat ReceivePolled 2) (par_run es par_start)) = Some StreamFailed.
Proof. repeat split; reflexivity. Qed.

(** [C77] Refuted: one client that fails silences all others.  Here the second client sent its
    text and closed properly, and is never heard. *)
Theorem bad_client_alone_refuted : exists es c d t,
  c <> d /\ In t (texts_of (sends_of d es)) /\ comes_to_end (sends_of d es) = true /\
  comes_to_failure (sends_of c es) = true /\ unhurried par_start es /\
  forall es', ps_printed (par_run (es ++ es') par_start) = [].
Proof. exact ThmParallel.bad_client_alone_refuted_proof. Qed.
Print Assumptions bad_client_alone_refuted.

(** [C77] Refuted: clients that all behave, on connections that all work, do not keep the server
    up: two updates before the send handler runs, and it sends to a client whose sink is out. *)
Theorem stays_up_refuted : exists es,
  Forall (fun e => match e with Refused | SendDone _ false | Arrives _ SFail => False | _ => True end) es /\
  ps_down (par_run es par_start) = Some InvalidId.
Proof. exact ThmParallel.stays_up_refuted_proof. Qed.
Print Assumptions stays_up_refuted.

(** ** Greetings *)

(** [C77] Every client gets its greetings: one for every update that ran while it was in the
    table is sent, being sent, waiting to be sent, or was lost in a send that failed (the last one on
    its sink). *)
Theorem greetings : forall es i, let s := par_run es par_start in ps_down s <> Some InvalidId ->
  (times i (ps_greeted s) + times i (ps_flight s) + times i (ps_sends s) + times i (ps_msg_tasks s) + times i (ps_lost s))%nat
  = updates_with i par_start es.
Proof. exact ThmParallel.greetings_proof. Qed.
Print Assumptions greetings.

(** Two updates; the second client joins between them, and the first one's second greeting is
    still on its way. *)
Example greetings_ex :
  let es := [Accepted; Inserted 1; Tick; UpdateRuns; MsgTask 1; SendPolled; SendDone 1 true; Accepted; Inserted 2;
             Tick; UpdateRuns; MsgTask 1; MsgTask 2; SendPolled; SendPolled; SendDone 2 true] in
  ps_greeted (par_run es par_start) = [1; 2] /\ ps_flight (par_run es par_start) = [1] /\
  updates_with 1 par_start es = 2%nat /\ updates_with 2 par_start es = 1%nat.
Proof. repeat split; reflexivity. Qed.
