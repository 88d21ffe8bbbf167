(** A server in non-blocking mode: C85. *)
From Coq Require Import NArith ZArith String Bool List Lia.
From Coq.Strings Require Import Byte.
From Verif.Model Require Import Base Io Text Headers Handshake Http Connect Accepting Polling.
From Verif.Spec Require Import Fields Upgrade HttpHead Accepting Polling.
From Verif.Proofs Require Import ExTac.
From Verif.Proofs Require ThmPolling.
Import ListNotations.
Local Open Scope string_scope.
Local Open Scope list_scope.
Local Open Scope N_scope.

(** ** The loop *)

(** [C85] Whichever way connections behave, those who call are met in the order in which they
    came, one in each round, nobody twice and nobody left out; a round gives what [accept] makes
    of the one it meets, and only if everybody who has come was met before it gives the listener's
    error. *)
Theorem poll_accounts : forall X inherits rounds, let d := poll_loop X inherits [] rounds in
  concat rounds = met (d_done d) ++ whoever (d_stuck d) ++ d_queue d /\
  (forall i v r, nth_error (d_done d) i = Some (Some v, r) ->
     if inherits then server_accept X (right_now v) = r else accept_returns X (once_there v) = Some r) /\
  (forall i r, nth_error (d_done d) i = Some (None, r) ->
     r = nobody /\ concat (firstn (S i) rounds) = met (firstn i (d_done d))).
Proof. exact ThmPolling.poll_accounts_proof. Qed.
Print Assumptions poll_accounts.

(** [C85] Where connections are non-blocking too, no round makes the program wait: its other task
    is done as often as [accept] is called, whoever calls. *)
Theorem poll_goes_on : forall X rounds, let d := poll_loop X true [] rounds in
  d_stuck d = None /\ length (d_done d) = length rounds.
Proof. exact ThmPolling.poll_goes_on_proof. Qed.
Print Assumptions poll_goes_on.

(** [C85] Where they are not, the program goes on just as long as nobody is met who would keep a
    blocking server waiting; then the other task is never done again, whatever else happens. *)
Theorem poll_waits : forall X rounds, let d := poll_loop X false [] rounds in
  (Forall (fun v => hangs X (once_there v) = false) (concat rounds) ->
   d_stuck d = None /\ length (d_done d) = length rounds) /\
  (forall v, d_stuck d = Some v -> hangs X (once_there v) = true /\
     (length (d_done d) < length rounds)%nat /\
     forall more, let d' := poll_loop X false [] (rounds ++ more) in
       d_done d' = d_done d /\ d_stuck d' = Some v) /\
  (d_stuck d = None -> length (d_done d) = length rounds).
Proof. exact ThmPolling.poll_waits_proof. Qed.
Print Assumptions poll_waits.

(** ** One caller, where connections are non-blocking *)

(** [C85] Whose request is all there is served as by a blocking server. *)
Theorem prompt_served : forall X m t v fs head after vis, sound_lib X -> sound_room X ->
  request_head X m t v fs head -> (length fs <= 100)%nat -> target_accepted X t ->
  llen head <= 417792 -> first_come head after (v_now vis) ->
  let q := mk_req (method_named m) t v (from_raw fs) in
  (exists u, server_accept X (right_now vis) = Ok u /\ up_request u = q) \/
  (exists f e, server_accept X (right_now vis) = Err (Some f, e) /\ rf_request f = Some q).
Proof. exact ThmPolling.prompt_served_proof. Qed.
Print Assumptions prompt_served.

(** [C85] Whose request is not all there is turned away at once; what they had sent is handed
    back, and the connection goes on after it. *)
Theorem late_turned_away : forall X text vis, sound_lib X -> sound_room X -> unfinished X text ->
  llen text < 417792 -> has_sent text vis ->
  exists f, server_accept X (right_now vis) = Err (Some f, UpParsing (PEIo WouldBlock)) /\
    rf_request f = None /\ rf_buffer f = Some text /\ same_stream (rf_in f) (v_later vis) /\ rf_out f = v_out vis.
Proof. exact ThmPolling.late_turned_away_proof. Qed.
Print Assumptions late_turned_away.

(** Half a request, the other half on its way. *)
Example late_turned_away_ex :
  unfinished httparse_lib (firstn 50 good_request) /\ has_sent (firstn 50 good_request) late_visitor /\
  match server_accept httparse_lib (right_now late_visitor) with
  | Err (Some f, UpParsing (PEIo WouldBlock)) => rf_buffer f = Some (firstn 50 good_request) /\ rf_in f = v_later late_visitor
  | _ => False
  end.
Proof. split; [exact ThmAccepting.half_unfinished|]. split; [reflexivity|]. vm_compute. split; reflexivity. Qed.
(** Five rounds with three visitors, one of them late; then nobody. *)
Example poll_ex :
  let d := poll_loop httparse_lib true [] [[]; [prompt_visitor; late_visitor]; []; [prompt_visitor]; []] in
  map fst (d_done d) = [None; Some prompt_visitor; Some late_visitor; Some prompt_visitor; None] /\
  map (fun p => match snd p with Ok _ => true | _ => false end) (d_done d) = [false; true; false; true; false].
Proof. vm_compute. split; reflexivity. Qed.
(** The same where connections are not inherited: all three are accepted. *)
Example poll_waits_ex :
  let d := poll_loop httparse_lib false [] [[]; [prompt_visitor; late_visitor]; []; [prompt_visitor]; [mute_visitor; prompt_visitor]; []] in
  map (fun p => match snd p with Ok _ => true | _ => false end) (d_done d) = [false; true; true; true] /\
  d_stuck d = Some mute_visitor /\ d_queue d = [prompt_visitor].
Proof. vm_compute. repeat split. Qed.

(** ** What the documentation promises *)

(** [C85] "This will execute independent of whether someone tried to establish a connection": on
    Linux it is enough that somebody connects and says nothing; the other task is then not done
    even once more, however often [accept] would be called and whoever else comes. *)
Theorem other_task_done_refuted : exists X v, has_sent [] v /\
  forall rounds, d_done (poll_loop X false [] ([v] :: rounds)) = [].
Proof. exact ThmPolling.other_task_done_refuted_proof. Qed.
Print Assumptions other_task_done_refuted.

(** [C85] "Once in a while we want to check if anybody tried to connect, and if so, handle the
    stream": where connections are non-blocking, who tried to connect with a request that a
    blocking server accepts may be turned away, for only being a moment late. *)
Theorem callers_handled_refuted : exists X v u f,
  accept_returns X (once_there v) = Some (Ok u) /\
  server_accept X (right_now v) = Err (Some f, UpParsing (PEIo WouldBlock)).
Proof. exact ThmPolling.callers_handled_refuted_proof. Qed.
Print Assumptions callers_handled_refuted.
