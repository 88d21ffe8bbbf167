(** A server in non-blocking mode: C85. *)
From Coq Require Import NArith ZArith String Bool List Lia.
From Coq Require Import ZifyBool ZifyNat ZifyN.
From Coq.Strings Require Import Byte.
From Verif.Model Require Import Base Io Text Headers Handshake Http Connect Accepting Polling.
From Verif.Spec Require Import Fields Upgrade HttpHead Accepting Polling.
From Verif.Proofs Require Import BaseFacts HeaderFacts ScriptFacts TextFacts HttpFacts ExTac ThmServer ThmHttp ThmAccepting.
Import ListNotations.
Local Open Scope string_scope.
Local Open Scope list_scope.
Local Open Scope N_scope.

(** ** The loop *)

(** [C85] Whichever way connections behave, those who call are met in the order in which they
    came, one in each round, nobody twice and nobody left out; a round gives what [accept] makes
    of the one it meets, and only if everybody who has come was met before it gives the listener's
    error. *)
Lemma poll_accounts_proof : forall X inherits rounds, let d := poll_loop X inherits [] rounds in
  concat rounds = met (d_done d) ++ whoever (d_stuck d) ++ d_queue d /\
  (forall i v r, nth_error (d_done d) i = Some (Some v, r) ->
     if inherits then server_accept X (right_now v) = r else accept_returns X (once_there v) = Some r) /\
  (forall i r, nth_error (d_done d) i = Some (None, r) ->
     r = nobody /\ concat (firstn (S i) rounds) = met (firstn i (d_done d))).
Proof.
  intros X inherits rounds.
  assert (G : forall q, let d := poll_loop X inherits q rounds in
    q ++ concat rounds = met (d_done d) ++ whoever (d_stuck d) ++ d_queue d /\
    (forall i v r, nth_error (d_done d) i = Some (Some v, r) ->
       if inherits then server_accept X (right_now v) = r else accept_returns X (once_there v) = Some r) /\
    (forall i r, nth_error (d_done d) i = Some (None, r) ->
       r = nobody /\ q ++ concat (firstn (S i) rounds) = met (firstn i (d_done d)))).
  { induction rounds as [|new rounds IH]; intro q.
    - cbn. rewrite app_nil_r. split; [reflexivity|]. split; intros [|i] *; discriminate.
    - cbn [poll_loop concat]. rewrite app_assoc. destruct (q ++ new) as [|v q'] eqn:EQ; cbn [poll_accept].
      + specialize (IH []). cbn zeta in *. cbn [d_done d_stuck d_queue met app].
        destruct IH as (H1 & H2 & H3). split; [exact H1|]. split.
        * intros [|i] v r; cbn [nth_error]; [discriminate|apply H2].
        * intros [|i] r; cbn [nth_error].
          -- intro H. injection H as <-. split; [reflexivity|]. cbn [firstn concat met]. rewrite app_nil_r. exact EQ.
          -- intro H. destruct (H3 _ _ H) as [H4 H5]. split; [exact H4|].
             change (firstn (S (S i)) (new :: rounds)) with (new :: firstn (S i) rounds). cbn [concat].
             rewrite app_assoc, EQ. cbn [app firstn met]. exact H5.
      + set (o := if inherits then Some (server_accept X (right_now v)) else accept_returns X (once_there v)).
        destruct o as [r0|] eqn:EO.
        * specialize (IH q'). cbn zeta in *. cbn [d_done d_stuck d_queue met].
          destruct IH as (H1 & H2 & H3). split; [cbn [app]; f_equal; exact H1|]. split.
          -- intros [|i] v1 r; cbn [nth_error]; [|apply H2]. intro H. injection H as <- <-.
             unfold o in EO. destruct inherits; [congruence|exact EO].
          -- intros [|i] r; cbn [nth_error]; [discriminate|]. intro H. destruct (H3 _ _ H) as [H4 H5].
             split; [exact H4|]. change (firstn (S (S i)) (new :: rounds)) with (new :: firstn (S i) rounds).
             cbn [concat]. rewrite app_assoc, EQ. cbn [app firstn met]. f_equal. exact H5.
        * cbn zeta. cbn [d_done d_stuck d_queue met whoever app]. split; [reflexivity|].
          split; intros [|i] *; discriminate. }
  destruct (G []) as (H1 & H2 & H3). cbn [app] in *. auto.
Qed.

(** [C85] Where connections are non-blocking too, no round makes the program wait: its other task
    is done as often as [accept] is called, whoever calls. *)
Lemma poll_goes_on_proof : forall X rounds, let d := poll_loop X true [] rounds in
  d_stuck d = None /\ length (d_done d) = length rounds.
Proof.
  intros X rounds. generalize (@nil visitor).
  induction rounds as [|new rounds IH]; intro q; [split; reflexivity|].
  cbn [poll_loop]. destruct (q ++ new) as [|v q']; cbn [poll_accept].
  - destruct (IH []) as [H1 H2]. cbn [d_done d_stuck length]. split; [exact H1|]. f_equal. exact H2.
  - destruct (IH q') as [H1 H2]. cbn [d_done d_stuck length]. split; [exact H1|]. f_equal. exact H2.
Qed.

(** [C85] Where they are not, the program goes on just as long as nobody is met who would keep a
    blocking server waiting; then the other task is never done again, whatever else happens. *)
Lemma poll_waits_proof : forall X rounds, let d := poll_loop X false [] rounds in
  (Forall (fun v => hangs X (once_there v) = false) (concat rounds) ->
   d_stuck d = None /\ length (d_done d) = length rounds) /\
  (forall v, d_stuck d = Some v -> hangs X (once_there v) = true /\
     (length (d_done d) < length rounds)%nat /\
     forall more, let d' := poll_loop X false [] (rounds ++ more) in
       d_done d' = d_done d /\ d_stuck d' = Some v) /\
  (d_stuck d = None -> length (d_done d) = length rounds).
Proof.
  intros X rounds.
  assert (G : forall q, let d := poll_loop X false q rounds in
    (Forall (fun v => hangs X (once_there v) = false) (q ++ concat rounds) ->
     d_stuck d = None /\ length (d_done d) = length rounds) /\
    (forall v, d_stuck d = Some v -> hangs X (once_there v) = true /\
       (length (d_done d) < length rounds)%nat /\
       forall more, let d' := poll_loop X false q (rounds ++ more) in
         d_done d' = d_done d /\ d_stuck d' = Some v) /\
    (d_stuck d = None -> length (d_done d) = length rounds)).
  { induction rounds as [|new rounds IH]; intro q.
    - cbn. split; [auto|]. split; [discriminate|auto].
    - cbn [poll_loop concat app]. rewrite app_assoc. destruct (q ++ new) as [|v q'] eqn:EQ; cbn [poll_accept].
      + destruct (IH []) as (H1 & H2 & H3). cbn zeta in *. cbn [d_done d_stuck length].
        split; [intro H; destruct (H1 H) as [H4 H5]; split; [exact H4|f_equal; exact H5]|].
        split; [|intro H; f_equal; exact (H3 H)].
        intros v H. destruct (H2 v H) as (H4 & H5 & H6). split; [exact H4|]. split; [lia|].
        intro more. destruct (H6 more) as [H7 H8]. split; [f_equal; exact H7|exact H8].
      + destruct (accept_returns X (once_there v)) as [r|] eqn:EO.
        * destruct (IH q') as (H1 & H2 & H3). cbn zeta in *. cbn [d_done d_stuck length].
          split; [intro H; cbn [app] in H; apply Forall_inv_tail in H; destruct (H1 H) as [H4 H5]; split; [exact H4|f_equal; exact H5]|].
          split; [|intro H; f_equal; exact (H3 H)].
          intros v1 H. destruct (H2 v1 H) as (H4 & H5 & H6). split; [exact H4|]. split; [lia|].
          intro more. destruct (H6 more) as [H7 H8]. split; [f_equal; exact H7|exact H8].
        * cbn zeta. cbn [d_done d_stuck length]. assert (HV : hangs X (once_there v) = true) by (unfold hangs; rewrite EO; reflexivity).
          split; [intro H; apply Forall_inv in H; congruence|].
          split; [|discriminate]. intros v1 H. injection H as <-. split; [exact HV|]. split; [lia|].
          intros more. split; reflexivity. }
  exact (G []).
Qed.

(** ** One caller, where connections are non-blocking *)

(** [C85] Whose request is all there is served as by a blocking server. *)
Lemma prompt_served_proof : forall X m t v fs head after vis, sound_lib X -> sound_room X ->
  request_head X m t v fs head -> (length fs <= 100)%nat -> target_accepted X t ->
  llen head <= 417792 -> first_come head after (v_now vis) ->
  let q := mk_req (method_named m) t v (from_raw fs) in
  (exists u, server_accept X (right_now vis) = Ok u /\ up_request u = q) \/
  (exists f e, server_accept X (right_now vis) = Err (Some f, e) /\ rf_request f = Some q).
Proof.
  intros X m t v fs head after vis HX HR Hh Hn Ht Hl Hs q.
  assert (Hs' : first_come head (after ++ spread (RErr WouldBlock :: v_later vis)) (v_now vis ++ RErr WouldBlock :: v_later vis)).
  { unfold first_come in *. rewrite spread_app, Hs, app_assoc. reflexivity. }
  destruct (sync_request_read_proof X m t v fs head _ _ HX HR Hh Hn Ht Hl Hs') as (rest & s2 & E & _).
  unfold right_now. cbn [server_accept]. unfold into_ws. rewrite E. cbn [rq_method rq_version rq_headers].
  pose proof (validate_cases (method_named m) v fs) as HV.
  destruct (validate (method_named m) v (from_raw fs)) as [[]|e| |] eqn:EV; try contradiction.
  - left. eexists. split; reflexivity.
  - right. eexists. eexists. split; reflexivity.
Qed.

Lemma parse_left : forall A (try : bytes -> pres A) room, (forall i k, try i <> Fail (PEIo k)) ->
  forall fuel buf s k rest s2, parse_loop try room fuel buf s = (Err (PEIo k), rest, s2) ->
  k <> UnexpectedEof -> exists more e, rest = buf ++ more /\ spread s = map inl more ++ inr e :: spread s2.
Proof.
  intros A try room HT. induction fuel as [|fuel IH]; intros buf s k rest s2 H Hk; cbn [parse_loop] in H;
  (destruct (try buf) as [a r0| |e] eqn:E; [discriminate| |injection H as -> <- <-; contradiction (HT _ _ E)]);
  [discriminate|].
  destruct (rd_read (room (llen buf)) s) as [[[|x d]|k'| |] s1] eqn:ER; try discriminate.
  - destruct (llen buf =? MAX_BUFFER_SIZE); injection H; intros; [discriminate|subst k; contradiction].
  - destruct (IH _ _ _ _ _ H Hk) as (more & e & -> & HS). exists ((x :: d) ++ more), e.
    split; [rewrite app_assoc; reflexivity|].
    assert (H0 : 0 < room (llen buf)).
    { destruct (N.eqb_spec (room (llen buf)) 0) as [Z|Z]; [|lia]. rewrite Z in ER. cbn in ER. discriminate ER. }
    pose proof (rd_read_spread _ s H0) as HD. rewrite ER in HD. destruct HD as [HD _].
    rewrite HD, HS, map_app, app_assoc. reflexivity.
  - injection H as -> <- <-. exists []. rewrite app_nil_r. unfold rd_read in ER.
    destruct (room (llen buf) =? 0); [discriminate|].
    destruct s as [|[b bs| | |k1] s]; try discriminate; injection ER as <- <-; eexists; split; reflexivity.
Qed.

(** [C85] Whose request is not all there is turned away at once; what they had sent is handed
    back, and the connection goes on after it. *)
Lemma late_turned_away_proof : forall X text vis, sound_lib X -> sound_room X -> unfinished X text ->
  llen text < 417792 -> has_sent text vis ->
  exists f, server_accept X (right_now vis) = Err (Some f, UpParsing (PEIo WouldBlock)) /\
    rf_request f = None /\ rf_buffer f = Some text /\ same_stream (rf_in f) (v_later vis) /\ rf_out f = v_out vis.
Proof.
  intros X text vis HX HR (d & m & t & v & fs & Hd & Hh & Hn & Ht) Hl Hs.
  assert (Hs' : first_come text (inr (RErr WouldBlock) :: spread (v_later vis)) (v_now vis ++ RErr WouldBlock :: v_later vis)).
  { unfold has_sent, first_come in *. rewrite spread_app, Hs, app_nil_r. reflexivity. }
  destruct (sync_request_cut_proof X m t v fs text d _ WouldBlock _ HX HR Hh Hn Ht Hd Hl Hs' eq_refl) as (s2 & E).
  unfold right_now. cbn [server_accept]. unfold into_ws. rewrite E. eexists. split; [reflexivity|].
  cbn [rf_request rf_buffer rf_in rf_out]. repeat split.
  unfold parse_request in E.
  destruct (parse_left _ _ _ (pure_request X) _ _ _ _ _ _ E ltac:(discriminate)) as (more & e & E1 & E2).
  cbn [app] in E1. subst more. unfold first_come in Hs'. rewrite Hs' in E2.
  apply app_inv_head in E2. unfold same_stream. congruence.
Qed.
(*EX
(** Half a request, the other half on its way. *)
Example late_turned_away_ex :
  unfinished httparse_lib (firstn 50 good_request) /\ has_sent (firstn 50 good_request) late_visitor /\
  match server_accept httparse_lib (right_now late_visitor) with
  | Err (Some f, UpParsing (PEIo WouldBlock)) => rf_buffer f = Some (firstn 50 good_request) /\ rf_in f = v_later late_visitor
  | _ => False
  end.
Proof. split; [exact ThmAccepting.half_unfinished|]. split; [reflexivity|]. vm_compute. split; reflexivity. Qed.
(** Five rounds with three visitors, one of them late; then nobody. *)
Example poll_ex :
  let d := poll_loop httparse_lib true [] [[]; [prompt_visitor; late_visitor]; []; [prompt_visitor]; []] in
  map fst (d_done d) = [None; Some prompt_visitor; Some late_visitor; Some prompt_visitor; None] /\
  map (fun p => match snd p with Ok _ => true | _ => false end) (d_done d) = [false; true; false; true; false].
Proof. vm_compute. split; reflexivity. Qed.
(** The same where connections are not inherited: all three are accepted. *)
Example poll_waits_ex :
  let d := poll_loop httparse_lib false [] [[]; [prompt_visitor; late_visitor]; []; [prompt_visitor]; [mute_visitor; prompt_visitor]; []] in
  map (fun p => match snd p with Ok _ => true | _ => false end) (d_done d) = [false; true; true; true] /\
  d_stuck d = Some mute_visitor /\ d_queue d = [prompt_visitor].
Proof. vm_compute. repeat split. Qed.
EX*)

(** ** What the documentation promises *)

(** [C85] "This will execute independent of whether someone tried to establish a connection": on
    Linux it is enough that somebody connects and says nothing; the other task is then not done
    even once more, however often [accept] would be called and whoever else comes. *)
Lemma other_task_done_refuted_proof : exists X v, has_sent [] v /\
  forall rounds, d_done (poll_loop X false [] ([v] :: rounds)) = [].
Proof. exists httparse_lib, mute_visitor. split; [reflexivity|]. intro rounds. reflexivity. Qed.

(** [C85] "Once in a while we want to check if anybody tried to connect, and if so, handle the
    stream": where connections are non-blocking, who tried to connect with a request that a
    blocking server accepts may be turned away, for only being a moment late. *)
Lemma callers_handled_refuted_proof : exists X v u f,
  accept_returns X (once_there v) = Some (Ok u) /\
  server_accept X (right_now v) = Err (Some f, UpParsing (PEIo WouldBlock)).
Proof.
  exists httparse_lib, late_visitor.
  destruct (accept_returns httparse_lib (once_there late_visitor)) as [[u| | |]|] eqn:E; try (vm_compute in E; discriminate E).
  exists u. eexists. split; [reflexivity|]. vm_compute. reflexivity.
Qed.
