(** The blocking server reads the request inside [accept], so a caller that falls silent keeps a
    thread for good: C74. *)
From Coq Require Import NArith ZArith String Bool List Lia Permutation.
From Coq Require Import ZifyBool ZifyNat ZifyN.
From Coq.Strings Require Import Byte.
From Verif.Model Require Import Base Io Text Headers Handshake Http Connect Accepting.
From Verif.Spec Require Import Fields Upgrade HttpHead Accepting.
From Verif.Proofs Require Import BaseFacts HeaderFacts ScriptFacts TextFacts HttpFacts ExTac ThmServer ThmHttp.
Import ListNotations.
Local Open Scope string_scope.
Local Open Scope list_scope.
Local Open Scope N_scope.

(** ** One call of [accept] *)

Lemma spread_app : forall a b, spread (a ++ b) = spread a ++ spread b.
Proof.
  induction a as [|e a IH]; intro b; [reflexivity|]. cbn [app].
  destruct e as [x xs| | |k]; cbn [spread]; rewrite IH; [|reflexivity..].
  cbn [app]. rewrite <- app_assoc. reflexivity.
Qed.

Lemma half_unfinished : unfinished httparse_lib (firstn 50 good_request).
Proof.
  destruct (parse_request httparse_lib [RData "G"%byte (skipn 1 good_request)]) as [[r rest] s2] eqn:EP.
  assert (EQ : rest = [] /\ s2 = [] /\ exists q, r = Ok q)
    by (vm_compute in EP; injection EP as <- <- <-; repeat split; eexists; reflexivity).
  destruct EQ as (-> & -> & q & ->).
  destruct (sync_request_only_proof httparse_lib _ _ _ _ ltac:(repeat split) EP)
    as (head & m & t & v & fs & H1 & H2 & H3 & H4 & _).
  exists (skipn 50 good_request), m, t, v, fs. split; [discriminate|]. rewrite firstn_skipn.
  replace good_request with head; [auto|].
  apply (f_equal (flat_map (fun x => match x with inl b => [b] | inr _ => [] end))) in H1.
  rewrite flat_map_app in H1.
  assert (HM : forall l : bytes, flat_map (fun x : byte + rd_ev => match x with inl b => [b] | inr _ => [] end) (map inl l) = l)
    by (induction l as [|b l IH]; [reflexivity|]; cbn [map flat_map app]; rewrite IH; reflexivity).
  rewrite HM in H1. cbn [push_back spread flat_map] in H1. rewrite !app_nil_r, HM in H1.
  symmetry. exact H1.
Qed.

(** [C74] A caller that has sent only a part of a request head and stays on the line keeps
    [accept] waiting for ever. *)
Lemma silent_waits_proof : forall X text c, sound_lib X -> sound_room X -> unfinished X text ->
  llen text < 417792 -> falls_silent text c -> accept_returns X c = None.
Proof.
  intros X text c HX HR (d & m & t & v & fs & Hd & Hh & Hn & Ht) Hl (s & w & -> & Hs).
  destruct (sync_request_cut_proof X m t v fs text d [inr (RErr forever)] forever (s ++ [RErr forever]) HX HR Hh Hn Ht Hd Hl)
    as (s2 & E).
  - unfold first_come in *. rewrite spread_app, Hs, app_nil_r. reflexivity.
  - reflexivity.
  - unfold accept_returns. cbn [arrival_of server_accept]. unfold into_ws. rewrite E. reflexivity.
Qed.
(*EX
(** Half a request. *)
Example silent_waits_ex : unfinished httparse_lib (firstn 50 good_request) /\
  falls_silent (firstn 50 good_request) half_caller /\ accept_returns httparse_lib half_caller = None.
Proof.
  split; [exact ThmAccepting.half_unfinished|].
  split; [exists (chunk (firstn 50 good_request)), (mk_w [] []); split; reflexivity|reflexivity].
Qed.
EX*)

Lemma validate_pure : forall m v fs e, validate m v (from_raw fs) <> Err (UpParsing e).
Proof.
  intros m v fs e H. pose proof (validate_cases m v fs) as HV. rewrite H in HV. unfold request_conditions in HV.
  repeat match goal with H : first_failing _ _ |- _ => inversion H; subst; clear H end.
Qed.

(** [C74] Once the whole head is there [accept] returns, with that request, accepted or refused,
    whatever follows: nothing, or more. *)
Lemma finished_returns_proof : forall X m t v fs head after s silent w, sound_lib X -> sound_room X ->
  request_head X m t v fs head -> (length fs <= 100)%nat -> target_accepted X t ->
  llen head <= 417792 -> first_come head after s ->
  let q := mk_req (method_named m) t v (from_raw fs) in
  (exists u, accept_returns X (Caller s silent w) = Some (Ok u) /\ up_request u = q) \/
  (exists f e, accept_returns X (Caller s silent w) = Some (Err (Some f, e)) /\ rf_request f = Some q).
Proof.
  intros X m t v fs head after s silent w HX HR Hh Hn Ht Hl Hs q.
  set (s' := if silent then s ++ [RErr forever] else s).
  assert (Hs' : exists after', first_come head after' s').
  { unfold s', first_come in *. destruct silent; [|eauto]. rewrite spread_app, Hs, <- app_assoc. eauto. }
  destruct Hs' as (after' & Hs').
  destruct (sync_request_read_proof X m t v fs head after' s' HX HR Hh Hn Ht Hl Hs') as (rest & s2 & E & _).
  unfold accept_returns.
  replace (arrival_of (Caller s silent w)) with (Arrives s' w) by (unfold s'; destruct silent; reflexivity).
  cbn [server_accept]. unfold into_ws. rewrite E. cbn [rq_method rq_version rq_headers].
  pose proof (validate_cases (method_named m) v fs) as HV.
  destruct (validate (method_named m) v (from_raw fs)) as [[]|e| |] eqn:EV; try contradiction; cbn [rf_error].
  - left. eexists. split; reflexivity.
  - right. assert (HE : forall e0, e <> UpParsing e0).
    { intros e0 ->. exact (validate_pure _ _ _ _ EV). }
    destruct e; try (eexists; eexists; split; reflexivity). exfalso. eapply HE; reflexivity.
Qed.
(*EX
(** The whole request, in two pieces; the caller then waits for the answer. *)
Example finished_returns_ex :
  match accept_returns httparse_lib good_caller with
  | Some (Ok u) => rq_uri (up_request u) = str "/chat"
  | _ => False
  end.
Proof. vm_compute. reflexivity. Qed.
(** A request that is no upgrade is refused at once too. *)
Example finished_refused_ex :
  match accept_returns httparse_lib (Caller (chunk (str "GET / HTTP/1.1" ++ head_end)) true (mk_w [] [])) with
  | Some (Err (Some f, NoSecWsKeyHeader)) => True
  | _ => False
  end.
Proof. vm_compute. exact I. Qed.
EX*)

Lemma io_stops : forall n s k s1, rd_read n s = (Err k, s1) -> k = Interrupted \/ In (RErr k) s.
Proof.
  intros n s k s1 H. unfold rd_read in H. destruct (n =? 0); [discriminate|].
  destruct s as [|[b bs| | |k'] s]; try discriminate; injection H as <- <-; [left; reflexivity|].
  right; left; reflexivity.
Qed.
Lemma io_keeps : forall n s d s1 k, rd_read n s = (Ok d, s1) -> In (RErr k) s1 -> In (RErr k) s.
Proof.
  intros n s d s1 k H HI. unfold rd_read in H. destruct (n =? 0); [injection H as <- <-; exact HI|].
  destruct s as [|[b bs| | |k'] s]; try discriminate; [injection H as <- <-; exact HI| |].
  - assert (H1 : s1 = push_back (drop n (b :: bs)) s) by congruence. subst s1. clear H.
    unfold push_back in HI. destruct (drop n (b :: bs)); [right; exact HI|].
    destruct HI as [HI|HI]; [discriminate HI|right; exact HI].
  - injection H as <- <-. right. exact HI.
Qed.
Lemma rd_read_le : forall n s d s1, rd_read n s = (Ok d, s1) -> llen d <= n.
Proof.
  intros n s d s1 H. unfold rd_read in H. destruct (n =? 0) eqn:E0; [injection H as <- <-; rewrite llen_nil; lia|].
  destruct s as [|[b bs| | |k'] s]; try discriminate; try (injection H as <- <-; rewrite llen_nil; lia).
  assert (d = take n (b :: bs)) by congruence. subst d. rewrite llen_take. lia.
Qed.
Lemma parse_io : forall A (try : bytes -> pres A) room, (forall i k, try i <> Fail (PEIo k)) ->
  forall fuel buf s k rest s2, parse_loop try room fuel buf s = (Err (PEIo k), rest, s2) ->
  k = UnexpectedEof \/ k = Interrupted \/ In (RErr k) s.
Proof.
  intros A try room HT. induction fuel as [|fuel IH]; intros buf s k rest s2 H; cbn [parse_loop] in H;
  (destruct (try buf) as [a r0| |e] eqn:E; [discriminate| |injection H as -> <- <-; contradiction (HT _ _ E)]);
  [discriminate|].
  destruct (rd_read (room (llen buf)) s) as [[[|x d]|k'| |] s1] eqn:ER; try discriminate.
  - destruct (llen buf =? MAX_BUFFER_SIZE); injection H; intros; [discriminate|auto].
  - destruct (IH _ _ _ _ _ H) as [?|[?|HI]]; auto. right. right. exact (io_keeps _ _ _ _ _ ER HI).
  - injection H as -> <- <-. right. exact (io_stops _ _ _ _ ER).
Qed.

(** No attempt at parsing reports an error of the stream. *)
Definition pure {A} (p : pres A) : Prop := forall k, p <> Fail (PEIo k).
Lemma pure_bind : forall A B (p : pres A) (f : A -> bytes -> pres B), pure p ->
  (forall a r, pure (f a r)) -> pure (pbind p f).
Proof. intros A B p f Hp Hf k. destruct p; cbn [pbind]; [apply Hf|discriminate|intro H; apply (Hp k); injection H as ->; reflexivity]. Qed.
Lemma pure_done : forall A (a : A) r, pure (Done a r). Proof. intros A a r k. discriminate. Qed.
Lemma pure_partial : forall A, pure (@Partial A). Proof. intros A k. discriminate. Qed.
Lemma pure_fail : forall A e, (forall k, e <> PEIo k) -> pure (@Fail A e).
Proof. intros A e He k H. injection H as H. exact (He k H). Qed.
Ltac no_io := let k := fresh "k" in intro k; discriminate.
Local Hint Resolve pure_done pure_partial : core.
Lemma pure_literal : forall t e i, (forall k, e <> PEIo k) -> pure (literal t e i).
Proof.
  induction t as [|c t IH]; intros e i He; cbn [literal]; auto. destruct i as [|b r]; auto.
  destruct (Byte.eqb b c); auto using pure_fail.
Qed.
Lemma pure_skip : forall i, pure (skip_empty i).
Proof.
  enough (H : forall n i, (length i <= n)%nat -> pure (skip_empty i)) by (intro i; apply (H (length i)); lia).
  induction n as [|n IH]; intros i Hn; (destruct i as [|b r]; [apply pure_partial|]); [cbn [length] in Hn; lia|].
  destruct b; try apply pure_done; cbn [length] in Hn.
  - change (skip_empty (x0a :: r)) with (skip_empty r). apply IH. lia.
  - cbn [skip_empty]. destruct r as [|b r]; [apply pure_partial|].
    destruct b; try (apply pure_fail; no_io). apply IH. cbn [length] in Hn. lia.
Qed.
Lemma pure_until : forall ok e i, (forall k, e <> PEIo k) -> pure (until_space ok e i).
Proof.
  intros ok e i He. induction i as [|b r IH]; cbn [until_space]; auto.
  destruct (Byte.eqb b x20); auto. destruct (ok b); auto using pure_fail. apply pure_bind; auto.
Qed.
Lemma pure_newline : forall e i, (forall k, e <> PEIo k) -> pure (newline e i).
Proof.
  intros e i He. unfold newline. destruct i as [|b r]; auto.
  destruct b; auto using pure_fail, pure_literal.
Qed.
Lemma pure_name : forall ok i, pure (header_name ok i).
Proof.
  intros ok i. induction i as [|b r IH]; cbn [header_name]; auto.
  destruct (Byte.eqb b x3a); auto. destruct (ok b); [|apply pure_fail; no_io]. apply pure_bind; auto.
Qed.
Lemma pure_value : forall i, pure (header_value i).
Proof.
  intros i. induction i as [|b r IH]; cbn [header_value]; auto.
  destruct (value_byte b); apply pure_bind; auto. apply pure_newline; no_io.
Qed.
Lemma pure_lines : forall ok n i, pure (header_lines ok n i).
Proof.
  intros ok n. induction n as [|n IH]; intros i; (destruct i as [|b r]; [rewrite header_lines_nil; apply pure_partial|]);
  (destruct (Byte.byte_eq_dec b x0d) as [->|N1];
    [rewrite header_lines_cr; apply pure_bind; auto; apply pure_literal; no_io|]);
  (destruct (Byte.byte_eq_dec b x0a) as [->|N2]; [rewrite header_lines_lf; apply pure_done|]);
  rewrite header_lines_other by assumption; (destruct (ok b); [|apply pure_fail; no_io]).
  - apply pure_fail; no_io.
  - apply pure_bind; [apply pure_name|]. intros t r1. apply pure_bind; [apply pure_value|].
    intros v r2. apply pure_bind; [apply IH|]. auto.
Qed.
Lemma pure_request : forall X i, pure (try_request X i).
Proof.
  intros X i. unfold try_request.
  apply pure_bind; [apply pure_skip|]. intros _ r0.
  apply pure_bind; [apply pure_until; no_io|]. intros m r1.
  apply pure_bind; [apply pure_until; no_io|]. intros t r2.
  apply pure_bind.
  { unfold http_version_p. apply pure_bind; [apply pure_literal; no_io|]. intros _ r. unfold version_digit.
    destruct r as [|b r]; auto. destruct b; auto; apply pure_fail; no_io. }
  intros v r3. apply pure_bind; [apply pure_newline; no_io|]. intros _ r4.
  apply pure_bind; [apply pure_lines|]. intros hs r5.
  destruct (method_of_str m); [|apply pure_fail; no_io]. destruct (target_ok X t); auto. apply pure_fail; no_io.
Qed.

Lemma returns_unless : forall X c, sound_lib X -> (forall s silent w, c = Caller s silent w ->
    forall rest s2, parse_request X (if silent then s ++ [RErr forever] else s) <> (Err (PEIo forever), rest, s2)) ->
  exists r, accept_returns X c = Some r.
Proof.
  intros X c HX H. unfold accept_returns. destruct c as [s silent w|k]; [|cbn; eauto].
  specialize (H s silent w eq_refl).
  replace (arrival_of (Caller s silent w)) with (Arrives (if silent then s ++ [RErr forever] else s) w)
    by (destruct silent; reflexivity).
  cbn [server_accept]. unfold into_ws.
  destruct (parse_request X (if silent then s ++ [RErr forever] else s)) as [[r rest] s2] eqn:EP.
  destruct r as [q|e| |]; [|cbn [rf_error]|eauto|eauto].
  - destruct (sync_request_only_proof _ _ _ _ _ HX EP) as (head & m & t & v & fs & _ & _ & _ & _ & ->).
    cbn [rq_method rq_version rq_headers].
    destruct (validate (method_named m) v (from_raw fs)) as [[]|e| |] eqn:EV; try (eauto; fail).
    cbn [rf_error]. destruct e; try (eauto; fail). contradiction (validate_pure _ _ _ _ EV).
  - destruct e; eauto. destruct (is_forever k) eqn:EK; [|eauto]. exfalso.
    destruct k; try discriminate. cbn [is_forever] in EK. apply N.eqb_eq in EK. subst code.
    exact (H rest s2 eq_refl).
Qed.

(** [C74] It returns too when the caller hangs up, or its connection fails, wherever that is. *)
Lemma hung_up_returns_proof : forall X s w, sound_lib X -> ~ In (RErr forever) s ->
  exists r, accept_returns X (Caller s false w) = Some r.
Proof.
  intros X s w HX HI. apply returns_unless; [exact HX|]. intros s0 silent w0 E rest s2 H.
  injection E as <- <- <-. destruct (parse_io _ _ _ (pure_request X) _ _ _ _ _ _ H) as [?|[?|?]];
    [discriminate..|auto].
Qed.
(*EX
(** The same half of a request, but then the caller hangs up. *)
Example hung_up_returns_ex :
  match accept_returns httparse_lib (Caller (chunk (firstn 50 good_request)) false (mk_w [] [])) with
  | Some (Err (Some f, UpParsing (PEIo UnexpectedEof))) => rf_buffer f = Some (firstn 50 good_request)
  | _ => False
  end.
Proof. vm_compute. reflexivity. Qed.
EX*)

Lemma parse_flood : forall A (try : bytes -> pres A) room, (forall i k, try i <> Fail (PEIo k)) ->
  (forall n, n < MAX_BUFFER_SIZE -> 0 < room n) -> room MAX_BUFFER_SIZE = 0 ->
  (forall n, n <= MAX_BUFFER_SIZE -> n + room n <= MAX_BUFFER_SIZE) ->
  forall fuel buf s c t, spread s = map inl c ++ t -> llen buf <= MAX_BUFFER_SIZE ->
  MAX_BUFFER_SIZE <= llen buf + llen c ->
  forall k rest s2, parse_loop try room fuel buf s <> (Err (PEIo k), rest, s2).
Proof.
  intros A try room HT HR HZ HB. induction fuel as [|fuel IH]; intros buf s c t Hs Hb Hc k rest s2 H;
  cbn [parse_loop] in H;
  (destruct (try buf) as [a r0| |e] eqn:E; [discriminate| |injection H as -> <- <-; contradiction (HT _ _ E)]);
  [discriminate|].
  destruct (N.eq_dec (llen buf) MAX_BUFFER_SIZE) as [EM|EM].
  - rewrite EM, HZ in H. cbn [rd_read] in H. unfold rd_read in H. rewrite !N.eqb_refl in H. discriminate.
  - assert (Hroom : 0 < room (llen buf)) by (apply HR; lia).
    pose proof (rd_read_spread _ s Hroom) as HD. pose proof (rd_read_le (room (llen buf)) s) as HL.
    destruct (rd_read (room (llen buf)) s) as [[[|x d]|k'| |] s1]; try discriminate.
    + rewrite Hs in HD. destruct c as [|y c]; [rewrite llen_nil in Hc; lia|discriminate HD].
    + destruct HD as [HD _]. rewrite Hs in HD. specialize (HL _ _ eq_refl).
      pose proof (HB (llen buf) Hb) as HB1.
      destruct (map_inl_split _ _ _ _ HD) as [(c' & Ec & Hu)|(r & Hne & Ed & Ht)].
      * revert H. apply (IH _ _ c' t Hu); [rewrite llen_app; lia|].
        rewrite llen_app. rewrite Ec, llen_app in Hc. lia.
      * assert (HLL : llen (buf ++ x :: d) = MAX_BUFFER_SIZE).
        { rewrite llen_app. rewrite Ed, llen_app in *. lia. }
        destruct fuel as [|fuel]; cbn [parse_loop] in H; (destruct (try (buf ++ x :: d)) as [a r0| |e] eqn:E2;
          [discriminate| |injection H as -> <- <-; contradiction (HT _ _ E2)]); [discriminate|].
        rewrite HLL, HZ in H. unfold rd_read in H. rewrite !N.eqb_refl in H. discriminate.
    + rewrite Hs in HD. destruct c as [|y c]; [rewrite llen_nil in Hc; lia|discriminate HD].
Qed.
(** [C74] And when the caller has sent 417792 bytes or more. *)
Lemma flood_returns_proof : forall X text c, sound_lib X -> sound_room X -> bounded_room X ->
  417792 <= llen text -> falls_silent text c -> exists r, accept_returns X c = Some r.
Proof.
  intros X text c HX [HR HZ] HB Hl (s & w & -> & Hs). apply returns_unless; [exact HX|].
  intros s0 silent w0 E rest s2. injection E as <- <- <-. unfold parse_request.
  apply (parse_flood _ _ _ (pure_request X) HR HZ HB _ [] _ text [inr (RErr forever)]).
  - rewrite spread_app. unfold first_come in Hs. rewrite Hs, app_nil_r. reflexivity.
  - rewrite llen_nil. unfold MAX_BUFFER_SIZE. lia.
  - rewrite llen_nil. unfold MAX_BUFFER_SIZE. lia.
Qed.
(*EX
(** So many bytes [x]. *)
Example flood_returns_ex : bounded_room httparse_lib /\ exists text c,
  llen text = 417793 /\ falls_silent text c.
Proof.
  split; [intros n Hn; cbn [l_room httparse_lib]; lia|].
  assert (H : forall n, falls_silent (repeat "x"%byte (S n)) (Caller [RData "x"%byte (repeat "x"%byte n)] true (mk_w [] []))).
  { intro n. exists [RData "x"%byte (repeat "x"%byte n)], (mk_w [] []). split; [reflexivity|].
    unfold first_come. cbn [spread]. rewrite !app_nil_r. reflexivity. }
  eexists. eexists. split; [|apply H with (n := N.to_nat 417792)].
  unfold llen. rewrite repeat_length, Nnat.Nat2N.inj_succ, Nnat.N2Nat.id. reflexivity.
Qed.
EX*)


(** ** Several threads *)

Lemma set_length : forall i x l, (i < length l)%nat -> length (set_thread i x l) = length l.
Proof.
  intros i x l H. unfold set_thread. rewrite app_length. cbn [length]. rewrite firstn_length, skipn_length. lia.
Qed.
Lemma held_app : forall a b, held (a ++ b) = held a ++ held b.
Proof. induction a as [|[c|] a IH]; intro b; cbn [held app]; rewrite ?IH; reflexivity. Qed.
Lemma cut_at : forall A i (l : list A) x, nth_error l i = Some x -> l = firstn i l ++ x :: skipn (S i) l.
Proof.
  induction i as [|i IH]; intros [|y l] x H; try discriminate; cbn [nth_error] in H.
  - injection H as ->. reflexivity.
  - cbn [firstn]. change (skipn (S (S i)) (y :: l)) with (skipn (S i) l). cbn [app]. f_equal. apply IH. exact H.
Qed.
Lemma held_take : forall i l c, nth_error l i = Some None ->
  Permutation (held (set_thread i (Some c) l)) (c :: held l).
Proof.
  intros i l c H. pose proof (cut_at _ _ _ _ H) as E. unfold set_thread. rewrite held_app. cbn [held].
  rewrite E at 3. rewrite held_app. cbn [held]. symmetry. apply Permutation_middle.
Qed.
Lemma held_return : forall i l c, nth_error l i = Some (Some c) ->
  Permutation (held l) (c :: held (set_thread i None l)).
Proof.
  intros i l c H. pose proof (cut_at _ _ _ _ H) as E. unfold set_thread. rewrite held_app. cbn [held].
  rewrite E at 1. rewrite held_app. cbn [held]. symmetry. apply Permutation_middle.
Qed.
Lemma held_le : forall l, (length (held l) <= length l)%nat.
Proof. induction l as [|[c|] l IH]; cbn [held length]; lia. Qed.
Lemma held_free : forall l i, nth_error l i = Some None -> (length (held l) < length l)%nat.
Proof.
  induction l as [|[c|] l IH]; intros [|i] H; try discriminate; cbn [held length nth_error] in *.
  - specialize (IH _ H). lia.
  - pose proof (held_le l). lia.
  - specialize (IH _ H). lia.
Qed.
Lemma free_held : forall l, (length (held l) < length l)%nat -> exists i, nth_error l i = Some None.
Proof.
  induction l as [|[c|] l IH]; cbn [held length]; intro H; [lia| |exists O; reflexivity].
  destruct IH as [i Hi]; [lia|]. exists (S i). exact Hi.
Qed.
Lemma held_in : forall l c, In c (held l) -> exists i, nth_error l i = Some (Some c).
Proof.
  induction l as [|[x|] l IH]; intros c H; cbn [held] in H; [contradiction| |].
  - destruct H as [->|H]; [exists O; reflexivity|]. destruct (IH _ H) as [i Hi]. exists (S i). exact Hi.
  - destruct (IH _ H) as [i Hi]. exists (S i). exact Hi.
Qed.
Lemma nth_lt : forall A (l : list A) i x, nth_error l i = Some x -> (i < length l)%nat.
Proof. intros A l i x H. apply nth_error_Some. congruence. Qed.

Record sane (X : http_lib) (n : nat) (cs : list caller) (p : pool) (taken : list caller) : Prop := {
  sn_cut : cs = taken ++ po_waiting p;
  sn_perm : Permutation taken (map fst (po_given p) ++ held (po_threads p));
  sn_given : Forall (fun g => accept_returns X (fst g) = Some (snd g)) (po_given p);
  sn_threads : length (po_threads p) = n }.
Lemma sane_new : forall X n cs, sane X n cs (pool_new n cs) [].
Proof.
  intros X n cs. split; cbn [pool_new po_waiting po_given po_threads map app]; auto using repeat_length.
  replace (held (repeat None n)) with (@nil caller); [constructor|].
  induction n; cbn [repeat held]; auto.
Qed.
Lemma sane_step : forall X n cs p taken e, sane X n cs p taken ->
  exists more, sane X n cs (pool_step X p e) (taken ++ more).
Proof.
  intros X n cs p taken e HS. assert (HN : exists more, sane X n cs p (taken ++ more))
    by (exists []; rewrite app_nil_r; exact HS).
  destruct HS as [Hc Hp Hg Ht]. destruct e as [i|i]; cbn [pool_step].
  - destruct (nth_error (po_threads p) i) as [[c|]|] eqn:EI; [exact HN| |exact HN].
    destruct (po_waiting p) as [|c q] eqn:EW; [exact HN|].
    exists [c]. split; cbn [po_waiting po_threads po_given].
    + rewrite <- app_assoc. exact Hc.
    + apply (Permutation_trans (Permutation_sym (Permutation_cons_append taken c))).
      apply (Permutation_trans (perm_skip c Hp)).
      apply (Permutation_trans (Permutation_middle _ _ _)). apply Permutation_app_head.
      symmetry. apply held_take. exact EI.
    + exact Hg.
    + rewrite set_length by exact (nth_lt _ _ _ _ EI). exact Ht.
  - destruct (nth_error (po_threads p) i) as [[c|]|] eqn:EI; [|exact HN|exact HN].
    destruct (accept_returns X c) as [r|] eqn:EA; [|exact HN].
    exists []. rewrite app_nil_r. split; cbn [po_waiting po_threads po_given].
    + exact Hc.
    + apply (Permutation_trans Hp). rewrite map_app. cbn [map fst]. rewrite <- app_assoc.
      apply Permutation_app_head. cbn [app]. apply held_return. exact EI.
    + apply Forall_app. split; [exact Hg|]. constructor; [exact EA|constructor].
    + rewrite set_length by exact (nth_lt _ _ _ _ EI). exact Ht.
Qed.
Lemma sane_run : forall X n cs es p taken, sane X n cs p taken ->
  exists more, sane X n cs (pool_run X p es) (taken ++ more).
Proof.
  intros X n cs. induction es as [|e es IH]; intros p taken H.
  - exists []. rewrite app_nil_r. exact H.
  - destruct (sane_step _ _ _ _ _ e H) as [m1 H1]. destruct (IH _ _ H1) as [m2 H2].
    exists (m1 ++ m2). rewrite app_assoc. exact H2.
Qed.

(** [C74] Whatever the order of events, callers are taken in the order in which they came, none
    is lost or served twice, and what a call gives is what [accept] makes of its caller. *)
Lemma pool_accounts_proof : forall X n cs es, let p := pool_run X (pool_new n cs) es in
  exists taken, cs = taken ++ po_waiting p /\
    Permutation taken (map fst (po_given p) ++ held (po_threads p)) /\
    (forall c r, In (c, r) (po_given p) -> accept_returns X c = Some r) /\
    (length (held (po_threads p)) <= n)%nat.
Proof.
  intros X n cs es p. destruct (sane_run X n cs es _ _ (sane_new X n cs)) as [taken [Hc Hp Hg Ht]].
  cbn [app] in *. exists taken. repeat split; auto.
  - intros c r HI. rewrite Forall_forall in Hg. exact (Hg _ HI).
  - fold p in Ht. rewrite <- Ht. apply held_le.
Qed.
(*EX
(** Two threads, three callers; the one that came last is served first. *)
Example pool_accounts_ex :
  let p := pool_run httparse_lib (pool_new 2 [half_caller; NoCaller WouldBlock; good_caller])
             [Take 0; Return 0; Take 1; Take 0; Return 1; Take 1; Return 1] in
  map fst (po_given p) = [NoCaller WouldBlock; good_caller] /\ po_threads p = [Some half_caller; None].
Proof. vm_compute. split; reflexivity. Qed.
EX*)

Lemma hanging_app : forall X a b, hanging X (a ++ b) = (hanging X a + hanging X b)%nat.
Proof. intros X a b. unfold hanging. rewrite filter_app, app_length. reflexivity. Qed.
Lemma hanging_perm : forall X a b, Permutation a b -> hanging X a = hanging X b.
Proof.
  intros X a b H. unfold hanging. induction H; cbn [filter]; try congruence.
  - destruct (hangs X x); cbn [length]; congruence.
  - destruct (hangs X x), (hangs X y); reflexivity.
Qed.
Lemma hanging_le : forall X l, (hanging X l <= length l)%nat.
Proof. intros X l. unfold hanging. induction l as [|c l IH]; cbn [filter length]; [lia|]. destruct (hangs X c); cbn [length]; lia. Qed.
Lemma hanging_given : forall X (l : list (caller * result upgrade (option refusal * upgrade_error))),
  Forall (fun g => accept_returns X (fst g) = Some (snd g)) l -> hanging X (map fst l) = O.
Proof.
  intros X l H. unfold hanging. induction H as [|g l E _ IH]; [reflexivity|]. cbn [map filter].
  unfold hangs at 1. rewrite E. exact IH.
Qed.
Lemma hanging_all : forall X l, hanging X l = length l <-> Forall (fun c => hangs X c = true) l.
Proof.
  intros X l. induction l as [|c l IH]; [split; [constructor|reflexivity]|].
  pose proof (hanging_le X l) as HL. unfold hanging in *. cbn [filter length].
  destruct (hangs X c) eqn:E; cbn [length]; split; intro H.
  - constructor; [exact E|]. apply IH. lia.
  - inversion H; subst. f_equal. apply IH. assumption.
  - lia.
  - inversion H; subst. congruence.
Qed.

(** [C74] As many silent callers as there are threads stop the server: nobody who comes after
    them is ever taken, let alone served. *)
Lemma pool_stopped_proof : forall X n before after es, (n <= hanging X before)%nat ->
  let p := pool_run X (pool_new n (before ++ after)) es in
  (exists l, po_waiting p = l ++ after) /\
  (length (po_given p) + length (held (po_threads p)) <= length before)%nat.
Proof.
  intros X n before after es Hn p.
  assert (HH : exists taken l, sane X n (before ++ after) p taken /\ po_waiting p = l ++ after).
  { unfold p. rewrite <- (rev_involutive es). induction (rev es) as [|e r IH].
    - exists [], before. split; [apply sane_new|reflexivity].
    - cbn [rev]. unfold pool_run. rewrite fold_left_app. cbn [fold_left].
      fold (pool_run X (pool_new n (before ++ after)) (rev r)).
      set (p0 := pool_run X (pool_new n (before ++ after)) (rev r)) in *.
      destruct IH as (taken & l & HS & HW).
      destruct (sane_step _ _ _ _ _ e HS) as [m1 HS1]. exists (taken ++ m1).
      assert (HK : po_waiting (pool_step X p0 e) = po_waiting p0 \/
                   exists i c q, nth_error (po_threads p0) i = Some None /\ po_waiting p0 = c :: q /\
                     po_waiting (pool_step X p0 e) = q).
      { destruct e as [i|i]; cbn [pool_step].
        - destruct (nth_error (po_threads p0) i) as [[c|]|] eqn:EI; auto.
          destruct (po_waiting p0) as [|c q] eqn:EW; auto. right. exists i, c, q. auto.
        - destruct (nth_error (po_threads p0) i) as [[c|]|] eqn:EI; auto.
          destruct (accept_returns X c) eqn:EA; auto. }
      destruct HK as [HK|(i & c & q & HI & HQ & HK)].
      { exists l. rewrite HK. auto. }
      destruct l as [|c0 l].
      + exfalso. destruct HS as [Hc Hp Hg Ht]. cbn [app] in HW. rewrite HW in Hc.
        apply app_inv_tail in Hc. subst taken. apply (hanging_perm X) in Hp.
        rewrite hanging_app, (hanging_given _ _ Hg) in Hp. apply held_free in HI.
        pose proof (hanging_le X (held (po_threads p0))). lia.
      + exists l. split; [exact HS1|]. rewrite HQ in HW. injection HW as -> ->. exact HK. }
  destruct HH as (taken & l & [Hc Hp Hg Ht] & HW). split; [exists l; exact HW|].
  apply Permutation_length in Hp. rewrite app_length, map_length in Hp. rewrite <- Hp.
  apply (f_equal (@length caller)) in Hc. rewrite HW, !app_length in Hc. lia.
Qed.
(*EX
Example pool_stopped_ex : hanging httparse_lib [half_caller; good_caller; mute_caller] = 2%nat.
Proof. vm_compute. reflexivity. Qed.
EX*)

Definition work (p : pool) : nat := (2 * length (po_waiting p) + length (held (po_threads p)))%nat.
Lemma work_step : forall X p e, pool_step X p e <> p -> (S (work (pool_step X p e)) = work p)%nat.
Proof.
  intros X p e H. unfold work. destruct e as [i|i]; cbn [pool_step] in *.
  - destruct (nth_error (po_threads p) i) as [[c|]|] eqn:EI; try congruence.
    destruct (po_waiting p) as [|c q] eqn:EW; try congruence. cbn [po_waiting po_threads length].
    pose proof (Permutation_length (held_take _ _ c EI)) as HL. cbn [length] in HL. lia.
  - destruct (nth_error (po_threads p) i) as [[c|]|] eqn:EI; try congruence.
    destruct (accept_returns X c) as [r|] eqn:EA; try congruence. cbn [po_waiting po_threads].
    pose proof (Permutation_length (held_return _ _ _ EI)) as HL. cbn [length] in HL. lia.
Qed.
(** [C74] There are no more than two things to do for each caller, so the server comes to a
    standstill (until somebody calls). *)
Lemma pool_ends_proof : forall X n cs es, effective X (pool_new n cs) es -> (length es <= 2 * length cs)%nat.
Proof.
  intros X n cs es H.
  assert (HW : forall es p, effective X p es -> (length es <= work p)%nat).
  { clear. induction es as [|e es IH]; intros p H; cbn [length]; [lia|]. destruct H as [H1 H2].
    specialize (IH _ H2). pose proof (work_step X p e H1). lia. }
  specialize (HW _ _ H). unfold work in HW. cbn [pool_new po_waiting po_threads] in HW.
  replace (held (repeat None n)) with (@nil caller) in HW by (clear; induction n; cbn [repeat held]; auto).
  cbn [length] in HW. lia.
Qed.
(*EX
Example pool_ends_ex : effective httparse_lib (pool_new 1 [good_caller; mute_caller]) [Take 0; Return 0; Take 0].
Proof. repeat split; intro H; apply (f_equal (fun p => length (po_waiting p) + length (po_given p))%nat) in H; vm_compute in H; discriminate H. Qed.
EX*)
(** [C74] With fewer silent callers than threads everybody else has then been served, exactly
    once. *)
Lemma pool_serves_proof : forall X n cs es, (hanging X cs < n)%nat ->
  let p := pool_run X (pool_new n cs) es in standstill X p ->
  Permutation (map fst (po_given p)) (filter (fun c => negb (hangs X c)) cs).
Proof.
  intros X n cs es Hn p HZ. destruct (sane_run X n cs es _ _ (sane_new X n cs)) as [taken HS].
  cbn [app] in HS. fold p in HS. destruct HS as [Hc Hp Hg Ht].
  assert (HH : Forall (fun c => hangs X c = true) (held (po_threads p))).
  { apply Forall_forall. intros c HI. destruct (held_in _ _ HI) as [i Hi]. unfold hangs.
    destruct (accept_returns X c) as [r|] eqn:EA; [|reflexivity]. exfalso.
    specialize (HZ (Return i)). cbn [pool_step] in HZ. rewrite Hi, EA in HZ.
    apply (f_equal (fun p => length (po_given p))) in HZ. cbn [po_given] in HZ.
    rewrite app_length in HZ. cbn [length] in HZ. lia. }
  assert (HW : po_waiting p = []).
  { destruct (po_waiting p) as [|c q] eqn:EW; [reflexivity|]. exfalso.
    pose proof (hanging_perm X _ _ Hp) as HP. rewrite hanging_app, (hanging_given _ _ Hg) in HP.
    rewrite (proj2 (hanging_all X _) HH) in HP. rewrite Hc, hanging_app in Hn.
    destruct (free_held (po_threads p)) as [i Hi]; [lia|].
    specialize (HZ (Take i)). cbn [pool_step] in HZ. rewrite Hi, EW in HZ.
    apply (f_equal (fun p => length (po_waiting p))) in HZ. cbn [po_waiting] in HZ. rewrite EW in HZ.
    cbn [length] in HZ. lia. }
  rewrite HW, app_nil_r in Hc. subst taken.
  assert (HF : forall a b, Permutation a b -> Permutation (filter (fun c => negb (hangs X c)) a) (filter (fun c => negb (hangs X c)) b)).
  { intros a b H. induction H; cbn [filter]; auto.
    - destruct (negb (hangs X x)); auto.
    - destruct (negb (hangs X x)), (negb (hangs X y)); auto. constructor.
    - eapply Permutation_trans; eassumption. }
  specialize (HF _ _ Hp). rewrite filter_app in HF. symmetry.
  replace (filter (fun c => negb (hangs X c)) (held (po_threads p))) with (@nil caller) in HF.
  2:{ clear - HH. induction HH as [|c l E _ IH]; [reflexivity|]. cbn [filter]. rewrite E. exact IH. }
  rewrite app_nil_r in HF. replace (map fst (po_given p)) with (filter (fun c => negb (hangs X c)) (map fst (po_given p))); [exact HF|].
  clear - Hg. induction Hg as [|g l E _ IH]; [reflexivity|]. cbn [map filter]. unfold hangs at 1. rewrite E. cbn [negb].
  f_equal. exact IH.
Qed.
(*EX
Example pool_serves_ex :
  let p := pool_run httparse_lib (pool_new 2 [half_caller; good_caller; good_caller]) [Take 1; Take 0; Return 0; Take 0; Return 0] in
  hanging httparse_lib [half_caller; good_caller; good_caller] = 1%nat /\
  standstill httparse_lib p /\ map fst (po_given p) = [good_caller; good_caller].
Proof.
  split; [vm_compute; reflexivity|]. split; [|vm_compute; reflexivity].
  set (p := pool_run _ _ _). assert (H1 : po_waiting p = []) by (vm_compute; reflexivity).
  assert (H2 : po_threads p = [None; Some half_caller]) by (vm_compute; reflexivity).
  assert (H3 : accept_returns httparse_lib half_caller = None) by (vm_compute; reflexivity).
  clearbody p. intros [i|i]; unfold pool_step; rewrite H2, ?H1; destruct i as [|[|i]]; cbn [nth_error]; rewrite ?H3;
    try reflexivity; destruct i; reflexivity.
Qed.
EX*)

(** [C74] So the promise that a caller is served whatever others do is not kept: with the server
    in one thread, as in the examples and the documentation, one caller that says nothing is
    enough; all others, however many come and however long they wait, get no answer. *)
Lemma others_matter_refuted_proof : exists X mute good u,
  accept_returns X good = Some (Ok u) /\ falls_silent [] mute /\
  forall callers es, ~ In good (map fst (po_given (pool_run X (pool_new 1 (mute :: good :: callers)) es))) /\
    po_given (pool_run X (pool_new 1 (mute :: good :: callers)) es) = [].
Proof.
  destruct (accept_returns httparse_lib good_caller) as [[u|e| |]|] eqn:EG; try (vm_compute in EG; discriminate EG).
  exists httparse_lib, mute_caller, good_caller, u. split; [exact EG|].
  split; [exists [], (mk_w [] []); split; reflexivity|]. intros callers es.
  destruct (pool_stopped_proof httparse_lib 1 [mute_caller] (good_caller :: callers) es) as [_ HL];
    [apply Nat.eq_le_incl; vm_compute; reflexivity|]. cbn [app length] in HL.
  set (p := pool_run httparse_lib (pool_new 1 (mute_caller :: good_caller :: callers)) es) in *.
  assert (HG : po_given p = []).
  { destruct (po_given p) as [|g l] eqn:EL; [reflexivity|]. exfalso.
    destruct (pool_accounts_proof httparse_lib 1 (mute_caller :: good_caller :: callers) es) as (taken & H1 & H2 & H3 & _).
    fold p in H1, H2, H3. rewrite EL in H2, H3. cbn [length] in HL.
    destruct l as [|]; [|cbn [length] in HL; lia].
    destruct (held (po_threads p)) as [|]; [|cbn [length] in HL; lia].
    pose proof (Permutation_sym H2) as H4. apply Permutation_length_1_inv in H4. rewrite H4 in H1.
    cbn [app] in H1. assert (EC : fst g = mute_caller) by congruence.
    destruct g as [c r]. cbn [fst] in EC. subst c. specialize (H3 mute_caller r (or_introl eq_refl)).
    vm_compute in H3. discriminate H3. }
  rewrite HG. split; [intro HI; exact HI|reflexivity].
Qed.
