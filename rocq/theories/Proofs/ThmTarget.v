(** The request's Host and Authorization fields, and using a builder again: C52, C53, C54. *)
From Coq Require Import NArith ZArith String Bool List Lia.
From Coq Require Import ZifyBool ZifyNat ZifyN.
From Coq.Strings Require Import Byte.
From Verif.Model Require Import Base Io Utf8 Text Base64 WsKey Headers Handshake Http Connect.
From Verif.Spec Require Import FrameSpec Unicode Rfc4648 Fields Upgrade Builder Target.
From Verif.Proofs Require Import BaseFacts Utf8Facts Base64Facts ThmKeys TextFacts MapFacts ThmServer ThmClient.
Import ListNotations.
Local Open Scope string_scope.
Local Open Scope list_scope.
Local Open Scope N_scope.

(** ** Host *)

Lemma digit_byte : forall d, d < 10 -> Byte.to_N (n2b (48 + d)) = 48 + d.
Proof. intros d H. change Byte.to_N with b2n. rewrite b2n_n2b. apply N.mod_small. lia. Qed.
Definition number_from (a : N) (t : bytes) : N := fold_left (fun n b => 10 * n + (Byte.to_N b - 0x30)) t a.
Lemma number_from_len : forall t a, number_from a t = a * 10 ^ N.of_nat (length t) + number t.
Proof.
  induction t as [|b t IH]; intros a; [unfold number, number_from; cbn [fold_left length]; lia|].
  unfold number. change (number_from a (b :: t)) with (number_from (10 * a + (Byte.to_N b - 0x30)) t).
  change (fold_left _ (b :: t) 0) with (number_from (10 * 0 + (Byte.to_N b - 0x30)) t).
  rewrite !IH. cbn [length].
  replace (N.of_nat (S (length t))) with (1 + N.of_nat (length t)) by lia.
  rewrite N.pow_add_r. change (10 ^ 1) with 10. lia.
Qed.
Lemma dec_aux_spec : forall fuel n acc, n < 10 ^ N.of_nat fuel -> (0 < fuel)%nat ->
  exists t, dec_aux fuel n acc = t ++ acc /\ numeral t n.
Proof.
  induction fuel as [|fuel IH]; intros n acc Hn Hf; [lia|]. cbn [dec_aux].
  assert (n mod 10 < 10) as HM by (apply N.mod_lt; lia).
  assert (digit (n2b (48 + n mod 10))) as HD by (unfold digit; rewrite digit_byte by exact HM; lia).
  destruct (N.eqb_spec (n / 10) 0) as [E|E].
  - exists [n2b (48 + n mod 10)]. split; [reflexivity|]. split; [discriminate|].
    split; [constructor; [exact HD|constructor]|]. split.
    + unfold number. cbn [fold_left]. rewrite digit_byte by exact HM.
      pose proof (N.div_mod n 10 ltac:(lia)). lia.
    + generalize (n2b (48 + n mod 10)). intros c H. injection H as ->. reflexivity.
  - assert (fuel <> O) as Hf'.
    { intros ->. change (10 ^ N.of_nat 1) with 10 in Hn. apply E. apply N.div_small. exact Hn. }
    assert (n / 10 < 10 ^ N.of_nat fuel) as Hn'.
    { apply N.div_lt_upper_bound; [lia|]. rewrite <- N.pow_succ_r'.
      replace (N.succ (N.of_nat fuel)) with (N.of_nat (S fuel)) by lia. exact Hn. }
    destruct (IH (n / 10) (n2b (48 + n mod 10) :: acc) Hn' ltac:(lia)) as (t & HT & H1 & H2 & H3 & H4).
    exists (t ++ [n2b (48 + n mod 10)]). split; [rewrite HT, <- app_assoc; reflexivity|]. split; [|split; [|split]].
    + destruct t; discriminate.
    + apply Forall_app. split; [exact H2|]. constructor; [exact HD|constructor].
    + unfold number. rewrite fold_left_app. fold (number t). rewrite H3. cbn [fold_left].
      rewrite digit_byte by exact HM. pose proof (N.div_mod n 10 ltac:(lia)). lia.
    + destruct t as [|c t]; [contradiction|]. cbn [hd_error app]. intros H. apply H4 in H.
      injection H as -> ->. exfalso. apply E. rewrite <- H3. reflexivity.
Qed.
Lemma dec_numeral : forall n, n < 65536 -> numeral (dec n) n.
Proof.
  intros n H. destruct (dec_aux_spec 6 n []) as (t & HT & HN); [|lia|].
  - change (10 ^ N.of_nat 6) with 1000000. lia.
  - unfold dec. rewrite HT, app_nil_r. exact HN.
Qed.
(** [C52] For any history of calls, the request has one Host field, and it names the URL's host
    and its port as RFC 6455 asks, unless the port is 80 or 443. *)
Lemma request_host_proof : forall u cs b rnd host,
  run_calls cs (builder_init u) = Ok b -> u_host u = Some host ->
  (forall p, u_port u = Some p -> p < 65536 /\ p <> 80 /\ p <> 443) ->
  exists v, values (ascii "Host") (fields (b_headers (build_request rnd b))) = [v] /\ host_for u v.
Proof.
  intros u cs b rnd host H HH HP.
  destruct (request_fixed_fields_proof u cs b rnd H) as (_ & _ & HF).
  destruct (HF host HH) as (v & HV & H1 & H2). exists v. split; [exact HV|]. exists host. split; [exact HH|].
  destruct (u_port u) as [p|].
  - destruct (HP p eq_refl) as (Hp & H80 & H443). exists (dec p).
    split; [apply dec_numeral, Hp|]. apply H2; auto.
  - apply H1. auto.
Qed.
(*EX Example request_host_ex :
  let u := mk_url (ascii "ws") (Some (ascii "h")) (Some 8080) [] None (ascii "/") in
  exists b, run_calls [AddProtocol (ascii "p"); CustomHeaders [(ascii "host", Raw [ascii "other"])]] (builder_init u) = Ok b /\
    values (ascii "Host") (fields (b_headers (build_request [] b))) = [ascii "h:8080"].
Proof. eexists. split; reflexivity. Qed. EX*)
(** [C52] Refuted for those two ports: ws://h:443 (and wss://h:80) is asked for with a Host
    field that names no port, which stands for another server. *)
Lemma request_host_refuted_proof : forall host rnd,
  let u := mk_url (ascii "ws") (Some host) (Some 443) [] None (ascii "/") in
  let u' := mk_url (ascii "ws") (Some host) None [] None (ascii "/") in
  let fs := fields (b_headers (build_request rnd (builder_init u))) in
  extract_host_port None u = Ok (host, 443) /\
  (forall v, values (ascii "Host") fs = [v] -> ~ host_for u v /\ host_for u' v) /\
  fs = fields (b_headers (build_request rnd (builder_init u'))).
Proof.
  intros host rnd u u' fs. split; [reflexivity|].
  assert (values (ascii "Host") fs = [host]) as HV by reflexivity.
  split; [|reflexivity]. intros v Hv. rewrite HV in Hv. injection Hv as <-. split.
  - intros (h & Hh & t & HT & E). cbn in Hh. injection Hh as ->.
    apply (f_equal (@length byte)) in E. rewrite !app_length in E. cbn [length] in E.
    change (length (ascii ":")) with 1%nat in E. lia.
  - exists host. split; reflexivity.
Qed.
(*EX Example request_host_refuted_ex :
  values (ascii "Host") (fields (b_headers (build_request [] (builder_init
    (mk_url (ascii "ws") (Some (ascii "h")) (Some 443) [] None (ascii "/")))))) = [ascii "h"].
Proof. reflexivity. Qed. EX*)

(** ** Credentials *)

Lemma decoded_plain : forall s t, ~ In "%"%byte s -> percent_decoded s t -> t = s.
Proof.
  intros s t HN H. induction H; [reflexivity| |].
  - rewrite IHpercent_decoded; [reflexivity|]. intros HI. apply HN. right. exact HI.
  - exfalso. apply HN. left. reflexivity.
Qed.
(** [C53] If the URL names a user, the request has one Authorization field, whatever custom
    headers say: Basic, with user and password as they stand in the URL (an absent password
    being empty). *)
Lemma request_authorization_proof : forall u cs b rnd,
  run_calls cs (builder_init u) = Ok b -> u_user u <> [] ->
  values (ascii "Authorization") (fields (b_headers (build_request rnd b)))
  = [basic (u_user u) (or_else (u_password u) [])].
Proof.
  intros u cs b rnd H HU. destruct (run_url _ _ _ H) as [EU _].
  pose proof (run_unique cs (builder_init u) b unique_nil H) as HN.
  rewrite built_values by exact HN. rewrite built_find, EU. cbn [builder_init b_url] in *.
  change (eq_nocase n_key (ascii "Authorization")) with false.
  change (eq_nocase n_version (ascii "Authorization")) with false.
  change (eq_nocase n_upgrade (ascii "Authorization")) with false.
  change (eq_nocase n_connection (ascii "Authorization")) with false.
  change (eq_nocase n_authorization (ascii "Authorization")) with true.
  rewrite !andb_false_r. destruct (u_user u) as [|c us]; [contradiction|]. cbn [andb].
  cbn [item_lines val_lines]. unfold basic. rewrite encode_rfc. destruct (u_password u); reflexivity.
Qed.
(** [C53] So they are the credentials the URL stands for if it has no percent signs there. *)
Lemma credentials_sent_proof : forall u cs b rnd user password,
  run_calls cs (builder_init u) = Ok b -> u_user u <> [] ->
  ~ In "%"%byte (u_user u) -> ~ In "%"%byte (or_else (u_password u) []) ->
  credentials u user password ->
  values (ascii "Authorization") (fields (b_headers (build_request rnd b))) = [basic user password].
Proof.
  intros u cs b rnd user password H HU N1 N2 [H1 H2].
  rewrite (decoded_plain _ _ N1 H1), (decoded_plain _ _ N2 H2). eapply request_authorization_proof; eassumption.
Qed.
(*EX (** The example of RFC 7617. *)
Example credentials_ex :
  let u := mk_url (ascii "ws") (Some (ascii "h")) None (ascii "Aladdin") (Some (ascii "opensesame")) (ascii "/") in
  values (ascii "Authorization") (fields (b_headers (build_request [] (builder_init u))))
  = [ascii "Basic QWxhZGRpbjpvcGVuc2VzYW1l"].
Proof. reflexivity. Qed. EX*)
(** [C53] Refuted otherwise: percent-encoding is not undone, so for a password with an "@" (which
    a URL can only have encoded) other credentials are sent. *)
Lemma credentials_sent_refuted_proof : exists u user password,
  credentials u user password /\ u_user u <> [] /\
  forall rnd, exists v,
    values (ascii "Authorization") (fields (b_headers (build_request rnd (builder_init u)))) = [v] /\
    v <> basic user password.
Proof.
  exists (mk_url (ascii "ws") (Some (ascii "h")) None (ascii "u") (Some (ascii "p%40ss")) (ascii "/")),
    (ascii "u"), (ascii "p@ss"). split; [|split; [discriminate|]].
  - split.
    + apply pd_char; [discriminate|constructor].
    + apply pd_char; [discriminate|]. eapply pd_escape; [reflexivity|reflexivity|reflexivity|].
      apply pd_char; [discriminate|]. apply pd_char; [discriminate|]. constructor.
  - intros rnd. eexists. split; [reflexivity|]. vm_compute. discriminate.
Qed.
(** [C53] Without a user in the URL the field is what custom headers say; a password alone is
    not sent. *)
Lemma no_user_no_authorization_proof : forall u cs b rnd,
  run_calls cs (builder_init u) = Ok b -> u_user u = [] ->
  values (ascii "Authorization") (fields (b_headers (build_request rnd b)))
  = values (ascii "Authorization") (fields (b_headers b)).
Proof.
  intros u cs b rnd H HU. destruct (run_url _ _ _ H) as [EU _].
  pose proof (run_unique cs (builder_init u) b unique_nil H) as HN.
  rewrite built_values by exact HN. rewrite built_find, EU. cbn [builder_init b_url] in *.
  change (eq_nocase n_key (ascii "Authorization")) with false.
  change (eq_nocase n_version (ascii "Authorization")) with false.
  change (eq_nocase n_upgrade (ascii "Authorization")) with false.
  change (eq_nocase n_connection (ascii "Authorization")) with false.
  change (eq_nocase n_host (ascii "Authorization")) with false.
  rewrite !andb_false_r, HU. cbn [andb]. rewrite values_fields by exact HN.
  destruct (u_host u); reflexivity.
Qed.
(*EX Example no_user_ex :
  exists b, run_calls [CustomHeaders [(ascii "authorization", Raw [ascii "Bearer x"])]]
    (builder_init (mk_url (ascii "ws") None None [] (Some (ascii "pw")) (ascii "/"))) = Ok b /\
  values (ascii "Authorization") (fields (b_headers (build_request [] b))) = [ascii "Bearer x"].
Proof. eexists. split; reflexivity. Qed. EX*)

(** ** Using a builder again *)

Fixpoint nset (n : bytes) (l : list bytes) : list bytes :=
  match l with
  | [] => [n]
  | m :: l' => if eq_nocase m n then n :: l' else m :: nset n l'
  end.
Lemma names_hset : forall n i h, map fst (hset n i h) = nset n (map fst h).
Proof.
  induction h as [|[m j] h IH]; [reflexivity|]. cbn [hset map fst nset].
  destruct (eq_nocase m n); cbn [map fst]; rewrite ?IH; reflexivity.
Qed.
(** [n] is in [l], spelt exactly so, before any other spelling. *)
Fixpoint has (n : bytes) (l : list bytes) : Prop :=
  match l with
  | [] => False
  | m :: l' => if eq_nocase m n then m = n else has n l'
  end.
Lemma nset_has : forall n l, has n (nset n l).
Proof.
  intros n l. induction l as [|m l IH]; cbn [nset has].
  - rewrite eq_nocase_refl. reflexivity.
  - destruct (eq_nocase m n) eqn:E; cbn [has]; [rewrite eq_nocase_refl; reflexivity|]. rewrite E. exact IH.
Qed.
Lemma nset_keep : forall n m l, eq_nocase m n = false -> has n l -> has n (nset m l).
Proof.
  intros n m l E. induction l as [|x l IH]; cbn [nset has]; [contradiction|].
  destruct (eq_nocase x n) eqn:EX; intros H.
  - subst x. destruct (eq_nocase n m) eqn:ENM; cbn [has]; [|rewrite EX; reflexivity].
    exfalso. apply eq_nocase_iff in ENM. unfold same_name in ENM.
    assert (eq_nocase m n = true) by (apply eq_nocase_iff; unfold same_name; congruence). congruence.
  - destruct (eq_nocase x m) eqn:EM; cbn [has].
    + rewrite E. exact H.
    + rewrite EX. apply IH, H.
Qed.
Lemma has_nset : forall n l, has n l -> nset n l = l.
Proof.
  induction l as [|m l IH]; cbn [has nset]; [contradiction|].
  destruct (eq_nocase m n); [intros ->; reflexivity|]. intros H. rewrite IH by exact H. reflexivity.
Qed.
Lemma maps_equal : forall h h', map fst h = map fst h' -> unique_names h ->
  (forall n, hfind n h = hfind n h') -> h = h'.
Proof.
  induction h as [|[n i] h IH]; intros [|[n' i'] h'] HN HU HF; try discriminate HN; [reflexivity|].
  cbn [map fst] in HN. assert (n = n') as <- by congruence.
  assert (map fst h = map fst h') as HM by congruence.
  assert (i = i') as <-.
  { specialize (HF n). cbn [hfind] in HF. rewrite eq_nocase_refl in HF. congruence. }
  f_equal. unfold unique_names in HU. cbn [map fst] in HU. inversion HU as [|? ? HI HU']; subst.
  apply IH; [exact HM|exact HU'|]. intros m. specialize (HF m). cbn [hfind] in HF.
  destruct (eq_nocase n m) eqn:E; [|exact HF].
  assert (forall g, map fst g = map fst h -> hfind m g = None) as HZ.
  { intros g Hg. apply hfind_none. apply eq_nocase_iff in E. unfold same_name in E.
    clear - Hg HI E. revert h Hg HI. induction g as [|[x j] g IH]; intros [|[y k] h] Hg HI; try discriminate Hg; [constructor|].
    cbn [map fst] in Hg. assert (x = y) as <- by congruence. cbn [map fst In] in HI.
    constructor; [unfold same_name; intros H; apply HI; left; cbn [fst] in H; congruence|].
    apply (IH h); [congruence|tauto]. }
  rewrite (HZ h eq_refl), (HZ h' (eq_sym HM)). reflexivity.
Qed.
(** The names [build_request] sets. *)
Definition built_names (b : builder) : list bytes :=
  (match u_host (b_url b) with Some _ => [n_host] | None => [] end)
  ++ (match u_user (b_url b) with [] => [] | _ => [n_authorization] end)
  ++ [n_connection; n_upgrade] ++ (if b_version_set b then [] else [n_version])
  ++ (if b_key_set b then [] else [n_key]).
Lemma built_name_list : forall rnd b,
  map fst (b_headers (build_request rnd b)) = fold_left (fun l n => nset n l) (built_names b) (map fst (b_headers b)).
Proof.
  intros rnd b. unfold build_request, built_names. cbn [with_headers b_headers].
  destruct (u_host (b_url b)), (u_user (b_url b)), (b_version_set b), (b_key_set b);
    cbn [app fold_left]; rewrite !names_hset; reflexivity.
Qed.
Definition apart (ns : list bytes) : Prop := ForallOrdPairs (fun a b => eq_nocase a b = false /\ eq_nocase b a = false) ns.
Lemma fold_has : forall ns l n, (In n ns \/ has n l) ->
  apart ns -> (~ In n ns -> Forall (fun m => eq_nocase m n = false) ns) ->
  has n (fold_left (fun l n => nset n l) ns l).
Proof.
  induction ns as [|m ns IH]; intros l n H HA HF; cbn [fold_left]; [destruct H; [contradiction|assumption]|].
  inversion HA as [|? ? HM HA']; subst.
  destruct (list_eq_dec Byte.byte_eq_dec m n) as [->|Hne].
  - clear H HF. assert (has n (nset n l)) as H by apply nset_has. revert H. generalize (nset n l). clear IH HA HA' l.
    induction HM as [|m ns [H1 H2] HM IH]; intros l H; cbn [fold_left]; [exact H|]. apply IH. apply nset_keep; assumption.
  - apply IH; [|exact HA'|].
    + destruct H as [[H|H]|H]; [contradiction|auto|].
      destruct (in_dec (list_eq_dec Byte.byte_eq_dec) n ns) as [HI|HI]; [auto|]. right. apply nset_keep; [|exact H].
      assert (~ In n (m :: ns)) as HX by (intros [X|X]; contradiction).
      specialize (HF HX). inversion HF. assumption.
    + intros HI. assert (~ In n (m :: ns)) as HX by (intros [X|X]; contradiction).
      specialize (HF HX). inversion HF. assumption.
Qed.
Lemma built_apart : forall b, apart (built_names b).
Proof.
  intros b. unfold built_names, apart.
  destruct (u_host (b_url b)), (u_user (b_url b)), (b_version_set b), (b_key_set b); cbn [app];
    repeat (apply FOP_cons; [repeat (constructor; [split; reflexivity|]); constructor|]); apply FOP_nil.
Qed.
Lemma fold_fixed : forall ns l, (forall n, In n ns -> has n l) -> fold_left (fun l n => nset n l) ns l = l.
Proof.
  induction ns as [|n ns IH]; intros l H; cbn [fold_left]; [reflexivity|].
  rewrite has_nset by (apply H; left; reflexivity). apply IH. intros m Hm. apply H. right. exact Hm.
Qed.
Lemma build_again : forall r1 r2 b, unique_names (b_headers b) ->
  build_request r2 (build_request r1 b) = build_request r2 b.
Proof.
  intros r1 r2 b HU.
  assert (b_headers (build_request r2 (build_request r1 b)) = b_headers (build_request r2 b)) as HE.
  { apply maps_equal.
    - rewrite (built_name_list r2 (build_request r1 b)).
      change (built_names (build_request r1 b)) with (built_names b).
      rewrite (built_name_list r1 b), (built_name_list r2 b).
      apply fold_fixed. intros n Hn. apply fold_has; [left; exact Hn|apply built_apart|tauto].
    - apply built_unique, built_unique, HU.
    - intros n. rewrite (built_find r2 (build_request r1 b)), (built_find r1 b), (built_find r2 b).
      cbn [build_request with_headers b_key_set b_version_set b_url].
      destruct (b_key_set b), (b_version_set b), (u_user (b_url b)), (u_host (b_url b)); cbn [negb andb];
      repeat match goal with |- context [if ?x then _ else _] => destruct x end; reflexivity. }
  unfold build_request in *. cbn [with_headers b_headers] in *. unfold with_headers in *.
  cbn [b_url b_version b_version_set b_key_set b_max_df b_max_msg b_headers] in *. rewrite HE. reflexivity.
Qed.
(** [C54] A builder can be used again: after any connection attempt, whatever its outcome,
    connecting writes and does exactly what a builder never used would with the same random
    key; nothing of the first request is left over. *)
Lemma connect_again_proof : forall X u cs b r1 r2 s1 w1 s2 w2,
  run_calls cs (builder_init u) = Ok b ->
  let b' := snd (fst (connect_on X r1 b s1 w1)) in
  connect_on X r2 b' s2 w2 = connect_on X r2 b s2 w2.
Proof.
  intros X u cs b r1 r2 s1 w1 s2 w2 H b'.
  pose proof (run_unique cs (builder_init u) b unique_nil H) as HU.
  assert (b' = build_request r1 b) as ->.
  { unfold b', connect_on. destruct (print_request (build_request r1 b)); try reflexivity.
    destruct (write_all a w1) as [[[]| k| |] w']; try reflexivity.
    destruct (parse_response X s1) as [[[resp|e| |] buf] s']; try reflexivity.
    destruct (client_validate (build_request r1 b) resp); reflexivity. }
  unfold connect_on. rewrite (build_again r1 r2 b HU). reflexivity.
Qed.
(** [C54] In particular, unless the caller fixed a key, each attempt sends its own random key. *)
Lemma fresh_key_each_time_proof : forall X u cs b r1 r2 s1 w1,
  Forall (leaves_alone (ascii "Sec-WebSocket-Key")) cs -> run_calls cs (builder_init u) = Ok b ->
  asked_key (List.rev cs) = None ->
  let b' := snd (fst (connect_on X r1 b s1 w1)) in
  values (ascii "Sec-WebSocket-Key") (fields (b_headers (build_request r2 b'))) = [base64_text r2].
Proof.
  intros X u cs b r1 r2 s1 w1 HL H HK b'.
  pose proof (run_unique cs (builder_init u) b unique_nil H) as HU.
  assert (b' = build_request r1 b) as ->.
  { unfold b', connect_on. destruct (print_request (build_request r1 b)); try reflexivity.
    destruct (write_all a w1) as [[[]| k| |] w']; try reflexivity.
    destruct (parse_response X s1) as [[[resp|e| |] buf] s']; try reflexivity.
    destruct (client_validate (build_request r1 b) resp); reflexivity. }
  rewrite (build_again r1 r2 b HU). rewrite (request_key_proof u cs b r2 HL H), HK. reflexivity.
Qed.
(*EX (** A connection that fails because the server says nothing; then another attempt. *)
Example connect_again_ex :
  let u := mk_url (ascii "ws") (Some (ascii "h")) None [] None (ascii "/") in
  exists b, run_calls [AddProtocol (ascii "p")] (builder_init u) = Ok b /\
  b_headers (build_request (ascii "the sample nonce") (build_request (ascii "another nonce 16") b))
  = b_headers (build_request (ascii "the sample nonce") b) /\
  values (ascii "Sec-WebSocket-Key") (fields (b_headers (build_request (ascii "the sample nonce") b)))
  = [ascii "dGhlIHNhbXBsZSBub25jZQ=="].
Proof. eexists. split; [reflexivity|]. split; reflexivity. Qed. EX*)
