(** Facts about the header map, and about parsing header lines. *)
From Coq Require Import NArith ZArith String Bool List Lia.
From Coq Require Import ZifyBool ZifyNat ZifyN.
From Coq.Strings Require Import Byte.
From Verif.Model Require Import Base Utf8 Text Base64 WsKey Headers Handshake.
From Verif.Spec Require Import FrameSpec Unicode Rfc4648 Fields Upgrade.
From Verif.Proofs Require Import BaseFacts Utf8Facts Base64Facts ThmKeys TextFacts.
Import ListNotations.
Local Open Scope string_scope.
Local Open Scope list_scope.
Local Open Scope N_scope.

(** ** The map *)
Lemma hfind_set : forall m n i h,
  hfind m (hset n i h) = if eq_nocase n m then Some i else hfind m h.
Proof.
  intros m n i. induction h as [|[x j] h IH]; cbn [hset hfind].
  - destruct (eq_nocase n m); reflexivity.
  - destruct (eq_nocase x n) eqn:E; cbn [hfind].
    + destruct (eq_nocase n m) eqn:E2; [reflexivity|].
      replace (eq_nocase x m) with false; [reflexivity|]. symmetry.
      apply eq_nocase_iff in E. apply eq_nocase_false in E2. apply eq_nocase_false.
      unfold same_name in *. congruence.
    + destruct (eq_nocase x m) eqn:E3.
      * replace (eq_nocase n m) with false; [reflexivity|]. symmetry.
        apply eq_nocase_iff in E3. apply eq_nocase_false in E. apply eq_nocase_false.
        unfold same_name in *. congruence.
      * exact IH.
Qed.
Lemma hfind_remove_other : forall m n h, eq_nocase n m = false -> hfind m (hremove n h) = hfind m h.
Proof.
  intros m n h H. induction h as [|[x j] h IH]; [reflexivity|]. cbn [hremove hfind].
  destruct (eq_nocase x n) eqn:E; cbn [hfind].
  - replace (eq_nocase x m) with false; [reflexivity|]. symmetry.
    apply eq_nocase_iff in E. apply eq_nocase_false in H. apply eq_nocase_false.
    unfold same_name in *. congruence.
  - rewrite IH. reflexivity.
Qed.
Lemma hfind_none : forall n h, hfind n h = None <-> unset n h.
Proof.
  intros n. induction h as [|[x j] h IH]; cbn [hfind]; [split; [constructor|reflexivity]|].
  destruct (eq_nocase x n) eqn:E.
  - split; [discriminate|]. intros H. inversion H. apply eq_nocase_iff in E. contradiction.
  - rewrite IH. apply eq_nocase_false in E. split; intros H.
    + constructor; assumption.
    + inversion H; assumption.
Qed.
Lemma hfind_some : forall n i h, hfind n h = Some i <-> stored n i h.
Proof.
  intros n i. induction h as [|[x j] h IH]; cbn [hfind]; [split; [discriminate|intros H; inversion H]|].
  destruct (eq_nocase x n) eqn:E.
  - apply eq_nocase_iff in E. split; intros H.
    + injection H as ->. constructor. exact E.
    + inversion H; subst; [reflexivity|contradiction].
  - apply eq_nocase_false in E. rewrite IH. split; intros H.
    + constructor; assumption.
    + inversion H; subst; [contradiction|assumption].
Qed.
Lemma hfind_cong : forall m n h, eq_nocase m n = true -> hfind m h = hfind n h.
Proof.
  intros m n h H. induction h as [|[x j] h IH]; [reflexivity|]. cbn [hfind].
  rewrite (eq_nocase_cong x m n H), IH. reflexivity.
Qed.
Lemma hfind_update : forall m n i h,
  hfind m (hupdate n i h) = if eq_nocase n m then (if hhas n h then Some i else None) else hfind m h.
Proof.
  intros m n i. unfold hhas. induction h as [|[x j] h IH]; cbn [hupdate hfind].
  - destruct (eq_nocase n m); reflexivity.
  - destruct (eq_nocase x n) eqn:E; cbn [hfind].
    + apply eq_nocase_iff in E. destruct (eq_nocase n m) eqn:E2.
      * apply eq_nocase_iff in E2. replace (eq_nocase x m) with true; [reflexivity|].
        symmetry. apply eq_nocase_iff. unfold same_name in *. congruence.
      * apply eq_nocase_false in E2. replace (eq_nocase x m) with false; [reflexivity|].
        symmetry. apply eq_nocase_false. unfold same_name in *. congruence.
    + apply eq_nocase_false in E. destruct (eq_nocase x m) eqn:E3.
      * apply eq_nocase_iff in E3. replace (eq_nocase n m) with false; [reflexivity|].
        symmetry. apply eq_nocase_false. unfold same_name in *. congruence.
      * exact IH.
Qed.

(** Names up to case. *)
Definition cname (p : bytes * item) : bytes := map upcase (fst p).
Lemma hset_names : forall n i h,
  map cname (hset n i h) = map cname h \/
  (map cname (hset n i h) = map cname h ++ [map upcase n] /\ ~ In (map upcase n) (map cname h)).
Proof.
  intros n i. induction h as [|[x j] h IH]; cbn [hset map]; [right; auto|].
  destruct (eq_nocase x n) eqn:E.
  - apply eq_nocase_iff in E. left. cbn [map]. unfold cname at 1 3. cbn [fst]. unfold same_name in E. congruence.
  - apply eq_nocase_false in E. cbn [map]. destruct IH as [IH|[IH HN]]; [left; congruence|right].
    split; [rewrite IH; reflexivity|]. intros [H|H]; [|auto]. apply E. exact H.
Qed.
Lemma unique_set : forall n i h, unique_names h -> unique_names (hset n i h).
Proof.
  intros n i h H. change (NoDup (map cname (hset n i h))). change (NoDup (map cname h)) in H.
  destruct (hset_names n i h) as [E|[E HN]]; rewrite E; [exact H|].
  apply NoDup_rev in H. rewrite <- (rev_involutive (_ ++ _)). apply NoDup_rev.
  rewrite rev_app_distr. cbn [List.rev app]. constructor; [|exact H]. rewrite <- in_rev. exact HN.
Qed.
Lemma hremove_incl : forall n h x, In x (hremove n h) -> In x h.
Proof.
  intros n. induction h as [|[m j] h IH]; intros x H; [exact H|]. cbn [hremove] in H.
  destruct (eq_nocase m n); [right; exact H|]. destruct H as [H|H]; [left; exact H|right; auto].
Qed.
Lemma unique_remove : forall n h, unique_names h -> unique_names (hremove n h).
Proof.
  intros n. unfold unique_names. induction h as [|[m j] h IH]; intros H; [exact H|].
  cbn [hremove map] in *. inversion H as [|? ? H1 H2]; subst.
  destruct (eq_nocase m n); [exact H2|]. cbn [map]. constructor; [|apply IH, H2].
  intros HI. apply H1. apply in_map_iff in HI as (x & E & HI). apply in_map_iff. exists x.
  split; [exact E|]. eapply hremove_incl, HI.
Qed.
Lemma unique_tail : forall p h, unique_names (p :: h) -> unique_names h /\ unset (fst p) h.
Proof.
  intros p h H. unfold unique_names in H. cbn [map] in H. inversion H as [|? ? H1 H2]; subst.
  split; [exact H2|]. apply Forall_forall. intros q Hq E. apply H1. apply in_map_iff. exists q. split; [exact E|exact Hq].
Qed.
Lemma hfind_remove : forall m n h, unique_names h ->
  hfind m (hremove n h) = if eq_nocase n m then None else hfind m h.
Proof.
  intros m n h HU. destruct (eq_nocase n m) eqn:E; [|apply hfind_remove_other, E].
  induction h as [|[x j] h IH]; [reflexivity|]. apply unique_tail in HU as [HU HN]. cbn [fst] in HN.
  cbn [hremove]. destruct (eq_nocase x n) eqn:E2.
  - apply hfind_none. eapply Forall_impl; [|exact HN]. cbn beta. intros p HP HP2. apply HP.
    apply eq_nocase_iff in E. apply eq_nocase_iff in E2. unfold same_name in *. congruence.
  - cbn [hfind]. rewrite (IH HU). replace (eq_nocase x m) with false; [reflexivity|].
    symmetry. apply eq_nocase_false. apply eq_nocase_iff in E. apply eq_nocase_false in E2.
    unfold same_name in *. congruence.
Qed.
Lemma hupdate_names : forall n i h, map cname (hupdate n i h) = map cname h.
Proof.
  intros n i. induction h as [|[x j] h IH]; [reflexivity|]. cbn [hupdate].
  destruct (eq_nocase x n); [reflexivity|]. cbn [map]. rewrite IH. reflexivity.
Qed.
Lemma unique_update : forall n i h, unique_names h -> unique_names (hupdate n i h).
Proof.
  intros n i h H. change (NoDup (map cname (hupdate n i h))). rewrite hupdate_names. exact H.
Qed.
Lemma unique_extend : forall c h, unique_names h -> unique_names (hextend h c).
Proof.
  unfold hextend. induction c as [|p c IH]; intros h H; [exact H|]. cbn [fold_left].
  apply IH, unique_set, H.
Qed.
Lemma unique_nil : unique_names [].
Proof. constructor. Qed.
(** [extend]: the last of the added items wins. *)
Lemma hfind_extend_none : forall n c h, unset n c -> hfind n (hextend h c) = hfind n h.
Proof.
  unfold hextend. intros n c. induction c as [|p c IH]; intros h H; [reflexivity|]. cbn [fold_left].
  inversion H as [|? ? H1 H2]; subst. rewrite (IH _ H2), hfind_set.
  apply eq_nocase_false in H1. rewrite H1. reflexivity.
Qed.
Lemma hfind_extend_some : forall n i c h, unique_names c -> stored n i c ->
  hfind n (hextend h c) = Some i.
Proof.
  intros n i c. induction c as [|p c IH]; intros h HU HS; [inversion HS|].
  apply unique_tail in HU as [HU HN]. unfold hextend. cbn [fold_left]. fold (hextend (hset (fst p) (snd p) h) c).
  inversion HS as [m h' HM|m j h' HM HS']; subst; cbn [fst snd] in *.
  - rewrite hfind_extend_none.
    + rewrite hfind_set. apply eq_nocase_iff in HM. rewrite HM. reflexivity.
    + eapply Forall_impl; [|exact HN]. cbn beta. unfold same_name in *. intros q HQ HQ2. apply HQ. congruence.
  - apply IH; assumption.
Qed.

(** ** Fields *)
Lemma values_app : forall n a b, values n (a ++ b) = values n a ++ values n b.
Proof.
  intros n. induction a as [|[m v] a IH]; intros b; [reflexivity|]. cbn [app values].
  destruct (same_name_dec m n); rewrite IH; reflexivity.
Qed.
Lemma values_lines : forall n m ls,
  values n (map (fun l => (m, l)) ls) = if eq_nocase m n then ls else [].
Proof.
  intros n m. induction ls as [|l ls IH]; cbn [map values].
  - destruct (eq_nocase m n); reflexivity.
  - rewrite IH. destruct (same_name_dec m n) as [H|H].
    + apply eq_nocase_iff in H. rewrite H. reflexivity.
    + apply eq_nocase_false in H. rewrite H. reflexivity.
Qed.
Lemma values_unset : forall n h, unset n h -> values n (fields h) = [].
Proof.
  intros n. induction h as [|[m i] h IH]; intros H; [reflexivity|]. inversion H as [|? ? H1 H2]; subst.
  unfold fields. cbn [flat_map fst snd]. rewrite values_app, values_lines. cbn [fst] in H1.
  apply eq_nocase_false in H1. rewrite H1. apply IH, H2.
Qed.
Lemma values_fields : forall n h, unique_names h ->
  values n (fields h) = match hfind n h with Some i => item_lines i | None => [] end.
Proof.
  intros n. induction h as [|[m i] h IH]; intros H; [reflexivity|].
  apply unique_tail in H as [HU HN]. cbn [fst] in HN. unfold fields. cbn [flat_map fst snd hfind].
  fold (fields h). rewrite values_app, values_lines. destruct (eq_nocase m n) eqn:E.
  - rewrite values_unset; [apply app_nil_r|]. eapply Forall_impl; [|exact HN]. cbn beta.
    apply eq_nocase_iff in E. unfold same_name in *. intros q HQ HQ2. apply HQ. congruence.
  - apply IH, HU.
Qed.

(** ** [from_raw] *)
Lemma happend_names : forall n s h,
  map cname (happend n s h) = map cname h \/
  (map cname (happend n s h) = map cname h ++ [map upcase n] /\ ~ In (map upcase n) (map cname h)).
Proof.
  intros n i. induction h as [|[x j] h IH]; cbn [happend map]; [right; auto|].
  destruct (eq_nocase x n) eqn:E; [left; reflexivity|].
  apply eq_nocase_false in E. cbn [map]. destruct IH as [IH|[IH HN]]; [left; congruence|right].
  split; [rewrite IH; reflexivity|]. intros [H|H]; [|auto]. apply E. exact H.
Qed.
Lemma unique_append : forall n s h, unique_names h -> unique_names (happend n s h).
Proof.
  intros n i h H. change (NoDup (map cname (happend n i h))). change (NoDup (map cname h)) in H.
  destruct (happend_names n i h) as [E|[E HN]]; rewrite E; [exact H|].
  apply NoDup_rev in H. rewrite <- (rev_involutive (_ ++ _)). apply NoDup_rev.
  rewrite rev_app_distr. cbn [List.rev app]. constructor; [|exact H]. rewrite <- in_rev. exact HN.
Qed.
Lemma unique_from_raw : forall fs, unique_names (from_raw fs).
Proof.
  unfold from_raw. intros fs. assert (unique_names []) as H by constructor. revert H.
  generalize (@nil (bytes * item)). induction fs as [|p fs IH]; intros h H; [exact H|].
  cbn [fold_left]. apply IH, unique_append, H.
Qed.
Definition rawmap (h : headers) : Prop := Forall (fun p => exists ls, snd p = Raw ls) h.
Lemma rawmap_append : forall n s h, rawmap h -> rawmap (happend n s h).
Proof.
  intros n s h H. induction H as [|[m i] h [ls E] H IH]; cbn [happend].
  - constructor; [eexists; reflexivity|constructor].
  - cbn [snd] in E. subst i. destruct (eq_nocase m n); (constructor; [eexists; reflexivity|assumption]).
Qed.
Lemma rawmap_from_raw : forall fs, rawmap (from_raw fs).
Proof.
  unfold from_raw. intros fs. assert (rawmap []) as H by constructor. revert H.
  generalize (@nil (bytes * item)). induction fs as [|p fs IH]; intros h H; [exact H|].
  cbn [fold_left]. apply IH, rawmap_append, H.
Qed.
Lemma hfind_append : forall m n s h, rawmap h ->
  hfind m (happend n s h) =
  if eq_nocase n m
  then Some (Raw (match hfind n h with Some (Raw ls) => ls | _ => [] end ++ [s]))
  else hfind m h.
Proof.
  intros m n s h H. induction H as [|[x i] h [ls E] H IH]; cbn [happend hfind].
  - destruct (eq_nocase n m); reflexivity.
  - cbn [snd] in E. subst i. destruct (eq_nocase x n) eqn:E; cbn [hfind].
    + apply eq_nocase_iff in E. destruct (eq_nocase n m) eqn:E2.
      * apply eq_nocase_iff in E2. replace (eq_nocase x m) with true; [reflexivity|].
        symmetry. apply eq_nocase_iff. unfold same_name in *. congruence.
      * apply eq_nocase_false in E2. replace (eq_nocase x m) with false; [reflexivity|].
        symmetry. apply eq_nocase_false. unfold same_name in *. congruence.
    + apply eq_nocase_false in E. destruct (eq_nocase x m) eqn:E3.
      * apply eq_nocase_iff in E3. replace (eq_nocase n m) with false; [reflexivity|].
        symmetry. apply eq_nocase_false. unfold same_name in *. congruence.
      * exact IH.
Qed.
Lemma hfind_from_raw : forall n fs,
  hfind n (from_raw fs) =
  match values n fs with [] => None | vs => Some (Raw (map cut_spaces vs)) end.
Proof.
  intros n fs.
  assert (forall fs h, rawmap h -> hfind n (fold_left (fun h p => happend (fst p) (cut_spaces (snd p)) h) fs h)
    = match hfind n h, values n fs with
      | o, [] => o
      | Some (Raw ls), vs => Some (Raw (ls ++ map cut_spaces vs))
      | _, vs => Some (Raw (map cut_spaces vs))
      end) as HH.
  { clear fs. induction fs as [|[m v] fs IH]; intros h H; cbn [fold_left values].
    - destruct (hfind n h) as [[]|]; reflexivity.
    - rewrite IH by (apply rawmap_append, H). rewrite hfind_append by exact H. cbn [fst snd].
      destruct (same_name_dec m n) as [E|E].
      + apply eq_nocase_iff in E. rewrite E. rewrite (hfind_cong m n h E).
        destruct (hfind n h) as [[ls|t]|] eqn:EF.
        * destruct (values n fs); cbn [map]; [reflexivity|]. rewrite <- app_assoc. reflexivity.
        * destruct (values n fs); reflexivity.
        * destruct (values n fs); reflexivity.
      + apply eq_nocase_false in E. rewrite E. reflexivity. }
  unfold from_raw. rewrite HH by constructor. cbn [hfind]. destruct (values n fs); reflexivity.
Qed.
Lemma hget_from_raw : forall (A E : Type) n parse (proj : hval -> option A) fs,
  hget (E := E) n parse proj (from_raw fs)
  = Ok (match values n fs with [] => None | vs => parse (map cut_spaces vs) end).
Proof.
  intros. unfold hget. rewrite hfind_from_raw. destruct (values n fs); reflexivity.
Qed.

(** ** [cut_spaces] *)
Lemma cut_spaces_split : forall s, exists k, s = cut_spaces s ++ repeat x20 k.
Proof.
  induction s as [|b s [k IH]]; [exists 0%nat; reflexivity|]. cbn [cut_spaces].
  destruct (cut_spaces s) as [|c r] eqn:E.
  - destruct (Byte.eqb b x20) eqn:EB.
    + apply eqb_spec in EB as ->. exists (S k). cbn [app repeat] in *. congruence.
    + exists k. cbn [app] in *. congruence.
  - exists k. cbn [app] in *. congruence.
Qed.
Lemma cut_spaces_nil : forall s, cut_spaces s = [] <-> Forall (eq x20) s.
Proof.
  intros s. split.
  - intros H. destruct (cut_spaces_split s) as [k E]. rewrite H in E. cbn [app] in E. rewrite E.
    apply Forall_forall. intros x HX. apply repeat_spec in HX. congruence.
  - induction 1 as [|b s <- H IH]; [reflexivity|]. cbn [cut_spaces]. rewrite IH. reflexivity.
Qed.
Lemma blank_spaces : forall k, blank (repeat x20 k).
Proof.
  induction k as [|k IH]; [apply blank_nil|]. change (repeat x20 (S k)) with ([x20] ++ repeat x20 k).
  apply blank_app; [apply blank_space|exact IH].
Qed.
Lemma trim_cut : forall s, trim (cut_spaces s) = trim s.
Proof.
  intros s. destruct (cut_spaces_split s) as [k E]. rewrite E at 2. symmetry. apply trim_blank_r, blank_spaces.
Qed.
Lemma utf8_spaces : forall s k, utf8_valid (s ++ repeat x20 k) = utf8_valid s.
Proof.
  intros s k. destruct k; [cbn [repeat]; rewrite app_nil_r; reflexivity|]. cbn [repeat].
  rewrite utf8_app_ascii by reflexivity. replace (utf8_valid (repeat x20 k)) with true; [apply andb_true_r|].
  symmetry. apply utf8_ascii_text. apply forallb_forall. intros x HX. apply repeat_spec in HX as ->. reflexivity.
Qed.
Lemma utf8_cut : forall s, utf8_valid (cut_spaces s) = utf8_valid s.
Proof. intros s. destruct (cut_spaces_split s) as [k E]. rewrite E at 2. symmetry. apply utf8_spaces. Qed.

(** ** One value *)
Lemma one_raw_str_cut : forall vs s, one_raw_str (map cut_spaces vs) = Some s <->
  exists v, vs = [v] /\ utf8_text v /\ Exists (fun b => b <> x20) v /\ s = trim v.
Proof.
  intros vs s. split.
  - intros H. destruct vs as [|v [|v' vs]]; cbn [map] in H; try discriminate;
      [|destruct (cut_spaces v); discriminate].
    exists v. split; [reflexivity|]. unfold one_raw_str in H.
    destruct (cut_spaces v) as [|b r] eqn:E; [discriminate|]. rewrite <- E in H.
    rewrite utf8_cut in H. destruct (utf8_valid v) eqn:EU; [|discriminate]. injection H as <-.
    split; [apply utf8_text_iff, EU|]. split; [|apply trim_cut].
    apply neg_Forall_Exists_neg; [intros; apply Byte.byte_eq_dec|]. intros HF.
    assert (cut_spaces v = []) by (apply cut_spaces_nil; eapply Forall_impl; [|exact HF]; cbn; congruence).
    congruence.
  - intros (v & -> & HU & HE & ->). cbn [map]. unfold one_raw_str.
    destruct (cut_spaces v) as [|b r] eqn:E.
    + apply cut_spaces_nil in E. exfalso. apply Exists_exists in HE as (x & HI & HX).
      rewrite Forall_forall in E. apply HX. symmetry. apply E, HI.
    + rewrite <- E, utf8_cut. apply utf8_text_iff in HU. rewrite HU, trim_cut. reflexivity.
Qed.
Lemma exists_non_space : forall v, trim v <> [] -> Exists (fun b => b <> x20) v.
Proof.
  intros v H. apply neg_Forall_Exists_neg; [intros; apply Byte.byte_eq_dec|]. intros HF. apply H.
  assert (cut_spaces v = []) as HC.
  { apply cut_spaces_nil. eapply Forall_impl; [|exact HF]. cbn. congruence. }
  rewrite <- trim_cut, HC. reflexivity.
Qed.
Lemma values_nil_parse : forall (A : Type) (f : list bytes -> option A) vs,
  f [] = None -> match vs with [] => None | _ => f (map cut_spaces vs) end = f (map cut_spaces vs).
Proof. intros A f [|v vs] H; [symmetry; exact H|reflexivity]. Qed.

(** Base64 texts contain no white space. *)
Lemma symbol_black : forall n, n < 64 -> black (symbol n) = true.
Proof.
  intros n H. assert (forall k, (k < 64)%nat -> black (symbol (N.of_nat k)) = true) as HH.
  { intros k Hk. do 64 (destruct k as [|k]; [reflexivity|]). lia. }
  rewrite <- (N2Nat.id n). apply HH. lia.
Qed.
Lemma base64_black : forall l, forallb black (base64_text l) = true.
Proof.
  induction l as [|a|a b|a b c l IH] using list3_ind; [reflexivity| | |].
  - pose proof (b2n_lt a) as HA. rewrite text1. cbn [forallb]. change b64_sym with symbol.
    rewrite !symbol_black by (unfold g1, g2; lia). reflexivity.
  - pose proof (b2n_lt a) as HA. pose proof (b2n_lt b) as HB. rewrite text2. cbn [forallb].
    change b64_sym with symbol. rewrite !symbol_black by (unfold g1, g2, g3; lia). reflexivity.
  - pose proof (b2n_lt a) as HA. pose proof (b2n_lt b) as HB. pose proof (b2n_lt c) as HC.
    rewrite text3. cbn [forallb].
    change b64_sym with symbol. rewrite !symbol_black by (unfold g1, g2, g3, g4; lia). exact IH.
Qed.
Lemma base64_of_black : forall l t, base64_of l t -> forallb black t = true.
Proof.
  intros l t (p & E & _). pose proof (base64_black l) as H. rewrite E, forallb_app in H.
  apply andb_true_iff in H. apply H.
Qed.

Lemma parse_key_iff : forall fs k, parse_key (map cut_spaces (values n_key fs)) = Some k <-> key_field fs k.
Proof.
  intros fs k. unfold parse_key, key_field, single. split.
  - intros H. destruct (one_raw_str (map cut_spaces (values n_key fs))) as [s|] eqn:E; [|discriminate].
    apply one_raw_str_cut in E as (v & E & HU & HE & ->). cbn [obind] in H.
    destruct (key_from_str (trim v)) as [k'| | |] eqn:EK; try discriminate. injection H as ->.
    apply key_parse_iff_proof in EK as [HL HB]. split; [exact HL|]. exists (trim v).
    split; [exact HB|]. exists v. split; [exact E|]. split; [exact HU|apply padded_trim].
  - intros (HL & t & HB & v & E & HU & HP).
    apply padded_black in HP; [|eapply base64_of_black, HB]. subst t.
    assert (key_from_str (trim v) = Ok k) as EK by (apply key_parse_iff_proof; auto).
    assert (one_raw_str (map cut_spaces (values n_key fs)) = Some (trim v)) as ->.
    { apply one_raw_str_cut. exists v. split; [exact E|]. split; [exact HU|]. split; [|reflexivity].
      apply exists_non_space. intros ET. rewrite ET in EK. discriminate EK. }
    cbn [obind]. rewrite EK. reflexivity.
Qed.
Lemma parse_accept_iff : forall fs k, parse_accept (map cut_spaces (values n_accept fs)) = Some k <-> accept_field fs k.
Proof.
  intros fs k. unfold parse_accept, accept_field, single. split.
  - intros H. destruct (one_raw_str (map cut_spaces (values n_accept fs))) as [s|] eqn:E; [|discriminate].
    apply one_raw_str_cut in E as (v & E & HU & HE & ->). cbn [obind] in H.
    destruct (accept_from_str (trim v)) as [k'| | |] eqn:EK; try discriminate. injection H as ->.
    apply accept_parse_iff_proof in EK as [HL HB]. split; [exact HL|]. exists (trim v).
    split; [exact HB|]. exists v. split; [exact E|]. split; [exact HU|apply padded_trim].
  - intros (HL & t & HB & v & E & HU & HP).
    apply padded_black in HP; [|eapply base64_of_black, HB]. subst t.
    assert (accept_from_str (trim v) = Ok k) as EK by (apply accept_parse_iff_proof; auto).
    assert (one_raw_str (map cut_spaces (values n_accept fs)) = Some (trim v)) as ->.
    { apply one_raw_str_cut. exists v. split; [exact E|]. split; [exact HU|]. split; [|reflexivity].
      apply exists_non_space. intros ET. rewrite ET in EK. discriminate EK. }
    cbn [obind]. rewrite EK. reflexivity.
Qed.
Lemma parse_version_bad : forall fs,
  version_acceptable fs <->
  match parse_version (map cut_spaces (values n_version fs)) with
  | Some (UnknownVersion _) => False
  | _ => True
  end.
Proof.
  intros fs. unfold parse_version, version_acceptable. split.
  - intros H. destruct (one_raw_str (map cut_spaces (values n_version fs))) as [s|] eqn:E; [|exact I].
    apply one_raw_str_cut in E as (v & E & HU & HE & ->). cbn [obind].
    specialize (H v E HU HE). apply padded_black in H; [|reflexivity]. rewrite H. exact I.
  - intros H v E HU HE.
    assert (one_raw_str (map cut_spaces (values n_version fs)) = Some (trim v)) as EO.
    { apply one_raw_str_cut. exists v. auto. }
    rewrite EO in H. cbn [obind] in H. destruct (beqb (trim v) (str "13")) eqn:EB; [|contradiction].
    apply beqb_eq in EB. change (ascii "13") with (str "13"). rewrite <- EB. apply padded_trim.
Qed.

(** ** Lists *)
Lemma element_trim : forall t s, element t s <-> trim s = t.
Proof.
  intros t s. unfold element, bare. split.
  - intros [HP HB]. apply trim_padded; [| |exact HP].
    + intros p r Hp E. assert (p = []) as ->; [|inversion Hp].
      apply (HB p r); [|auto]. apply blank_wtext. rewrite <- (app_nil_r p). constructor; [exact Hp|constructor].
    + intros p r Hp E. assert (p = []) as ->; [|inversion Hp].
      apply (HB p r); [|auto]. apply blank_wtext. rewrite <- (app_nil_r p). constructor; [exact Hp|constructor].
  - intros <-. destruct (trim_spec s) as (HP & B1 & B2). split; [exact HP|].
    intros w r Hw E. apply blank_wtext in Hw. destruct Hw as [|p w Hp Hw]; [reflexivity|]. exfalso.
    destruct E as [E|E].
    + apply (B1 p (w ++ r)); [exact Hp|]. rewrite E, <- app_assoc. reflexivity.
    + assert (exists q w', wchar q /\ p ++ w = w' ++ q) as (q & w' & Hq & EQ).
      { clear E. revert p Hp. induction Hw as [|p' w Hp' Hw IH]; intros p Hp.
        - exists p, []. split; [exact Hp|]. rewrite app_nil_r. reflexivity.
        - destruct (IH p' Hp') as (q & w' & Hq & E). exists q, (p ++ w'). split; [exact Hq|].
          rewrite E, app_assoc. reflexivity. }
      apply (B2 q (r ++ w')); [exact Hq|]. rewrite E, EQ, app_assoc. reflexivity.
Qed.
Lemma element_blank : forall s, element [] s <-> blank s.
Proof. intros. rewrite element_trim. apply trim_blank. Qed.
Lemma split_on_snoc : forall c s w, ~ In c w -> exists ps p,
  split_on c s = ps ++ [p] /\ split_on c (s ++ w) = ps ++ [p ++ w].
Proof.
  intros c. induction s as [|a s IH]; intros w Hw; cbn [app split_on].
  - exists [], []. split; [reflexivity|]. apply split_on_one, Hw.
  - destruct (IH w Hw) as (ps & p & E1 & E2). rewrite E1, E2. destruct (Byte.eqb a c).
    + exists ([] :: ps), p. auto.
    + destruct ps as [|q ps].
      * exists [], (a :: p). auto.
      * exists ((a :: q) :: ps), p. auto.
Qed.
Lemma comma_elements_spaces : forall s k, comma_elements (s ++ repeat x20 k) = comma_elements s.
Proof.
  intros s k. unfold comma_elements.
  destruct (split_on_snoc x2c s (repeat x20 k)) as (ps & p & E1 & E2).
  { intros HI. apply repeat_spec in HI. discriminate. }
  rewrite E1, E2, !map_app. cbn [map]. rewrite trim_blank_r by apply blank_spaces. reflexivity.
Qed.
Lemma comma_elements_cut : forall s, comma_elements (cut_spaces s) = comma_elements s.
Proof. intros s. destruct (cut_spaces_split s) as [k E]. rewrite E at 2. symmetry. apply comma_elements_spaces. Qed.
Lemma comma_delimited_cut : forall vs es, comma_delimited (map cut_spaces vs) = Some es <->
  Forall utf8_text vs /\ es = flat_map comma_elements vs.
Proof.
  induction vs as [|v vs IH]; intros es; cbn [map comma_delimited flat_map].
  - split; [intros H; injection H as <-; auto|]. intros [_ ->]. reflexivity.
  - rewrite utf8_cut, comma_elements_cut. destruct (utf8_valid v) eqn:EU.
    + destruct (comma_delimited (map cut_spaces vs)) as [es'|] eqn:E.
      * destruct (proj1 (IH es') eq_refl) as [HF ->]. apply utf8_text_iff in EU. split.
        -- intros H. injection H as <-. auto.
        -- intros [_ ->]. reflexivity.
      * split; [discriminate|]. intros [HF _]. inversion HF as [|? ? H1 H2]; subst.
        assert (None = Some (flat_map comma_elements vs)) as EE by (apply IH; auto). discriminate.
    + split; [discriminate|]. intros [HF _]. inversion HF as [|? ? H1 H2]; subst.
      apply utf8_text_iff in H1. congruence.
Qed.
Lemma comma_delimited_none : forall vs, comma_delimited (map cut_spaces vs) = None <-> ~ Forall utf8_text vs.
Proof.
  intros vs. destruct (comma_delimited (map cut_spaces vs)) as [es|] eqn:E.
  - apply comma_delimited_cut in E as [H _]. split; [discriminate|tauto].
  - split; [|reflexivity]. intros _ HF.
    assert (comma_delimited (map cut_spaces vs) = Some (flat_map comma_elements vs)) as E2
      by (apply comma_delimited_cut; auto). congruence.
Qed.
Lemma comma_elements_in : forall t v, In t (comma_elements v) <->
  t <> [] /\ exists ps p, pieces v ps /\ In p ps /\ element t p.
Proof.
  intros t v. unfold comma_elements. rewrite filter_In, in_map_iff. split.
  - intros [(p & HT & HI) HN]. split; [destruct t; congruence|].
    exists (split_on x2c v), p. split; [apply pieces_split; reflexivity|]. split; [exact HI|].
    apply element_trim, HT.
  - intros (HN & ps & p & HP & HI & HE). apply pieces_split in HP. subst ps.
    split; [|destruct t; congruence]. exists p. split; [apply element_trim, HE|exact HI].
Qed.
Lemma lists_iff : forall P n fs, ~ P [] ->
  (lists P n fs <-> exists t, In t (flat_map comma_elements (values n fs)) /\ P t).
Proof.
  intros P n fs HN. unfold lists. split.
  - intros (v & ps & p & t & HV & HP & HI & HE & HT). exists t. split; [|exact HT].
    apply in_flat_map. exists v. split; [exact HV|]. apply comma_elements_in.
    split; [intros ->; contradiction|eauto].
  - intros (t & HI & HT). apply in_flat_map in HI as (v & HV & HI).
    apply comma_elements_in in HI as (_ & ps & p & HP & HI & HE). exists v, ps, p, t. auto.
Qed.
Lemma elements_filter : forall vs,
  flat_map comma_elements vs
  = filter (fun t => match t with [] => false | _ => true end) (map trim (concat (map (split_on x2c) vs))).
Proof.
  induction vs as [|v vs IH]; [reflexivity|]. cbn [flat_map map concat]. rewrite map_app, filter_app, IH.
  reflexivity.
Qed.
Lemma filter_single : forall (A : Type) (f : A -> bool) l x,
  filter f l = [x] <-> exists a b, l = a ++ x :: b /\ f x = true /\
    Forall (fun y => f y = false) a /\ Forall (fun y => f y = false) b.
Proof.
  intros A f. assert (forall l, filter f l = [] <-> Forall (fun y => f y = false) l) as H0.
  { induction l as [|y l IH]; cbn [filter]; [split; auto|]. destruct (f y) eqn:E.
    - split; [discriminate|]. intros H. inversion H. congruence.
    - rewrite IH. split; intros H; [constructor; assumption|inversion H; assumption]. }
  induction l as [|y l IH]; intros x; cbn [filter].
  - split; [discriminate|]. intros (a & b & E & _). destruct a; discriminate.
  - destruct (f y) eqn:E.
    + split.
      * intros H. injection H as -> H. apply H0 in H. exists [], l. auto.
      * intros (a & b & EL & HX & HA & HB). destruct a as [|z a]; cbn [app] in EL; injection EL as -> ->.
        -- apply H0 in HB. rewrite HB. reflexivity.
        -- inversion HA. congruence.
    + rewrite IH. split.
      * intros (a & b & -> & HX & HA & HB). exists (y :: a), b. auto.
      * intros (a & b & EL & HX & HA & HB). destruct a as [|z a]; cbn [app] in EL; injection EL as -> ->.
        -- congruence.
        -- inversion HA; subst. exists a, b. auto.
Qed.
Lemma pieces_map : forall vs pss, Forall2 pieces vs pss <-> pss = map (split_on x2c) vs.
Proof.
  induction vs as [|v vs IH]; intros pss.
  - split; [intros H; inversion H; reflexivity|intros ->; constructor].
  - split.
    + intros H. inversion H as [|? ps ? pss' H1 H2]; subst. apply pieces_split in H1. apply IH in H2.
      cbn [map]. rewrite H1, H2. reflexivity.
    + intros ->. cbn [map]. constructor; [apply pieces_split; reflexivity|apply IH; reflexivity].
Qed.
Lemma lists_only_iff : forall P n fs, ~ P [] ->
  (lists_only P n fs <-> exists t, flat_map comma_elements (values n fs) = [t] /\ P t).
Proof.
  intros P n fs HN. unfold lists_only. split.
  - intros (pss & before & p & after & t & HF & EC & HB & HA & HE & HT).
    apply pieces_map in HF. exists t. split; [|exact HT]. rewrite elements_filter, <- HF, EC, map_app.
    cbn [map]. apply element_trim in HE. apply filter_single. exists (map trim before), (map trim after).
    rewrite HE. split; [reflexivity|]. split; [destruct t; [contradiction|reflexivity]|].
    rewrite !Forall_map. split; eapply Forall_impl; try eassumption; cbn beta; intros s Hs;
      apply trim_blank in Hs; rewrite Hs; reflexivity.
  - intros (t & E & HT). rewrite elements_filter in E. apply filter_single in E as (a & b & E & HX & HA & HB).
    apply map_eq_app in E as (before & l2 & EC & EA & EB). destruct l2 as [|p after]; [discriminate|].
    cbn [map] in EB. injection EB as EP EB.
    exists (map (split_on x2c) (values n fs)), before, p, after, t.
    split; [apply pieces_map; reflexivity|]. split; [exact EC|]. subst a b.
    rewrite Forall_map in HA, HB.
    split; [|split; [|split; [apply element_trim, EP|exact HT]]];
      eapply Forall_impl; try eassumption; cbn beta; intros s Hs; apply trim_blank; destruct (trim s); congruence.
Qed.

(** ** Upgrade and Connection *)
Lemma pname_websocket : forall s, pname_of_str s = PWebSocket <-> same_name s (ascii "websocket").
Proof.
  intros s. unfold pname_of_str. rewrite <- eq_nocase_iff. change (ascii "websocket") with (str "websocket").
  destruct (beqb s (str "HTTP")) eqn:E1; [apply beqb_eq in E1 as ->; split; discriminate|].
  destruct (beqb s (str "TLS")) eqn:E2; [apply beqb_eq in E2 as ->; split; discriminate|].
  destruct (beqb s (str "h2c")) eqn:E3; [apply beqb_eq in E3 as ->; split; discriminate|].
  destruct (eq_nocase s (str "websocket")); split; congruence.
Qed.
Lemma no_slash : forall n, same_name n (ascii "websocket") -> ~ In x2f n.
Proof.
  intros n H HI. apply (in_map upcase) in HI. unfold same_name in H. rewrite H in HI. vm_compute in HI.
  decompose [or] HI; try discriminate; contradiction.
Qed.
Lemma proto_websocket : forall t, is_websocket (proto_of_str t) = true <-> names_websocket t.
Proof.
  intros t. unfold proto_of_str, is_websocket, names_websocket.
  destruct (split2 x2f t) as [n v] eqn:E. cbn [pr_name].
  assert ((match pname_of_str n with PWebSocket => true | _ => false end = true) <-> same_name n (ascii "websocket")) as HP.
  { rewrite <- pname_websocket. destruct (pname_of_str n); split; congruence. }
  rewrite HP. clear HP. split.
  - intros H. exists n. split; [exact H|]. apply split2_spec in E as [_ E]. destruct v as [v|].
    + right. exists v. exact E.
    + left. rewrite app_nil_r in E. exact E.
  - intros (m & H & HT).
    assert (exists r, t = m ++ match r with Some r => x2f :: r | None => [] end) as [r ->].
    { destruct HT as [->|[v' ->]]; [exists None; rewrite app_nil_r; reflexivity|exists (Some v'); reflexivity]. }
    rewrite split2_unique in E by (apply no_slash, H). congruence.
Qed.
Lemma proto_websocket_only : forall t,
  upgrade_is_websocket (Some [proto_of_str t]) = true <-> same_name t (ascii "websocket").
Proof.
  intros t. unfold upgrade_is_websocket. rewrite andb_true_iff, proto_websocket. split.
  - intros [(n & H & HT) HV]. destruct HT as [->|[v ->]]; [exact H|]. exfalso. revert HV.
    unfold proto_of_str. change (n ++ ascii "/" ++ v) with (n ++ match Some v with Some r => x2f :: r | None => [] end).
    rewrite split2_unique by (apply no_slash, H). discriminate.
  - intros H. split; [exists t; auto|]. unfold proto_of_str.
    rewrite <- (app_nil_r t). change (t ++ []) with (t ++ match @None bytes with Some r => x2f :: r | None => [] end).
    rewrite split2_unique by (apply no_slash, H). reflexivity.
Qed.
Lemma check_connection_iff : forall es, check_connection_header (map conn_of_str es) = true <->
  exists t, In t es /\ same_name t (ascii "upgrade").
Proof.
  induction es as [|e es IH]; cbn [map]; [split; [discriminate|intros (t & [] & _)]|].
  assert (match conn_of_str e with ConnectionHeader h => eq_nocase h (str "upgrade") | _ => false end
          = eq_nocase e (str "upgrade")) as HE.
  { unfold conn_of_str. destruct (eq_nocase e (str "keep-alive")) eqn:E1.
    - symmetry. apply eq_nocase_iff in E1. apply eq_nocase_false. intros H. unfold same_name in *.
      rewrite E1 in H. discriminate H.
    - destruct (eq_nocase e (str "close")) eqn:E2; [|reflexivity].
      symmetry. apply eq_nocase_iff in E2. apply eq_nocase_false. intros H. unfold same_name in *.
      rewrite E2 in H. discriminate H. }
  assert (check_connection_header (conn_of_str e :: map conn_of_str es)
          = eq_nocase e (str "upgrade") || check_connection_header (map conn_of_str es)) as ->.
  { cbn [check_connection_header]. destruct (conn_of_str e); rewrite <- HE; reflexivity. }
  rewrite orb_true_iff, IH, eq_nocase_iff. change (ascii "upgrade") with (str "upgrade"). split.
  - intros [H|(t & HI & H)]; [exists e; split; [left; reflexivity|exact H]|exists t; split; [right; exact HI|exact H]].
  - intros (t & [<-|HI] & H); [left; exact H|right; exists t; auto].
Qed.
