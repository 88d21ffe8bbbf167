(** The server of examples/parallel-server.rs: C77. *)
From Coq Require Import NArith ZArith String Bool List Lia Permutation.
From Coq Require Import ZifyBool ZifyNat ZifyN.
From Coq.Strings Require Import Byte.
From Verif.Model Require Import Base Io Dataframe Utf8 Message Parallel.
From Verif.Spec Require Import Parallel.
Import ListNotations.
Local Open Scope list_scope.
Local Open Scope N_scope.

(** ** Lists of ids *)
Lemma has_in : forall i l, has i l = true <-> In i l.
Proof.
  intros i l. unfold has. rewrite existsb_exists. split.
  - intros (x & H & E). apply N.eqb_eq in E. subst. exact H.
  - intros H. exists i. split; [exact H|apply N.eqb_refl].
Qed.
Lemma without_perm : forall i l, In i l -> Permutation l (i :: without i l).
Proof.
  intros i l. induction l as [|x l IH]; intros H; [destruct H|]. cbn [without].
  destruct (N.eqb_spec i x) as [->|n]; [apply Permutation_refl|].
  destruct H as [H|H]; [congruence|].
  apply (perm_trans (perm_skip x (IH H))). apply perm_swap.
Qed.
Lemma times_perm : forall i l l', Permutation l l' -> times i l = times i l'.
Proof. intros i l l' H. unfold times. apply (Permutation_count_occ N.eq_dec). exact H. Qed.
Lemma times_cons : forall i x l, times i (x :: l) = ((if N.eqb i x then 1 else 0) + times i l)%nat.
Proof.
  intros i x l. unfold times. cbn [count_occ]. destruct (N.eq_dec x i) as [->|n].
  - rewrite N.eqb_refl. reflexivity.
  - destruct (N.eqb_spec i x); [congruence|reflexivity].
Qed.
Lemma times_app : forall i a b, times i (a ++ b) = (times i a + times i b)%nat.
Proof. intros. unfold times. apply count_occ_app. Qed.
Lemma times_without : forall i x l, In x l -> times i l = ((if N.eqb i x then 1 else 0) + times i (without x l))%nat.
Proof. intros i x l H. rewrite (times_perm i _ _ (without_perm x l H)). apply times_cons. Qed.
Lemma times_nodup : forall l, NoDup l <-> forall i, (times i l <= 1)%nat.
Proof. intros l. apply (NoDup_count_occ N.eq_dec). Qed.
Lemma times_in : forall i l, In i l <-> (0 < times i l)%nat.
Proof. intros. apply (count_occ_In N.eq_dec). Qed.

(** ** Runs *)
Lemma par_run_app : forall a b s, par_run (a ++ b) s = par_run b (par_run a s).
Proof. induction a as [|e a IH]; intros b s; [reflexivity|]. cbn [app par_run]. apply IH. Qed.
Lemma par_down : forall es s, ps_down s <> None -> par_run es s = s.
Proof.
  induction es as [|e es IH]; intros s H; [reflexivity|]. cbn [par_run].
  assert (E : par_step s e = s) by (destruct s as [? ? ? ? ? ? ? ? ? ? ? ? ? ? [d|]]; [reflexivity|cbn in H; congruence]).
  rewrite E. apply IH. exact H.
Qed.
(** A run goes on to the end, or stops at some step and stays there. *)
Lemma par_split : forall es, ps_down (par_run es par_start) = None \/
  exists a e b, es = a ++ e :: b /\ ps_down (par_run a par_start) = None /\
    ps_down (par_step (par_run a par_start) e) <> None /\
    par_run es par_start = par_step (par_run a par_start) e.
Proof.
  induction es as [|e es IH] using rev_ind; [left; reflexivity|].
  destruct IH as [H|(a & e' & b & -> & H1 & H2 & H3)].
  - rewrite par_run_app. cbn [par_run]. destruct (ps_down (par_step (par_run es par_start) e)) eqn:E; [|left; reflexivity].
    right. exists es, e, []. rewrite E. repeat split; auto; congruence.
  - right. exists a, e', (b ++ [e]). split; [rewrite <- app_assoc; reflexivity|]. split; [exact H1|]. split; [exact H2|].
    rewrite par_run_app. rewrite H3. apply (par_down [e]). exact H2.
Qed.

(** ** Where a client's sink is *)
Definition places (s : pserver) : list N := ps_inserting s ++ ps_conns s ++ ps_flight s ++ ps_lost s.
Definition place_inv (s : pserver) : Prop :=
  ps_count s <= 2 ^ 32 - 1 /\
  forall i, times i (places s) = if (1 <=? i) && (i <=? ps_count s) then 1%nat else 0%nat.
Ltac ifs := repeat match goal with
  | |- context [if ?b then _ else _] => destruct b eqn:?
  | H : context [if ?b then _ else _] |- _ => destruct b eqn:?
  end.
Ltac times_norm := unfold places in *; cbn [ps_count ps_inserting ps_conns ps_flight ps_lost ps_greeted ps_msg_tasks ps_sends ps_updates ps_pool_tasks ps_pool ps_current ps_down ps_arrived ps_printed] in *;
  repeat (rewrite ?times_app, ?times_cons in * ).
Lemma place_step : forall s e, place_inv s -> place_inv (par_step s e).
Proof.
  intros [count ins conns pt pool cur arr upd mt sends fl lost gr pr [d|]] e [Hc H]; [exact (conj Hc H)|].
  destruct e; cbn [par_step]; try exact (conj Hc H).
  - unfold counter_next. destruct (N.eqb_spec count (2 ^ 32 - 1)) as [->|n]; [exact (conj Hc H)|].
    split; [cbn [ps_count] in *; lia|]. intros i. specialize (H i). times_norm.
    ifs; lia.
  - destruct (has id ins) eqn:E; [|exact (conj Hc H)]. apply has_in in E.
    split; [exact Hc|]. intros i. specialize (H i). times_norm. rewrite (times_without i id ins E) in H. ifs; lia.
  - destruct (has id pt); exact (conj Hc H).
  - destruct cur as [c|]; [|destruct pool; exact (conj Hc H)].
    destruct (arr c) as [|[m| |] r]; exact (conj Hc H).
  - destruct upd; exact (conj Hc H).
  - destruct (has id mt); exact (conj Hc H).
  - destruct sends as [|id sends]; [exact (conj Hc H)|]. destruct (has id conns) eqn:E; [|exact (conj Hc H)].
    apply has_in in E. split; [exact Hc|]. intros i. specialize (H i). times_norm. rewrite (times_without i id conns E) in H. ifs; lia.
  - destruct (has id fl) eqn:E; [|exact (conj Hc H)]. apply has_in in E.
    destruct ok; (split; [exact Hc|]; intros i; specialize (H i); times_norm; rewrite (times_without i id fl E) in H; ifs; lia).
Qed.
Lemma place_run : forall es s, place_inv s -> place_inv (par_run es s).
Proof. induction es as [|e es IH]; intros s H; [exact H|]. apply IH. apply place_step. exact H. Qed.
Lemma place_start : place_inv par_start.
Proof. split; [cbn; lia|]. intros i. cbn. destruct ((1 <=? i) && (i <=? 0)) eqn:E; [lia|reflexivity]. Qed.

(** [C77] Every client gets an identifier of its own (the first one 1, the second 2, ...), and
    its sink is always in exactly one place: about to be put into the table, in the table, out
    for a send, or dropped because a send failed. *)
Lemma one_place_each_proof : forall es, let s := par_run es par_start in
  let all := ps_inserting s ++ ps_conns s ++ ps_flight s ++ ps_lost s in
  NoDup all /\ (forall i, In i all <-> 1 <= i <= ps_count s) /\ ps_count s <= 2 ^ 32 - 1 /\
  (ps_down s = None -> ps_count s = N.min (handshakes es) (2 ^ 32 - 1)).
Proof.
  intros es s all. destruct (place_run es par_start place_start) as [Hc H]. fold s in Hc, H. fold all in H.
  split; [|split; [|split; [exact Hc|]]].
  - apply times_nodup. intros i. change all with (places s). rewrite H. destruct (_ && _); lia.
  - intros i. rewrite times_in. change all with (places s). rewrite H. destruct (_ && _) eqn:E; lia.
  - clear. subst s. induction es as [|e es IH] using rev_ind; [reflexivity|]. rewrite par_run_app. cbn [par_run].
    intros Hd.
    assert (Hh : handshakes (es ++ [e]) = handshakes es + (match e with Accepted => 1 | _ => 0 end)).
    { clear. induction es as [|x es IH]; [destruct e; reflexivity|]. cbn [app handshakes]. destruct x; rewrite IH; lia. }
    rewrite Hh. destruct (par_run es par_start) as [count ins conns pt pool cur arr upd mt sends fl lost gr pr [d|]]; [cbn in Hd; congruence|].
    specialize (IH eq_refl). cbn [ps_count] in IH.
    destruct e; cbn [par_step] in *.
    + unfold counter_next in *. destruct (N.eqb_spec count (2 ^ 32 - 1)); cbn [ps_count]; lia.
    + destruct (has id ins); cbn [ps_count]; lia.
    + cbn in Hd. congruence.
    + destruct (has id pt); cbn [ps_count]; lia.
    + cbn [ps_count]; lia.
    + destruct cur as [c|]; [|destruct pool; cbn [ps_count]; lia]. destruct (arr c) as [|[m| |] r]; cbn [ps_count]; lia.
    + cbn [ps_count]; lia.
    + destruct upd; cbn [ps_count]; lia.
    + destruct (has id mt); cbn [ps_count]; lia.
    + destruct sends as [|id sends]; [cbn [ps_count]; lia|]. destruct (has id conns); cbn [ps_count]; lia.
    + destruct (has id fl); [destruct ok|]; cbn [ps_count]; lia.
Qed.
(*EX
(** Two clients; the first one's greeting is being sent, the second one is about to be put into
    the table. *)
Example one_place_each_ex :
  let s := par_run [Accepted; Inserted 1; Tick; UpdateRuns; MsgTask 1; SendPolled; Accepted] par_start in
  (ps_inserting s, ps_conns s, ps_flight s, ps_lost s) = ([2], [], [1], []).
Proof. reflexivity. Qed.
EX*)

(** ** What is heard *)
Lemma sends_of_app : forall i a b, sends_of i (a ++ b) = sends_of i a ++ sends_of i b.
Proof.
  intros i a b. induction a as [|e a IH]; [reflexivity|]. destruct e; cbn [app sends_of]; try exact IH.
  destruct (id =? i); [cbn [app]; rewrite IH; reflexivity|exact IH].
Qed.
Lemma texts_msgs : forall ms l, texts_of (map SMsg ms ++ l) = texts_of (map SMsg ms) ++ texts_of l.
Proof. induction ms as [|m ms IH]; intros l; [reflexivity|]. destruct m; cbn [map app texts_of]; rewrite IH; reflexivity. Qed.
Lemma texts_grow : forall l x, exists more, texts_of (l ++ x) = texts_of l ++ more.
Proof.
  induction l as [|[m| |] l IH]; intros x; [exists (texts_of x); reflexivity| |exists []; reflexivity|exists []; reflexivity].
  destruct (IH x) as [more E]. exists more. destruct m; cbn [app texts_of]; rewrite E; reflexivity.
Qed.
Lemma end_stays : forall l x, comes_to_end l = true -> comes_to_end (l ++ x) = true /\ texts_of (l ++ x) = texts_of l.
Proof.
  induction l as [|[m| |] l IH]; intros x H; cbn [comes_to_end] in H; try discriminate; [|split; reflexivity].
  destruct (IH x H) as [E1 E2]. split; [exact E1|]. destruct m; cbn [app texts_of]; rewrite E2; reflexivity.
Qed.
Lemma end_msgs : forall ms r, comes_to_end (map SMsg ms ++ SEnd :: r) = true /\ texts_of (map SMsg ms ++ SEnd :: r) = texts_of (map SMsg ms).
Proof.
  induction ms as [|m ms IH]; intros r; [split; reflexivity|]. destruct (IH r) as [E1 E2].
  split; [exact E1|]. destruct m; cbn [map app texts_of]; rewrite E2; reflexivity.
Qed.

Definition opt_list {A : Type} (o : option A) : list A := match o with Some x => [x] | None => [] end.
(** While the server is up, after the events [es]: which streams are [finished], what was read
    of the current one, and that nothing was read of the others. *)
Definition hear_inv (es : list pevent) (s : pserver) (finished : list N) (heard : list owned) : Prop :=
  ps_down s = None /\
  (forall i, times i (ps_pool_tasks s ++ ps_pool s ++ opt_list (ps_current s) ++ finished)
     = if (1 <=? i) && (i <=? ps_count s) then 1%nat else 0%nat) /\
  Forall (fun i => comes_to_end (sends_of i es) = true) finished /\
  ps_printed s = flat_map (fun i => from i (texts_of (sends_of i es))) finished ++
    match ps_current s with None => [] | Some c => from c (texts_of (map SMsg heard)) end /\
  (forall i, ~ In i finished -> ps_current s <> Some i -> ps_arrived s i = sends_of i es) /\
  (forall c, ps_current s = Some c -> sends_of c es = map SMsg heard ++ ps_arrived s c).

Lemma from_app : forall i a b, from i (a ++ b) = from i a ++ from i b.
Proof. intros. unfold from. apply map_app. Qed.
Lemma finished_stays : forall es x fin, Forall (fun i => comes_to_end (sends_of i es) = true) fin ->
  Forall (fun i => comes_to_end (sends_of i (es ++ x)) = true) fin /\
  flat_map (fun i => from i (texts_of (sends_of i (es ++ x)))) fin = flat_map (fun i => from i (texts_of (sends_of i es))) fin.
Proof.
  intros es x fin H. induction H as [|i fin H _ [IH1 IH2]]; [split; [constructor|reflexivity]|].
  destruct (end_stays _ (sends_of i x) H) as [E1 E2]. cbn [flat_map]. rewrite IH2, !sends_of_app. rewrite E2.
  split; [|reflexivity]. constructor; [rewrite sends_of_app; exact E1|exact IH1].
Qed.
Lemma hear_step : forall es s e fin heard, hear_inv es s fin heard ->
  ps_down (par_step s e) = None -> exists fin' heard', hear_inv (es ++ [e]) (par_step s e) fin' heard'.
Proof.
  intros es [count ins conns pt pool cur arr upd mt sends fl lost gr pr dn] e fin heard (Hd & Ht & Hf & Hp & Ha & Hc) Hd'.
  cbn [ps_down ps_pool_tasks ps_pool ps_current ps_count ps_printed ps_arrived] in *. subst dn.
  destruct (finished_stays es [e] fin Hf) as [Hf2 Hp2].
  (* events that leave the streams alone *)
  assert (Same : forall s', sends_of 0 [e] = [] -> (forall i, sends_of i [e] = []) ->
    ps_down s' = None -> ps_pool_tasks s' = pt -> ps_pool s' = pool -> ps_current s' = cur -> ps_count s' = count ->
    ps_printed s' = pr -> ps_arrived s' = arr -> exists fin' heard', hear_inv (es ++ [e]) s' fin' heard').
  { intros s' _ Hs E1 E2 E3 E4 E5 E6 E7. exists fin, heard. unfold hear_inv. rewrite E1, E2, E3, E4, E5, E6, E7, Hp2.
    repeat split; auto; intros; rewrite sends_of_app, Hs, app_nil_r; auto. }
  destruct e; cbn [par_step] in *; try (apply Same; intros; reflexivity).
  - unfold counter_next in *. destruct (N.eqb_spec count (2 ^ 32 - 1)) as [E|E]; [apply Same; intros; reflexivity|].
    exists fin, heard. unfold hear_inv. cbn [ps_down ps_pool_tasks ps_pool ps_current ps_count ps_printed ps_arrived]. rewrite Hp2.
    split; [reflexivity|]. split; [|split; [exact Hf2|split; [exact Hp|split; intros; rewrite sends_of_app, app_nil_r; auto]]].
    intros i. specialize (Ht i). cbn [app]. rewrite times_cons. ifs; lia.
  - destruct (has id ins); apply Same; intros; reflexivity.
  - cbn in Hd'. discriminate.
  - destruct (has id pt) eqn:E; [|apply Same; intros; reflexivity]. apply has_in in E.
    exists fin, heard. unfold hear_inv. cbn [ps_down ps_pool_tasks ps_pool ps_current ps_count ps_printed ps_arrived]. rewrite Hp2.
    split; [reflexivity|]. split; [|split; [exact Hf2|split; [exact Hp|split; intros; rewrite sends_of_app, app_nil_r; auto]]].
    intros i. rewrite <- (Ht i). rewrite !times_app, (times_without i id pt E). rewrite times_cons. change (times i []) with 0%nat. lia.
  - exists fin, heard. unfold hear_inv. cbn [ps_down ps_pool_tasks ps_pool ps_current ps_count ps_printed ps_arrived]. rewrite Hp2.
    split; [reflexivity|]. split; [exact Ht|]. split; [exact Hf2|]. split; [exact Hp|]. split.
    + intros i H1 H2. rewrite sends_of_app. cbn [sends_of]. rewrite (N.eqb_sym id i). rewrite (Ha i H1 H2).
      destruct (i =? id); [reflexivity|]. rewrite app_nil_r. reflexivity.
    + intros c Ec. rewrite sends_of_app, (Hc c Ec). cbn [sends_of]. rewrite (N.eqb_sym id c).
      destruct (c =? id); [rewrite app_assoc; reflexivity|]. rewrite app_nil_r. reflexivity.
  - destruct cur as [c|].
    + specialize (Hc c eq_refl). destruct (arr c) as [|[m| |] r] eqn:Ea.
      * apply Same; intros; reflexivity.
      * exists fin, (heard ++ [m]). unfold hear_inv. cbn [ps_down ps_pool_tasks ps_pool ps_current ps_count ps_printed ps_arrived]. rewrite Hp2.
        split; [reflexivity|]. split; [exact Ht|]. split; [exact Hf2|]. split; [|split].
        -- rewrite Hp, <- app_assoc. f_equal. rewrite map_app, texts_msgs, from_app. f_equal. destruct m; reflexivity.
        -- intros i H1 H2. rewrite sends_of_app, app_nil_r. destruct (N.eqb_spec i c) as [->|n]; [congruence|]. apply Ha; congruence.
        -- intros c' Ec. assert (c' = c) by congruence. subst c'. rewrite N.eqb_refl. rewrite sends_of_app, app_nil_r, Hc.
           rewrite map_app, <- app_assoc. reflexivity.
      * exists (fin ++ [c]), []. unfold hear_inv. cbn [ps_down ps_pool_tasks ps_pool ps_current ps_count ps_printed ps_arrived opt_list].
        destruct (end_msgs heard r) as [E1 E2]. rewrite <- Hc in E1, E2.
        split; [reflexivity|]. split; [|split; [|split; [|split]]].
        -- intros i. rewrite <- (Ht i). cbn [opt_list app]. rewrite !times_app, times_cons. change (times i [c]) with (times i (c :: [])).
           rewrite times_cons. change (times i []) with 0%nat. rewrite ?times_app. lia.
        -- apply Forall_app. split; [exact Hf2|]. constructor; [|constructor]. rewrite sends_of_app, app_nil_r. exact E1.
        -- rewrite app_nil_r, flat_map_app, Hp2, Hp. f_equal. cbn [flat_map]. rewrite app_nil_r, sends_of_app, app_nil_r. rewrite E2. reflexivity.
        -- intros i H1 _. rewrite sends_of_app, app_nil_r. destruct (N.eqb_spec i c) as [->|n].
           ++ exfalso. apply H1. apply in_or_app. right. left. reflexivity.
           ++ apply Ha; [intros H; apply H1; apply in_or_app; left; exact H|congruence].
        -- discriminate.
      * cbn in Hd'. discriminate.
    + destruct pool as [|c pool]; [apply Same; intros; reflexivity|].
      exists fin, []. unfold hear_inv. cbn [ps_down ps_pool_tasks ps_pool ps_current ps_count ps_printed ps_arrived opt_list]. rewrite Hp2.
      assert (Hn : ~ In c fin).
      { intros H. apply times_in in H. specialize (Ht c). cbn [opt_list app] in Ht. rewrite !times_app, times_cons, N.eqb_refl, times_app in Ht.
        destruct (_ && _); lia. }
      split; [reflexivity|]. split; [|split; [exact Hf2|split; [exact Hp|split]]].
      * intros i. rewrite <- (Ht i). cbn [opt_list app]. rewrite !times_app, !times_cons, times_app. lia.
      * intros i H1 H2. rewrite sends_of_app, app_nil_r. apply Ha; [exact H1|discriminate].
      * intros c' Ec. assert (c' = c) by congruence. subst c'. rewrite sends_of_app, app_nil_r. cbn [map app]. symmetry. apply Ha; [exact Hn|discriminate].
  - destruct upd; apply Same; intros; reflexivity.
  - destruct (has id mt); apply Same; intros; reflexivity.
  - destruct sends as [|id sends]; [apply Same; intros; reflexivity|]. destruct (has id conns); [apply Same; intros; reflexivity|]. cbn in Hd'. discriminate.
  - destruct (has id fl); [destruct ok|]; apply Same; intros; reflexivity.
Qed.
Lemma hear_run : forall es, ps_down (par_run es par_start) = None -> exists fin heard, hear_inv es (par_run es par_start) fin heard.
Proof.
  induction es as [|e es IH] using rev_ind; intros H.
  - exists [], []. repeat split; try constructor; try discriminate. intros i. cbn. destruct ((1 <=? i) && (i <=? 0)) eqn:E; [lia|reflexivity].
  - rewrite par_run_app in *. cbn [par_run] in *.
    assert (Hd : ps_down (par_run es par_start) = None).
    { destruct (ps_down (par_run es par_start)) eqn:E; [|reflexivity]. exfalso.
      assert (E2 := par_down [e] (par_run es par_start)). cbn [par_run] in E2. rewrite E2 in H; congruence. }
    destruct (IH Hd) as (fin & heard & Hi). apply (hear_step es _ e fin heard Hi H).
Qed.
(** The step that brings the server down prints nothing and changes no stream. *)
Lemma down_step : forall s e, ps_down s = None -> ps_down (par_step s e) <> None ->
  ps_printed (par_step s e) = ps_printed s /\ ps_current (par_step s e) = ps_current s.
Proof.
  intros [count ins conns pt pool cur arr upd mt sends fl lost gr pr dn] e Hd Hd'. cbn [ps_down] in Hd. subst dn.
  destruct e; cbn [par_step] in *; try (cbn in Hd'; congruence); try (split; reflexivity).
  - destruct (counter_next count) as [[? ?]|]; split; reflexivity.
  - destruct (has id ins); split; reflexivity.
  - destruct (has id pt); split; reflexivity.
  - destruct cur as [c|]; [|destruct pool; cbn in Hd'; congruence]. destruct (arr c) as [|[m| |] r]; cbn in Hd'; try congruence. split; reflexivity.
  - destruct upd; split; reflexivity.
  - destruct (has id mt); split; reflexivity.
  - destruct sends as [|id sends]; [split; reflexivity|]. destruct (has id conns); split; reflexivity.
  - destruct (has id fl); [destruct ok|]; split; reflexivity.
Qed.

(** [C77] The server hears its clients one after another: what it prints is, for some clients
    whose streams have come to their end, everything each of them sent, one whole client after
    the other, and then a beginning of what one further client sent. *)
Lemma heard_in_turn_proof : forall es, let s := par_run es par_start in
  exists finished last,
  NoDup (finished ++ match ps_current s with Some c => [c] | None => [] end) /\
  Forall (fun i => comes_to_end (sends_of i es) = true) finished /\
  ps_printed s = flat_map (fun i => from i (texts_of (sends_of i es))) finished ++ last /\
  match ps_current s with
  | None => last = []
  | Some c => exists ts more, last = from c ts /\ texts_of (sends_of c es) = ts ++ more
  end.
Proof.
  assert (Up : forall es x, ps_down (par_run es par_start) = None -> let s := par_run es par_start in
    exists finished last,
    NoDup (finished ++ match ps_current s with Some c => [c] | None => [] end) /\
    Forall (fun i => comes_to_end (sends_of i (es ++ x)) = true) finished /\
    ps_printed s = flat_map (fun i => from i (texts_of (sends_of i (es ++ x)))) finished ++ last /\
    match ps_current s with
    | None => last = []
    | Some c => exists ts more, last = from c ts /\ texts_of (sends_of c (es ++ x)) = ts ++ more
    end).
  { intros es x Hd s. destruct (hear_run es Hd) as (fin & heard & _ & Ht & Hf & Hp & Ha & Hc). fold s in Ht, Hp, Ha, Hc.
    destruct (finished_stays es x fin Hf) as [Hf2 Hp2].
    exists fin. eexists. split; [|split; [exact Hf2|split; [rewrite Hp2; exact Hp|]]].
    - apply times_nodup. intros i. specialize (Ht i). change (match ps_current s with Some c => [c] | None => [] end) with (opt_list (ps_current s)).
      rewrite !times_app in *. destruct (_ && _); lia.
    - destruct (ps_current s) as [c|]; [|reflexivity]. rewrite sends_of_app, (Hc c eq_refl), <- app_assoc, texts_msgs. do 2 eexists. split; reflexivity. }
  intros es s. destruct (par_split es) as [H|(a & e & b & E & H1 & H2 & H3)].
  - destruct (Up es [] H) as (fin & last & H'). rewrite app_nil_r in H'. exists fin, last. exact H'.
  - destruct (Up a (e :: b) H1) as (fin & last & H'). rewrite <- E in H'.
    destruct (down_step _ e H1 H2) as [E1 E2]. subst s. rewrite H3, E1, E2. exists fin, last. exact H'.
Qed.
(*EX
(** Two clients send two texts each; the first stream ends, the second does not. *)
Example heard_in_turn_ex :
  let es := [Accepted; Accepted; PoolTask 2; PoolTask 1; Arrives 1 (SMsg (OText [x61])); Arrives 2 (SMsg (OText [x62]));
             ReceivePolled; ReceivePolled; ReceivePolled; Arrives 2 (SMsg (OPing [])); Arrives 2 SEnd; ReceivePolled; ReceivePolled;
             ReceivePolled; ReceivePolled; Arrives 1 (SMsg (OText [x63]))] in
  ps_printed (par_run es par_start) = [(2, [x62]); (1, [x61])] /\ ps_current (par_run es par_start) = Some 1.
Proof. split; reflexivity. Qed.
EX*)

Lemma down_next : forall s e, ps_down (par_step s e) = None -> ps_down s = None.
Proof. intros [? ? ? ? ? ? ? ? ? ? ? ? ? ? [d|]] e H; [cbn in H; discriminate|reflexivity]. Qed.
Lemma end_before : forall i a b, comes_to_end (sends_of i (a ++ b)) = false -> comes_to_end (sends_of i a) = false.
Proof.
  intros i a b H. destruct (comes_to_end (sends_of i a)) eqn:E; [|reflexivity]. rewrite sends_of_app in H.
  destruct (end_stays _ (sends_of i b) E) as [E1 _]. congruence.
Qed.
Lemma keeps_current : forall es es' c, let s := par_run es par_start in
  ps_current s = Some c -> comes_to_end (sends_of c (es ++ es')) = false ->
  ps_current (par_run es' s) = Some c /\ exists ts, ps_printed (par_run es' s) = ps_printed s ++ from c ts.
Proof.
  intros es es' c s Hcur. induction es' as [|e es' IH] using rev_ind; intros Hend; [split; [exact Hcur|exists []; symmetry; apply app_nil_r]|].
  rewrite app_assoc in Hend. destruct (IH (end_before _ _ _ Hend)) as [Hc' (ts & Hp)]. rewrite par_run_app. cbn [par_run].
  assert (Hr : par_run es' s = par_run (es ++ es') par_start) by (symmetry; apply par_run_app).
  destruct (ps_down (par_run es' s)) eqn:Ed.
  { assert (E2 := par_down [e] (par_run es' s)). cbn [par_run] in E2. rewrite E2 by congruence. split; [exact Hc'|exists ts; exact Hp]. }
  assert (Ed' := Ed). rewrite Hr in Ed'. destruct (hear_run _ Ed') as (fin & heard & _ & _ & _ & _ & _ & Hc). rewrite <- Hr in Hc. specialize (Hc c Hc').
  assert (Ha : forall r, ps_arrived (par_run es' s) c <> SEnd :: r).
  { intros r E. rewrite E in Hc. destruct (end_msgs heard r) as [E1 _]. rewrite <- Hc in E1. rewrite (end_before _ _ _ Hend) in E1. discriminate. }
  clear - Hc' Hp Ha Ed. destruct (par_run es' s) as [count ins conns pt pool cur arr upd mt sends fl lost gr pr dn].
  cbn [ps_down ps_current ps_printed ps_arrived] in *. subst cur dn.
  assert (Same : forall p, ps_current p = Some c -> ps_printed p = pr -> ps_current p = Some c /\ exists ts0, ps_printed p = ps_printed s ++ from c ts0).
  { intros p E1 E2. split; [exact E1|]. exists ts. congruence. }
  destruct e; cbn [par_step]; try (apply Same; reflexivity).
  - destruct (counter_next count) as [[? ?]|]; apply Same; reflexivity.
  - destruct (has id ins); apply Same; reflexivity.
  - destruct (has id pt); apply Same; reflexivity.
  - destruct (arr c) as [|[m| |] r] eqn:Ea; try (apply Same; reflexivity); [|destruct (Ha r eq_refl)].
    split; [reflexivity|]. cbn [ps_printed]. destruct m; cbn [process_message]; rewrite ?app_nil_r; try (exists ts; exact Hp).
    exists (ts ++ [s0]). rewrite Hp, <- app_assoc, from_app. reflexivity.
  - destruct upd; apply Same; reflexivity.
  - destruct (has id mt); apply Same; reflexivity.
  - destruct sends as [|id sends]; [apply Same; reflexivity|]. destruct (has id conns); apply Same; reflexivity.
  - destruct (has id fl); [destruct ok|]; apply Same; reflexivity.
Qed.

(** [C77] As long as the stream that the server is reading does not end, it hears nobody else,
    whatever the others send and however long they wait. *)
Lemma others_wait_proof : forall es es' c, let s := par_run es par_start in
  ps_current s = Some c -> comes_to_end (sends_of c (es ++ es')) = false ->
  exists ts, ps_printed (par_run es' s) = ps_printed s ++ from c ts.
Proof. intros es es' c s H1 H2. apply (keeps_current es es' c H1 H2). Qed.
(*EX
(** The first client says one thing and stays connected; the second one waits for ever. *)
Example others_wait_ex :
  let es := [Accepted; Accepted; PoolTask 1; PoolTask 2; Arrives 2 (SMsg (OText [x62])); ReceivePolled] in
  let es' := [Arrives 1 (SMsg (OText [x61])); ReceivePolled; ReceivePolled; Arrives 2 (SMsg (OText [x63])); ReceivePolled] in
  ps_current (par_run es par_start) = Some 1 /\ comes_to_end (sends_of 1 (es ++ es')) = false /\
  ps_printed (par_run es' (par_run es par_start)) = [(1, [x61])].
Proof. repeat split; reflexivity. Qed.
EX*)

(** ** Everybody is heard if every stream ends *)
Lemma polls_app : forall n m s, par_run (repeat ReceivePolled (n + m)) s = par_run (repeat ReceivePolled m) (par_run (repeat ReceivePolled n) s).
Proof. intros. rewrite repeat_app. apply par_run_app. Qed.
Lemma finish_current : forall l s c, ps_down s = None -> ps_current s = Some c -> ps_arrived s c = l -> comes_to_end l = true ->
  exists n, let s' := par_run (repeat ReceivePolled n) s in
    ps_down s' = None /\ ps_current s' = None /\ ps_pool s' = ps_pool s /\ ps_pool_tasks s' = ps_pool_tasks s /\ ps_count s' = ps_count s /\
    forall i, i <> c -> ps_arrived s' i = ps_arrived s i.
Proof.
  induction l as [|[m| |] l IH]; intros s c Hd Hc Ha He; cbn [comes_to_end] in He; try discriminate.
  - destruct s as [count ins conns pt pool cur arr upd mt sends fl lost gr pr dn]. cbn [ps_down ps_current ps_arrived] in *. subst dn cur.
    destruct (IH (par_step (mk_ps count ins conns pt pool (Some c) arr upd mt sends fl lost gr pr None) ReceivePolled) c) as (n & H).
    + cbn [par_step]. rewrite Ha. reflexivity.
    + cbn [par_step]. rewrite Ha. reflexivity.
    + cbn [par_step]. rewrite Ha. cbn [ps_arrived]. rewrite N.eqb_refl. reflexivity.
    + exact He.
    + exists (S n). cbn [repeat par_run]. cbv zeta in *. destruct H as (H1 & H2 & H3 & H4 & H5 & H6).
      split; [exact H1|]. split; [exact H2|]. split; [rewrite H3|split; [rewrite H4|split; [rewrite H5|intros i Hi; rewrite (H6 i Hi)]]];
      cbn [par_step]; rewrite Ha; try reflexivity. cbn [ps_arrived]. destruct (N.eqb_spec i c); [congruence|reflexivity].
  - exists 1%nat. destruct s as [count ins conns pt pool cur arr upd mt sends fl lost gr pr dn]. cbn [ps_down ps_current ps_arrived] in *. subst dn cur.
    cbn [repeat par_run par_step]. rewrite Ha. repeat split. intros i Hi. cbn [ps_arrived]. destruct (N.eqb_spec i c); [congruence|reflexivity].
Qed.
Lemma finish_pool : forall pool s, ps_down s = None -> ps_current s = None -> ps_pool s = pool ->
  NoDup pool -> Forall (fun i => comes_to_end (ps_arrived s i) = true) pool ->
  exists n, let s' := par_run (repeat ReceivePolled n) s in
    ps_down s' = None /\ ps_current s' = None /\ ps_pool s' = [] /\ ps_pool_tasks s' = ps_pool_tasks s /\ ps_count s' = ps_count s.
Proof.
  induction pool as [|c pool IH]; intros s Hd Hc Hp Hn Hf; [exists 0%nat; cbn [repeat par_run]; auto|].
  inversion Hn as [|? ? Hn1 Hn2]; subst. inversion Hf as [|? ? Hf1 Hf2]; subst.
  set (s1 := par_step s ReceivePolled).
  assert (E1 : ps_down s1 = None /\ ps_current s1 = Some c /\ ps_pool s1 = pool /\ ps_pool_tasks s1 = ps_pool_tasks s /\ ps_count s1 = ps_count s /\ ps_arrived s1 = ps_arrived s).
  { subst s1. destruct s as [count ins conns pt po cur arr upd mt sends fl lost gr pr dn]. cbn [ps_down ps_current ps_pool] in *. subst. repeat split. }
  destruct E1 as (A1 & A2 & A3 & A4 & A5 & A6).
  destruct (finish_current _ s1 c A1 A2 eq_refl) as (n & B1 & B2 & B3 & B4 & B5 & B6); [rewrite A6; exact Hf1|].
  destruct (IH (par_run (repeat ReceivePolled n) s1)) as (m & C1 & C2 & C3 & C4 & C5).
  - exact B1.
  - exact B2.
  - congruence.
  - exact Hn2.
  - rewrite Forall_forall in *. intros i Hi. rewrite B6 by (intros ->; contradiction). rewrite A6. apply Hf2. exact Hi.
  - exists (S (n + m)). cbn [repeat par_run]. fold s1. rewrite polls_app. cbv zeta. repeat split; congruence.
Qed.
Lemma filter_none : forall i j ts, i <> j -> filter (fun p => fst p =? i) (from j ts) = [].
Proof.
  intros i j ts H. induction ts as [|t ts IH]; [reflexivity|]. cbn [from map filter fst]. destruct (N.eqb_spec j i); [congruence|exact IH].
Qed.
Lemma filter_own : forall i ts, filter (fun p => fst p =? i) (from i ts) = from i ts.
Proof. intros i ts. induction ts as [|t ts IH]; [reflexivity|]. cbn [from map filter fst]. rewrite N.eqb_refl. f_equal. exact IH. Qed.
Lemma filter_blocks : forall (f : N -> list bytes) fin i, NoDup fin -> In i fin ->
  map snd (filter (fun p => fst p =? i) (flat_map (fun j => from j (f j)) fin)) = f i.
Proof.
  intros f fin i Hn. induction Hn as [|x fin Hx Hn IH]; intros Hi; [destruct Hi|]. cbn [flat_map]. rewrite filter_app, map_app.
  assert (Hnone : forall l, ~ In i l -> filter (fun p => fst p =? i) (flat_map (fun j => from j (f j)) l) = []).
  { clear. induction l as [|y l IH]; intros H; [reflexivity|]. cbn [flat_map]. rewrite filter_app, filter_none, IH; [reflexivity| |]; intros E; apply H; [right; exact E|left; congruence]. }
  destruct Hi as [->|Hi].
  - rewrite filter_own, (Hnone _ Hx). cbn [map]. rewrite app_nil_r. unfold from. rewrite map_map. apply map_id.
  - rewrite filter_none by (intros ->; contradiction). cbn [map app]. apply IH. exact Hi.
Qed.
Lemma sends_polls : forall i es n, sends_of i (es ++ repeat ReceivePolled n) = sends_of i es.
Proof. intros i es n. rewrite sends_of_app. replace (sends_of i (repeat ReceivePolled n)) with (@nil sitem) by (induction n; auto). apply app_nil_r. Qed.

(** [C77] If every client's stream has come to its end (and its hand-over has run), the server,
    as long as it is up, needs only to be polled to have printed exactly the texts of every
    client, each client's in the order they were sent. *)
Lemma all_heard_proof : forall es, let s := par_run es par_start in
  ps_down s = None -> ps_pool_tasks s = [] ->
  (forall i, 1 <= i <= ps_count s -> comes_to_end (sends_of i es) = true) ->
  exists n, let s' := par_run (repeat ReceivePolled n) s in
    ps_down s' = None /\
    forall i, 1 <= i <= ps_count s ->
      map snd (filter (fun p => fst p =? i) (ps_printed s')) = texts_of (sends_of i es).
Proof.
  intros es s Hd Hpt Hend. destruct (hear_run es Hd) as (fin & heard & _ & Ht & _ & _ & Ha & Hc). fold s in Ht, Ha, Hc.
  assert (Hin : forall i, In i (ps_pool s ++ opt_list (ps_current s) ++ fin) -> 1 <= i <= ps_count s).
  { intros i Hi. apply times_in in Hi. specialize (Ht i). rewrite Hpt in Ht. cbn [app] in Ht. rewrite Ht in Hi. destruct (_ && _) eqn:E; lia. }
  assert (Hnd : NoDup (ps_pool s ++ opt_list (ps_current s) ++ fin)).
  { apply times_nodup. intros i. specialize (Ht i). rewrite Hpt in Ht. cbn [app] in Ht. rewrite Ht. destruct (_ && _); lia. }
  assert (Hap : forall i, In i (ps_pool s) -> ps_arrived s i = sends_of i es).
  { intros i Hi. apply Ha.
    - intros H. specialize (Ht i). rewrite !times_app in Ht. apply times_in in Hi. apply times_in in H. destruct (_ && _); lia.
    - intros H. specialize (Ht i). rewrite H in Ht. cbn [opt_list] in Ht. rewrite !times_app, times_cons, N.eqb_refl in Ht. apply times_in in Hi. destruct (_ && _); lia. }
  assert (Step1 : exists n, let s1 := par_run (repeat ReceivePolled n) s in
     ps_down s1 = None /\ ps_current s1 = None /\ ps_pool s1 = ps_pool s /\ ps_pool_tasks s1 = ps_pool_tasks s /\ ps_count s1 = ps_count s /\
     forall i, In i (ps_pool s) -> ps_arrived s1 i = ps_arrived s i).
  { destruct (ps_current s) as [c|] eqn:Ec; [|exists 0%nat; cbn [repeat par_run]; repeat split; auto].
    specialize (Hc c eq_refl).
    assert (He : comes_to_end (ps_arrived s c) = true).
    { assert (E : comes_to_end (sends_of c es) = true) by (apply Hend; apply Hin; apply in_or_app; right; left; reflexivity).
      rewrite Hc in E. clear - E. induction heard as [|m heard IH]; [exact E|]. apply IH. exact E. }
    destruct (finish_current _ s c Hd Ec eq_refl He) as (n & B1 & B2 & B3 & B4 & B5 & B6). exists n. cbv zeta.
    repeat split; auto. intros i Hi. apply B6. intros ->. specialize (Ht c). cbn [opt_list] in Ht.
    rewrite !times_app, times_cons, N.eqb_refl in Ht. apply times_in in Hi. destruct (_ && _); lia. }
  destruct Step1 as (n & B1 & B2 & B3 & B4 & B5 & B6).
  destruct (finish_pool (ps_pool s) (par_run (repeat ReceivePolled n) s) B1 B2 B3) as (m & C1 & C2 & C3 & C4 & C5).
  - apply times_nodup. intros i. apply times_nodup with (i := i) in Hnd. rewrite times_app in Hnd. lia.
  - apply Forall_forall. intros i Hi. rewrite B6, Hap by exact Hi. apply Hend. apply Hin. apply in_or_app. left. exact Hi.
  - exists (n + m)%nat. cbv zeta in *. rewrite <- polls_app in C1, C2, C3, C4, C5. rewrite Hpt in B4. rewrite B4 in C4. rewrite B5 in C5.
    split; [exact C1|]. intros i Hi.
    assert (E : par_run (repeat ReceivePolled (n + m)) s = par_run (es ++ repeat ReceivePolled (n + m)) par_start) by (symmetry; apply par_run_app).
    rewrite E in *. destruct (hear_run _ C1) as (fin' & heard' & _ & Ht' & _ & Hp' & _). rewrite C2, C3, C4 in Ht'. rewrite C2, app_nil_r in Hp'. cbn [app opt_list] in Ht'.
    rewrite Hp'. rewrite (filter_blocks (fun i => texts_of (sends_of i (es ++ repeat ReceivePolled (n + m)))) fin' i).
    + rewrite sends_polls. reflexivity.
    + apply times_nodup. intros j. rewrite Ht'. destruct (_ && _); lia.
    + apply times_in. rewrite Ht', C5. destruct (_ && _) eqn:E'; lia.
Qed.
(*EX
(** Two clients whose texts arrive alternately; both streams end. *)
Example all_heard_ex :
  let es := [Accepted; Accepted; PoolTask 2; PoolTask 1; Arrives 1 (SMsg (OText [x61])); Arrives 2 (SMsg (OText [x62]));
             Arrives 1 (SMsg (OText [x63])); Arrives 2 SEnd; Arrives 1 SEnd] in
  let s := par_run es par_start in
  ps_down s = None /\ ps_pool_tasks s = [] /\ ps_count s = 2 /\
  ps_printed (par_run (repeat ReceivePolled 7) s) = [(2, [x62]); (1, [x61]); (1, [x63])].
Proof. repeat split; reflexivity. Qed.
EX*)

(** ** Why the server stops *)
Lemma failure_stays : forall l x, comes_to_failure l = true -> comes_to_failure (l ++ x) = true.
Proof. induction l as [|[m| |] l IH]; intros x H; cbn [comes_to_failure] in H; try discriminate; [apply IH; exact H|reflexivity]. Qed.
Definition sent_inv (s : pserver) : Prop := forall i, (times i (ps_msg_tasks s) + times i (ps_sends s) <= times i (ps_conns s))%nat.
Lemma sent_step : forall s e, place_inv s -> sent_inv s -> (e = UpdateRuns -> ps_msg_tasks s = [] /\ ps_sends s = []) ->
  sent_inv (par_step s e) /\ (ps_down s <> Some InvalidId -> ps_down (par_step s e) <> Some InvalidId).
Proof.
  intros [count ins conns pt pool cur arr upd mt sends fl lost gr pr [d|]] e Hi Hs Hu; [split; [exact Hs|auto]|].
  assert (D : None <> Some InvalidId) by discriminate.
  destruct e; cbn [par_step]; try (split; [exact Hs|cbn [ps_down]; congruence]).
  - destruct (counter_next count) as [[? ?]|]; (split; [exact Hs|cbn [ps_down]; congruence]).
  - destruct (has id ins); (split; [|cbn [ps_down]; congruence]); [|exact Hs].
    intros i. specialize (Hs i). times_norm. lia.
  - destruct (has id pt); (split; [exact Hs|cbn [ps_down]; congruence]).
  - destruct cur as [c|]; [|destruct pool; (split; [exact Hs|cbn [ps_down]; congruence])].
    destruct (arr c) as [|[m| |] r]; (split; [exact Hs|cbn [ps_down]; congruence]).
  - destruct upd as [|n]; [split; [exact Hs|cbn [ps_down]; congruence]|]. destruct (Hu eq_refl) as [E1 E2]. cbn [ps_msg_tasks ps_sends] in E1, E2. subst.
    split; [|cbn [ps_down]; congruence]. intros i. cbn [ps_msg_tasks ps_sends ps_conns]. rewrite app_nil_r. change (times i []) with 0%nat. lia.
  - destruct (has id mt) eqn:E; [|split; [exact Hs|cbn [ps_down]; congruence]]. apply has_in in E. split; [|cbn [ps_down]; congruence].
    intros i. specialize (Hs i). times_norm. rewrite (times_without i id mt E) in Hs. change (times i []) with 0%nat. lia.
  - destruct sends as [|id sends]; [split; [exact Hs|cbn [ps_down]; congruence]|].
    destruct (has id conns) eqn:E.
    + apply has_in in E. split; [|cbn [ps_down]; congruence]. intros i. specialize (Hs i). times_norm. rewrite (times_without i id conns E) in Hs. lia.
    + exfalso. specialize (Hs id). times_norm. rewrite N.eqb_refl in Hs.
      assert (H : has id conns = true) by (apply has_in; apply times_in; lia). congruence.
  - destruct (has id fl); [destruct ok|]; (split; [|cbn [ps_down]; congruence]); try exact Hs.
    intros i. specialize (Hs i). times_norm. lia.
Qed.
Lemma unhurried_run : forall es s, place_inv s -> sent_inv s -> ps_down s <> Some InvalidId -> unhurried s es ->
  ps_down (par_run es s) <> Some InvalidId.
Proof.
  induction es as [|e es IH]; intros s Hi Hs Hd Hu; [exact Hd|]. destruct Hu as [Hu1 Hu2].
  destruct (sent_step s e Hi Hs Hu1) as [H1 H2]. cbn [par_run]. apply IH; auto. apply place_step. exact Hi.
Qed.

(** [C77] The server stops only because a handshake or the listener failed, because a stream
    failed, or because an update ran while greetings of an earlier one still waited for the send
    handler: slow clients and failing sends do not stop it. *)
Lemma stops_only_proof : forall es, let s := par_run es par_start in
  match ps_down s with
  | None => True
  | Some BadClient => In Refused es
  | Some StreamFailed => exists c, comes_to_failure (sends_of c es) = true
  | Some InvalidId => ~ unhurried par_start es
  end.
Proof.
  intros es s. destruct (ps_down s) as [[| |]|] eqn:Ed; [| | |exact I].
  - destruct (par_split es) as [H|(a & e & b & -> & H1 & H2 & H3)]; [unfold s in Ed; congruence|].
    unfold s in Ed. rewrite H3 in Ed. apply in_or_app. right. left.
    clear - H1 Ed. destruct (par_run a par_start) as [count ins conns pt pool cur arr upd mt sends fl lost gr pr dn]. cbn [ps_down] in H1. subst dn.
    destruct e; cbn [par_step] in Ed; try reflexivity; try (cbn in Ed; discriminate).
    + destruct (counter_next count) as [[? ?]|]; cbn in Ed; discriminate.
    + destruct (has id ins); cbn in Ed; discriminate.
    + destruct (has id pt); cbn in Ed; discriminate.
    + destruct cur as [c|]; [|destruct pool; cbn in Ed; discriminate]. destruct (arr c) as [|[m| |] r]; cbn in Ed; discriminate.
    + destruct upd; cbn in Ed; discriminate.
    + destruct (has id mt); cbn in Ed; discriminate.
    + destruct sends as [|id sends]; [|destruct (has id conns)]; cbn in Ed; discriminate.
    + destruct (has id fl); [destruct ok|]; cbn in Ed; discriminate.
  - destruct (par_split es) as [H|(a & e & b & -> & H1 & H2 & H3)]; [unfold s in Ed; congruence|].
    unfold s in Ed. rewrite H3 in Ed. destruct (hear_run a H1) as (fin & heard & _ & _ & _ & _ & _ & Hc).
    assert (Ha : exists c r, ps_current (par_run a par_start) = Some c /\ ps_arrived (par_run a par_start) c = SFail :: r).
    { clear - H1 Ed. destruct (par_run a par_start) as [count ins conns pt pool cur arr upd mt sends fl lost gr pr dn]. cbn [ps_down] in H1. subst dn.
      destruct e; cbn [par_step] in Ed; try (cbn in Ed; discriminate).
      + destruct (counter_next count) as [[? ?]|]; cbn in Ed; discriminate.
      + destruct (has id ins); cbn in Ed; discriminate.
      + destruct (has id pt); cbn in Ed; discriminate.
      + destruct cur as [c|]; [|destruct pool; cbn in Ed; discriminate]. destruct (arr c) as [|[m| |] r] eqn:E; cbn in Ed; try discriminate.
        exists c, r. split; [reflexivity|exact E].
      + destruct upd; cbn in Ed; discriminate.
      + destruct (has id mt); cbn in Ed; discriminate.
      + destruct sends as [|id sends]; [|destruct (has id conns)]; cbn in Ed; discriminate.
      + destruct (has id fl); [destruct ok|]; cbn in Ed; discriminate. }
    destruct Ha as (c & r & E1 & E2). exists c. rewrite sends_of_app. apply failure_stays. rewrite (Hc c E1), E2.
    clear. induction heard as [|m heard IH]; [reflexivity|exact IH].
  - intros Hu. apply (unhurried_run es par_start); auto; [apply place_start|intros i; cbn; lia|cbn; discriminate].
Qed.
(*EX
(** Two updates in good time, a slow client, a failing send: the server is still up. *)
Example stops_only_ex :
  let es := [Accepted; Inserted 1; Accepted; Inserted 2; Tick; UpdateRuns; MsgTask 2; MsgTask 1; SendPolled; SendPolled;
             SendDone 1 false; Tick; UpdateRuns; Accepted; Inserted 3; SendDone 2 true] in
  unhurried par_start es /\ ps_down (par_run es par_start) = None /\ ps_greeted (par_run es par_start) = [2].
Proof. cbn. repeat split; congruence. Qed.
EX*)

(** [C77] When the stream that the server is reading fails, the server stops: polling it is
    enough. *)
Lemma failing_stream_stops_proof : forall es c, let s := par_run es par_start in
  ps_down s = None -> ps_current s = Some c -> comes_to_failure (sends_of c es) = true ->
  exists n, forall es', ps_down (par_run (repeat ReceivePolled n ++ es') s) = Some StreamFailed.
Proof.
  intros es c s Hd Hc Hf. destruct (hear_run es Hd) as (fin & heard & _ & _ & _ & _ & _ & H). fold s in H. specialize (H c Hc). rewrite H in Hf.
  assert (Hf' : comes_to_failure (ps_arrived s c) = true) by (clear - Hf; induction heard as [|m heard IH]; [exact Hf|apply IH; exact Hf]).
  clear - Hd Hc Hf'. clearbody s. remember (ps_arrived s c) as l eqn:Ha. symmetry in Ha.
  assert (K : exists n, ps_down (par_run (repeat ReceivePolled n) s) = Some StreamFailed).
  { revert s Hd Hc Ha. revert Hf'. induction l as [|[m| |] l IH]; intros He s Hd Hc Ha; cbn [comes_to_failure] in He; try discriminate.
    - destruct (IH He (par_step s ReceivePolled)) as [n Hn].
      + destruct s as [count ins conns pt pool cur arr upd mt sends fl lost gr pr dn]. cbn [ps_down ps_current ps_arrived] in *. subst. cbn [par_step]. rewrite Ha. reflexivity.
      + destruct s as [count ins conns pt pool cur arr upd mt sends fl lost gr pr dn]. cbn [ps_down ps_current ps_arrived] in *. subst. cbn [par_step]. rewrite Ha. reflexivity.
      + destruct s as [count ins conns pt pool cur arr upd mt sends fl lost gr pr dn]. cbn [ps_down ps_current ps_arrived] in *. subst. cbn [par_step]. rewrite Ha. cbn [ps_arrived]. rewrite N.eqb_refl. reflexivity.
      + exists (S n). exact Hn.
    - exists 1%nat. destruct s as [count ins conns pt pool cur arr upd mt sends fl lost gr pr dn]. cbn [ps_down ps_current ps_arrived] in *. subst. cbn [repeat par_run par_step]. rewrite Ha. reflexivity. }
  destruct K as [n K]. exists n. intros es'. rewrite par_run_app, par_down; [exact K|congruence].
Qed.
(*EX
(** A text, then a frame that cannot be decoded. *)
Example failing_stream_stops_ex :
  let es := [Accepted; PoolTask 1; ReceivePolled; Arrives 1 (SMsg (OText [x61])); Arrives 1 SFail] in
  ps_down (par_run es par_start) = None /\ ps_current (par_run es par_start) = Some 1 /\
  comes_to_failure (sends_of 1 es) = true /\
  ps_down (par_run (repeat ReceivePolled 2) (par_run es par_start)) = Some StreamFailed.
Proof. repeat split; reflexivity. Qed.
EX*)

(** [C77] Refuted: one client that fails silences all others.  Here the second client sent its
    text and closed properly, and is never heard. *)
Lemma bad_client_alone_refuted_proof : exists es c d t,
  c <> d /\ In t (texts_of (sends_of d es)) /\ comes_to_end (sends_of d es) = true /\
  comes_to_failure (sends_of c es) = true /\ unhurried par_start es /\
  forall es', ps_printed (par_run (es ++ es') par_start) = [].
Proof.
  exists [Accepted; Accepted; PoolTask 1; PoolTask 2; Arrives 2 (SMsg (OText [x62])); Arrives 2 SEnd; Arrives 1 SFail; ReceivePolled; ReceivePolled],
    1, 2, [x62].
  split; [discriminate|]. split; [left; reflexivity|]. split; [reflexivity|]. split; [reflexivity|]. split; [cbn; repeat split; discriminate|].
  intros es'. rewrite par_run_app, par_down; [reflexivity|cbn; discriminate].
Qed.

(** [C77] Refuted: clients that all behave, on connections that all work, do not keep the server
    up: two updates before the send handler runs, and it sends to a client whose sink is out. *)
Lemma stays_up_refuted_proof : exists es,
  Forall (fun e => match e with Refused | SendDone _ false | Arrives _ SFail => False | _ => True end) es /\
  ps_down (par_run es par_start) = Some InvalidId.
Proof.
  exists [Accepted; Inserted 1; Tick; Tick; UpdateRuns; UpdateRuns; MsgTask 1; MsgTask 1; SendPolled; SendPolled].
  split; [repeat constructor|reflexivity].
Qed.

(** ** Greetings *)
(** [C77] Every client gets its greetings: one for every update that ran while it was in the
    table is sent, being sent, waiting to be sent, or was lost in a send that failed (the last one on
    its sink). *)
Lemma greetings_proof : forall es i, let s := par_run es par_start in ps_down s <> Some InvalidId ->
  (times i (ps_greeted s) + times i (ps_flight s) + times i (ps_sends s) + times i (ps_msg_tasks s) + times i (ps_lost s))%nat
  = updates_with i par_start es.
Proof.
  assert (Gen : forall es s i, place_inv s -> ps_down (par_run es s) <> Some InvalidId ->
    let s' := par_run es s in
    (times i (ps_greeted s') + times i (ps_flight s') + times i (ps_sends s') + times i (ps_msg_tasks s') + times i (ps_lost s'))%nat
    = ((times i (ps_greeted s) + times i (ps_flight s) + times i (ps_sends s) + times i (ps_msg_tasks s) + times i (ps_lost s)) + updates_with i s es)%nat).
  { induction es as [|e es IH]; intros s i Hi Hd; [cbn [par_run updates_with]; lia|].
    cbn [par_run] in *. cbv zeta. rewrite (IH _ i (place_step s e Hi) Hd).
    cbn [updates_with]. rewrite Nat.add_assoc. f_equal.
    assert (Hd' : ps_down (par_step s e) <> Some InvalidId).
    { intros E. apply Hd. rewrite par_down; congruence. }
    clear IH Hd. destruct s as [count ins conns pt pool cur arr upd mt sends fl lost gr pr [d|]].
    { cbn [par_step ps_down]. destruct e; try lia. cbn [ps_updates]. destruct upd; lia. }
    destruct e; cbn [par_step] in *; cbn [ps_down ps_updates]; rewrite ?Nat.add_0_r; try reflexivity.
    - destruct (counter_next count) as [[? ?]|]; reflexivity.
    - destruct (has id ins); reflexivity.
    - destruct (has id pt); reflexivity.
    - destruct cur as [c|]; [|destruct pool; reflexivity]. destruct (arr c) as [|[m| |] r]; reflexivity.
    - destruct upd as [|n]; [rewrite Nat.add_0_r; reflexivity|]. destruct Hi as [_ Hi]. specialize (Hi i). times_norm.
      change (existsb (N.eqb i) conns) with (has i conns). destruct (has i conns) eqn:E.
      + apply has_in, times_in in E. destruct (_ && _); lia.
      + assert (times i conns = 0)%nat; [|lia].
        destruct (times i conns) eqn:E2; [reflexivity|]. assert (H : has i conns = true) by (apply has_in, times_in; lia). congruence.
    - destruct (has id mt) eqn:E; [|reflexivity]. apply has_in in E. times_norm. rewrite (times_without i id mt E). change (times i []) with 0%nat. lia.
    - destruct sends as [|id sends]; [reflexivity|]. destruct (has id conns) eqn:E; [|cbn in Hd'; congruence]. times_norm. lia.
    - destruct (has id fl) eqn:E; [|reflexivity]. apply has_in in E. destruct ok; times_norm; rewrite (times_without i id fl E); change (times i []) with 0%nat; lia. }
  intros es i s Hd. unfold s. rewrite (Gen es par_start i place_start Hd). reflexivity.
Qed.
(*EX
(** Two updates; the second client joins between them, and the first one's second greeting is
    still on its way. *)
Example greetings_ex :
  let es := [Accepted; Inserted 1; Tick; UpdateRuns; MsgTask 1; SendPolled; SendDone 1 true; Accepted; Inserted 2;
             Tick; UpdateRuns; MsgTask 1; MsgTask 2; SendPolled; SendPolled; SendDone 2 true] in
  ps_greeted (par_run es par_start) = [1; 2] /\ ps_flight (par_run es par_start) = [1] /\
  updates_with 1 par_start es = 2%nat /\ updates_with 2 par_start es = 1%nat.
Proof. repeat split; reflexivity. Qed.
EX*)
