(** The chat client and the server of the examples over a narrow network: C84. *)
From Coq Require Import NArith ZArith String Bool List Lia.
From Coq Require Import ZifyBool ZifyNat ZifyN.
From Coq.Strings Require Import Byte.
From Verif.Model Require Import Base Io Header Mask Dataframe Utf8 Text Headers
  Message Receiver Codec Connect Examples ChatClient Talk Narrow.
From Verif.Spec Require Import RfcFrame FrameSpec Schedule Unicode Drive Session Connection Polled Echo Chat Talking Narrowing.
From Verif.Proofs Require Import BaseFacts MaskFacts HeaderFacts FrameFacts CodecFacts ScriptFacts
  Machine Utf8Facts ThmFrames ThmStream SessionFacts RecvFacts MessageFacts
  TextFacts ExTac ThmKeys ThmMessages ThmFlow ThmLimits ThmInterop ThmEcho ThmChat ThmTalk.
Import ListNotations.
Local Open Scope string_scope.
Local Open Scope list_scope.
Local Open Scope N_scope.

(** ** What holds in every conversation of ThmTalk.v *)
Lemma typing_open : forall lines t, fine lines t -> ch_main (t_chat t) = Typing -> ch_send (t_chat t) <> SendOver.
Proof.
  intros lines t (us & read & unread & later & got & ungot & w1 & w2 & [KC KU KS KW KD KH]) HM E.
  destruct KC as (C1 & C2 & C3 & C4 & _). specialize (C2 HM). rewrite E in C4.
  destruct C4 as (a & p & E1 & E2 & E3). rewrite C3, E1, map_app, <- app_assoc in C2.
  apply Forall_app in C2 as [_ C2]. cbn [map app] in C2. inversion C2; contradiction.
Qed.
Lemma late_over : forall lines t, fine lines t -> ch_main (t_chat t) = JoinReceive \/ ch_main (t_chat t) = Exited ->
  ch_send (t_chat t) = SendOver.
Proof.
  intros lines t (us & read & unread & later & got & ungot & w1 & w2 & [KC KU KS KW KD KH]) HM.
  destruct KC as (_ & _ & _ & _ & _ & _ & _ & _ & [_ C9] & _). auto.
Qed.
Lemma no_ping : forall lines t d, fine lines t -> fst (reader_recv (ch_reader (t_chat t))) <> Ok (OPing d).
Proof.
  intros lines t d (us & read & unread & later & got & ungot & w1 & w2 & [KC KU KS KW KD KH]) E.
  destruct (pipe_read _ _ _ _ KD) as [(m & k & l & r' & E1 & E2 & _)|[E1 _]]; [|congruence].
  rewrite E2 in E. cbn [fst] in E. injection E as ->.
  eapply (said_no_ping _ _ _ (OPing d, k) KS); [rewrite E1; apply in_elt|reflexivity].
Qed.
(** Once the receive loop is over nothing is on its way down; once the server has returned,
    nothing up. *)
Lemma encs_nil : forall r q masked, pipe masked r q [] -> q = [].
Proof. intros r q masked (_ & _ & H & _). apply app_eq_nil in H. apply H. Qed.
Lemma over_down : forall lines t, fine lines t -> ch_recv (t_chat t) = ReceiveOver -> t_down t = [].
Proof.
  intros lines t (us & read & unread & later & got & ungot & w1 & w2 & [KC KU KS KW KD KH]) E.
  destruct KC as (_ & _ & _ & _ & _ & _ & _ & _ & _ & C10). rewrite E in C10.
  apply Exists_exists in C10 as (x & X1 & X2). apply in_split in X1 as (x1 & x2 & X1).
  assert (x2 ++ ungot = []) as X3.
  { apply (said_all _ _ _ x1 x (x2 ++ ungot) KS); [|exact X2]. rewrite X1, <- app_assoc. reflexivity. }
  apply app_eq_nil in X3 as [_ ->]. eapply encs_nil, KD.
Qed.
Lemma served_up : forall lines t e, fine lines t -> t_srv t = Served e -> t_up t = [].
Proof.
  intros lines t e (us & read & unread & later & got & ungot & w1 & w2 & [KC KU KS KW KD KH]) E.
  rewrite E in KS. destruct KS as (_ & b & q & R1 & R2 & R3 & _).
  destruct KC as ([C1 _] & _ & C3 & _).
  assert (us = map fst b ++ fst q :: (map fst unread ++ later)) as EUs.
  { rewrite C3, R1, !map_app, <- !app_assoc. reflexivity. }
  pose proof (types_close_last _ _ C1 _ _ _ EUs R3) as EL. apply app_eq_nil in EL as [EL _].
  destruct unread; [|discriminate]. eapply encs_nil, KU.
Qed.

(** ** The wide conversation behind a narrow one *)
Definition then_at {A : Type} (x : option (A * writer * bytes)) (d : A) : A := match x with Some (a, _, _) => a | None => d end.
Definition then_writer {A : Type} (x : option (A * writer * bytes)) (d : writer) : writer := match x with Some (_, w, _) => w | None => d end.
Definition rest_of {A : Type} (x : option (A * writer * bytes)) : bytes := match x with Some (_, _, o) => o | None => [] end.
Inductive rel : narrow -> talk -> Prop :=
| rel_intro : forall m ls qb q sb wb rb rdb up sv rd wr dn hd cl svp,
    (q = qb \/ then_at cl sb = SendOver) ->
    match cl with
    | Some (a, w, o) => o <> [] /\ (exists x, sb = Holding x) /\ (a = Waiting \/ a = SendOver) /\ (m = Typing \/ m = JoinSend)
    | None => True
    end ->
    match svp with Some (_, _, o) => o <> [] /\ (sv = Greeting \/ sv = Serving) | None => True end ->
    rel (mk_narrow (mk_talk (mk_chat m ls qb sb wb rb rdb) up sv rd wr dn hd) cl svp)
        (mk_talk (mk_chat m ls q (then_at cl sb) (then_writer cl wb) rb rdb) (up ++ rest_of cl)
           (then_at svp sv) rd (then_writer svp wr) (dn ++ rest_of svp) hd).

Definition narrow_left (b : narrow) (t : talk) : nat :=
  time_left true t + length (rest_of (n_cl b)) + length (rest_of (n_sv b)).
(** What a step of the narrow conversation is to the wide one: a step or nothing. *)
Definition follows (lines : list bytes) (b : narrow) (t : talk) (b' : narrow) : Prop :=
  exists t', rel b' t' /\ fine lines t' /\
    (will_close t -> will_close t' /\ (narrow_left b' t' < narrow_left b t)%nat).
Lemma follows_step : forall lines b t b' t' a, fine lines t -> talk_step a t = Some t' -> rel b' t' ->
  (length (rest_of (n_cl b')) + length (rest_of (n_sv b')) <= wrote t t' + length (rest_of (n_cl b)) + length (rest_of (n_sv b)))%nat ->
  follows lines b t b'.
Proof.
  intros lines b t b' t' a HF HS HR HL. destruct (talk_keeps _ _ _ _ HF HS) as [K1 K2].
  exists t'. split; [exact HR|]. split; [exact K1|]. intros HC. destruct (K2 HC) as [K3 K4]. split; [exact K3|].
  specialize (K4 true). cbn [fee] in K4. unfold narrow_left. lia.
Qed.

Lemma send_inv : forall ks c c', send_step ks c = Some c' ->
  ch_writer c' = ch_writer c \/
  (exists m, ch_send c = Holding m) /\ c' = at_send (ch_send c') (set_writer (ch_writer c') c) /\
    (ch_send c' = Waiting \/ ch_send c' = SendOver).
Proof.
  intros ks c c' H. unfold send_step in H. destruct (ch_send c) as [|m|] eqn:ES; [| |discriminate].
  - left. destruct (ch_queue c); [destruct (ch_main c), (ch_recv c); try discriminate|]; injection H as <-; reflexivity.
  - right. split; [eauto|]. destruct (writer_send _ _ _) as [x w]. destruct (writer_send_frame _ _ w) as [y w2].
    destruct m; try (injection H as <-; split; [reflexivity|right; reflexivity]);
      (destruct x; injection H as <-; (split; [reflexivity|cbn; auto])).
Qed.

Lemma narrow_send : forall lines cap ks b t b', fine lines t -> rel b t ->
  narrow_step cap (NClient (SendLoop ks)) b = Some b' -> follows lines b t b'.
Proof.
  intros lines cap ks b t b' HF HR H. destruct HR as [m ls qb q sb wb rb rdb up sv rd wr dn hd cl svp R1 R2 R3].
  cbn [narrow_step n_cl n_talk t_chat] in H. destruct cl as [cl|]; [discriminate|].
  cbn [then_at then_writer rest_of] in *. rewrite app_nil_r in *.
  set (c := mk_chat m ls qb sb wb rb rdb) in *.
  destruct (chat_step (SendLoop ks) c) as [c'|] eqn:EC; [|discriminate].
  assert (q = qb) as ->.
  { destruct R1 as [R1|R1]; [exact R1|]. exfalso. cbn [chat_step] in EC. unfold send_step in EC. cbn [ch_send] in EC.
    unfold c in EC. cbn [ch_send] in EC. rewrite R1 in EC. discriminate. }
  fold c in HF |- *. set (t := mk_talk c up (then_at svp sv) rd (then_writer svp wr) (dn ++ rest_of svp) hd) in *.
  assert (talk_step (Client (SendLoop ks)) t =
    Some (mk_talk c' (up ++ written (ch_writer c) (ch_writer c')) (then_at svp sv) rd (then_writer svp wr) (dn ++ rest_of svp) hd)) as HT.
  { unfold t. cbn [talk_step t_chat]. rewrite EC. reflexivity. }
  eapply follows_step; [exact HF|exact HT| |].
  - destruct (send_inv _ _ _ EC) as [E|((x & E1) & E2 & E3)].
    + rewrite E, written_same in *. injection H as <-. cbn [set_talk with_chat n_cl n_sv t_up t_srv t_reader t_writer t_down t_heard].
      destruct c' as [m' ls' q' s' w' r' rd']. cbn [ch_writer] in *.
      unfold set_talk, with_chat. cbn [n_cl n_sv t_up t_srv t_reader t_writer t_down t_heard].
      apply (rel_intro m' ls' q' q' s' w' r' rd' up sv rd wr dn hd None svp); auto.
    + destruct (written (ch_writer c) (ch_writer c')) as [|o out] eqn:EW.
      * injection H as <-. unfold set_talk, with_chat. cbn [n_cl n_sv t_up t_srv t_reader t_writer t_down t_heard].
        destruct c' as [m' ls' q' s' w' r' rd'].
        apply (rel_intro m' ls' q' q' s' w' r' rd' up sv rd wr dn hd None svp); auto.
      * injection H as <-. rewrite E2. unfold at_send, set_writer, c.
        cbn [ch_main ch_lines ch_queue ch_send ch_writer ch_recv ch_reader].
        apply (rel_intro m ls qb qb sb wb rb rdb up sv rd wr dn hd (Some (ch_send c', ch_writer c', o :: out)) svp); auto.
        split; [discriminate|]. split; [exists x; exact E1|]. split; [exact E3|].
        destruct m; auto; exfalso; pose proof (late_over _ _ HF) as HL; cbn in HL, E1; rewrite E1 in HL; discriminate HL; auto.
  - unfold wrote, t. cbn [t_up t_down]. rewrite app_length.
    destruct (written (ch_writer c) (ch_writer c')) as [|o out]; injection H as <-;
      cbn [set_talk n_cl n_sv rest_of length]; lia.
Qed.

Lemma narrow_main : forall lines cap b t b', fine lines t -> rel b t ->
  narrow_step cap (NClient Main) b = Some b' -> follows lines b t b'.
Proof.
  intros lines cap b t b' HF HR H. pose proof (typing_open _ _ HF) as HO.
  destruct HR as [m ls qb q sb wb rb rdb up sv rd wr dn hd cl svp R1 R2 R3].
  cbn [narrow_step n_talk] in H. cbn [talk_step t_chat chat_step] in H.
  cbn [t_chat ch_main ch_send] in HO.
  assert (forall m' ls' q' q'', (q' = q'' \/ then_at cl sb = SendOver) -> (cl <> None -> m' = Typing \/ m' = JoinSend) ->
    main_step (mk_chat m ls qb sb wb rb rdb) = Some (mk_chat m' ls' q' sb wb rb rdb) ->
    main_step (mk_chat m ls q (then_at cl sb) (then_writer cl wb) rb rdb)
      = Some (mk_chat m' ls' q'' (then_at cl sb) (then_writer cl wb) rb rdb) ->
    follows lines (mk_narrow (mk_talk (mk_chat m ls qb sb wb rb rdb) up sv rd wr dn hd) cl svp)
      (mk_talk (mk_chat m ls q (then_at cl sb) (then_writer cl wb) rb rdb) (up ++ rest_of cl)
           (then_at svp sv) rd (then_writer svp wr) (dn ++ rest_of svp) hd) b') as G.
  { intros m' ls' q' q'' G1 G2 G3 G4. rewrite G3 in H. cbn [ch_writer t_up t_srv t_reader t_writer t_down t_heard] in H.
    rewrite written_same, app_nil_r in H. injection H as <-.
    eapply (follows_step _ _ _ _ _ (Client Main)); [exact HF| | |].
    - cbn [talk_step t_chat chat_step]. rewrite G4. cbn [ch_writer t_up t_srv t_reader t_writer t_down t_heard].
      rewrite written_same, app_nil_r. reflexivity.
    - unfold set_talk. cbn [n_cl n_sv]. apply rel_intro; [destruct G1; auto| |exact R3].
      destruct cl as [[[a w] o]|]; [|exact I]. destruct R2 as (A & B & C & D). repeat split; auto. apply G2. discriminate.
    - cbn [set_talk n_cl n_sv]. lia. }
  destruct m.
  - assert (q = qb) as -> by (destruct R1 as [R1|R1]; [exact R1|destruct (HO eq_refl R1)]).
    assert (then_at cl sb <> SendOver) as H1 by (apply HO; reflexivity).
    assert (sb <> SendOver) as H2 by (destruct cl as [[[a w] o]|]; [destruct R2 as (_ & [x ->] & _); discriminate|exact H1]).
    unfold main_step in G. cbn [ch_main] in G.
    set (l := match ls with [] => [] | l :: _ => l end). set (ls' := match ls with [] => [] | _ :: ls' => ls' end).
    assert (forall s w, next_line (mk_chat Typing ls qb s w rb rdb) = (l, mk_chat Typing ls' qb s w rb rdb)) as HN
      by (intros; unfold l, ls'; destruct ls; reflexivity).
    rewrite !HN in G. destruct (beqb l (str "/close")).
    + apply (G JoinSend ls' (qb ++ [OClose None]) (qb ++ [OClose None])); auto; rewrite put_eq; unfold at_main;
        cbn [ch_main ch_lines ch_queue ch_send ch_writer ch_recv ch_reader];
        [destruct sb; try contradiction; reflexivity|destruct (then_at cl sb); try contradiction; reflexivity].
    + set (x := if beqb l (str "/ping") then _ else _) in *.
      apply (G Typing ls' (qb ++ [x]) (qb ++ [x])); auto; rewrite put_eq;
        cbn [ch_main ch_lines ch_queue ch_send ch_writer ch_recv ch_reader];
        [destruct sb; try contradiction; reflexivity|destruct (then_at cl sb); try contradiction; reflexivity].
  - cbn [main_step ch_main ch_send] in H.
    destruct sb; try discriminate.
    assert (cl = None) as -> by (destruct cl as [[[a w] o]|]; [destruct R2 as (_ & [x R2] & _); discriminate|reflexivity]).
    apply (G JoinReceive ls qb q); auto. intros []; reflexivity.
  - assert (cl = None) as -> by (destruct cl as [[[a w] o]|]; [destruct R2 as (_ & _ & _ & [R2|R2]); discriminate|reflexivity]).
    cbn [main_step ch_main ch_recv] in H. destruct rb; try discriminate.
    apply (G Exited ls qb q); auto; [destruct R1; auto|intros []; reflexivity].
  - discriminate.
Qed.

Lemma narrow_receive : forall lines cap b t b', fine lines t -> rel b t ->
  narrow_step cap (NClient ReceiveLoop) b = Some b' -> follows lines b t b'.
Proof.
  intros lines cap b t b' HF HR H. pose proof (fun d => no_ping _ _ d HF) as HP.
  destruct HR as [m ls qb q sb wb rb rdb up sv rd wr dn hd cl svp R1 R2 R3].
  cbn [narrow_step n_talk] in H. cbn [talk_step t_chat] in H. cbn [ch_reader t_srv t_down t_heard] in H.
  cbn [t_chat ch_reader] in HP.
  destruct (must_wait _ _ dn) eqn:EW in H; [discriminate|].
  assert (must_wait (fst (reader_recv rdb)) (match then_at svp sv with Served _ => true | _ => false end) (dn ++ rest_of svp) = false) as EW'.
  { destruct (fst (reader_recv rdb)) as [x|[]| |]; try reflexivity. cbn [must_wait] in *.
    apply negb_false_iff, andb_true_iff in EW as [W1 W2]. destruct dn; [|discriminate]. destruct sv; try discriminate.
    destruct svp as [[[a w] o]|]; [destruct R3 as [_ [R3|R3]]; discriminate|]. reflexivity. }
  assert (exists rb' rdb' q' q'', (q' = q'' \/ then_at cl sb = SendOver) /\
    chat_step ReceiveLoop (mk_chat m ls qb sb wb rb rdb) = Some (mk_chat m ls q' sb wb rb' rdb') /\
    chat_step ReceiveLoop (mk_chat m ls q (then_at cl sb) (then_writer cl wb) rb rdb)
      = Some (mk_chat m ls q'' (then_at cl sb) (then_writer cl wb) rb' rdb')) as (rb' & rdb' & q' & q'' & G1 & G3 & G4).
  { destruct (chat_step ReceiveLoop _) as [c'|] eqn:EC in H; [|discriminate]. clear H.
    cbn [chat_step] in EC |- *. unfold recv_step in EC |- *. cbn [ch_recv ch_reader] in EC |- *. destruct rb; [|discriminate].
    destruct (reader_recv rdb) as [x r'] eqn:ER. cbn [fst] in HP. clear EC.
    assert (forall y, exists q' q'', (q' = q'' \/ then_at cl sb = SendOver) /\
      match sb with SendOver => qb | _ => qb ++ [y] end = q' /\ match then_at cl sb with SendOver => q | _ => q ++ [y] end = q'') as HQ.
    { intros y. eexists. eexists. split; [|split; reflexivity].
      destruct (then_at cl sb) eqn:EA; auto; (destruct R1 as [->|R1]; [|discriminate]); left;
        (destruct cl as [[[a w] o]|]; [destruct R2 as (_ & [z ->] & _); reflexivity|cbn [then_at] in EA; rewrite EA; reflexivity]). }
    assert (forall y (bl : bool), exists rb' rdb' q' q'', (q' = q'' \/ then_at cl sb = SendOver) /\
      (let '(_, c2) := put y (set_reader r' (mk_chat m ls qb sb wb Listening rdb)) in Some (at_recv ReceiveOver c2))
        = Some (mk_chat m ls q' sb wb rb' rdb') /\
      (let '(_, c2) := put y (set_reader r' (mk_chat m ls q (then_at cl sb) (then_writer cl wb) Listening rdb)) in Some (at_recv ReceiveOver c2))
        = Some (mk_chat m ls q'' (then_at cl sb) (then_writer cl wb) rb' rdb')) as HZ.
    { intros y _. destruct (HQ y) as (q1 & q2 & Q1 & Q2 & Q3). exists ReceiveOver, r', q1, q2. split; [exact Q1|].
      rewrite !put_eq. unfold set_reader, at_recv. cbn [ch_main ch_lines ch_queue ch_send ch_writer ch_recv ch_reader].
      rewrite Q2, Q3. split; reflexivity. }
    assert (q = qb \/ then_at cl sb = SendOver) as R1' by exact R1.
    assert (qb = q \/ then_at cl sb = SendOver) as R1'' by (destruct R1; auto).
    destruct x as [[d|d|cd|d|d]|e| |]; try (apply (HZ (OClose None) true)); try (destruct (HP _ eq_refl));
      unfold set_reader, at_recv; cbn [ch_main ch_lines ch_queue ch_send ch_writer ch_recv ch_reader];
      do 4 eexists; (split; [exact R1''|]); split; reflexivity. }
  rewrite G3 in H. cbn [ch_writer t_up t_reader t_writer] in H. rewrite written_same, app_nil_r in H. injection H as <-.
  eapply (follows_step _ _ _ _ _ (Client ReceiveLoop)); [exact HF| | |].
  - cbn [talk_step t_chat ch_reader t_srv t_down t_heard]. rewrite EW', G4.
    cbn [ch_writer t_up t_reader t_writer]. rewrite written_same, app_nil_r. reflexivity.
  - unfold set_talk. cbn [n_cl n_sv]. apply rel_intro; [destruct G1; auto|exact R2|exact R3].
  - cbn [set_talk n_cl n_sv]. lia.
Qed.

Lemma narrow_serve : forall lines cap k b t b', fine lines t -> rel b t ->
  narrow_step cap (NServer k) b = Some b' -> follows lines b t b'.
Proof.
  intros lines cap k b t b' HF HR H.
  destruct HR as [m ls qb q sb wb rb rdb up sv rd wr dn hd cl svp R1 R2 R3].
  cbn [narrow_step n_talk n_sv] in H. destruct svp as [svp|]; [discriminate|].
  cbn [then_at then_writer rest_of] in *. rewrite app_nil_r in *.
  destruct (talk_step (Server k) (mk_talk (mk_chat m ls qb sb wb rb rdb) up sv rd wr dn hd)) as [tb|] eqn:ET; [|discriminate].
  cbn [talk_step t_chat ch_main t_srv t_reader t_up t_writer t_down t_heard] in ET.
  set (gone := match m with Exited => true | _ => false end) in *.
  assert (exists a' r' w', server_turn sv k rd wr = (a', r', w') /\ (sv = Greeting \/ sv = Serving) /\
    tb = mk_talk (mk_chat m ls qb sb wb rb rdb) up a' r' w' (dn ++ written wr w') hd /\
    talk_step (Server k) (mk_talk (mk_chat m ls q (then_at cl sb) (then_writer cl wb) rb rdb) (up ++ rest_of cl) sv rd wr dn hd)
    = Some (mk_talk (mk_chat m ls q (then_at cl sb) (then_writer cl wb) rb rdb) (up ++ rest_of cl) a' r' w' (dn ++ written wr w') hd))
    as (a' & r' & w' & E1 & E2 & -> & E4).
  { destruct (server_turn sv k rd wr) as [[a' r'] w'] eqn:ES. exists a', r', w'. split; [reflexivity|].
    cbn [talk_step t_chat ch_main t_srv t_reader t_up t_writer t_down t_heard]. fold gone.
    destruct sv; [| |discriminate].
    - rewrite ES in *. injection ET as <-. auto.
    - destruct (must_wait _ gone up) eqn:EW in ET; [discriminate|].
      assert (must_wait (fst (reader_recv rd)) gone (up ++ rest_of cl) = false) as EW'.
      { destruct (fst (reader_recv rd)) as [x|[]| |]; try reflexivity. cbn [must_wait] in *.
        apply negb_false_iff, andb_true_iff in EW as [W1 W2]. destruct up; [|discriminate].
        destruct cl as [[[a w] o]|]; [|rewrite W1; reflexivity]. exfalso.
        destruct R2 as (_ & _ & _ & [-> | ->]); discriminate W1. }
      rewrite EW'. rewrite ES in *. injection ET as <-. auto. }
  eapply (follows_step _ _ _ _ _ (Server k)); [exact HF|exact E4| |].
  - destruct (written _ _) as [|o out] eqn:EW in H.
    + cbn [t_writer] in EW. rewrite EW, app_nil_r in *. injection H as <-. unfold set_talk. cbn [n_cl n_sv].
      pose proof (rel_intro m ls qb q sb wb rb rdb up a' r' w' dn hd cl None R1 R2 I) as G.
      cbn [then_at then_writer rest_of] in G. rewrite app_nil_r in G. exact G.
    + cbn [t_writer] in EW. rewrite EW. injection H as <-. unfold with_server. cbn [t_chat t_up t_srv t_reader t_writer t_down t_heard n_cl].
      apply (rel_intro m ls qb q sb wb rb rdb up sv r' wr dn hd cl (Some (a', w', o :: out)) R1 R2).
      split; [discriminate|exact E2].
  - unfold wrote. cbn [t_up t_down t_writer] in *. rewrite (app_length dn).
    destruct (written wr w') as [|o out]; injection H as <-; cbn [set_talk n_cl n_sv rest_of length]; lia.
Qed.

Lemma firstn_min : forall (n : nat) (a b : bytes), firstn (Nat.min n (length a)) (a ++ b) = firstn n a /\
  skipn (Nat.min n (length a)) (a ++ b) = skipn n a ++ b.
Proof.
  intros n a b. assert (Nat.min n (length a) <= length a)%nat as HM by lia.
  rewrite firstn_app, skipn_app. replace (Nat.min n (length a) - length a)%nat with 0%nat by lia. rewrite firstn_O, app_nil_r. cbn [skipn].
  destruct (Nat.le_gt_cases n (length a)) as [H|H].
  - rewrite Nat.min_l by exact H. auto.
  - rewrite Nat.min_r by lia. rewrite !firstn_all, !skipn_all, (firstn_all2 a), (skipn_all2 a) by lia. auto.
Qed.
Lemma arrive_more : forall n q o r r' q', arrive n q r = Some (r', q') ->
  arrive (Nat.min n (length q)) (q ++ o) r = Some (r', q' ++ o).
Proof.
  intros n q o r r' q' H. unfold arrive in *. destruct (firstn_min n q o) as [-> ->].
  destruct (firstn n q); [discriminate|]. injection H as <- <-. reflexivity.
Qed.
Lemma arrive_shrinks : forall n q r r' q', arrive n q r = Some (r', q') -> (length q' <= length q)%nat.
Proof.
  intros n q r r' q' H. unfold arrive in H. destruct (firstn n q); [discriminate|]. injection H as _ <-.
  rewrite skipn_length. lia.
Qed.
Lemma narrow_up : forall lines cap n b t b', fine lines t -> rel b t ->
  narrow_step cap (NUp n) b = Some b' -> follows lines b t b'.
Proof.
  intros lines cap n b t b' HF HR H.
  destruct HR as [m ls qb q sb wb rb rdb up sv rd wr dn hd cl svp R1 R2 R3].
  cbn [narrow_step n_talk] in H. destruct (server_reads _); [|discriminate].
  cbn [talk_step t_chat t_up t_srv t_reader t_writer t_down t_heard] in H.
  destruct (arrive n up rd) as [[r' q']|] eqn:EA; [|discriminate]. injection H as <-.
  eapply (follows_step _ _ _ _ _ (Up (Nat.min n (length up)))); [exact HF| | |].
  - cbn [talk_step t_chat t_up t_srv t_reader t_writer t_down t_heard]. rewrite (arrive_more _ _ _ _ _ _ EA). reflexivity.
  - apply rel_intro; assumption.
  - cbn [set_talk n_cl n_sv]. lia.
Qed.
Lemma narrow_down : forall lines cap n b t b', fine lines t -> rel b t ->
  narrow_step cap (NDown n) b = Some b' -> follows lines b t b'.
Proof.
  intros lines cap n b t b' HF HR H.
  destruct HR as [m ls qb q sb wb rb rdb up sv rd wr dn hd cl svp R1 R2 R3].
  cbn [narrow_step n_talk] in H. destruct (client_reads _); [|discriminate].
  cbn [talk_step t_chat t_up t_srv t_reader t_writer t_down t_heard ch_reader] in H.
  destruct (arrive n dn rdb) as [[r' q']|] eqn:EA; [|discriminate]. injection H as <-.
  eapply (follows_step _ _ _ _ _ (Down (Nat.min n (length dn)))); [exact HF| | |].
  - cbn [talk_step t_chat t_up t_srv t_reader t_writer t_down t_heard ch_reader]. rewrite (arrive_more _ _ _ _ _ _ EA). reflexivity.
  - unfold set_reader. cbn [ch_main ch_lines ch_queue ch_send ch_writer ch_recv ch_reader]. apply rel_intro; assumption.
  - cbn [set_talk n_cl n_sv]. lia.
Qed.

Lemma narrow_push_up : forall lines cap n b t b', fine lines t -> rel b t ->
  narrow_step cap (PushUp n) b = Some b' -> follows lines b t b'.
Proof.
  intros lines cap n b t b' HF HR H.
  destruct HR as [m ls qb q sb wb rb rdb up sv rd wr dn hd cl svp R1 R2 R3].
  cbn [narrow_step n_cl n_talk t_up t_chat] in H. destruct cl as [[[a w] o]|]; [|discriminate].
  set (j := Nat.min n _) in H. pose proof (firstn_skipn j o) as HO.
  set (f := firstn j o) in *. set (g := skipn j o) in *. clearbody f g. clear j. subst o.
  exists (mk_talk (mk_chat m ls q a w rb rdb) (up ++ f ++ g) (then_at svp sv) rd (then_writer svp wr) (dn ++ rest_of svp) hd).
  cbn [then_at then_writer rest_of] in *.
  destruct f as [|x now]; [discriminate|].
  split; [|split; [exact HF|]].
  - destruct g as [|y later].
    + injection H as <-. rewrite (app_nil_r (x :: now)). unfold with_chat, at_send, set_writer.
      cbn [ch_main ch_lines ch_queue ch_send ch_writer ch_recv ch_reader t_srv t_reader t_writer t_down t_heard n_sv].
      pose proof (rel_intro m ls qb q a w rb rdb (up ++ x :: now) sv rd wr dn hd None svp R1 I R3) as G.
      cbn [then_at then_writer rest_of] in G. rewrite app_nil_r in G. exact G.
    + injection H as <-. rewrite app_assoc. unfold with_chat. cbn [t_srv t_reader t_writer t_down t_heard n_sv].
      apply (rel_intro m ls qb q sb wb rb rdb (up ++ x :: now) sv rd wr dn hd (Some (a, w, y :: later)) svp R1); [|exact R3].
      destruct R2 as (_ & R2). split; [discriminate|exact R2].
  - intros HC. split; [exact HC|]. unfold narrow_left. cbn [n_cl n_sv rest_of].
    rewrite (app_length (x :: now)). cbn [length].
    destruct g as [|y later]; injection H as <-; cbn [n_cl n_sv rest_of length]; lia.
Qed.
Lemma narrow_push_down : forall lines cap n b t b', fine lines t -> rel b t ->
  narrow_step cap (PushDown n) b = Some b' -> follows lines b t b'.
Proof.
  intros lines cap n b t b' HF HR H.
  destruct HR as [m ls qb q sb wb rb rdb up sv rd wr dn hd cl svp R1 R2 R3].
  cbn [narrow_step n_sv n_talk t_down t_chat] in H. destruct svp as [[[a w] o]|]; [|discriminate].
  set (j := Nat.min n _) in H. pose proof (firstn_skipn j o) as HO.
  set (f := firstn j o) in *. set (g := skipn j o) in *. clearbody f g. clear j. subst o.
  exists (mk_talk (mk_chat m ls q (then_at cl sb) (then_writer cl wb) rb rdb) (up ++ rest_of cl) a rd w (dn ++ f ++ g) hd).
  cbn [then_at then_writer rest_of] in *. fold (then_at cl sb) (then_writer cl wb) (rest_of cl) in *.
  destruct f as [|x now]; [discriminate|].
  split; [|split; [exact HF|]].
  - destruct g as [|y later].
    + injection H as <-. rewrite (app_nil_r (x :: now)). unfold with_server.
      cbn [t_chat t_up t_srv t_reader t_writer t_down t_heard n_cl].
      pose proof (rel_intro m ls qb q sb wb rb rdb up a rd w (dn ++ x :: now) hd cl None R1 R2 I) as G.
      cbn [then_at then_writer rest_of] in G. rewrite app_nil_r in G. exact G.
    + injection H as <-. rewrite app_assoc. unfold with_server. cbn [t_chat t_up t_srv t_reader t_writer t_down t_heard n_cl].
      apply (rel_intro m ls qb q sb wb rb rdb up sv rd wr (dn ++ x :: now) hd cl (Some (a, w, y :: later)) R1 R2).
      destruct R3 as (_ & R3). split; [discriminate|exact R3].
  - intros HC. split; [exact HC|]. unfold narrow_left. cbn [n_cl n_sv rest_of].
    rewrite (app_length (x :: now)). cbn [length].
    destruct g as [|y later]; injection H as <-; cbn [n_cl n_sv rest_of length]; lia.
Qed.

Lemma narrow_keeps : forall lines cap a b t b', fine lines t -> rel b t ->
  narrow_step cap a b = Some b' -> follows lines b t b'.
Proof.
  intros lines cap [[|ks|]|k|n|n|n|n] b t b' HF HR H.
  - eapply narrow_main; eauto.
  - eapply narrow_send; eauto.
  - eapply narrow_receive; eauto.
  - eapply narrow_serve; eauto.
  - eapply narrow_up; eauto.
  - eapply narrow_down; eauto.
  - eapply narrow_push_up; eauto.
  - eapply narrow_push_down; eauto.
Qed.

Definition narrow_fine (lines : list bytes) (b : narrow) (t : talk) : Prop := rel b t /\ fine lines t.
Lemma narrow_run_fine : forall lines cap acts b t, narrow_fine lines b t ->
  exists t', narrow_fine lines (narrow_run cap acts b) t'.
Proof.
  intros lines cap. induction acts as [|a acts IH]; intros b t [H1 H2]; [exists t; split; assumption|].
  cbn [narrow_run]. destruct (narrow_step cap a b) as [b'|] eqn:E; [|eapply IH; split; eauto].
  destruct (narrow_keeps _ _ _ _ _ _ H2 H1 E) as (t' & G1 & G2 & _). eapply IH. split; eauto.
Qed.
Lemma narrow_starts : forall lines w1 w2, never_fails w1 -> never_fails w2 -> Forall fit_line lines ->
  narrow_fine lines (narrow_new lines w1 w2) (talk_new lines w1 w2).
Proof.
  intros lines w1 w2 H1 H2 H3. split; [|apply talk_starts; assumption].
  unfold narrow_new, talk_new, chat_new.
  match goal with |- rel (mk_narrow (mk_talk (mk_chat ?m ?ls ?q ?s ?w ?r ?rd) ?u ?sv ?r2 ?w2 ?d ?h) _ _) _ =>
    apply (rel_intro m ls q q s w r rd u sv r2 w2 d h None None); auto end.
Qed.
Lemma rel_heard : forall b t, rel b t -> t_heard (n_talk b) = t_heard t.
Proof. intros b t []. reflexivity. Qed.

(** [C84] Whatever the order in which the threads, the server and a network with room for [cap]
    bytes each way take their turns: the client never gets an error, what it has heard so far is
    the beginning of the conversation the user's lines call for, it hears a close message only if the
    user typed "/close", and the server does not panic. *)
Lemma narrow_sound_proof : forall lines w1 w2 cap acts, never_fails w1 -> never_fails w2 ->
  Forall (fun t => well_formed (octets t) /\ size t <= 104857600) lines ->
  let t := n_talk (narrow_run cap acts (narrow_new lines w1 w2)) in
  exists us ms rest, types lines us /\ t_heard t = map Ok ms /\ ms ++ rest = conversation us /\
    (Exists closing ms -> In (OClose None) us) /\ (forall e, t_srv t = Served e -> e = Returned).
Proof.
  intros lines w1 w2 cap acts H1 H2 HL t.
  destruct (narrow_run_fine lines cap acts _ _ (narrow_starts lines w1 w2 H1 H2 HL)) as (t' & G1 & G2).
  fold t in G1. destruct (fine_sound _ _ G2) as (us & ms & rest & A1 & A2 & A3 & A4 & A5).
  exists us, ms, rest. split; [exact A1|]. split; [subst t; rewrite (rel_heard _ _ G1); exact A2|]. split; [exact A3|]. split; [exact A4|].
  intros e E. subst t. inversion G1 as [m ls qb q sb wb rb rdb up sv rd wr dn hd cl svp R1 R2 R3 B T]. rewrite <- B in E. cbn in E.
  destruct svp as [[[a w] o]|].
  - destruct R3 as [_ [R3|R3]]; congruence.
  - apply A5. rewrite <- T. cbn. exact E.
Qed.

(*EX
(** The user types a word, "/ping" and "/close"; the network holds a single byte.  After two rounds
    client and server are both in the middle of a write. *)
Definition narrow_turns : list nact :=
  let k := mk_key x01 x02 x03 x04 in
  [NClient Main; NClient (SendLoop (k, k)); PushUp 3; NServer k; PushDown 2; NUp 2; NDown 1; NClient ReceiveLoop].
Definition narrow_lines : list bytes := [str "hi"; str "/ping"; str "/close"].
Definition narrow_start : narrow := narrow_new narrow_lines (mk_w [] []) (mk_w [] []).
Example narrow_sound_ex :
  (exists a w b x v y, n_cl (narrow_run 1 (concat (repeat narrow_turns 2)) narrow_start) = Some (a, w, b :: x) /\
     n_sv (narrow_run 1 (concat (repeat narrow_turns 2)) narrow_start) = Some (Serving, v, y) /\ List.length y = 5%nat) /\
  t_heard (n_talk (narrow_run 1 (concat (repeat narrow_turns 20)) narrow_start)) = [Ok (OText (str "Hello")); Ok (OText (str "hi"))].
Proof.
  split; [|vm_compute; reflexivity]. do 6 eexists.
  split; [vm_compute; reflexivity|]. split; [vm_compute; reflexivity|]. vm_compute; reflexivity.
Qed.
EX*)

(** [C84] The network never holds more. *)
Lemma narrow_room_proof : forall lines w1 w2 cap acts,
  let t := n_talk (narrow_run cap acts (narrow_new lines w1 w2)) in
  (length (t_up t) <= cap)%nat /\ (length (t_down t) <= cap)%nat.
Proof.
  intros lines w1 w2 cap acts.
  assert ((length (t_up (n_talk (narrow_new lines w1 w2))) <= cap)%nat /\ (length (t_down (n_talk (narrow_new lines w1 w2))) <= cap)%nat) as H0
    by (split; cbn; lia).
  revert H0. generalize (narrow_new lines w1 w2). induction acts as [|a acts IH]; intros b H; [exact H|].
  cbn [narrow_run]. apply IH. clear IH. destruct (narrow_step cap a b) as [b'|] eqn:E; [|exact H].
  destruct b as [t cl svp]. cbn [n_talk] in *. destruct H as [H1 H2].
  assert (forall n q r r' q', arrive n q r = Some (r', q') -> (length q' <= length q)%nat) as HA
    by (intros; eapply arrive_shrinks; eauto).
  destruct a as [p|k|n|n|n|n]; cbn [narrow_step n_talk n_cl n_sv] in E.
  - destruct p as [|ks|].
    + destruct (talk_step _ t) as [t'|] eqn:ET; [|discriminate]. injection E as <-. cbn [set_talk n_talk].
      cbn [talk_step chat_step] in ET. destruct (main_step (t_chat t)) as [c'|] eqn:EM; [|discriminate].
      destruct (main_inv _ _ EM) as (_ & EW & _). rewrite EW, written_same, app_nil_r in ET. injection ET as <-. cbn. auto.
    + destruct cl; [discriminate|]. destruct (chat_step _ _) as [c'|]; [|discriminate].
      destruct (written _ _); injection E as <-; cbn; auto.
    + destruct (talk_step _ t) as [t'|] eqn:ET; [|discriminate]. injection E as <-. cbn [set_talk n_talk].
      cbn [talk_step chat_step] in ET. destruct (must_wait _ _ _); [discriminate|].
      destruct (recv_step (t_chat t)) as [c'|] eqn:EM; [|discriminate].
      assert (ch_writer c' = ch_writer (t_chat t)) as EW.
      { unfold recv_step in EM. destruct (ch_recv (t_chat t)); [|discriminate]. destruct (reader_recv _) as [x r].
        destruct x as [[d|d|cd|d|d]|e| |]; rewrite ?put_eq in EM; unfold at_recv, set_reader in EM;
          cbn [ch_main ch_lines ch_queue ch_send ch_writer ch_recv ch_reader] in EM;
          try (destruct (ch_send (t_chat t))); injection EM as <-; reflexivity. }
      rewrite EW, written_same, app_nil_r in ET. injection ET as <-. cbn. auto.
  - destruct svp; [discriminate|]. destruct (talk_step _ t) as [t'|] eqn:ET; [|discriminate].
    cbn [talk_step] in ET. destruct (t_srv t) eqn:ES; [| |discriminate].
    + destruct (server_turn Greeting k (t_reader t) (t_writer t)) as [[a' r'] w']. injection ET as <-. cbn [t_writer t_srv t_reader] in E.
      destruct (written (t_writer t) w') eqn:EW; injection E as <-; cbn; rewrite ?app_nil_r; auto.
    + destruct (must_wait _ _ _); [discriminate|].
      destruct (server_turn Serving k (t_reader t) (t_writer t)) as [[a' r'] w']. injection ET as <-. cbn [t_writer t_srv t_reader] in E.
      destruct (written (t_writer t) w') eqn:EW; injection E as <-; cbn; rewrite ?app_nil_r; auto.
  - destruct (server_reads _); [|discriminate]. cbn [talk_step] in E. destruct (arrive n _ _) as [[r' q']|] eqn:EA; [|discriminate].
    injection E as <-. apply HA in EA. cbn. lia.
  - destruct (client_reads _); [|discriminate]. cbn [talk_step] in E. destruct (arrive n _ _) as [[r' q']|] eqn:EA; [|discriminate].
    injection E as <-. apply HA in EA. cbn. lia.
  - destruct cl as [[[a w] o]|]; [|discriminate]. set (j := Nat.min n _) in E.
    assert (length (firstn j o) <= j)%nat as HJ by apply firstn_le_length.
    destruct (firstn j o) as [|x now]; [discriminate|]. cbn [length] in HJ.
    destruct (skipn j o); injection E as <-; cbn [n_talk with_chat t_up t_down]; rewrite app_length; cbn [length]; lia.
  - destruct svp as [[[a w] o]|]; [|discriminate]. set (j := Nat.min n _) in E.
    assert (length (firstn j o) <= j)%nat as HJ by apply firstn_le_length.
    destruct (firstn j o) as [|x now]; [discriminate|]. cbn [length] in HJ.
    destruct (skipn j o); injection E as <-; cbn [n_talk with_server t_up t_down]; rewrite app_length; cbn [length]; lia.
Qed.

(*EX
Example narrow_room_ex :
  t_up (n_talk (narrow_run 3 [NClient Main; NClient (SendLoop (mk_key x01 x02 x03 x04, mk_key x01 x02 x03 x04));
    NClient (SendLoop (mk_key x01 x02 x03 x04, mk_key x01 x02 x03 x04)); PushUp 2; PushUp 2; PushUp 2]
    (narrow_new [str "hi"] (mk_w [] []) (mk_w [] [])))) = [x81; x82; x01].
Proof. vm_compute. reflexivity. Qed.
EX*)

(** ** Nobody gets stuck *)
Lemma receive_goes : forall b, ch_recv (t_chat (n_talk b)) = Listening -> narrow_step 0 (NClient ReceiveLoop) b = None ->
  client_reads b = true.
Proof.
  intros b E H. unfold client_reads, lacks. rewrite E. cbn [narrow_step talk_step] in H.
  destruct (fst (reader_recv (ch_reader (t_chat (n_talk b))))) as [m|e| |] eqn:EX.
  2:{ destruct e; try reflexivity; exfalso; cbn [must_wait] in H; cbn [chat_step] in H; unfold recv_step in H; rewrite E in H;
      destruct (reader_recv _) as [x r]; cbn [fst] in EX; subst x; rewrite put_eq in H; discriminate H. }
  all: exfalso; cbn [must_wait] in H; cbn [chat_step] in H; unfold recv_step in H; rewrite E in H;
    destruct (reader_recv _) as [x r]; cbn [fst] in EX; subst x; try discriminate H.
  destruct m; rewrite ?put_eq in H; try discriminate H. destruct (ch_send _); discriminate H.
Qed.
Lemma server_goes : forall b k, n_sv b = None -> (forall e, t_srv (n_talk b) <> Served e) -> narrow_step 0 (NServer k) b = None ->
  server_reads b = true.
Proof.
  intros b k E1 E2 H. unfold server_reads, lacks. rewrite E1. cbn [narrow_step] in H. rewrite E1 in H. cbn [talk_step] in H.
  destruct (t_srv (n_talk b)) as [| |e]; [| |destruct (E2 e eq_refl)].
  - exfalso. destruct (server_turn _ _ _ _) as [[a' r'] w'] in H. destruct (written _ _) in H; discriminate H.
  - destruct (fst (reader_recv _)) as [m|e| |] eqn:EX; try (exfalso; cbn [must_wait] in H;
      destruct (server_turn _ _ _ _) as [[a' r'] w'] in H; destruct (written _ _) in H; discriminate H).
    destruct e; try reflexivity; exfalso; cbn [must_wait] in H;
      destruct (server_turn _ _ _ _) as [[a' r'] w'] in H; destruct (written _ _) in H; discriminate H.
Qed.
Lemma talk_goes_up : forall t, t_up t <> [] -> exists t', talk_step (Up 1) t = Some t'.
Proof. intros t H. cbn [talk_step]. unfold arrive. destruct (t_up t); [contradiction|]. cbn [firstn]. eauto. Qed.
Lemma talk_goes_down : forall t, t_down t <> [] -> exists t', talk_step (Down 1) t = Some t'.
Proof. intros t H. cbn [talk_step]. unfold arrive. destruct (t_down t); [contradiction|]. cbn [firstn]. eauto. Qed.

Lemma narrow_rest_over : forall lines cap b t, (0 < cap)%nat -> narrow_fine lines b t -> narrow_rest cap b ->
  at_rest t /\ n_cl b = None /\ n_sv b = None.
Proof.
  intros lines cap b t Hcap [HR HF] HN.
  assert (t_down (n_talk b) = []) as ED.
  { destruct (t_down (n_talk b)) eqn:ED; [reflexivity|]. exfalso.
    destruct (ch_recv (t_chat (n_talk b))) eqn:ER.
    - pose proof (receive_goes b ER (HN (NClient ReceiveLoop))) as HC.
      specialize (HN (NDown 1)). cbn [narrow_step] in HN. rewrite HC in HN.
      destruct (talk_goes_down (n_talk b)) as [t' ET]; [congruence|]. rewrite ET in HN. discriminate.
    - pose proof (over_down _ _ HF) as HO. destruct HR. cbn [n_talk t_chat ch_recv t_down] in *. rewrite ED in HO. discriminate (HO ER). }
  assert (n_sv b = None) as EV.
  { destruct (n_sv b) as [[[a w] o]|] eqn:EV; [|reflexivity]. exfalso.
    specialize (HN (PushDown 1)). cbn [narrow_step] in HN. rewrite EV, ED in HN.
    assert (o <> []) as HO by (destruct HR; cbn [n_sv] in EV; subst svp; match goal with G : _ <> [] /\ _ |- _ => apply G end).
    destruct o as [|x o]; [contradiction|]. destruct cap as [|cap]; [lia|]. cbn in HN. destruct o; discriminate. }
  assert (t_up (n_talk b) = []) as EU.
  { destruct (t_up (n_talk b)) eqn:EU; [reflexivity|]. exfalso.
    assert (forall e, t_srv (n_talk b) <> Served e) as HS.
    { intros e ES. pose proof (served_up _ _ e HF) as HO. destruct HR. cbn [n_talk t_srv t_up n_sv] in *. subst svp. cbn [then_at] in HO.
      rewrite EU in HO. discriminate (HO ES). }
    pose proof (server_goes b (mk_key x00 x00 x00 x00) EV HS (HN (NServer _))) as HC.
    specialize (HN (NUp 1)). cbn [narrow_step] in HN. rewrite HC in HN.
    destruct (talk_goes_up (n_talk b)) as [t' ET]; [congruence|]. rewrite ET in HN. discriminate. }
  assert (n_cl b = None) as EC.
  { destruct (n_cl b) as [[[a w] o]|] eqn:EC; [|reflexivity]. exfalso.
    specialize (HN (PushUp 1)). cbn [narrow_step] in HN. rewrite EC, EU in HN.
    assert (o <> []) as HO by (destruct HR; cbn [n_cl] in EC; subst cl; match goal with G : _ <> [] /\ (exists _, _) /\ _ |- _ => apply G end).
    destruct o as [|x o]; [contradiction|]. destruct cap as [|cap]; [lia|]. cbn in HN. destruct o; discriminate. }
  split; [|auto].
  destruct HR as [m ls qb q sb wb rb rdb up sv rd wr dn hd cl svp R1 R2 R3]. cbn [n_talk n_cl n_sv t_up t_down] in *. subst cl svp up dn.
  cbn [then_at then_writer rest_of app] in *.
  intros [[|ks|]|k|n|n].
  - specialize (HN (NClient Main)). cbn [narrow_step n_talk] in HN. cbn [talk_step t_chat chat_step] in HN |- *.
    destruct m; [| | |reflexivity].
    + exfalso. unfold main_step in HN. cbn [ch_main] in HN. destruct (next_line _) as [l c1]. destruct (beqb l (str "/close")); rewrite put_eq in HN; [discriminate|].
      destruct (ch_send c1); discriminate.
    + cbn [main_step ch_main ch_send] in *. destruct sb; [reflexivity..|discriminate].
    + cbn [main_step ch_main ch_recv] in *. destruct rb; [reflexivity..|discriminate].
  - specialize (HN (NClient (SendLoop ks))). cbn [narrow_step n_talk n_cl t_chat] in HN. cbn [talk_step t_chat] in *.
    destruct R1 as [->|R1].
    + destruct (chat_step (SendLoop ks) _) as [c'|]; [|reflexivity]. destruct (written _ _); discriminate.
    + subst sb. reflexivity.
  - specialize (HN (NClient ReceiveLoop)). cbn [narrow_step n_talk] in HN. cbn [talk_step t_chat ch_reader t_srv t_down] in HN |- *.
    destruct (must_wait _ _ _); [reflexivity|]. cbn [chat_step] in *. unfold recv_step in *. cbn [ch_recv ch_reader] in *. destruct rb; [|reflexivity].
    exfalso. destruct (reader_recv rdb) as [x r']. destruct x as [[d|d|cd|d|d]|e| |]; rewrite ?put_eq in HN; try discriminate HN.
    destruct (ch_send _) in HN; discriminate HN.
  - specialize (HN (NServer k)). cbn [narrow_step n_talk n_sv] in HN. cbn [talk_step t_chat ch_main t_srv t_reader t_up] in HN |- *.
    destruct sv; [| |reflexivity].
    + exfalso. destruct (server_turn _ _ _ _) as [[a' r'] w']. destruct (written _ _) in HN; discriminate HN.
    + destruct (must_wait _ _ _); [reflexivity|]. exfalso. destruct (server_turn _ _ _ _) as [[a' r'] w']. destruct (written _ _) in HN; discriminate HN.
  - cbn [talk_step t_up]. rewrite arrive_nothing. reflexivity.
  - cbn [talk_step t_down]. rewrite arrive_nothing. reflexivity.
Qed.

(** [C84] If the network holds one byte at least, nobody gets stuck: when nothing can happen any
    more the conversation is complete, the server has returned, and all threads of the client are
    over. *)
Lemma narrow_complete_proof : forall lines us w1 w2 cap acts, never_fails w1 -> never_fails w2 ->
  Forall (fun t => well_formed (octets t) /\ size t <= 104857600) lines -> talks lines us -> (0 < cap)%nat ->
  let b := narrow_run cap acts (narrow_new lines w1 w2) in
  narrow_rest cap b ->
  t_heard (n_talk b) = map Ok (conversation us) /\ t_srv (n_talk b) = Served Returned /\ all_over (t_chat (n_talk b)).
Proof.
  intros lines us w1 w2 cap acts H1 H2 HL HT Hcap b HR.
  destruct (narrow_run_fine lines cap acts _ _ (narrow_starts lines w1 w2 H1 H2 HL)) as (t & G1 & G2). fold b in G1.
  destruct (narrow_rest_over _ _ _ _ Hcap (conj G1 G2) HR) as (A1 & A2 & A3).
  destruct (rest_over _ _ G2 A1) as (B1 & B2 & us' & B3 & B4 & B5).
  rewrite (rel_heard _ _ G1). rewrite (B5 us (talks_types _ _ _ HT B3 B4)). split; [reflexivity|].
  clearbody b. destruct G1. cbn [n_cl n_sv n_talk t_srv t_chat] in *. subst. cbn [then_at t_srv t_chat then_writer] in *. split; [exact B2|].
  unfold all_over in *. cbn [ch_main ch_send ch_recv] in *. exact B1.
Qed.

(*EX
(** With room for one byte; and with room for none, everyone is stuck before the first word. *)
Example narrow_complete_ex :
  talks narrow_lines [OText (str "hi"); OPing (str "PING")] /\
  (let b := narrow_run 1 (concat (repeat narrow_turns 50)) narrow_start in
   narrow_rest 1 b /\
   t_heard (n_talk b) = [Ok (OText (str "Hello")); Ok (OText (str "hi")); Ok (OPong (str "PING")); Ok (OClose None)]) /\
  (let b := narrow_run 0 (concat (repeat narrow_turns 50)) narrow_start in narrow_rest 0 b /\ t_heard (n_talk b) = []).
Proof.
  split; [|split].
  - apply (talks_line (str "hi")); [discriminate|]. apply (talks_line (str "/ping")); [discriminate|]. constructor.
  - set (b := narrow_run _ _ _). vm_compute in b. split; [|reflexivity].
    intros [[|ks|]|k|[|n]|[|n]|[|n]|[|n]]; reflexivity.
  - set (b := narrow_run _ _ _). vm_compute in b. split; [|reflexivity].
    intros [[|ks|]|k|[|n]|[|n]|[|n]|[|n]]; reflexivity.
Qed.
EX*)

Lemma narrow_bound : forall lines w1 w2, narrow_left (narrow_new lines w1 w2) (talk_new lines w1 w2)
  = (8 * letters lines + 116 * length lines + 166)%nat.
Proof. intros lines w1 w2. unfold narrow_left. rewrite time_bound. cbn [fee narrow_new n_cl n_sv rest_of length]. lia. Qed.
(** [C84] It does come to an end: if the user types "/close" some time, no more than so many things
    can happen, in whatever order and however the bytes are cut. *)
Lemma narrow_ends_proof : forall lines w1 w2 cap acts, never_fails w1 -> never_fails w2 ->
  Forall (fun t => well_formed (octets t) /\ size t <= 104857600) lines -> In (str "/close") lines ->
  (narrow_happened cap acts (narrow_new lines w1 w2) <= 8 * letters lines + 116 * length lines + 166)%nat.
Proof.
  intros lines w1 w2 cap acts H1 H2 HL HI. apply Nat.le_trans with (narrow_left (narrow_new lines w1 w2) (talk_new lines w1 w2)); [|rewrite narrow_bound; apply le_n].
  destruct (narrow_starts lines w1 w2 H1 H2 HL) as [HR HF].
  assert (will_close (talk_new lines w1 w2)) as HC by (intros _; exact HI).
  revert HR HF HC. generalize (talk_new lines w1 w2). generalize (narrow_new lines w1 w2).
  induction acts as [|a acts IH]; intros b t HR HF HC; cbn [narrow_happened]; [lia|].
  destruct (narrow_step cap a b) as [b'|] eqn:E; [|apply IH; assumption].
  destruct (narrow_keeps _ _ _ _ _ _ HF HR E) as (t' & G1 & G2 & G3). destruct (G3 HC) as [G4 G5].
  specialize (IH b' t' G1 G2 G4). lia.
Qed.

(*EX
Example narrow_ends_ex : narrow_happened 1 (concat (repeat narrow_turns 60)) narrow_start = 105%nat.
Proof. vm_compute. reflexivity. Qed.
EX*)

Lemma narrow_app_run : forall cap a b t, narrow_run cap (a ++ b) t = narrow_run cap b (narrow_run cap a t).
Proof. induction a as [|x a IH]; intros b t; [reflexivity|]. apply IH. Qed.
Lemma narrow_rest_stays : forall cap acts b, narrow_rest cap b -> narrow_run cap acts b = b.
Proof. induction acts as [|a acts IH]; intros b H; [reflexivity|]. cbn [narrow_run]. rewrite H. apply IH, H. Qed.
Lemma narrow_round_rest : forall cap acts b, narrow_round acts -> (forall a, In a acts -> narrow_step cap a b = None) -> narrow_rest cap b.
Proof.
  intros cap acts b (R1 & (ks & R2) & R3 & (k & R4) & (n1 & R5) & (n2 & R6) & (n3 & R7) & (n4 & R8)) H a.
  apply H in R1, R2, R3, R4, R5, R6, R7, R8. destruct a as [[|ks'|]|k'|m|m|m|m].
  - exact R1.
  - cbn [narrow_step] in R2 |- *. destruct (n_cl b); [reflexivity|]. cbn [chat_step] in *.
    destruct (send_step ks _) eqn:E; [destruct (written _ _); discriminate|]. rewrite (send_any_key _ ks' _ E). reflexivity.
  - exact R3.
  - cbn [narrow_step talk_step] in R4 |- *. destruct (n_sv b); [reflexivity|]. destruct (t_srv (n_talk b)) as [| |e]; [| |reflexivity].
    + exfalso. destruct (server_turn Greeting k _ _) as [[? ?] ?]. destruct (written _ _) in R4; discriminate.
    + destruct (must_wait _ _ _); [reflexivity|]. exfalso. destruct (server_turn Serving k _ _) as [[? ?] ?]. destruct (written _ _) in R4; discriminate.
  - cbn [narrow_step talk_step] in R5 |- *. destruct (server_reads b); [|reflexivity].
    destruct (arrive (S n1) _ _) as [[? ?]|] eqn:E; [discriminate|]. apply arrive_none in E. rewrite E, arrive_nothing. reflexivity.
  - cbn [narrow_step talk_step] in R6 |- *. destruct (client_reads b); [|reflexivity].
    destruct (arrive (S n2) _ _) as [[? ?]|] eqn:E; [discriminate|]. apply arrive_none in E. rewrite E, arrive_nothing. reflexivity.
  - cbn [narrow_step] in R7 |- *. destruct (n_cl b) as [[[a w] o]|]; [|reflexivity].
    destruct o as [|x o]; [rewrite firstn_nil; reflexivity|].
    destruct (cap - length (t_up (n_talk b)))%nat as [|r]; [rewrite Nat.min_0_r; reflexivity|].
    exfalso. cbn [Nat.min firstn] in R7. destruct (skipn _ _); discriminate.
  - cbn [narrow_step] in R8 |- *. destruct (n_sv b) as [[[a w] o]|]; [|reflexivity].
    destruct o as [|x o]; [rewrite firstn_nil; reflexivity|].
    destruct (cap - length (t_down (n_talk b)))%nat as [|r]; [rewrite Nat.min_0_r; reflexivity|].
    exfalso. cbn [Nat.min firstn] in R8. destruct (skipn _ _); discriminate.
Qed.
Lemma narrow_round_moves : forall lines cap acts b t, narrow_fine lines b t -> will_close t ->
  let b' := narrow_run cap acts b in
  (exists t', narrow_fine lines b' t' /\ will_close t' /\ (narrow_left b' t' < narrow_left b t)%nat) \/
  (b' = b /\ forall a, In a acts -> narrow_step cap a b = None).
Proof.
  induction acts as [|a acts IH]; intros b t HF HC b'.
  - right. split; [reflexivity|]. intros a [].
  - subst b'. cbn [narrow_run]. destruct (narrow_step cap a b) as [b1|] eqn:E.
    + destruct HF as [HR HF]. destruct (narrow_keeps _ _ _ _ _ _ HF HR E) as (t1 & G1 & G2 & G3). destruct (G3 HC) as [G4 G5].
      left. destruct (IH b1 t1 (conj G1 G2) G4) as [(t' & I1 & I2 & I3)|[I1 _]].
      * exists t'. repeat split; try apply I1; auto. lia.
      * exists t1. rewrite I1. repeat split; auto.
    + destruct (IH b t HF HC) as [I|[I1 I2]]; [left; exact I|right]. split; [exact I1|]. intros a' [<-|G]; auto.
Qed.

(** [C84] And it does get there: if everyone gets a turn again and again, the conversation is
    complete after that many rounds, however little the network holds. *)
Lemma narrow_live_proof : forall lines us w1 w2 cap rounds, never_fails w1 -> never_fails w2 ->
  Forall (fun t => well_formed (octets t) /\ size t <= 104857600) lines -> talks lines us -> (0 < cap)%nat ->
  Forall narrow_round rounds -> (8 * letters lines + 116 * length lines + 166 <= length rounds)%nat ->
  let b := narrow_run cap (concat rounds) (narrow_new lines w1 w2) in
  narrow_rest cap b /\ t_heard (n_talk b) = map Ok (conversation us) /\ t_srv (n_talk b) = Served Returned /\ all_over (t_chat (n_talk b)).
Proof.
  intros lines us w1 w2 cap rounds H1 H2 HL HT Hcap HR HN b.
  assert (narrow_rest cap b) as HA.
  { subst b. assert (narrow_left (narrow_new lines w1 w2) (talk_new lines w1 w2) <= length rounds)%nat as HN' by (rewrite narrow_bound; exact HN). clear HN. rename HN' into HN.
    assert (narrow_fine lines (narrow_new lines w1 w2) (talk_new lines w1 w2)) as HF by (apply narrow_starts; assumption).
    assert (will_close (talk_new lines w1 w2)) as HC by (intros _; eapply talks_in, HT).
    revert HF HC HN. generalize (talk_new lines w1 w2). generalize (narrow_new lines w1 w2). clear HT.
    induction HR as [|r rounds Hr HR IH]; intros b t HF HC HN.
    - cbn [concat narrow_run]. intros a. destruct (narrow_step cap a b) as [t1|] eqn:E; [|reflexivity]. exfalso.
      destruct HF as [HF1 HF2]. destruct (narrow_keeps _ _ _ _ _ _ HF2 HF1 E) as (t' & _ & _ & G). destruct (G HC) as [_ G']. cbn [length] in HN. lia.
    - cbn [concat length] in *. rewrite narrow_app_run. destruct (narrow_round_moves lines cap r b t HF HC) as [(t' & I1 & I2 & I3)|[I1 I2]].
      + apply (IH _ t'); auto. lia.
      + rewrite I1. pose proof (narrow_round_rest _ _ _ Hr I2) as G. rewrite narrow_rest_stays by exact G. exact G. }
  split; [exact HA|]. apply (narrow_complete_proof lines us w1 w2 cap (concat rounds)); assumption.
Qed.

(*EX
Example narrow_live_ex : narrow_round narrow_turns /\
  (8 * letters narrow_lines + 116 * List.length narrow_lines + 166 <= List.length (repeat narrow_turns 700))%nat /\
  narrow_rest 1 (narrow_run 1 (concat (repeat narrow_turns 700)) narrow_start).
Proof.
  assert (narrow_round narrow_turns) as HF.
  { unfold narrow_round, narrow_turns. repeat split; try (eexists; repeat ((left; reflexivity) || right)); repeat ((left; reflexivity) || right). }
  assert (8 * letters narrow_lines + 116 * List.length narrow_lines + 166 <= List.length (repeat narrow_turns 700))%nat as HN
    by (apply PeanoNat.Nat.leb_le; reflexivity).
  split; [exact HF|]. split; [exact HN|].
  apply (narrow_live narrow_lines [OText (str "hi"); OPing (str "PING")]); try exact HN; try (constructor; fail).
  - unfold narrow_lines. repeat (constructor; [split; [apply ExTac.good_text; reflexivity|vm_compute; discriminate]|]). constructor.
  - apply (talks_line (str "hi")); [discriminate|]. apply (talks_line (str "/ping")); [discriminate|]. constructor.
  - apply Forall_forall. intros r HR. apply repeat_spec in HR. subst r. exact HF.
Qed.
EX*)
