(** Lists in header fields, read, written and read again: C37, C40. *)
From Coq Require Import NArith ZArith String Bool List Lia.
From Coq Require Import ZifyBool ZifyNat ZifyN.
From Coq.Strings Require Import Byte.
From Verif.Model Require Import Base Io Header Mask Dataframe Utf8 Text Base64 Sha1 WsKey Headers Handshake.
From Verif.Spec Require Import RfcFrame FrameSpec Unicode Rfc4648 Accept Fields Upgrade Builder.
From Verif.Proofs Require Import BaseFacts Utf8Facts Base64Facts ThmKeys TextFacts MapFacts ThmServer ThmClient.
Import ListNotations.
Local Open Scope string_scope.
Local Open Scope list_scope.
Local Open Scope N_scope.

(** ** UTF-8 is kept by cutting *)
Lemma uchar_first : forall a l, uchar (a :: l) -> b2n a < 0x80 \/ 0xC2 <= b2n a.
Proof. intros a l H. inversion H; subst; try lia. Qed.
Lemma uchar_rest : forall p a s q, uchar p -> p = a :: s ++ q ->
  Forall (fun b => 0x80 <= b2n b < 0xC0) q.
Proof.
  intros p a s q H E. assert (Forall (fun b => 0x80 <= b2n b < 0xC0) (s ++ q)) as HF.
  { destruct H; injection E as <- <-; repeat apply Forall_cons; try apply Forall_nil; b2n_bounds; 
      repeat match goal with H : is_cont _ = true |- _ => unfold is_cont, in_range in H
        | H : second3_ok _ _ = true |- _ => unfold second3_ok, in_range in H
        | H : second4_ok _ _ = true |- _ => unfold second4_ok, in_range in H end;
      repeat match goal with H : context [if ?c then _ else _] |- _ => destruct c end; try lia. }
  apply Forall_app in HF. apply HF.
Qed.
Lemma utf8_cancel : forall s w, utf8_valid (s ++ w) = true -> utf8_valid w = true -> utf8_valid s = true.
Proof.
  assert (forall n s w, (List.length s < n)%nat -> utf8_valid (s ++ w) = true -> utf8_valid w = true -> utf8_valid s = true) as HH.
  { induction n as [|n IH]; intros s w Hn H HW; [lia|]. destruct s as [|a s]; [reflexivity|].
    destruct (utf8_valid_inv _ H) as [E|(p & r & HP & E & HR)]; [discriminate E|].
    pose proof (uchar_nonnil p HP) as HL.
    destruct (Nat.leb_spec (List.length p) (List.length (a :: s))) as [HLE|HGT].
    - assert (a :: s = p ++ skipn (List.length p) (a :: s) /\ r = skipn (List.length p) (a :: s) ++ w) as [E1 E2].
      { assert (firstn (List.length p) ((a :: s) ++ w) = p) as F1 by (rewrite E, firstn_app, firstn_all, Nat.sub_diag; cbn [firstn]; apply app_nil_r).
        assert (skipn (List.length p) ((a :: s) ++ w) = r) as F2 by (rewrite E, skipn_app, skipn_all, Nat.sub_diag; reflexivity).
        rewrite firstn_app in F1. rewrite skipn_app in F2.
        replace (List.length p - List.length (a :: s))%nat with O in * by lia. cbn [firstn skipn] in F1, F2. rewrite app_nil_r in F1.
        split; [rewrite <- F1 at 1; symmetry; apply firstn_skipn|symmetry; exact F2]. }
      rewrite E1. rewrite utf8_app by (rewrite <- (app_nil_r p), utf8_valid_uchar by exact HP; reflexivity).
      apply (IH _ w); [rewrite skipn_length; cbn [List.length] in *; lia| |exact HW]. rewrite <- E2. exact HR.
    - assert (exists q, q <> [] /\ p = a :: s ++ q /\ w = q ++ r) as (q & Hq & Ep & Ew).
      { exists (skipn (List.length (a :: s)) p).
        assert (firstn (List.length (a :: s)) (p ++ r) = a :: s) as F1 by (rewrite <- E, firstn_app, firstn_all, Nat.sub_diag; cbn [firstn]; apply app_nil_r).
        assert (skipn (List.length (a :: s)) (p ++ r) = w) as F2 by (rewrite <- E, skipn_app, skipn_all, Nat.sub_diag; reflexivity).
        rewrite firstn_app in F1. rewrite skipn_app in F2.
        replace (List.length (a :: s) - List.length p)%nat with O in * by lia.
        change (firstn 0 r) with (@nil byte) in F1. change (skipn 0 r) with r in F2. rewrite app_nil_r in F1.
        split; [|split].
        - intros E0. apply (f_equal (@List.length byte)) in E0. rewrite skipn_length in E0. cbn [List.length] in E0, HGT. lia.
        - rewrite app_comm_cons. rewrite <- F1 at 1. symmetry. apply firstn_skipn.
        - symmetry. exact F2. }
      pose proof (uchar_rest p a s q HP Ep) as HF. destruct q as [|b q]; [congruence|].
      inversion HF as [|? ? Hb _]; subst. exfalso.
      destruct (utf8_valid_inv _ HW) as [E0|(p2 & r2 & HP2 & E2 & _)]; [discriminate E0|].
      pose proof (uchar_nonnil p2 HP2) as HL2. destruct p2 as [|b2 p2]; [cbn in HL2; lia|].
      injection E2 as <- _. apply uchar_first in HP2. lia. }
  intros s w. apply (HH (S (List.length s))). lia.
Qed.
Lemma utf8_split : forall c s, b2n c < 0x80 -> utf8_valid s = true -> Forall (fun p => utf8_valid p = true) (split_on c s).
Proof.
  intros c s Hc H. rewrite <- (split_on_join c s) in H. revert H. generalize (split_on c s). clear s.
  induction l as [|p l IH]; intros H; [constructor|]. destruct l as [|q l].
  - constructor; [exact H|constructor].
  - change (join [c] (p :: q :: l)) with (p ++ c :: join [c] (q :: l)) in H.
    rewrite utf8_app_ascii in H by exact Hc. apply andb_true_iff in H as [H1 H2]. constructor; auto.
Qed.
Lemma utf8_trim : forall s, utf8_valid s = true -> utf8_valid (trim s) = true.
Proof.
  intros s H. destruct (padded_trim s) as (w1 & w2 & H1 & H2 & E). rewrite E in H.
  apply blank_utf8, utf8_text_iff in H1. apply blank_utf8, utf8_text_iff in H2.
  rewrite utf8_app in H by exact H1. eapply utf8_cancel; eassumption.
Qed.
Lemma blank_free : forall w, blank w -> ~ In x3b w.
Proof.
  intros w H. apply blank_wtext in H. induction H as [|p w Hp Hw IH]; [auto|].
  intros HI. apply in_app_or in HI as [HI|HI]; [|auto].
  destruct Hp as [a H|a b H|a b c H]; cbn [In] in HI.
  - destruct HI as [->|[]]. discriminate.
  - unfold ws2 in H. destruct HI as [->|[->|[]]]; [discriminate|]. rewrite andb_false_r in H. discriminate.
  - apply ws3_inv in H. destruct HI as [->|[->|[->|[]]]]; change (b2n x3b) with 59 in H; lia.
Qed.
Lemma trim_in : forall c s, In c (trim s) -> In c s.
Proof.
  intros c s H. destruct (padded_trim s) as (w1 & w2 & _ & _ & E). rewrite E.
  apply in_or_app. right. apply in_or_app. left. exact H.
Qed.

(** ** Cutting at a separator, trimming the pieces *)
Lemma split_front : forall c w s, ~ In c w ->
  split_on c (w ++ s) = match split_on c s with p :: ps => (w ++ p) :: ps | [] => [] end.
Proof.
  intros c w s H. induction w as [|a w IH]; cbn [app].
  - destruct (split_on c s); reflexivity.
  - cbn [split_on]. replace (Byte.eqb a c) with false
      by (symmetry; apply eqb_false; intros ->; apply H; left; reflexivity).
    rewrite IH by (intros HI; apply H; right; exact HI).
    pose proof (split_on_nonnil c s) as HN. destruct (split_on c s); [congruence|reflexivity].
Qed.
Lemma split_back : forall c w s, ~ In c w ->
  exists l p, split_on c s = l ++ [p] /\ split_on c (s ++ w) = l ++ [p ++ w].
Proof.
  intros c w s H. induction s as [|a s (l & p & E1 & E2)].
  - exists [], []. split; [reflexivity|]. cbn [app]. apply split_on_one, H.
  - cbn [app split_on]. rewrite E1, E2. destruct (Byte.eqb a c).
    + exists ([] :: l), p. split; reflexivity.
    + destruct l as [|q l]; cbn [app].
      * exists [], (a :: p). split; reflexivity.
      * exists ((a :: q) :: l), p. split; reflexivity.
Qed.
Lemma split_trim : forall s, map trim (split_on x3b (trim s)) = map trim (split_on x3b s).
Proof.
  intros s. destruct (padded_trim s) as (w1 & w2 & H1 & H2 & E). rewrite E at 2. generalize (trim s). intros t.
  rewrite split_front by (apply blank_free, H1).
  destruct (split_back x3b w2 t (blank_free w2 H2)) as (l & p & E1 & E2). rewrite E1, E2.
  destruct l as [|q l]; cbn [app map].
  - rewrite trim_blank_l by exact H1. rewrite trim_blank_r by exact H2. reflexivity.
  - rewrite trim_blank_l by exact H1. f_equal. rewrite !map_app. cbn [map]. rewrite trim_blank_r by exact H2. reflexivity.
Qed.
Lemma join_elements_trim : forall l, Forall (fun p => trim p <> [] /\ ~ In x2c p) l ->
  comma_elements (join (str ", ") l) = map trim l.
Proof.
  induction l as [|p l IH]; intros H; [reflexivity|]. inversion H as [|? ? (HN & HC) HL]; subst.
  assert (comma_elements p = [trim p]) as HP.
  { unfold comma_elements. rewrite split_on_one by exact HC. cbn [map filter]. destruct (trim p); [congruence|reflexivity]. }
  destruct l as [|q l]; [exact HP|].
  change (join (str ", ") (p :: q :: l)) with (p ++ x2c :: x20 :: join (str ", ") (q :: l)).
  rewrite elements_cons by exact HC. rewrite HP, elements_space, (IH HL). reflexivity.
Qed.

(** What a list field's elements are like. *)
Lemma delimited_elements : forall lines es, comma_delimited lines = Some es ->
  Forall (fun e => e <> [] /\ trim e = e /\ ~ In x2c e /\ utf8_valid e = true) es.
Proof.
  induction lines as [|s ls IH]; intros es H; cbn [comma_delimited] in H.
  - injection H as <-. constructor.
  - destruct (utf8_valid s) eqn:EU; [|discriminate H]. destruct (comma_delimited ls) as [es'|]; [|discriminate H].
    injection H as <-. apply Forall_app. split; [|apply IH; reflexivity].
    unfold comma_elements. apply Forall_forall. intros e HI. apply filter_In in HI as [HI HB].
    apply in_map_iff in HI as (p & <- & HI). pose proof (utf8_split x2c s ltac:(vm_compute; reflexivity) EU) as HU.
    pose proof (split_on_free x2c s) as HF. rewrite Forall_forall in HU, HF.
    split; [intros E; rewrite E in HB; discriminate HB|]. split; [apply trim_idem|].
    split; [intros HX; apply (HF p HI), trim_in, HX|apply utf8_trim, HU, HI].
Qed.

(** [C37] Any protocol list that was read from a request or a response, written and read again,
    is the same list. *)
Lemma protocols_stable_proof : forall lines l, parse_protocols lines = Some l ->
  parse_protocols [join (ascii ", ") l] = Some l.
Proof.
  intros lines l H. unfold parse_protocols in *. apply delimited_elements in H. cbn [comma_delimited].
  change (ascii ", ") with (str ", "). rewrite join_utf8, join_elements, app_nil_r; [reflexivity| |].
  - eapply Forall_impl; [|exact H]. intros e (H1 & H2 & H3 & _). auto.
  - eapply Forall_impl; [|exact H]. intros e (_ & _ & _ & H4). exact H4.
Qed.
(*EX Example protocols_stable_ex :
  parse_protocols [ascii " chat ,, a b"; [xc3; xa9]] = Some [ascii "chat"; ascii "a b"; [xc3; xa9]] /\
  parse_protocols [ascii "chat, a b, " ++ [xc3; xa9]] = Some [ascii "chat"; ascii "a b"; [xc3; xa9]].
Proof. split; reflexivity. Qed. EX*)

Lemma printed_param : forall q, print_param (param_of_str q) = trim q.
Proof. intros q. unfold param_of_str, print_param. cbn [split1 p_name p_value]. apply app_nil_r. Qed.
Lemma ext_reread : forall s, s <> [] -> trim s = s -> ~ In x2c s -> utf8_valid s = true ->
  trim (print_ext (ext_of_str s)) <> [] /\ ~ In x2c (print_ext (ext_of_str s)) /\
  utf8_valid (print_ext (ext_of_str s)) = true /\ ext_of_str (trim (print_ext (ext_of_str s))) = ext_of_str s.
Proof.
  intros s HN HT HC HU. unfold ext_of_str at 1 2 3 4 5. 
  pose proof (split_on_free x3b s) as HF. pose proof (utf8_split x3b s ltac:(vm_compute; reflexivity) HU) as HV.
  pose proof (split_on_nonnil x3b s) as HNN. pose proof (split_on_join x3b s) as HJ.
  destruct (split_on x3b s) as [|n ps] eqn:ES; [congruence|]. cbn [map].
  pose proof (Forall_inv HF) as HF1. pose proof (Forall_inv_tail HF) as HF2.
  pose proof (Forall_inv HV) as HV1. pose proof (Forall_inv_tail HV) as HV2.
  unfold print_ext. cbn [x_name x_params].
  set (tail := flat_map (fun p => str "; " ++ print_param p) (map param_of_str (map trim ps))).
  assert (forall m, ~ In x3b m -> map trim (split_on x3b (m ++ tail)) = trim m :: map trim ps) as HS.
  { unfold tail. clear -HF2. induction HF2 as [|q ps HQ HF IH]; intros m HM.
    - cbn [map flat_map]. rewrite app_nil_r, split_on_one by exact HM. reflexivity.
    - cbn [map flat_map]. change (str "; ") with [x3b; x20]. cbn [app]. rewrite split_on_cons by exact HM. cbn [map].
      match goal with |- _ :: map trim (split_on x3b (x20 :: ?a ++ ?b)) = _ =>
        change (x20 :: a ++ b) with ((x20 :: a) ++ b) end.
      change (fun p : parameter => x3b :: x20 :: print_param p) with (fun p : parameter => str "; " ++ print_param p).
      rewrite IH.
      + f_equal. f_equal. rewrite printed_param. rewrite trim_idem.
        change (x20 :: trim q) with ([x20] ++ trim q). rewrite (trim_blank_l _ [x20] blank_space). apply trim_idem.
      + intros [HI|HI]; [discriminate HI|]. rewrite printed_param, trim_idem in HI. apply HQ, trim_in, HI. }
  assert (trim (trim n ++ tail) <> []) as H1.
  { intros E. apply trim_blank in E. destruct ps as [|q ps].
    - unfold tail in E. cbn [map flat_map] in E. rewrite app_nil_r in E. apply trim_blank in E. rewrite trim_idem in E.
      cbn [join] in HJ. congruence.
    - apply (blank_free _ E). unfold tail. cbn [map flat_map]. apply in_or_app. right. left. reflexivity. }
  assert (~ In x2c (trim n ++ tail)) as H2.
  { assert (forall q, In q (n :: ps) -> ~ In x2c q) as HP.
    { intros q HI HX. apply HC. rewrite <- HJ. clear -HI HX. revert HI. generalize (n :: ps). induction l as [|r l IH]; intros HI; [destruct HI|].
      destruct l as [|r2 l]; [destruct HI as [->|[]]; exact HX|].
      change (join [x3b] (r :: r2 :: l)) with (r ++ x3b :: join [x3b] (r2 :: l)). apply in_or_app.
      destruct HI as [->|HI]; [left; exact HX|right; right; apply IH, HI]. }
    intros HI. apply in_app_or in HI as [HI|HI]; [apply (HP n (or_introl eq_refl)), trim_in, HI|].
    unfold tail in HI. apply in_flat_map in HI as (p & HP1 & HI). apply in_map_iff in HP1 as (q1 & <- & HP1).
    apply in_map_iff in HP1 as (q & <- & HP1). rewrite printed_param, trim_idem in HI.
    change (str "; ") with [x3b; x20] in HI. cbn [app In] in HI.
    destruct HI as [HI|[HI|HI]]; [discriminate HI|discriminate HI|]. apply (HP q (or_intror HP1)), trim_in, HI. }
  assert (utf8_valid (trim n ++ tail) = true) as H3.
  { rewrite utf8_app by (apply utf8_trim, HV1). unfold tail. clear -HV2. induction HV2 as [|q ps HQ HV IH]; [reflexivity|].
    cbn [map flat_map]. rewrite <- app_assoc. rewrite utf8_app by reflexivity.
    rewrite utf8_app; [exact IH|]. rewrite printed_param, trim_idem. apply utf8_trim, HQ. }
  split; [exact H1|]. split; [exact H2|]. split; [exact H3|].
  unfold ext_of_str. rewrite split_trim, HS by (intros HI; apply HF1, trim_in, HI). rewrite ES. cbn [map].
  rewrite trim_idem. reflexivity.
Qed.

(** [C40] Any extension list that was read from a request or a response, whatever its names and
    parameters look like, written and read again, is the same list. *)
Lemma extensions_reread_proof : forall lines l, parse_extensions lines = Some l ->
  parse_extensions [join (ascii ", ") (map print_ext l)] = Some l.
Proof.
  intros lines l H. unfold parse_extensions in H. destruct (comma_delimited lines) as [es|] eqn:E; [|discriminate H].
  cbn [obind] in H. injection H as <-. apply delimited_elements in E. rewrite Forall_forall in E.
  assert (forall e, In e es -> _) as HE
    by (intros e HI; destruct (E e HI) as (H1 & H2 & H3 & H4); exact (ext_reread e H1 H2 H3 H4)).
  unfold parse_extensions. cbn [comma_delimited]. change (ascii ", ") with (str ", ").
  rewrite join_utf8, join_elements_trim, app_nil_r.
  - cbn [obind]. f_equal. rewrite !map_map. apply map_ext_in. intros e HI. apply HE, HI.
  - apply Forall_forall. intros x HX. rewrite map_map in HX. apply in_map_iff in HX as (e & <- & HI).
    destruct (HE e HI) as (H1 & H2 & _). auto.
  - apply Forall_forall. intros x HX. rewrite map_map in HX. apply in_map_iff in HX as (e & <- & HI). apply HE, HI.
Qed.
(*EX
(** Blanks, an empty name, empty parameters and a value. *)
Example extensions_reread_ex :
  let l := [mk_ext (ascii "foo") [mk_param (ascii "a = 1") None; mk_param [] None]; mk_ext [] [mk_param [] None]; mk_ext (ascii "x y") []] in
  parse_extensions [ascii "foo ;  a = 1;,  ,;"; ascii " x y"] = Some l /\
  join (ascii ", ") (map print_ext l) = ascii "foo; a = 1; , ; , x y".
Proof. split; reflexivity. Qed. EX*)
