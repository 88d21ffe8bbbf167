(** The HTTP parser: it only looks at the bytes it takes, and takes exactly a head. *)
From Coq Require Import NArith ZArith String Bool List Lia.
From Coq Require Import ZifyBool ZifyNat ZifyN.
From Coq.Strings Require Import Byte.
From Verif.Model Require Import Base Io Header Mask Dataframe Utf8 Text Base64 WsKey Headers
  Handshake Message Receiver Codec Framed Http.
From Verif.Spec Require Import Fields HttpHead.
From Verif.Proofs Require Import BaseFacts TextFacts.
Import ListNotations.
Local Open Scope string_scope.
Local Open Scope list_scope.
Local Open Scope N_scope.

Definition stab {A : Type} (p : bytes -> pres A) : Prop :=
  forall i, match p i with
            | Done a r => exists c, i = c ++ r /\ forall y, p (c ++ y) = Done a y
            | Fail e => forall y, p (i ++ y) = Fail e
            | Partial => True
            end.

Lemma stab_bind : forall A B (p : bytes -> pres A) (f : A -> bytes -> pres B),
  stab p -> (forall a, stab (f a)) -> stab (fun i => pbind (p i) f).
Proof.
  intros A B p f Hp Hf i. specialize (Hp i). destruct (p i) as [a r| |e] eqn:E; cbn [pbind].
  - destruct Hp as (c & -> & Hp). specialize (Hf a r). destruct (f a r) as [b r'| |e] eqn:F.
    + destruct Hf as (c' & -> & Hf). exists (c ++ c'). split; [apply app_assoc|].
      intros y. rewrite <- app_assoc, Hp. cbn [pbind]. apply Hf.
    + exact I.
    + intros y. rewrite <- app_assoc, Hp. cbn [pbind]. apply Hf.
  - exact I.
  - intros y. rewrite Hp. reflexivity.
Qed.
Lemma stab_ret : forall A (a : A), stab (fun i => Done a i).
Proof. intros A a i. exists []. split; [reflexivity|]. reflexivity. Qed.
Lemma stab_fail : forall A e, stab (fun _ => Fail (A := A) e).
Proof. intros A e i. reflexivity. Qed.

Lemma stab_until_space : forall ok e, stab (until_space ok e).
Proof.
  intros ok e i. induction i as [|b r IH]; cbn [until_space]; [exact I|].
  destruct (Byte.eqb b x20) eqn:B.
  - exists [b]. split; [reflexivity|]. intros y. cbn [app until_space]. rewrite B. reflexivity.
  - destruct (ok b) eqn:K.
    + destruct (until_space ok e r) as [t r'| |x]; cbn [pbind].
      * destruct IH as (c & -> & IH). exists (b :: c). split; [reflexivity|]. intros y.
        cbn [app until_space]. rewrite B, K, IH. reflexivity.
      * exact I.
      * intros y. cbn [app until_space]. rewrite B, K, IH. reflexivity.
    + intros y. cbn [app until_space]. rewrite B, K. reflexivity.
Qed.
Lemma stab_literal : forall t e, stab (literal t e).
Proof.
  induction t as [|c t IH]; intros e.
  - apply stab_ret.
  - intros [|b r]; cbn [literal]; [exact I|]. destruct (Byte.eqb b c) eqn:B.
    + specialize (IH e r). destruct (literal t e r) as [a r'| |x].
      * destruct IH as (d & -> & IH). exists (b :: d). split; [reflexivity|]. intros y.
        cbn [app literal]. rewrite B. apply IH.
      * exact I.
      * intros y. cbn [app literal]. rewrite B. apply IH.
    + intros y. cbn [app literal]. rewrite B. reflexivity.
Qed.
Lemma stab_version_digit : stab version_digit.
Proof.
  intros [|b r]; [exact I|].
  destruct (byte_eq_dec b x30) as [->|H0]; [exists [x30]; split; reflexivity|].
  destruct (byte_eq_dec b x31) as [->|H1]; [exists [x31]; split; reflexivity|].
  assert (E : forall r, version_digit (b :: r) = Fail PEVersion).
  { intros r'. destruct b; try reflexivity; congruence. }
  rewrite E. intros y. apply E.
Qed.
Lemma stab_http_version : stab http_version_p.
Proof. apply stab_bind; [apply stab_literal|]. intros _. apply stab_version_digit. Qed.

Lemma newline_other : forall e b r, b <> x0d -> b <> x0a -> newline e (b :: r) = Fail e.
Proof. intros e b r H1 H2. destruct b; try reflexivity; congruence. Qed.
Lemma stab_newline : forall e, stab (newline e).
Proof.
  intros e [|b r]; [exact I|].
  destruct (byte_eq_dec b x0d) as [->|H0].
  { cbn [newline]. pose proof (stab_literal [x0a] e r) as H.
    destruct (literal [x0a] e r) as [a r'| |x].
    - destruct H as (c & -> & H). exists (x0d :: c). split; [reflexivity|]. exact H.
    - exact I.
    - exact H. }
  destruct (byte_eq_dec b x0a) as [->|H1]; [exists [x0a]; split; reflexivity|].
  rewrite newline_other by assumption. intros y. cbn [app]. apply newline_other; assumption.
Qed.
Lemma stab_header_name : forall ok, stab (header_name ok).
Proof.
  intros ok i. induction i as [|b r IH]; cbn [header_name]; [exact I|].
  destruct (Byte.eqb b x3a) eqn:B.
  - exists [b]. split; [reflexivity|]. intros y. cbn [app header_name]. rewrite B. reflexivity.
  - destruct (ok b) eqn:K.
    + destruct (header_name ok r) as [t r'| |x]; cbn [pbind].
      * destruct IH as (c & -> & IH). exists (b :: c). split; [reflexivity|]. intros y.
        cbn [app header_name]. rewrite B, K, IH. reflexivity.
      * exact I.
      * intros y. cbn [app header_name]. rewrite B, K, IH. reflexivity.
    + intros y. cbn [app header_name]. rewrite B, K. reflexivity.
Qed.
Lemma stab_header_value : stab header_value.
Proof.
  intros i. induction i as [|b r IH]; cbn [header_value]; [exact I|].
  destruct (value_byte b) eqn:B.
  - destruct (header_value r) as [t r'| |x]; cbn [pbind].
    + destruct IH as (c & -> & IH). exists (b :: c). split; [reflexivity|]. intros y.
      cbn [app header_value]. rewrite B, IH. reflexivity.
    + exact I.
    + intros y. cbn [app header_value]. rewrite B, IH. reflexivity.
  - clear IH. pose proof (stab_newline PEHeader (b :: r)) as H.
    destruct (newline PEHeader (b :: r)) as [a r'| |x] eqn:E; cbn [pbind].
    + destruct H as ([|b' c] & Hc & H); cbn [app] in Hc.
      { specialize (H []). discriminate H. }
      injection Hc as <- ->. exists (b :: c). split; [reflexivity|]. intros y.
      specialize (H y). cbn [app] in *. cbn [header_value]. rewrite B, H. reflexivity.
    + exact I.
    + intros y. specialize (H y). cbn [app] in *. cbn [header_value]. rewrite B, H. reflexivity.
Qed.

(** Something skipped first, up to a byte that stays. *)
Lemma skip_blanks_split : forall i, exists pad, i = pad ++ skip_blanks i
  /\ Forall (fun b => b = SP \/ b = HTAB) pad /\ ~ starts_blank (skip_blanks i).
Proof.
  induction i as [|b r IH].
  - exists []. split; [reflexivity|]. split; [constructor|]. intros [r [H|H]]; discriminate.
  - destruct (byte_eq_dec b x20) as [->|H0].
    { destruct IH as (pad & E & H1 & H2). exists (x20 :: pad). cbn [skip_blanks].
      split; [cbn [app]; rewrite <- E; reflexivity|]. split; [|exact H2].
      constructor; [left; reflexivity|exact H1]. }
    destruct (byte_eq_dec b x09) as [->|H1].
    { destruct IH as (pad & E & H1 & H2). exists (x09 :: pad). cbn [skip_blanks].
      split; [cbn [app]; rewrite <- E; reflexivity|]. split; [|exact H2].
      constructor; [right; reflexivity|exact H1]. }
    assert (E : skip_blanks (b :: r) = b :: r).
    { destruct b; try reflexivity; congruence. }
    rewrite E. exists []. split; [reflexivity|]. split; [constructor|].
    intros [x [H|H]]; injection H as H _; subst b; [apply H0|apply H1]; reflexivity.
Qed.
Lemma skip_blanks_same : forall v, ~ starts_blank v -> skip_blanks v = v.
Proof.
  intros [|b r] H; [reflexivity|]. destruct (byte_eq_dec b x20) as [->|H0].
  { exfalso. apply H. exists r. left. reflexivity. }
  destruct (byte_eq_dec b x09) as [->|H1].
  { exfalso. apply H. exists r. right. reflexivity. }
  destruct b; try reflexivity; congruence.
Qed.
Lemma skip_blanks_app : forall pad v, Forall (fun b => b = SP \/ b = HTAB) pad ->
  skip_blanks (pad ++ v) = skip_blanks v.
Proof. induction 1 as [|b pad [->| ->] H IH]; [reflexivity|exact IH|exact IH]. Qed.

Lemma starts_blank_app : forall b c y, ~ starts_blank (b :: c) -> ~ starts_blank ((b :: c) ++ y).
Proof.
  intros b c y H [r [E|E]]; cbn [app] in E; injection E as -> _; apply H; exists c; auto.
Qed.
Lemma stab_skip_blanks : forall A (p : bytes -> pres A), stab p -> p [] = Partial ->
  stab (fun i => p (skip_blanks i)).
Proof.
  intros A p Hp H0 i. destruct (skip_blanks_split i) as (pad & E & Hpad & Hs).
  specialize (Hp (skip_blanks i)). destruct (p (skip_blanks i)) as [a r| |e] eqn:P.
  - destruct Hp as (c & Ec & Hp). destruct c as [|b c]; [specialize (Hp []); cbn [app] in Hp; congruence|].
    exists (pad ++ b :: c). split; [rewrite <- app_assoc, <- Ec; exact E|].
    intros y. rewrite <- app_assoc, skip_blanks_app by exact Hpad.
    rewrite skip_blanks_same; [apply Hp|]. apply starts_blank_app.
    rewrite Ec in Hs. intros [x [H|H]]; injection H as -> _; apply Hs; eexists; [left|right]; cbn [app]; reflexivity.
  - exact I.
  - intros y. rewrite E, <- app_assoc, skip_blanks_app by exact Hpad.
    destruct (skip_blanks i) as [|b r] eqn:S; [congruence|].
    rewrite skip_blanks_same; [apply Hp|]. apply starts_blank_app. exact Hs.
Qed.

(** What [skip_empty] does. *)
Lemma skip_empty_other : forall b r, b <> x0d -> b <> x0a -> skip_empty (b :: r) = Done tt (b :: r).
Proof. intros b r H1 H2. destruct b; try reflexivity; congruence. Qed.
Lemma skip_empty_inv : forall n i, (length i <= n)%nat ->
  match skip_empty i with
  | Done _ r => exists sk b t, i = sk ++ r /\ empty_lines sk /\ r = b :: t /\ b <> CR /\ b <> LF
  | Fail e => e = PEHeader /\ forall y, skip_empty (i ++ y) = Fail PEHeader
  | Partial => True
  end.
Proof.
  induction n as [|n IH]; intros i Hi.
  { destruct i; [exact I|cbn in Hi; lia]. }
  destruct i as [|b r]; [exact I|].
  destruct (byte_eq_dec b x0d) as [->|H0].
  { cbn [skip_empty]. destruct r as [|c r]; [exact I|].
    destruct (byte_eq_dec c x0a) as [->|H1].
    - specialize (IH r). cbn [length] in *. specialize (IH ltac:(lia)).
      destruct (skip_empty r) as [u r'| |e] eqn:E.
      + destruct IH as (sk & b & t & -> & Hs & Hb). exists ([CR; LF] ++ sk), b, t.
        split; [reflexivity|]. split; [|exact Hb]. apply one_more; [constructor|exact Hs].
      + exact I.
      + destruct IH as [-> IH]. split; [reflexivity|]. intros y. cbn [app skip_empty]. apply IH.
    - assert (E : forall r, match c :: r with [] => Partial | x0a :: r' => skip_empty r' | _ => Fail PEHeader end
                  = Fail (A := unit) PEHeader).
      { intros r'. destruct c; try reflexivity; congruence. }
      rewrite E. split; [reflexivity|]. intros y. cbn [app skip_empty]. apply E. }
  destruct (byte_eq_dec b x0a) as [->|H1].
  { cbn [skip_empty]. specialize (IH r). cbn [length] in *. specialize (IH ltac:(lia)).
    destruct (skip_empty r) as [u r'| |e] eqn:E.
    - destruct IH as (sk & b & t & -> & Hs & Hb). exists ([LF] ++ sk), b, t.
      split; [reflexivity|]. split; [|exact Hb]. apply one_more; [constructor|exact Hs].
    - exact I.
    - destruct IH as [-> IH]. split; [reflexivity|]. intros y. cbn [app skip_empty]. apply IH. }
  rewrite skip_empty_other by assumption. exists [], b, r.
  split; [reflexivity|]. split; [constructor|]. split; [reflexivity|]. split; assumption.
Qed.
Lemma skip_empty_app : forall sk b t, empty_lines sk -> b <> CR -> b <> LF ->
  skip_empty (sk ++ b :: t) = Done tt (b :: t).
Proof.
  intros sk b t H H1 H2. induction H as [|e l He Hl IH].
  - apply skip_empty_other; assumption.
  - destruct He; cbn [app skip_empty]; exact IH.
Qed.
Lemma stab_skip_empty : forall A (p : bytes -> pres A), stab p -> p [] = Partial ->
  stab (fun i => pbind (skip_empty i) (fun _ r => p r)).
Proof.
  intros A p Hp H0 i. pose proof (skip_empty_inv (length i) i (le_n _)) as Hs.
  destruct (skip_empty i) as [u r| |e] eqn:E; cbn [pbind].
  - destruct Hs as (sk & b & t & -> & Hs & -> & Hb1 & Hb2).
    specialize (Hp (b :: t)). destruct (p (b :: t)) as [a r'| |x] eqn:P.
    + destruct Hp as ([|b' c] & Hc & Hp); [specialize (Hp []); cbn [app] in Hp; congruence|].
      cbn [app] in Hc. injection Hc as <- ->. exists (sk ++ b :: c).
      split; [rewrite <- app_assoc; reflexivity|]. intros y. rewrite <- app_assoc. cbn [app].
      rewrite skip_empty_app by assumption. apply Hp.
    + exact I.
    + intros y. rewrite <- app_assoc. cbn [app]. rewrite skip_empty_app by assumption.
      cbn [pbind]. apply Hp.
  - exact I.
  - destruct Hs as [-> Hs]. intros y. rewrite Hs. reflexivity.
Qed.

Lemma header_lines_other : forall ok n b r, b <> x0d -> b <> x0a ->
  header_lines ok n (b :: r) =
  if ok b then
    match n with
    | O => Fail PETooLarge
    | S n' =>
        pbind (header_name ok r) (fun t r1 =>
        pbind (header_value (skip_blanks r1)) (fun v r2 =>
        pbind (header_lines ok n' r2) (fun l r3 => Done ((b :: t, v) :: l) r3)))
    end
  else Fail PEHeader.
Proof. intros ok n b r H1 H2. destruct n, b; try reflexivity; congruence. Qed.
Lemma header_lines_cr : forall ok n r, header_lines ok n (x0d :: r) =
  pbind (literal [x0a] PEHeader r) (fun _ r' => Done [] r').
Proof. intros ok [|n] r; reflexivity. Qed.
Lemma header_lines_lf : forall ok n r, header_lines ok n (x0a :: r) = Done [] r.
Proof. intros ok [|n] r; reflexivity. Qed.
Lemma header_lines_nil : forall ok n, header_lines ok n [] = Partial.
Proof. intros ok [|n]; reflexivity. Qed.

Lemma stab_cons : forall A b (p : bytes -> pres A) (q : bytes -> pres A),
  (forall r, q (b :: r) = p r) -> stab p -> forall r,
  match q (b :: r) with
  | Done a r' => exists c, b :: r = c ++ r' /\ forall y, q (c ++ y) = Done a y
  | Fail e => forall y, q ((b :: r) ++ y) = Fail e
  | Partial => True
  end.
Proof.
  intros A b p q Hq Hp r. specialize (Hp r). rewrite Hq. destruct (p r) as [a r'| |e].
  - destruct Hp as (c & -> & Hp). exists (b :: c). split; [reflexivity|]. intros y. cbn [app].
    rewrite Hq. apply Hp.
  - exact I.
  - intros y. cbn [app]. rewrite Hq. apply Hp.
Qed.
Lemma stab_header_lines : forall ok n, stab (header_lines ok n).
Proof.
  intros ok. induction n as [|n IH]; intros [|b r]; try exact I.
  - destruct (byte_eq_dec b x0d) as [->|H0].
    { apply (stab_cons _ x0d (fun r => pbind (literal [x0a] PEHeader r) (fun _ r' => Done [] r'))).
      - intros r'. apply header_lines_cr.
      - apply stab_bind; [apply stab_literal|]. intros _. apply stab_ret. }
    destruct (byte_eq_dec b x0a) as [->|H1].
    { apply (stab_cons _ x0a (fun r => Done [] r)); [reflexivity|apply stab_ret]. }
    apply (stab_cons _ b (fun r => if ok b then Fail PETooLarge else Fail PEHeader)).
    + intros r'. apply header_lines_other; assumption.
    + destruct (ok b); apply stab_fail.
  - destruct (byte_eq_dec b x0d) as [->|H0].
    { apply (stab_cons _ x0d (fun r => pbind (literal [x0a] PEHeader r) (fun _ r' => Done [] r'))).
      - intros r'. apply header_lines_cr.
      - apply stab_bind; [apply stab_literal|]. intros _. apply stab_ret. }
    destruct (byte_eq_dec b x0a) as [->|H1].
    { apply (stab_cons _ x0a (fun r => Done [] r)); [reflexivity|apply stab_ret]. }
    apply (stab_cons _ b (fun r => if ok b then
        pbind (header_name ok r) (fun t r1 =>
        pbind (header_value (skip_blanks r1)) (fun v r2 =>
        pbind (header_lines ok n r2) (fun l r3 => Done ((b :: t, v) :: l) r3))) else Fail PEHeader)).
    + intros r'. apply header_lines_other; assumption.
    + destruct (ok b); [|apply stab_fail].
      apply stab_bind; [apply stab_header_name|]. intros t.
      apply (stab_bind _ _ (fun r1 => header_value (skip_blanks r1))).
      { apply stab_skip_blanks; [apply stab_header_value|reflexivity]. }
      intros v. apply stab_bind; [exact IH|]. intros l. apply stab_ret.
Qed.

Lemma stab_request : forall X, stab (try_request X).
Proof.
  intros X. unfold try_request. apply (stab_skip_empty _ (fun r0 =>
    pbind (until_space (l_method X) PEHeader r0) (fun m r1 =>
    pbind (until_space (l_target X) PEHeader r1) (fun t r2 =>
    pbind (http_version_p r2) (fun v r3 =>
    pbind (newline PEHeader r3) (fun _ r4 =>
    pbind (header_lines (l_name X) MAX_HEADERS r4) (fun hs r5 =>
    match method_of_str m with
    | None => Fail PEMethod
    | Some me =>
        if target_ok X t then Done (mk_req me t v (from_raw hs)) r5 else Fail PEUri
    end))))))); [|reflexivity].
  apply stab_bind; [apply stab_until_space|]. intros m.
  apply stab_bind; [apply stab_until_space|]. intros t.
  apply stab_bind; [apply stab_http_version|]. intros v.
  apply stab_bind; [apply stab_newline|]. intros _.
  apply stab_bind; [apply stab_header_lines|]. intros hs.
  destruct (method_of_str m); [|apply stab_fail]. destruct (target_ok X t); [apply stab_ret|apply stab_fail].
Qed.

Lemma stab_digit : stab digit.
Proof.
  intros [|b r]; [exact I|]. cbn [digit]. destruct (_ && _) eqn:E.
  - exists [b]. split; [reflexivity|]. intros y. cbn [app digit]. rewrite E. reflexivity.
  - intros y. cbn [app digit]. rewrite E. reflexivity.
Qed.
Lemma stab_status : stab status_code.
Proof.
  unfold status_code. apply stab_bind; [apply stab_digit|]. intros a.
  apply stab_bind; [apply stab_digit|]. intros b. apply stab_bind; [apply stab_digit|]. intros c.
  apply stab_ret.
Qed.
Lemma reason_text_other : forall ok b r, b <> x0d -> b <> x0a -> reason_text ok (b :: r) =
  if ok b then pbind (reason_text ok r) (fun t r' => Done (b :: t) r') else Fail PEStatus.
Proof. intros ok b r H1 H2. destruct b; try reflexivity; congruence. Qed.
Lemma stab_crlf : forall A (a : A) e, stab (fun r => pbind (literal [x0a] e r) (fun _ r' => Done a r')).
Proof. intros. apply stab_bind; [apply stab_literal|]. intros _. apply stab_ret. Qed.
Lemma stab_reason_text : forall ok, stab (reason_text ok).
Proof.
  intros ok i. induction i as [|b r IH]; [exact I|].
  destruct (byte_eq_dec b x0d) as [->|H0].
  { apply (stab_cons _ x0d (fun r => pbind (literal [x0a] PEStatus r) (fun _ r' => Done [] r')));
      [reflexivity|apply stab_crlf]. }
  destruct (byte_eq_dec b x0a) as [->|H1].
  { apply (stab_cons _ x0a (fun r => Done [] r)); [reflexivity|apply stab_ret]. }
  rewrite reason_text_other by assumption. destruct (ok b) eqn:K.
  - destruct (reason_text ok r) as [t r'| |e]; cbn [pbind].
    + destruct IH as (c & -> & IH). exists (b :: c). split; [reflexivity|]. intros y. cbn [app].
      rewrite reason_text_other, K, IH by assumption. reflexivity.
    + exact I.
    + intros y. cbn [app]. rewrite reason_text_other, K, IH by assumption. reflexivity.
  - intros y. cbn [app]. rewrite reason_text_other, K by assumption. reflexivity.
Qed.
Lemma reason_other : forall ok b r, b <> x20 -> b <> x0d -> b <> x0a -> reason ok (b :: r) = Fail PEStatus.
Proof. intros ok b r H0 H1 H2. destruct b; try reflexivity; congruence. Qed.
Lemma stab_reason : forall ok, stab (reason ok).
Proof.
  intros ok [|b r]; [exact I|].
  destruct (byte_eq_dec b x20) as [->|Hs].
  { apply (stab_cons _ x20 (reason_text ok)); [reflexivity|apply stab_reason_text]. }
  destruct (byte_eq_dec b x0d) as [->|H0].
  { apply (stab_cons _ x0d (fun r => pbind (literal [x0a] PEStatus r) (fun _ r' => Done [] r')));
      [reflexivity|apply stab_crlf]. }
  destruct (byte_eq_dec b x0a) as [->|H1].
  { apply (stab_cons _ x0a (fun r => Done [] r)); [reflexivity|apply stab_ret]. }
  rewrite reason_other by assumption. intros y. apply reason_other; assumption.
Qed.
Lemma stab_response : forall X, stab (try_response X).
Proof.
  intros X. unfold try_response. apply (stab_skip_empty _ (fun r0 =>
    pbind (http_version_p r0) (fun v r1 =>
    pbind (literal [x20] PEVersion r1) (fun _ r2 =>
    pbind (status_code r2) (fun c r3 =>
    pbind (reason (l_reason X) r3) (fun t r4 =>
    pbind (header_lines (l_name X) MAX_HEADERS r4) (fun hs r5 =>
    Done (mk_resp v c t (from_raw hs)) r5))))))); [|reflexivity].
  apply stab_bind; [apply stab_http_version|]. intros v.
  apply stab_bind; [apply stab_literal|]. intros _.
  apply stab_bind; [apply stab_status|]. intros c.
  apply stab_bind; [apply stab_reason|]. intros t.
  apply stab_bind; [apply stab_header_lines|]. intros hs. apply stab_ret.
Qed.

(** A proper prefix of what is taken is not enough. *)
Lemma stab_prefix : forall A (p : bytes -> pres A) c d a, stab p ->
  p (c ++ d) = Done a [] -> d <> [] -> p c = Partial.
Proof.
  intros A p c d a Hp H Hd. pose proof (Hp c) as Hc. destruct (p c) as [a' r| |e] eqn:E.
  - destruct Hc as (c' & -> & Hc). rewrite <- app_assoc, Hc in H. injection H as _ H.
    apply app_eq_nil in H as [_ H]. contradiction.
  - reflexivity.
  - rewrite Hc in H. discriminate.
Qed.
Lemma stab_done : forall A (p : bytes -> pres A) i a r, stab p -> p i = Done a r ->
  exists c, i = c ++ r /\ forall y, p (c ++ y) = Done a y.
Proof. intros A p i a r Hp H. specialize (Hp i). rewrite H in Hp. exact Hp. Qed.

(** ** Exactly the heads *)
Lemma eqb_neq : forall a b : byte, a <> b -> Byte.eqb a b = false.
Proof. intros a b H. destruct (Byte.eqb a b) eqn:E; [apply Byte.byte_dec_bl in E; contradiction|reflexivity]. Qed.
Lemma eqb_same : forall a, Byte.eqb a a = true.
Proof. intros a. apply Byte.byte_dec_lb. reflexivity. Qed.

Lemma until_space_iff : forall ok e i t r,
  until_space ok e i = Done t r <-> i = t ++ SP :: r /\ text_of ok SP t.
Proof.
  intros ok e i t r. split.
  - revert t. induction i as [|b i IH]; intros t H; cbn [until_space] in H; [discriminate|].
    destruct (Byte.eqb b x20) eqn:B.
    + apply Byte.byte_dec_bl in B. injection H as <- <-. subst b. split; [reflexivity|constructor].
    + destruct (ok b) eqn:K; [|discriminate].
      destruct (until_space ok e i) as [t' r'| |x]; cbn [pbind] in H; try discriminate.
      injection H as <- ->. destruct (IH t' eq_refl) as [-> IH2]. split; [reflexivity|].
      constructor; [|exact IH2]. split; [exact K|]. intros ->. discriminate B.
  - intros [-> H]. induction H as [|b t [Hb Hn] H IH]; [reflexivity|].
    cbn [app until_space]. change SP with x20 in Hn. rewrite (eqb_neq _ _ Hn), Hb, IH. reflexivity.
Qed.
Lemma literal_iff : forall t e i u r, literal t e i = Done u r <-> i = t ++ r.
Proof.
  induction t as [|c t IH]; intros e i [] r.
  - cbn [literal app]. split; [intros H; injection H as ->; reflexivity|intros ->; reflexivity].
  - cbn [literal app]. destruct i as [|b i]; [split; discriminate|].
    destruct (Byte.eqb b c) eqn:B.
    + apply Byte.byte_dec_bl in B. subst b. rewrite IH. split; [intros ->; reflexivity|intros H; injection H as ->; reflexivity].
    + split; [discriminate|]. intros H. injection H as -> _. rewrite eqb_same in B. discriminate.
Qed.
Lemma version_iff : forall i v r, http_version_p i = Done v r <->
  exists vt, version_text v vt /\ i = vt ++ r.
Proof.
  intros i v r. unfold http_version_p. split.
  - destruct (literal _ _ i) as [[] i1| |e] eqn:E; cbn [pbind]; try discriminate.
    apply literal_iff in E. subst i. intros H. destruct i1 as [|b i1]; [discriminate|].
    destruct (byte_eq_dec b x30) as [->|H0].
    { injection H as <- <-. exists (ascii "HTTP/1.0"). split; [constructor|reflexivity]. }
    destruct (byte_eq_dec b x31) as [->|H1].
    { injection H as <- <-. exists (ascii "HTTP/1.1"). split; [constructor|reflexivity]. }
    exfalso. destruct b; try discriminate; congruence.
  - intros (vt & H & ->). destruct H; reflexivity.
Qed.
Lemma newline_iff : forall e i u r, newline e i = Done u r <-> exists l, line_end l /\ i = l ++ r.
Proof.
  intros e i [] r. split.
  - destruct i as [|b i]; [discriminate|].
    destruct (byte_eq_dec b x0d) as [->|H0].
    { cbn [newline]. intros H. apply literal_iff in H. subst i. exists [CR; LF]. split; [constructor|reflexivity]. }
    destruct (byte_eq_dec b x0a) as [->|H1].
    { cbn [newline]. intros H. injection H as ->. exists [LF]. split; [constructor|reflexivity]. }
    rewrite newline_other by assumption. discriminate.
  - intros (l & H & ->). destruct H; reflexivity.
Qed.
Lemma header_name_iff : forall ok i t r,
  header_name ok i = Done t r <-> i = t ++ COLON :: r /\ text_of ok COLON t.
Proof.
  intros ok i t r. split.
  - revert t. induction i as [|b i IH]; intros t H; cbn [header_name] in H; [discriminate|].
    destruct (Byte.eqb b x3a) eqn:B.
    + apply Byte.byte_dec_bl in B. injection H as <- <-. subst b. split; [reflexivity|constructor].
    + destruct (ok b) eqn:K; [|discriminate].
      destruct (header_name ok i) as [t' r'| |x]; cbn [pbind] in H; try discriminate.
      injection H as <- ->. destruct (IH t' eq_refl) as [-> IH2]. split; [reflexivity|].
      constructor; [|exact IH2]. split; [exact K|]. intros ->. discriminate B.
  - intros [-> H]. induction H as [|b t [Hb Hn] H IH]; [reflexivity|].
    cbn [app header_name]. change COLON with x3a in Hn. rewrite (eqb_neq _ _ Hn), Hb, IH. reflexivity.
Qed.
Lemma value_byte_iff : forall b, value_byte b = true <->
  b = HTAB \/ (32 <= Byte.to_N b /\ Byte.to_N b <> 127).
Proof.
  intros b. unfold value_byte. change (Byte.to_N b) with (b2n b).
  destruct (byte_eq_dec b x09) as [->|H].
  - split; [left; reflexivity|reflexivity].
  - rewrite (eqb_neq _ _ H). cbn [orb]. split.
    + intros E. right. apply andb_prop in E as [E1 E2]. lia.
    + intros [E|E]; [contradiction|]. lia.
Qed.
Lemma header_value_iff : forall i v r, header_value i = Done v r <->
  exists e, line_end e /\ value_text v /\ i = v ++ e ++ r.
Proof.
  intros i v r. split.
  - revert v. induction i as [|b i IH]; intros v H; cbn [header_value] in H; [discriminate|].
    destruct (value_byte b) eqn:B.
    + destruct (header_value i) as [v' r'| |x]; cbn [pbind] in H; try discriminate.
      injection H as <- ->. destruct (IH v' eq_refl) as (e & He & Hv & ->).
      exists e. split; [exact He|]. split; [|reflexivity]. constructor; [|exact Hv].
      apply value_byte_iff. exact B.
    + destruct (newline PEHeader (b :: i)) as [[] r'| |x] eqn:E; cbn [pbind] in H; try discriminate.
      injection H as <- ->. apply newline_iff in E as (l & Hl & E).
      exists l. split; [exact Hl|]. split; [constructor|exact E].
  - intros (e & He & Hv & ->). induction Hv as [|b v Hb Hv IH].
    + cbn [app]. destruct He; reflexivity.
    + cbn [app header_value]. apply value_byte_iff in Hb. rewrite Hb, IH. reflexivity.
Qed.
Lemma text_of_not : forall ok c t, ok c = false -> Forall (fun b => ok b = true) t -> text_of ok c t.
Proof.
  intros ok c t H. apply Forall_impl. intros b Hb. split; [exact Hb|]. intros ->. congruence.
Qed.
Lemma header_lines_iff : forall X n i fs r, sound_lib X ->
  header_lines (l_name X) n i = Done fs r <->
  exists t, field_lines X fs t /\ i = t ++ r /\ (length fs <= n)%nat.
Proof.
  intros X n i fs r (_ & _ & Hcr & Hlf & Hc). split.
  - revert i fs. induction n as [|n IH]; intros [|b i] fs H; try (rewrite header_lines_nil in H; discriminate).
    + destruct (byte_eq_dec b x0d) as [->|H0].
      { rewrite header_lines_cr in H. destruct (literal _ _ i) as [[] r'| |e] eqn:E; cbn [pbind] in H; try discriminate.
        injection H as <- ->. apply literal_iff in E. subst i. exists [CR; LF].
        split; [constructor; constructor|]. split; [reflexivity|constructor]. }
      destruct (byte_eq_dec b x0a) as [->|H1].
      { rewrite header_lines_lf in H. injection H as <- ->. exists [LF].
        split; [constructor; constructor|]. split; [reflexivity|constructor]. }
      rewrite header_lines_other in H by assumption. destruct (l_name X b); discriminate.
    + destruct (byte_eq_dec b x0d) as [->|H0].
      { rewrite header_lines_cr in H. destruct (literal _ _ i) as [[] r'| |e] eqn:E; cbn [pbind] in H; try discriminate.
        injection H as <- ->. apply literal_iff in E. subst i. exists [CR; LF].
        split; [constructor; constructor|]. split; [reflexivity|apply Nat.le_0_l]. }
      destruct (byte_eq_dec b x0a) as [->|H1].
      { rewrite header_lines_lf in H. injection H as <- ->. exists [LF].
        split; [constructor; constructor|]. split; [reflexivity|apply Nat.le_0_l]. }
      rewrite header_lines_other in H by assumption. destruct (l_name X b) eqn:K; [|discriminate].
      destruct (header_name (l_name X) i) as [t r1| |e] eqn:E1; cbn [pbind] in H; try discriminate.
      apply header_name_iff in E1 as [-> Ht].
      destruct (header_value (skip_blanks r1)) as [v r2| |e] eqn:E2; cbn [pbind] in H; try discriminate.
      destruct (skip_blanks_split r1) as (pad & Ep & Hpad & Hs).
      apply header_value_iff in E2 as (e & He & Hv & E2).
      destruct (header_lines (l_name X) n r2) as [l r3| |e'] eqn:E3; cbn [pbind] in H; try discriminate.
      injection H as <- ->. apply IH in E3 as (t3 & H3 & -> & Hl).
      exists (((b :: t) ++ COLON :: pad ++ v ++ e) ++ t3). split; [|split].
      * constructor; [|exact H3]. constructor; auto; [discriminate| |].
        { constructor; [|exact Ht]. split; [exact K|]. intros ->. congruence. }
        intros [x [->| ->]]; apply Hs; rewrite E2; eexists; [left|right]; reflexivity.
      * rewrite Ep, E2. rewrite <- !app_assoc. cbn [app]. rewrite <- !app_assoc. reflexivity.
      * cbn [length]. apply le_n_S. exact Hl.
  - intros (t & Ht & -> & Hn). revert n Hn. induction Ht as [e He|f fs l t Hf Ht IH]; intros n Hn.
    + destruct He; [apply header_lines_cr|apply header_lines_lf].
    + destruct n as [|n]; [cbn in Hn; lia|]. cbn [length] in Hn. apply le_S_n in Hn.
      destruct Hf as [nm v pad e Hn0 Hnm Hpad Hv Hs He].
      destruct nm as [|b nm]; [congruence|]. inversion_clear Hnm as [|? ? [Kb Kc] Hnm'].
      rewrite <- !app_assoc. cbn [app]. rewrite header_lines_other.
      * rewrite Kb. rewrite <- !app_assoc. cbn [app].
        rewrite <- ?app_assoc.
        rewrite (proj2 (header_name_iff (l_name X) _ nm (pad ++ v ++ e ++ t ++ r)))
          by (split; [reflexivity|exact Hnm']).
        cbn [pbind]. rewrite skip_blanks_app by exact Hpad.
        replace (header_value (skip_blanks (v ++ e ++ t ++ r))) with (Done v (t ++ r)).
        2:{ symmetry. rewrite skip_blanks_same.
            - apply header_value_iff. exists e. split; [exact He|]. split; [exact Hv|reflexivity].
            - destruct v as [|v0 v]; [|apply starts_blank_app; exact Hs].
              cbn [app]. destruct He; intros [? [E|E]]; discriminate E. }
        cbn [pbind]. rewrite IH by exact Hn. reflexivity.
      * intros ->. change (l_name X CR = true) in Kb. congruence.
      * intros ->. change (l_name X LF = true) in Kb. congruence.
Qed.

Lemma beqb_iff : forall s t, beqb s t = true <-> s = t.
Proof.
  induction s as [|a s IH]; intros [|b t]; cbn [beqb]; try (split; [discriminate|discriminate]); try tauto.
  rewrite andb_true_iff, IH. split.
  - intros [H ->]. apply Byte.byte_dec_bl in H. congruence.
  - intros H. injection H as -> ->. split; [apply eqb_same|reflexivity].
Qed.
Lemma method_of_str_iff : forall m me, method_of_str m = Some me <-> m <> [] /\ me = method_named m.
Proof.
  intros m me. unfold method_of_str, method_named. destruct m as [|b m].
  - split; [discriminate|]. intros [H _]. congruence.
  - destruct (list_eq_dec Byte.byte_eq_dec (b :: m) (ascii "GET")) as [E|E].
    + rewrite (proj2 (beqb_iff (b :: m) (str "GET")) E).
      split; [intros H; injection H as <-; split; [discriminate|reflexivity]|intros [_ ->]; reflexivity].
    + destruct (beqb (b :: m) (str "GET")) eqn:F; [apply beqb_iff in F; contradiction|].
      split; [intros H; injection H as <-; split; [discriminate|reflexivity]|intros [_ ->]; reflexivity].
Qed.
Lemma target_ok_iff : forall X t, target_ok X t = true <-> target_accepted X t.
Proof.
  intros X [|b t]; unfold target_ok, target_accepted.
  - split; [discriminate|]. intros [H _]. congruence.
  - rewrite !orb_true_iff, beqb_iff. split.
    + intros [[H|H]|H]; (split; [discriminate|]).
      * left. exact H.
      * right. left. apply Byte.byte_dec_bl in H. subst b. exists t. reflexivity.
      * right. right. exact H.
    + intros [_ [H|[[r H]|H]]].
      * left. left. exact H.
      * injection H as -> _. left. right. reflexivity.
      * right. exact H.
Qed.

Lemma pbind_at : forall A B (p : pres A) (f : A -> bytes -> pres B) a r q,
  p = Done a r -> f a r = q -> pbind p f = q.
Proof. intros A B p f a r q -> H. exact H. Qed.

Lemma Done_inj : forall A (a a' : A) r r', Done a r = Done a' r' -> a = a' /\ r = r'.
Proof. intros A a a' r r' H. injection H as -> ->. auto. Qed.
Lemma pbind_inv : forall A B (p : pres A) (f : A -> bytes -> pres B) b r,
  pbind p f = Done b r -> exists a r', p = Done a r' /\ f a r' = Done b r.
Proof. intros A B [a r'| |e] f b r H; [exists a, r'; auto|discriminate|discriminate]. Qed.
Lemma skip_empty_done : forall i u r, skip_empty i = Done u r ->
  exists sk, i = sk ++ r /\ empty_lines sk.
Proof.
  intros i u r H. pose proof (skip_empty_inv (length i) i (le_n _)) as Hs. rewrite H in Hs.
  destruct Hs as (sk & b & t & E & H1 & _). exists sk. auto.
Qed.

Lemma request_sound : forall X i q r, sound_lib X ->
  try_request X i = Done q r ->
  exists head m t v fs, i = head ++ r /\ request_head X m t v fs head /\
    (length fs <= MAX_HEADERS)%nat /\ target_accepted X t /\
    q = mk_req (method_named m) t v (from_raw fs).
Proof.
  intros X i q r HX.
  - intros H.
    apply pbind_inv in H as (u & r0 & E0 & H). apply skip_empty_done in E0 as (sk & -> & Hsk).
    apply pbind_inv in H as (m & r1 & E1 & H). apply until_space_iff in E1 as [-> Hm].
    apply pbind_inv in H as (t & r2 & E2 & H). apply until_space_iff in E2 as [-> Ht].
    apply pbind_inv in H as (v & r3 & E3 & H). apply version_iff in E3 as (vt & Hv & ->).
    apply pbind_inv in H as (u4 & r4 & E4 & H). apply newline_iff in E4 as (l & Hl & ->).
    apply pbind_inv in H as (fs & r5 & E5 & H).
    apply header_lines_iff in E5 as (ls & Hls & -> & Hn); [|exact HX].
    destruct (method_of_str m) as [me|] eqn:E6; [|discriminate].
    apply method_of_str_iff in E6 as [Hm0 ->].
    destruct (target_ok X t) eqn:E7; [|discriminate]. apply target_ok_iff in E7.
    apply Done_inj in H as [<- ->].
    exists (sk ++ m ++ SP :: t ++ SP :: vt ++ l ++ ls), m, t, v, fs.
    split; [rewrite <- !app_assoc; cbn [app]; rewrite <- !app_assoc; cbn [app]; rewrite <- !app_assoc; reflexivity|].
    split; [|split; [exact Hn|split; [exact E7|reflexivity]]].
    exists sk, vt, l, ls. repeat (split; [assumption|]). reflexivity.
Qed.
Lemma request_complete : forall X i q r, sound_lib X ->
  (exists head m t v fs, i = head ++ r /\ request_head X m t v fs head /\
    (length fs <= MAX_HEADERS)%nat /\ target_accepted X t /\
    q = mk_req (method_named m) t v (from_raw fs)) ->
  try_request X i = Done q r.
Proof.
  intros X i q r HX.
  - intros (head & m & t & v & fs & -> & (sk & vt & l & ls & Hsk & Hm0 & Hm & Ht & Hv & Hl & Hls & ->) & Hn & Ha & ->).
    destruct m as [|b m]; [congruence|].
    apply (pbind_at _ _ _ _ tt (b :: m ++ SP :: t ++ SP :: vt ++ l ++ ls ++ r)).
    { replace ((sk ++ (b :: m) ++ SP :: t ++ SP :: vt ++ l ++ ls) ++ r)
        with (sk ++ b :: m ++ SP :: t ++ SP :: vt ++ l ++ ls ++ r)
        by (rewrite <- !app_assoc; cbn [app]; rewrite <- !app_assoc; cbn [app]; rewrite <- !app_assoc; reflexivity).
      destruct HX as (H1 & H2 & _); inversion_clear Hm as [|? ? [Kb _] _].
      apply skip_empty_app; [exact Hsk| |]; intros ->; congruence. }
    apply (pbind_at _ _ _ _ (b :: m) (t ++ SP :: vt ++ l ++ ls ++ r)).
    { apply until_space_iff. split; [reflexivity|exact Hm]. }
    apply (pbind_at _ _ _ _ t (vt ++ l ++ ls ++ r)).
    { apply until_space_iff. split; [reflexivity|exact Ht]. }
    apply (pbind_at _ _ _ _ v (l ++ ls ++ r)).
    { apply version_iff. exists vt. split; [exact Hv|reflexivity]. }
    apply (pbind_at _ _ _ _ tt (ls ++ r)).
    { apply newline_iff. exists l. split; [exact Hl|reflexivity]. }
    apply (pbind_at _ _ _ _ fs r).
    { apply header_lines_iff; [exact HX|]. exists ls. auto. }
    rewrite (proj2 (method_of_str_iff (b :: m) (method_named (b :: m)))) by (split; [discriminate|reflexivity]).
    rewrite (proj2 (target_ok_iff X t) Ha). reflexivity.
Qed.

Lemma request_iff : forall X i q r, sound_lib X ->
  try_request X i = Done q r <->
  exists head m t v fs, i = head ++ r /\ request_head X m t v fs head /\
    (length fs <= MAX_HEADERS)%nat /\ target_accepted X t /\
    q = mk_req (method_named m) t v (from_raw fs).
Proof. intros X i q r HX. split; [apply request_sound|apply request_complete]; exact HX. Qed.

Lemma digit_iff : forall i n r, digit i = Done n r <->
  exists b, 48 <= Byte.to_N b /\ Byte.to_N b - 48 <= 9 /\ n = Byte.to_N b - 48 /\ i = b :: r.
Proof.
  intros [|b i] n r; cbn [digit].
  - split; [discriminate|]. intros (b & _ & _ & _ & H). discriminate.
  - change (Byte.to_N b) with (b2n b). destruct (_ && _) eqn:E.
    + split.
      * intros H. injection H as <- <-. exists b. change (Byte.to_N b) with (b2n b). repeat split; lia.
      * intros (b' & H1 & H2 & -> & H). injection H as -> ->. reflexivity.
    + split; [discriminate|]. intros (b' & H1 & H2 & _ & H). injection H as -> ->.
      change (Byte.to_N b') with (b2n b') in *. lia.
Qed.
Lemma status_iff : forall i n r, status_code i = Done n r <->
  exists ct, code_text n ct /\ i = ct ++ r.
Proof.
  intros i n r. unfold status_code. split.
  - destruct (digit i) as [a r1| |e] eqn:E1; cbn [pbind]; try discriminate.
    apply digit_iff in E1 as (a' & A1 & A2 & -> & ->).
    destruct (digit r1) as [b r2| |e] eqn:E2; cbn [pbind]; try discriminate.
    apply digit_iff in E2 as (b' & B1 & B2 & -> & ->).
    destruct (digit r2) as [c r3| |e] eqn:E3; cbn [pbind]; try discriminate.
    apply digit_iff in E3 as (c' & C1 & C2 & -> & ->).
    intros H. injection H as <- <-. exists [a'; b'; c']. split; [constructor; assumption|reflexivity].
  - intros (ct & H & ->). destruct H as [a b c A1 B1 C1 A2 B2 C2]. cbn [app].
    rewrite (proj2 (digit_iff _ (Byte.to_N a - 48) (b :: c :: r))); [|exists a; auto].
    cbn [pbind]. rewrite (proj2 (digit_iff _ (Byte.to_N b - 48) (c :: r))); [|exists b; auto].
    cbn [pbind]. rewrite (proj2 (digit_iff _ (Byte.to_N c - 48) r)); [|exists c; auto].
    reflexivity.
Qed.
Lemma reason_text_iff : forall ok i t r, reason_text ok i = Done t r <->
  exists e, line_end e /\ Forall (fun b => ok b = true /\ b <> CR /\ b <> LF) t /\ i = t ++ e ++ r.
Proof.
  intros ok i t r. split.
  - revert t. induction i as [|b i IH]; intros t H; [discriminate|].
    destruct (byte_eq_dec b x0d) as [->|H0].
    { cbn [reason_text] in H. destruct (literal _ _ i) as [[] r'| |e] eqn:E; cbn [pbind] in H; try discriminate.
      injection H as <- ->. apply literal_iff in E. subst i. exists [CR; LF].
      split; [constructor|]. split; [constructor|reflexivity]. }
    destruct (byte_eq_dec b x0a) as [->|H1].
    { cbn [reason_text] in H. injection H as <- ->. exists [LF].
      split; [constructor|]. split; [constructor|reflexivity]. }
    rewrite reason_text_other in H by assumption. destruct (ok b) eqn:K; [|discriminate].
    destruct (reason_text ok i) as [t' r'| |x]; cbn [pbind] in H; try discriminate.
    injection H as <- ->. destruct (IH t' eq_refl) as (e & He & Ht & ->).
    exists e. split; [exact He|]. split; [|reflexivity]. constructor; auto.
  - intros (e & He & Ht & ->). induction Ht as [|b t (Kb & K0 & K1) Ht IH].
    + destruct He; reflexivity.
    + cbn [app]. rewrite reason_text_other, Kb, IH by assumption. reflexivity.
Qed.
Lemma reason_iff : forall X i t r, reason (l_reason X) i = Done t r <->
  exists rt, reason_end X t rt /\ i = rt ++ r.
Proof.
  intros X i t r. split.
  - destruct i as [|b i]; [discriminate|].
    destruct (byte_eq_dec b x20) as [->|Hs].
    { cbn [reason]. intros H. apply reason_text_iff in H as (e & He & Ht & ->).
      exists (SP :: t ++ e). split; [constructor; assumption|]. cbn [app]. rewrite <- app_assoc. reflexivity. }
    destruct (byte_eq_dec b x0d) as [->|H0].
    { cbn [reason]. destruct (literal _ _ i) as [[] r'| |e] eqn:E; cbn [pbind]; try discriminate.
      intros H. injection H as <- ->. apply literal_iff in E. subst i. exists [CR; LF].
      split; [constructor; constructor|reflexivity]. }
    destruct (byte_eq_dec b x0a) as [->|H1].
    { cbn [reason]. intros H. injection H as <- ->. exists [LF]. split; [constructor; constructor|reflexivity]. }
    rewrite reason_other by assumption. discriminate.
  - intros (rt & H & ->). destruct H as [t e Ht He|e He].
    + cbn [app]. change (reason_text (l_reason X) ((t ++ e) ++ r) = Done t r).
      apply reason_text_iff. exists e. split; [exact He|]. split; [exact Ht|]. rewrite <- app_assoc. reflexivity.
    + destruct He; reflexivity.
Qed.
Lemma response_iff : forall X i q r, sound_lib X ->
  try_response X i = Done q r <->
  exists head v c t fs, i = head ++ r /\ response_head X v c t fs head /\
    (length fs <= MAX_HEADERS)%nat /\ q = mk_resp v c t (from_raw fs).
Proof.
  intros X i q r HX. split.
  - intros H.
    apply pbind_inv in H as (u & r0 & E0 & H). apply skip_empty_done in E0 as (sk & -> & Hsk).
    apply pbind_inv in H as (v & r1 & E1 & H). apply version_iff in E1 as (vt & Hv & ->).
    apply pbind_inv in H as (u2 & r2 & E2 & H). apply literal_iff in E2. subst r1.
    apply pbind_inv in H as (c & r3 & E3 & H). apply status_iff in E3 as (ct & Hc & ->).
    apply pbind_inv in H as (t & r4 & E4 & H). apply reason_iff in E4 as (rt & Hr & ->).
    apply pbind_inv in H as (fs & r5 & E5 & H).
    apply header_lines_iff in E5 as (ls & Hls & -> & Hn); [|exact HX].
    apply Done_inj in H as [<- ->].
    exists (sk ++ vt ++ SP :: ct ++ rt ++ ls), v, c, t, fs.
    split; [rewrite <- !app_assoc; cbn [app]; rewrite <- !app_assoc; reflexivity|].
    split; [|split; [exact Hn|reflexivity]].
    exists sk, vt, ct, rt, ls. repeat (split; [assumption|]). reflexivity.
  - intros (head & v & c & t & fs & -> & (sk & vt & ct & rt & ls & Hsk & Hv & Hc & Hr & Hls & ->) & Hn & ->).
    apply (pbind_at _ _ _ _ tt (vt ++ [SP] ++ ct ++ rt ++ ls ++ r)).
    { rewrite <- !app_assoc. cbn [app]. rewrite <- !app_assoc.
      destruct Hv; apply (skip_empty_app sk "H"%byte); auto; discriminate. }
    apply (pbind_at _ _ _ _ v ([SP] ++ ct ++ rt ++ ls ++ r)).
    { apply version_iff. exists vt. split; [exact Hv|reflexivity]. }
    apply (pbind_at _ _ _ _ tt (ct ++ rt ++ ls ++ r)).
    { apply literal_iff. reflexivity. }
    apply (pbind_at _ _ _ _ c (rt ++ ls ++ r)).
    { apply status_iff. exists ct. split; [exact Hc|reflexivity]. }
    apply (pbind_at _ _ _ _ t (ls ++ r)).
    { apply reason_iff. exists rt. split; [exact Hr|reflexivity]. }
    apply (pbind_at _ _ _ _ fs r).
    { apply header_lines_iff; [exact HX|]. exists ls. auto. }
    reflexivity.
Qed.
