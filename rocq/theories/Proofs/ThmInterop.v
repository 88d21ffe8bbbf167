(** Both ends together: C36, C50. *)
From Coq Require Import NArith ZArith String Bool List Lia Permutation.
From Coq Require Import ZifyBool ZifyNat ZifyN.
From Coq.Strings Require Import Byte.
From Verif.Model Require Import Base Io Header Mask Dataframe Utf8 Text Base64 Sha1 WsKey Headers
  Handshake Message Receiver Codec Framed Http Connect.
From Verif.Spec Require Import RfcFrame FrameSpec Unicode Rfc4648 Accept Fields Upgrade Builder HttpHead Connection Wire.
From Verif.Proofs Require Import BaseFacts Utf8Facts Base64Facts ThmKeys TextFacts MapFacts ThmServer ThmClient
  HttpFacts ThmHttp SpreadFacts ThmStream ThmConnect.
Import ListNotations.
Local Open Scope string_scope.
Local Open Scope list_scope.
Local Open Scope N_scope.

(** ** Reading back what was written *)
Lemma values_read_back : forall n fs, values n (read_back fs) = map as_read (values n fs).
Proof.
  intros n. induction fs as [|[m v] fs IH]; [reflexivity|]. unfold read_back in *. cbn [map values fst snd].
  destruct (same_name_dec m n); cbn [map]; rewrite IH; reflexivity.
Qed.
Lemma one_line_id : forall v, ~ In CR v -> ~ In LF v -> one_line v = v.
Proof.
  induction v as [|b v IH]; intros H1 H2; [reflexivity|]. unfold one_line in *. cbn [map].
  rewrite IH; [|intros HI; apply H1; right; exact HI|intros HI; apply H2; right; exact HI].
  destruct (Byte.eqb b CR) eqn:E1; [apply Byte.byte_dec_bl in E1; subst b; exfalso; apply H1; left; reflexivity|].
  destruct (Byte.eqb b LF) eqn:E2; [apply Byte.byte_dec_bl in E2; subst b; exfalso; apply H2; left; reflexivity|].
  reflexivity.
Qed.
Lemma one_line_model : forall v, no_newlines v = one_line v.
Proof.
  intros v. unfold no_newlines, one_line. apply map_ext. intros b. unfold CR, LF, SP.
  destruct (Byte.eqb b x0d); [reflexivity|]. destruct (Byte.eqb b x0a); reflexivity.
Qed.
Lemma no_lead_split : forall v, exists pad, v = pad ++ no_lead v /\
  Forall (fun b => b = SP \/ b = HTAB) pad /\ ~ starts_blank (no_lead v).
Proof.
  induction v as [|b v (pad & E & HP & HS)].
  - exists []. split; [reflexivity|]. split; [constructor|]. intros (r & [H|H]); discriminate H.
  - cbn [no_lead]. destruct (Byte.eqb b SP) eqn:E1.
    { apply Byte.byte_dec_bl in E1. subst b. exists (SP :: pad). split; [cbn [app]; f_equal; exact E|].
      split; [constructor; [left; reflexivity|exact HP]|exact HS]. }
    destruct (Byte.eqb b HTAB) eqn:E2.
    { apply Byte.byte_dec_bl in E2. subst b. exists (HTAB :: pad). split; [cbn [app]; f_equal; exact E|].
      split; [constructor; [right; reflexivity|exact HP]|exact HS]. }
    exists []. split; [reflexivity|]. split; [constructor|]. intros (r & [H|H]); injection H as -> _.
    + discriminate E1.
    + discriminate E2.
Qed.
Lemma no_lead_id : forall v, ~ starts_blank v -> no_lead v = v.
Proof.
  intros [|b v] H; [reflexivity|]. cbn [no_lead].
  destruct (Byte.eqb b SP) eqn:E1; [apply Byte.byte_dec_bl in E1; subst b; exfalso; apply H; exists v; left; reflexivity|].
  destruct (Byte.eqb b HTAB) eqn:E2; [apply Byte.byte_dec_bl in E2; subst b; exfalso; apply H; exists v; right; reflexivity|].
  reflexivity.
Qed.
Lemma as_read_id : forall v, ~ In CR v -> ~ In LF v -> ~ starts_blank v -> as_read v = v.
Proof. intros v H1 H2 H3. unfold as_read. rewrite one_line_id by assumption. apply no_lead_id, H3. Qed.
Lemma black_read : forall v, forallb black v = true -> as_read v = v.
Proof.
  intros v H. rewrite forallb_forall in H.
  assert (forall b, In b v -> b <> CR /\ b <> LF /\ b <> SP /\ b <> HTAB) as HN.
  { intros b HI. apply H in HI. repeat split; intros ->; discriminate HI. }
  apply as_read_id.
  - intros HI. apply HN in HI. tauto.
  - intros HI. apply HN in HI. tauto.
  - intros (r & [->| ->]).
    + destruct (HN SP (or_introl eq_refl)) as (_ & _ & HX & _). apply HX; reflexivity.
    + destruct (HN HTAB (or_introl eq_refl)) as (_ & _ & _ & HX). apply HX; reflexivity.
Qed.

Lemma one_line_text : forall v,
  Forall (fun b => b = HTAB \/ b = CR \/ b = LF \/ (32 <= Byte.to_N b /\ Byte.to_N b <> 127)) v ->
  value_text (one_line v).
Proof.
  intros v H. unfold value_text, one_line. apply Forall_map. eapply Forall_impl; [|exact H]. cbn beta.
  intros b HB. destruct (Byte.eqb b CR) eqn:E1; [right; vm_compute; split; discriminate|].
  destruct (Byte.eqb b LF) eqn:E2; [right; vm_compute; split; discriminate|].
  destruct HB as [->|[->|[->|HB]]]; [left; reflexivity|discriminate E1|discriminate E2|right; exact HB].
Qed.
Lemma line_read : forall X n v, legible X (n, v) -> field_line X (n, as_read v) (print_line n v).
Proof.
  intros X n v (H1 & H2 & H3). cbn [fst snd] in *. unfold print_line. rewrite one_line_model.
  pose proof (one_line_text v H3) as HT. unfold as_read.
  destruct (no_lead_split (one_line v)) as (pad & E & HP & HS).
  assert (value_text (no_lead (one_line v))) as HT'.
  { rewrite E in HT. apply Forall_app in HT. apply HT. }
  rewrite E at 2. replace (n ++ str ": " ++ (pad ++ no_lead (one_line v)) ++ crlf)
    with (n ++ COLON :: (SP :: pad) ++ no_lead (one_line v) ++ [CR; LF])
    by (change (str ": ") with [COLON; SP]; rewrite <- !app_assoc; reflexivity).
  constructor; auto. constructor.
Qed.
Lemma lines_read : forall X h t, Forall (legible X) (fields h) ->
  @print_headers unit h = Ok t -> field_lines X (read_back (fields h)) (t ++ crlf).
Proof.
  intros X h t H HP. unfold print_headers in HP. destruct (forallb _ h); [|discriminate HP].
  apply Ok_inj in HP. subst t. revert H. induction h as [|[n i] h IH]; intros H.
  - apply last_line. constructor.
  - unfold fields in *. cbn [flat_map fst snd] in *. apply Forall_app in H as [H1 H2]. specialize (IH H2).
    unfold read_back in *. rewrite map_app, <- app_assoc. revert IH.
    generalize (flat_map (fun p : bytes * item => flat_map (print_line (fst p)) (item_lines (snd p))) h ++ crlf).
    generalize (map (fun f : bytes * bytes => (fst f, as_read (snd f)))
        (flat_map (fun p : bytes * item => map (fun l : bytes => (fst p, l)) (item_lines (snd p))) h)).
    intros fs tl HT. clear H2. induction (item_lines i) as [|v ls IL]; [exact HT|].
    cbn [map flat_map app fst snd] in *. inversion H1; subst. rewrite <- app_assoc.
    apply next_line; [apply line_read; assumption|apply IL; assumption].
Qed.
Lemma print_headers_any : forall E E' h t, @print_headers E h = Ok t -> @print_headers E' h = Ok t.
Proof.
  intros E E' h t H. unfold print_headers in *. destruct (forallb _ h); [|discriminate H].
  apply Ok_inj in H. subst t. reflexivity.
Qed.
Lemma print_request_inv : forall E b text, @print_request E b = Ok text ->
  exists hs, @print_headers unit (b_headers b) = Ok hs /\
    text = str "GET " ++ u_resource (b_url b) ++ str " " ++ print_version_http (b_version b) ++ crlf ++ hs ++ crlf.
Proof.
  intros E b text H. unfold print_request in H. destruct (@print_headers E (b_headers b)) as [hs|e| |] eqn:EH; cbn [rbind] in H; try discriminate H.
  apply Ok_inj in H. exists hs. split; [eapply print_headers_any, EH|symmetry; exact H].
Qed.
Lemma print_request_any : forall E E' b text, @print_request E b = Ok text -> @print_request E' b = Ok text.
Proof.
  intros E E' b text H. apply print_request_inv in H as (hs & HH & ->). unfold print_request.
  rewrite (print_headers_any _ E' _ _ HH). reflexivity.
Qed.
Lemma print_response_inv : forall E v st h text, @print_response E v st h = Ok text ->
  exists hs, @print_headers unit h = Ok hs /\
    text = print_version_http v ++ str " " ++ st ++ crlf ++ hs ++ crlf.
Proof.
  intros E v st h text H. unfold print_response in H. destruct (@print_headers E h) as [hs|e| |] eqn:EH; cbn [rbind] in H; try discriminate H.
  apply Ok_inj in H. exists hs. split; [eapply print_headers_any, EH|symmetry; exact H].
Qed.
Lemma print_response_any : forall E E' v st h text, @print_response E v st h = Ok text -> @print_response E' v st h = Ok text.
Proof.
  intros E E' v st h text H. apply print_response_inv in H as (hs & HH & ->). unfold print_response.
  rewrite (print_headers_any _ E' _ _ HH). reflexivity.
Qed.

(** ** Heads say what was put into them *)

(** [C50] The bytes of a request are a request head with the method, the target and exactly the
    fields that are in the builder, in order, whatever line breaks their values have: they
    cannot add a field or end the head. *)
Lemma request_as_read_proof : forall X b text,
  text_of (l_method X) SP (ascii "GET") -> text_of (l_target X) SP (u_resource (b_url b)) ->
  Forall (legible X) (fields (b_headers b)) -> b_version b = Http10 \/ b_version b = Http11 ->
  @print_request unit b = Ok text ->
  request_head X (ascii "GET") (u_resource (b_url b)) (b_version b) (read_back (fields (b_headers b))) text.
Proof.
  intros X b text H1 H2 H3 H4 H. apply print_request_inv in H as (hs & HH & ->).
  exists [], (print_version_http (b_version b)), crlf, (hs ++ crlf).
  split; [constructor|]. split; [discriminate|]. split; [exact H1|]. split; [exact H2|].
  split; [destruct H4 as [-> | ->]; constructor|]. split; [constructor|].
  split; [apply lines_read; assumption|]. reflexivity.
Qed.
(*EX Example request_as_read_ex : forall u,
  let b := with_headers (builder_init u) [(ascii "Origin", Typed (VOrigin (ascii "x" ++ [CR; LF] ++ ascii "Evil: 1")))] in
  Forall (legible httparse_lib) (fields (b_headers b)) /\
  read_back (fields (b_headers b)) = [(ascii "Origin", ascii "x  Evil: 1")].
Proof.
  intros u. split; [|reflexivity]. apply Forall_cons; [|apply Forall_nil]. split; [discriminate|].
  split; [repeat constructor; discriminate|]. cbn [snd].
  apply Forall_app. split; [|apply Forall_app; split].
  - apply Forall_cons; [right; right; right; vm_compute; split; discriminate|apply Forall_nil].
  - apply Forall_cons; [right; left; reflexivity|]. apply Forall_cons; [right; right; left; reflexivity|apply Forall_nil].
  - apply Forall_forall. intros x HI. right. right. right. cbn in HI.
    decompose [or] HI; subst; try contradiction; vm_compute; split; discriminate.
Qed. EX*)

(** [C50] The same for the response that completes the handshake. *)
Lemma response_as_read_proof : forall X v h text,
  Forall (fun b => l_reason X b = true) (ascii "Switching Protocols") ->
  Forall (legible X) (fields h) -> v = Http10 \/ v = Http11 ->
  @print_response unit v switching_protocols h = Ok text ->
  response_head X v 101 (ascii "Switching Protocols") (read_back (fields h)) text.
Proof.
  intros X v h text H1 H2 H3 H. apply print_response_inv in H as (hs & HH & ->).
  exists [], (print_version_http v), (ascii "101"), (SP :: ascii "Switching Protocols" ++ [CR; LF]), (hs ++ crlf).
  split; [constructor|]. split; [destruct H3 as [-> | ->]; constructor|].
  split; [apply (a_code "1" "0" "1"); vm_compute; discriminate|].
  split.
  { constructor; [|constructor]. apply Forall_forall. intros x HI. rewrite Forall_forall in H1.
    split; [apply H1, HI|]. cbn in HI. decompose [or] HI; subst; try contradiction; split; discriminate. }
  split; [apply lines_read; assumption|]. reflexivity.
Qed.

(*EX
(** A value with a line break reads back as one line. *)
Example response_as_read_ex :
  let h := [(ascii "Server", Raw [ascii "a" ++ [CR; LF] ++ ascii "Evil: 1"])] in
  exists text, @print_response unit Http11 switching_protocols h = Ok text /\
    try_response httparse_lib text
    = Done (mk_resp Http11 101 (ascii "Switching Protocols") (from_raw [(ascii "Server", ascii "a  Evil: 1")])) [].
Proof. eexists. split; [vm_compute; reflexivity|]. vm_compute. reflexivity. Qed.
EX*)


(** ** The head ends where it ends *)
Lemma ef_skip : forall c T, c <> CR -> ends_first T -> ends_first (c :: T).
Proof. intros c T H HT. apply ends_first_cons; [|exact HT]. intros rest E. injection E as E _. congruence. Qed.
Lemma ef_text : forall l T, ~ In CR l -> ends_first T -> ends_first (l ++ T).
Proof.
  induction l as [|c l IH]; intros T H HT; [exact HT|]. cbn [app]. apply ef_skip.
  - intros ->. apply H. left. reflexivity.
  - apply IH; [|exact HT]. intros HI. apply H. right. exact HI.
Qed.
Lemma ef_line : forall l T, ~ In CR l -> l <> [] -> ends_first T -> ends_first (CR :: LF :: l ++ T).
Proof.
  intros l T H HN HT. destruct l as [|c l]; [contradiction|].
  assert (c <> CR) as HC by (intros ->; apply H; left; reflexivity).
  apply ends_first_cons; [intros rest E; cbn [app head_end] in E; injection E; intros; congruence|].
  apply ef_skip; [discriminate|]. apply ef_text; assumption.
Qed.
Lemma one_line_no_cr : forall v, ~ In CR (one_line v).
Proof.
  intros v HI. unfold one_line in HI. apply in_map_iff in HI as (b & E & _).
  destruct (Byte.eqb b CR) eqn:E1; [discriminate E|]. destruct (Byte.eqb b LF); [discriminate E|].
  subst b. discriminate E1.
Qed.
Lemma lines_end : forall h, Forall (fun f : field => no_break (fst f)) (fields h) ->
  ends_first (crlf ++ flat_map (fun p : bytes * item => flat_map (print_line (fst p)) (item_lines (snd p))) h ++ crlf).
Proof.
  induction h as [|[n i] h IH]; intros H; [exact ends_first_itself|].
  unfold fields in H. cbn [flat_map fst snd] in *. apply Forall_app in H as [H1 H2]. specialize (IH H2).
  rewrite <- app_assoc. revert IH.
  generalize (flat_map (fun p : bytes * item => flat_map (print_line (fst p)) (item_lines (snd p))) h ++ crlf).
  intros tl HT. induction (item_lines i) as [|v ls IL]; [exact HT|].
  cbn [map flat_map] in *. inversion H1 as [|? ? H3 H4]; subst. specialize (IL H4).
  cbn [fst] in H3. unfold print_line at 1. rewrite one_line_model.
  replace (crlf ++ ((n ++ str ": " ++ one_line v ++ crlf) ++ flat_map (print_line n) ls) ++ tl)
    with (CR :: LF :: (n ++ str ": " ++ one_line v) ++ (crlf ++ flat_map (print_line n) ls ++ tl))
    by (unfold crlf; rewrite <- !app_assoc; reflexivity).
  apply ef_line; [| |exact IL].
  - intros HI. apply in_app_or in HI as [HI|HI]; [apply (proj1 H3), HI|].
    apply in_app_or in HI as [HI|HI]; [cbn in HI; decompose [or] HI; try discriminate; contradiction|].
    apply (one_line_no_cr v HI).
  - destruct n; discriminate.
Qed.

(** [C50] Whatever bytes the values are made of, the first empty line in the bytes of a request
    is the one at their end, as long as names and target have no line breaks. *)
Lemma request_ends_proof : forall b text,
  no_break (u_resource (b_url b)) -> Forall (fun f : field => no_break (fst f)) (fields (b_headers b)) ->
  @print_request unit b = Ok text -> ends_first text.
Proof.
  intros b text H1 H2 H. apply print_request_inv in H as (hs & HH & ->).
  unfold print_headers in HH. destruct (forallb _ _); [|discriminate HH]. apply Ok_inj in HH. subst hs.
  pose proof (lines_end _ H2) as HE.
  apply (ef_text (str "GET ")); [cbn; intros HI; decompose [or] HI; try discriminate; contradiction|].
  apply ef_text; [apply H1|].
  apply (ef_text (str " ")); [cbn; intros HI; decompose [or] HI; try discriminate; contradiction|].
  apply ef_text; [|exact HE].
  destruct (b_version b); cbn; intros HI; decompose [or] HI; try discriminate; contradiction.
Qed.
(** [C50] Likewise for responses, accepting or rejecting. *)
Lemma response_ends_proof : forall v st h text,
  no_break st -> Forall (fun f : field => no_break (fst f)) (fields h) ->
  @print_response unit v st h = Ok text -> ends_first text.
Proof.
  intros v st h text H1 H2 H. apply print_response_inv in H as (hs & HH & ->).
  unfold print_headers in HH. destruct (forallb _ _); [|discriminate HH]. apply Ok_inj in HH. subst hs.
  pose proof (lines_end _ H2) as HE.
  apply ef_text; [destruct v; cbn; intros HI; decompose [or] HI; try discriminate; contradiction|].
  apply (ef_text (str " ")); [cbn; intros HI; decompose [or] HI; try discriminate; contradiction|].
  apply ef_text; [apply H1|exact HE].
Qed.
(*EX Example ends_ex :
  let b := with_headers (builder_init (mk_url (ascii "ws") None None [] None (ascii "/")))
             [(ascii "Origin", Typed (VOrigin ([CR; LF; CR; LF] ++ ascii "GET /evil HTTP/1.1" ++ [x00; CR; LF; CR; LF])))] in
  exists text, @print_request unit b = Ok text /\ ends_first text.
Proof.
  eexists. split; [vm_compute; reflexivity|].
  match goal with |- ends_first ?t => apply (proj1 (ThmHttp.split_exact_proof t t [])) end. vm_compute. reflexivity.
Qed. EX*)

(** [C50] Names are written as they are: one with a line break in it does add a field. *)
Lemma name_break_refuted_proof : exists h text,
  List.length (fields h) = 1%nat /\ @print_response unit Http11 switching_protocols h = Ok text /\
  exists q, try_response httparse_lib text = Done q [] /\
    rs_headers q = from_raw [(ascii "A", ascii "1"); (ascii "Set-Cookie", ascii "x")].
Proof.
  exists [(ascii "A: 1" ++ [CR; LF] ++ ascii "Set-Cookie", Raw [ascii "x"])].
  eexists. split; [reflexivity|]. split; [vm_compute; reflexivity|]. eexists. split; [vm_compute; reflexivity|]. vm_compute. reflexivity.
Qed.

(** ** The server accepts the client *)
Lemma utf8_black : forall t, forallb black t = true -> utf8_text t.
Proof.
  intros t H. apply utf8_text_iff, utf8_ascii_text. rewrite forallb_forall in *. intros b HI. apply H in HI.
  unfold black in HI. lia.
Qed.
Lemma padded_refl : forall t, padded t t.
Proof.
  intros t. exists [], []. split; [apply blank_nil|]. split; [apply blank_nil|]. cbn [app]. rewrite app_nil_r. reflexivity.
Qed.
Lemma lists_one : forall (P : bytes -> Prop) n fs v, values n fs = [v] -> ~ In x2c v -> trim v = v -> P v ->
  lists P n fs.
Proof.
  intros P n fs v E HC HT HP. exists v, [v], v, v. split; [rewrite E; left; reflexivity|].
  split; [split; [discriminate|split; [constructor; [exact HC|constructor]|reflexivity]]|].
  split; [left; reflexivity|]. split; [apply element_trim, HT|exact HP].
Qed.
Lemma read_one : forall n fs v, forallb black v = true -> values n fs = [v] -> values n (read_back fs) = [v].
Proof. intros n fs v H E. rewrite values_read_back, E. cbn [map]. rewrite black_read by exact H. reflexivity. Qed.

(** [C36] The request of a client that was not misconfigured meets all conditions of the
    server, and the server reads the client's key in it. *)
Lemma request_good_proof : forall X u cs rnd b, configured X u cs rnd b ->
  Forall (fun c => fst c) (request_conditions Get Http11 (request_fields rnd b)) /\
  key_field (request_fields rnd b) (or_else (asked_key (rev cs)) rnd).
Proof.
  intros X u cs rnd b (HR & HK & HV & EV & HL & _). unfold request_fields.
  pose proof (request_key_proof u cs b rnd HK HR) as VK.
  pose proof (request_version_proof u cs b rnd HV HR) as VV. rewrite EV in VV.
  destruct (request_fixed_fields_proof u cs b rnd HR) as (VC & VU & _).
  set (k := or_else (asked_key (rev cs)) rnd) in *.
  set (fs := fields (b_headers (build_request rnd b))) in *.
  apply read_one in VK; [|apply base64_black]. apply read_one in VV; [|reflexivity].
  apply read_one in VC; [|reflexivity]. apply read_one in VU; [|reflexivity].
  assert (key_field (read_back fs) k) as HKF.
  { split; [exact HL|]. exists (base64_text k). split; [apply base64_of_text|].
    exists (base64_text k). split; [exact VK|]. split; [apply utf8_black, base64_black|apply padded_refl]. }
  split; [|exact HKF]. unfold request_conditions.
  apply Forall_cons; [reflexivity|]. apply Forall_cons; [split; discriminate|].
  apply Forall_cons.
  { cbn [fst]. intros v E _ _. rewrite VV in E. injection E as <-. apply padded_refl. }
  apply Forall_cons; [exists k; exact HKF|].
  apply Forall_cons.
  { cbn [fst]. split; rewrite VU; [discriminate|]. apply Forall_cons; [apply utf8_black; reflexivity|constructor]. }
  apply Forall_cons.
  { cbn [fst]. eapply lists_one; [exact VU|vm_compute; intros HI; decompose [or] HI; try discriminate; contradiction|reflexivity|].
    exists (ascii "websocket"). split; [reflexivity|left; reflexivity]. }
  apply Forall_cons.
  { cbn [fst]. split; rewrite VC; [discriminate|]. apply Forall_cons; [apply utf8_black; reflexivity|constructor]. }
  apply Forall_cons; [|constructor].
  cbn [fst]. eapply lists_one; [exact VC|vm_compute; intros HI; decompose [or] HI; try discriminate; contradiction|reflexivity|].
  reflexivity.
Qed.
(*EX Definition some_url : url := mk_url (ascii "ws") (Some (ascii "example.org")) (Some 8080) [] None (ascii "/chat?a=b").
Definition some_calls : list call :=
  [AddProtocol (ascii "chat"); MaxMessageSize 1000; SetOrigin (ascii "http://example.org"); AddProtocol (ascii "superchat")].
Example configured_ex : exists b, configured httparse_lib some_url some_calls (ascii "the sample nonce") b.
Proof.
  eexists. split; [reflexivity|]. split; [repeat constructor|]. split; [repeat constructor|].
  split; [reflexivity|]. split; [reflexivity|]. split; [repeat constructor; discriminate|].
  split; [split; [discriminate|right; left; eexists; reflexivity]|].
  split; [split; intros HI; cbn in HI; decompose [or] HI; try discriminate; contradiction|].
  split; [|vm_compute; lia].
  apply ThmInterop.legible_check. vm_compute. reflexivity.
Qed. EX*)

(** ** Sufficient conditions by computation *)
Lemma legible_check : forall X fs,
  forallb (fun f : field => match fst f with [] => false | _ => true end &&
    forallb (fun b => l_name X b && negb (Byte.eqb b COLON)) (fst f) &&
    forallb (fun b => Byte.eqb b HTAB || Byte.eqb b CR || Byte.eqb b LF || ((32 <=? Byte.to_N b) && negb (Byte.to_N b =? 127))) (snd f)) fs = true ->
  Forall (legible X) fs.
Proof.
  intros X fs H. apply Forall_forall. intros [n v] HI. rewrite forallb_forall in H. apply H in HI. cbn [fst snd] in HI.
  apply andb_prop in HI as [HI H3]. apply andb_prop in HI as [H1 H2]. rewrite forallb_forall in H2, H3.
  split; [intros E; cbn [fst] in E; subst n; discriminate H1|]. cbn [fst snd]. split.
  - apply Forall_forall. intros b HB. apply H2 in HB. apply andb_prop in HB as [HB HC]. split; [exact HB|].
    intros ->. discriminate HC.
  - apply Forall_forall. intros b HB. apply H3 in HB. apply orb_prop in HB as [HB|HB].
    + apply orb_prop in HB as [HB|HB]; [apply orb_prop in HB as [HB|HB]|]; apply Byte.byte_dec_bl in HB; auto.
    + right. right. right. lia.
Qed.

Lemma configured_head : forall X u cs rnd b text, speaks X -> configured X u cs rnd b -> request_text rnd b text ->
  request_head X (ascii "GET") (u_resource u) Http11 (request_fields rnd b) text /\
  (length (request_fields rnd b) <= 100)%nat /\ ends_first text.
Proof.
  intros X u cs rnd b text (HS & HG & _) (HR & _ & _ & _ & _ & HT & _ & HB & HL & HN) HP.
  destruct (run_url _ _ _ HR) as [EU EV]. unfold request_text in HP. unfold request_fields.
  assert (b_url (build_request rnd b) = u /\ b_version (build_request rnd b) = Http11) as [EU' EV'] by (split; assumption).
  split; [|split].
  - rewrite <- EU', <- EV'. apply request_as_read_proof; auto; rewrite EU'; exact HT.
  - unfold read_back. rewrite map_length. exact HN.
  - eapply request_ends_proof; [rewrite EU'; exact HB| |exact HP].
    eapply Forall_impl; [|exact HL]. intros [n v] (_ & HX & _). cbn [fst] in *.
    destruct HS as (_ & _ & HC & HF & _). unfold text_of in HX. rewrite Forall_forall in HX.
    split; intros HI; apply HX in HI as [HI _]; congruence.
Qed.
Lemma named_get : method_named (ascii "GET") = Get.
Proof. reflexivity. Qed.

(** [C36] The blocking server accepts the request of such a client, however its bytes are cut
    into reads, and sees the target and the fields the client put into it. *)
Lemma server_takes_client_proof : forall X u cs rnd b text s w after,
  speaks X -> sound_room X -> configured X u cs rnd b -> request_text rnd b text -> llen text <= 417792 ->
  first_come text after s ->
  exists up, into_ws X s w = Ok up /\
    up_request up = mk_req Get (u_resource u) Http11 (from_raw (request_fields rnd b)) /\
    up_headers up = [] /\ up_out up = w.
Proof.
  intros X u cs rnd b text s w after HS HR HC HT HL HF.
  destruct (configured_head X u cs rnd b text HS HC HT) as (H1 & H2 & _).
  destruct (request_good_proof X u cs rnd b HC) as [H3 _].
  destruct (server_accepts_proof X _ _ _ _ text after s w (proj1 HS) HR H1 H2) as (up & HU); auto.
  - apply HC.
  - rewrite named_get in HU. exists up. exact HU.
Qed.
(** [C36] So does the asynchronous server. *)
Lemma async_server_takes_client_proof : forall X u cs rnd b text s s' w,
  speaks X -> configured X u cs rnd b -> request_text rnd b text -> aflows s text s' ->
  exists up, async_into_ws X s w = Ok up /\
    au_request up = mk_req Get (u_resource u) Http11 (from_raw (request_fields rnd b)) /\
    au_headers up = [] /\ au_out up = w.
Proof.
  intros X u cs rnd b text s s' w HS HC HT HF.
  destruct (configured_head X u cs rnd b text HS HC HT) as (H1 & H2 & H4).
  destruct (request_good_proof X u cs rnd b HC) as [H3 _].
  destruct (async_server_connection_proof X _ _ _ _ text s s' w (proj1 HS) H1 H2) as (up & HU); auto.
  - apply HC.
  - rewrite named_get in HU. destruct HU as (HU1 & HU2 & HU3 & HU4 & _). exists up. auto.
Qed.

(** ** The client accepts the server *)
Lemma built_key_held : forall X u cs rnd b, configured X u cs rnd b ->
  key_held (b_headers (build_request rnd b)) (or_else (asked_key (rev cs)) rnd).
Proof.
  intros X u cs rnd b (HR & HK & _). left. apply hfind_some. rewrite built_find.
  pose proof (key_history u cs b HK HR) as HH. destruct (asked_key (rev cs)) as [k|]; cbn [or_else].
  - destruct HH as [-> HH]. cbn [negb andb].
    change (eq_nocase n_version (ascii "Sec-WebSocket-Key")) with false.
    change (eq_nocase n_upgrade (ascii "Sec-WebSocket-Key")) with false.
    change (eq_nocase n_connection (ascii "Sec-WebSocket-Key")) with false.
    change (eq_nocase n_authorization (ascii "Sec-WebSocket-Key")) with false.
    change (eq_nocase n_host (ascii "Sec-WebSocket-Key")) with false.
    change (ascii "Sec-WebSocket-Key") with n_key.
    rewrite !andb_false_r. destruct (u_host (b_url b)); exact HH.
  - rewrite HH. reflexivity.
Qed.
Lemma key_field_unique : forall fs k k', key_field fs k -> key_field fs k' -> k = k'.
Proof.
  intros fs k k' H H'. apply parse_key_iff in H. apply parse_key_iff in H'. congruence.
Qed.
Lemma prepare_any : forall E E' c h r h', @prepare_headers E c h (from_raw r) = Ok h' ->
  @prepare_headers E' c h (from_raw r) = Ok h'.
Proof.
  intros E E' c h r h' H. unfold prepare_headers in *.
  destruct (key_read E r) as [(k & EK & HK)|[EK HN]]; rewrite EK in H; cbn [rbind] in H; [|discriminate H].
  destruct (key_read E' r) as [(k' & EK' & HK')|[EK' HN']]; [|exfalso; apply HN'; exists k; exact HK].
  rewrite EK'. cbn [rbind]. apply Ok_inj in H. rewrite <- H.
  assert (k = k') as ->; [|reflexivity].
  eapply key_field_unique; eassumption.
Qed.

Lemma response_good : forall X u cs rnd b custom h0 h rtext v reason,
  configured X u cs rnd b -> unique_names h0 -> all_unique custom ->
  response_text custom h0 (request_fields rnd b) h rtext ->
  client_validate (build_request rnd b) (mk_resp v 101 reason (from_raw (read_back (fields h)))) = Ok tt.
Proof.
  intros X u cs rnd b custom h0 h rtext v reason HC HU HA [HP _].
  destruct (request_good_proof X u cs rnd b HC) as [HQ HK].
  apply (client_validate_iff_proof rnd b _ _ (accept_new (or_else (asked_key (List.rev cs)) rnd)) v 101 reason
    (built_key_held X u cs rnd b HC)); [apply accept_rfc_token; apply HK|].
  split; [reflexivity|]. apply server_validate_iff_proof in HQ.
  destruct (accept_headers_proof _ _ _ custom h0 HU HA HQ)
    as (k & h' & HKF & HP' & _ & ((d & HD & VA) & VC & VU) & _).
  rewrite HP in HP'. apply Ok_inj in HP'. subst h'.
  rewrite (key_field_unique _ _ _ HKF HK) in *. set (kk := or_else (asked_key (List.rev cs)) rnd) in *.
  apply token_accept in HD. subst d.
  apply read_one in VA; [|apply base64_black]. apply read_one in VU; [|reflexivity].
  apply Forall_cons; cbn [fst].
  - split; [apply accept_token_shape_proof|]. exists (base64_text (accept_new kk)).
    split; [apply base64_of_text|]. exists (base64_text (accept_new kk)). split; [exact VA|].
    split; [apply utf8_black; apply base64_black|apply padded_refl].
  - apply Forall_cons; [|constructor]. cbn [fst]. split.
    + split; rewrite VU; [discriminate|]. apply Forall_cons; [apply utf8_black; reflexivity|constructor].
    + apply lists_only_iff; [exact same_ws_nil|]. exists (ascii "websocket"). split; [|reflexivity].
      rewrite VU. reflexivity.
Qed.
Lemma legible_end : forall X h v st text, sound_lib X -> no_break st -> Forall (legible X) (fields h) ->
  @print_response unit v st h = Ok text -> ends_first text.
Proof.
  intros X h v st text HS HB HL HP. eapply response_ends_proof; [exact HB| |exact HP].
  eapply Forall_impl; [|exact HL]. intros [n x] (_ & HX & _). cbn [fst] in *.
  destruct HS as (_ & _ & HC & HF & _). unfold text_of in HX. rewrite Forall_forall in HX.
  split; intros HI; apply HX in HI as [HI _]; congruence.
Qed.
Lemma write_never_fails : forall t out data,
  Forall (fun e => match e with WAccept _ | WIntr => True | _ => False end) t ->
  exists t', write_all_go t out data = (Ok tt, mk_w (out ++ data) t') /\
    Forall (fun e => match e with WAccept _ | WIntr => True | _ => False end) t'.
Proof.
  induction t as [|e t IH]; intros out data H.
  - destruct data; exists []; (split; [cbn [write_all_go]; rewrite ?app_nil_r; reflexivity|constructor]).
  - inversion H as [|? ? H1 H2]; subst. destruct data as [|x data].
    { exists (e :: t). cbn [write_all_go]. rewrite app_nil_r. auto. }
    cbn [write_all_go]. destruct e as [n| | |]; try contradiction.
    + destruct (IH (out ++ take (n + 1) (x :: data)) (drop (n + 1) (x :: data)) H2) as (t' & E & HT).
      exists t'. split; [|exact HT]. rewrite E, <- app_assoc. rewrite take_drop. reflexivity.
    + apply IH, H2.
Qed.

(** [C36] The blocking client accepts the server's response to its request, whatever headers
    the server adds, however the bytes are cut into reads: it connects, has written exactly
    its request, holds the response's headers, and reads on behind the head. *)
Lemma client_takes_server_proof : forall X u cs rnd b text custom h0 h rtext s w after,
  speaks X -> sound_room X -> configured X u cs rnd b -> request_text rnd b text ->
  unique_names h0 -> all_unique custom ->
  response_text custom h0 (request_fields rnd b) h rtext -> legible_all X (fields h) ->
  llen rtext <= 417792 -> first_come rtext after s -> never_fails w ->
  exists c w', connect_on X rnd b s w = (Ok c, build_request rnd b, w') /\
    w_out w' = w_out w ++ text /\ c_headers c = from_raw (read_back (fields h)) /\ unread c = after.
Proof.
  intros X u cs rnd b text custom h0 h rtext s w after HS HR HC HT HU HA HX [HL HN] HB HF HW.
  pose proof (response_good X u cs rnd b custom h0 h rtext Http11 (ascii "Switching Protocols") HC HU HA HX) as HG.
  destruct HX as [HP HPR].
  pose proof (response_as_read_proof X Http11 h rtext (proj2 (proj2 HS)) HL (or_intror eq_refl) HPR) as HH.
  destruct (sync_response_read_proof X _ _ _ _ rtext after s (proj1 HS) HR HH) as (rest & s2 & E & HE).
  { unfold read_back. rewrite map_length. exact HN. }
  { exact HB. }
  { exact HF. }
  destruct (write_never_fails (w_script w) (w_out w) text HW) as (t' & EW & _).
  unfold connect_on. rewrite (print_request_any _ client_error _ _ HT).
  unfold write_all. rewrite EW, E. rewrite HG. eexists _, _. split; [reflexivity|].
  split; [reflexivity|]. split; [reflexivity|]. unfold unread, unchecked_with_limits. cbn [c_buf c_in].
  rewrite <- spread_push_back. exact HE.
Qed.
(** [C36] So does the asynchronous client. *)
Lemma async_client_takes_server_proof : forall X u cs rnd b text custom h0 h rtext extra s s' w,
  speaks X -> configured X u cs rnd b -> request_text rnd b text ->
  unique_names h0 -> all_unique custom ->
  response_text custom h0 (request_fields rnd b) h rtext -> legible_all X (fields h) ->
  aflows s rtext s' -> afails_never w ->
  exists a, async_connect_on X rnd b extra s w = Ok (a, from_raw (read_back (fields h))) /\
    fw_out (ac_out a) = fw_out w ++ bm_data (fw_buf w) ++ text /\ bm_data (fw_buf (ac_out a)) = [].
Proof.
  intros X u cs rnd b text custom h0 h rtext extra s s' w HS HC HT HU HA HX [HL HN] HF HW.
  pose proof (response_good X u cs rnd b custom h0 h rtext Http11 (ascii "Switching Protocols") HC HU HA HX) as HG.
  destruct HX as [HP HPR].
  pose proof (response_as_read_proof X Http11 h rtext (proj2 (proj2 HS)) HL (or_intror eq_refl) HPR) as HH.
  assert (ends_first rtext) as HE.
  { eapply legible_end; [apply (proj1 HS)| |exact HL|exact HPR].
    split; intros HI; cbn in HI; decompose [or] HI; try discriminate; contradiction. }
  destruct (async_response_read_proof X _ _ _ _ rtext s s' (proj1 HS) HH) as (rest & s2 & E & HE').
  { unfold read_back. rewrite map_length. exact HN. }
  { exact HE. }
  { exact HF. }
  unfold async_connect_on. rewrite (print_request_any _ client_error _ _ HT). cbn [rbind].
  destruct (head_sent_proof text extra w) as [(w' & EW & HO & HB)|(e & w' & _ & HX)]; [|contradiction].
  rewrite EW, E, HG. cbn [rbind]. eexists. split; [reflexivity|].
  cbn [update_framed_codec ac_out]. auto.
Qed.

(** ** What the server sends *)

Lemma server_got : forall X u cs rnd b text s w after,
  speaks X -> sound_room X -> configured X u cs rnd b -> request_text rnd b text -> llen text <= 417792 ->
  first_come text after s ->
  exists rest s2, into_ws X s w = Ok (mk_upgrade []
      (mk_req Get (u_resource u) Http11 (from_raw (request_fields rnd b))) (Some rest) s2 w) /\
    spread (push_back rest s2) = after.
Proof.
  intros X u cs rnd b text s w after HS HR HC HT HL HF.
  destruct (configured_head X u cs rnd b text HS HC HT) as (H1 & H2 & _).
  destruct (request_good_proof X u cs rnd b HC) as [H3 _].
  destruct (sync_request_read_proof X _ _ _ _ text after s (proj1 HS) HR H1 H2) as (rest & s2 & E & HE); auto.
  { apply HC. }
  exists rest, s2. split; [|exact HE]. unfold into_ws. rewrite E, named_get. cbn [rq_method rq_version rq_headers].
  apply server_validate_iff_proof in H3. rewrite H3. reflexivity.
Qed.

(** [C36] The handshake of a blocking client with a blocking server.  The server gets the
    client's bytes, chooses headers, adds custom ones and accepts, its writes succeeding.
    Then it has written one response, and reads on where the client's request ends; and the
    client, getting that response, connects, having written that request, holding the
    server's headers, and reads on where the response ends. *)
Lemma handshake_proof : forall X u cs rnd b text s w after,
  speaks X -> sound_room X -> configured X u cs rnd b -> request_text rnd b text -> llen text <= 417792 ->
  first_come text after s ->
  exists up, into_ws X s w = Ok up /\
  forall h0 custom df msg sc, unique_names h0 -> all_unique custom ->
    internal_accept custom df msg (mk_upgrade h0 (up_request up) (up_buffer up) (up_in up) (up_out up)) = Ok sc ->
    legible_all X (fields (c_headers sc)) ->
    exists rtext, w_out (c_out sc) = w_out w ++ rtext /\ unread sc = after /\
      forall s2 w2 after2, llen rtext <= 417792 -> first_come rtext after2 s2 -> never_fails w2 ->
      exists cc w2', connect_on X rnd b s2 w2 = (Ok cc, build_request rnd b, w2') /\
        w_out w2' = w_out w2 ++ text /\ unread cc = after2 /\
        c_headers cc = from_raw (read_back (fields (c_headers sc))).
Proof.
  intros X u cs rnd b text s w after HS HR HC HT HB HF.
  destruct (server_got X u cs rnd b text s w after HS HR HC HT HB HF) as (rest & s2 & E & HE).
  eexists. split; [exact E|]. cbn [up_request up_buffer up_in up_out].
  intros h0 custom df msg sc HU HA HI HL.
  apply accept_inv in HI as (h & data & w' & HP & HPR & HW & ->). cbn [up_headers up_request up_buffer up_in up_out rq_headers rq_version] in *.
  cbn [unchecked_with_limits c_out c_headers] in *.
  exists data. split; [|split].
  - unfold write_all in HW. destruct (write_all_go_spec (w_script w) (w_out w) data) as (n & HN). rewrite HW in HN.
    destruct HN as (_ & HN & _). apply HN. reflexivity.
  - unfold unread, unchecked_with_limits. cbn [c_buf c_in]. rewrite <- spread_push_back. exact HE.
  - intros s3 w3 after3 HB3 HF3 HW3.
    destruct (client_takes_server_proof X u cs rnd b text custom h0 h data s3 w3 after3) as (c & w3' & H1 & H2 & H3 & H4); auto.
    + split; [eapply prepare_any, HP|eapply print_response_any, HPR].
    + exists c, w3'. auto.
Qed.

(*EX Example speaks_ex : speaks httparse_lib.
Proof.
  split; [repeat split|]. split; [repeat constructor; discriminate|]. repeat constructor.
Qed.
Example handshake_ex : exists b text up sc cc b' w',
  run_calls some_calls (builder_init some_url) = Ok b /\ request_text (ascii "the sample nonce") b text /\
  into_ws httparse_lib (push_back (text ++ [x89]) [RData x80 []]) (mk_w [] [WAccept 3; WIntr]) = Ok up /\
  internal_accept (Some [(ascii "X", Raw [ascii "y"])]) 100 200
    (mk_upgrade [(n_protocol, Typed (VProtocol [ascii "chat"]))] (up_request up) (up_buffer up) (up_in up) (up_out up)) = Ok sc /\
  connect_on httparse_lib (ascii "the sample nonce") b (push_back (w_out (c_out sc)) []) (mk_w [] []) = (Ok cc, b', w') /\
  w_out w' = text /\ unread sc = [inl x89; inl x80] /\
  @get_protocols unit (c_headers cc) = Ok (Some [ascii "chat"]).
Proof.
  do 7 eexists. split; [vm_compute; reflexivity|]. split; [vm_compute; reflexivity|].
  split; [vm_compute; reflexivity|]. split; [vm_compute; reflexivity|].
  split; [vm_compute; reflexivity|]. split; [vm_compute; reflexivity|]. split; vm_compute; reflexivity.
Qed. EX*)

(** [C36] The handshake of an asynchronous client with an asynchronous server. *)
Lemma async_handshake_proof : forall X u cs rnd b text s s' w,
  speaks X -> configured X u cs rnd b -> request_text rnd b text -> aflows s text s' ->
  exists up, async_into_ws X s w = Ok up /\
  forall h0 custom df msg extra a h, unique_names h0 -> all_unique custom ->
    async_accept custom df msg extra (mk_aupgrade h0 (au_request up) (au_buffer up) (au_in up) (au_out up)) = Ok (a, h) ->
    legible_all X (fields h) ->
    exists rtext, fw_out (ac_out a) = fw_out w ++ bm_data (fw_buf w) ++ rtext /\
      (forall n, poll_n mc_decode n (ac_in a) (ac_read a)
         = poll_n mc_decode n s' (framed_new (msg_codec_with_limits CtxServer df msg) [])) /\
      forall extra2 s2 s2' w2, aflows s2 rtext s2' -> afails_never w2 ->
      exists ca, async_connect_on X rnd b extra2 s2 w2 = Ok (ca, from_raw (read_back (fields h))) /\
        fw_out (ac_out ca) = fw_out w2 ++ bm_data (fw_buf w2) ++ text /\
        (forall n, poll_n mc_decode n (ac_in ca) (ac_read ca)
           = poll_n mc_decode n s2' (framed_new (msg_codec_with_limits CtxClient (b_max_df b) (b_max_msg b)) [])).
Proof.
  intros X u cs rnd b text s s' w HS HC HT HF.
  destruct (configured_head X u cs rnd b text HS HC HT) as (H1 & H2 & H4).
  destruct (request_good_proof X u cs rnd b HC) as [H3 _].
  destruct (async_request_read_proof X _ _ _ _ text s s' (proj1 HS) H1 H2) as (rest & s2 & E & ->); auto.
  { apply HC. }
  unfold async_into_ws. rewrite E, named_get. cbn [finish_into_ws rq_method rq_version rq_headers fr_buf].
  apply server_validate_iff_proof in H3. rewrite H3. eexists. split; [reflexivity|].
  cbn [au_request au_buffer au_in au_out]. intros h0 custom df msg extra a h HU HA HI HL.
  apply async_accept_inv in HI as (data & w' & HP & HPR & HW & ->).
  cbn [au_headers au_request au_buffer au_in au_out rq_headers rq_version ac_out ac_in ac_read] in *.
  exists data. split; [|split].
  - destruct (head_sent_proof data extra w) as [(w2 & EW & HO & _)|(e & w2 & EW & _)]; rewrite EW in HW; [|discriminate HW].
    injection HW as <-. exact HO.
  - intros n. apply poll_n_fresh.
  - intros extra2 s3 s3' w3 HF3 HW3.
    assert (response_text custom h0 (request_fields rnd b) h data) as HRT
      by (split; [eapply prepare_any, HP|eapply print_response_any, HPR]).
    destruct (async_client_takes_server_proof X u cs rnd b text custom h0 h data extra2 s3 s3' w3) as (ca & E3 & HO & _); auto.
    exists ca. split; [exact E3|]. split; [exact HO|].
    destruct HL as [HL HN]. destruct HRT as [_ HRT].
    eapply async_client_connection_proof; [apply (proj1 HS)|exact E3| | | |exact HF3].
    + eapply response_as_read_proof; [apply (proj2 (proj2 HS))|exact HL|right; reflexivity|exact HRT].
    + unfold read_back. rewrite map_length. exact HN.
    + eapply legible_end; [apply (proj1 HS)| |exact HL|exact HRT].
      split; intros HI; cbn in HI; decompose [or] HI; try discriminate; contradiction.
Qed.

(** ** Negotiation *)
Lemma in_join : forall c sep l, In c (join sep l) -> In c sep \/ Exists (In c) l.
Proof.
  intros c sep. induction l as [|s l IH]; intros H; [contradiction|]. cbn [join] in H.
  destruct l as [|s' l]; [right; left; exact H|].
  apply in_app_or in H as [H|H]; [right; left; exact H|]. apply in_app_or in H as [H|H]; [left; exact H|].
  destruct (IH H) as [H'|H']; [left; exact H'|right; right; exact H'].
Qed.
Lemma join_read : forall l, Forall (fun s => s <> [] /\ ~ In CR s /\ ~ In LF s /\ ~ starts_blank s) l ->
  as_read (join (str ", ") l) = join (str ", ") l.
Proof.
  intros l H. apply as_read_id.
  - intros HI. apply in_join in HI as [HI|HI]; [cbn in HI; decompose [or] HI; try discriminate; contradiction|].
    apply Exists_exists in HI as (s & HS & HI). rewrite Forall_forall in H. apply H in HS. tauto.
  - intros HI. apply in_join in HI as [HI|HI]; [cbn in HI; decompose [or] HI; try discriminate; contradiction|].
    apply Exists_exists in HI as (s & HS & HI). rewrite Forall_forall in H. apply H in HS. tauto.
  - destruct l as [|s l]; [intros (r & [E|E]); discriminate E|].
    inversion H as [|? ? (H1 & _ & _ & H2) _]; subst. destruct s as [|c s]; [congruence|].
    intros (r & [E|E]); apply H2; exists s; cbn [join] in E; destruct l; injection E as -> _; auto.
Qed.
Lemma word_read : forall s, list_word s -> s <> [] /\ ~ In CR s /\ ~ In LF s /\ ~ starts_blank s.
Proof.
  intros s HW. destruct (word_black s HW) as (HB & _). destruct HW as [HN _]. rewrite forallb_forall in HB.
  split; [exact HN|]. split; [intros HI; apply HB in HI; discriminate HI|].
  split; [intros HI; apply HB in HI; discriminate HI|].
  intros (r & [-> | ->]); [assert (In SP (SP :: r)) as HI by (left; reflexivity)|assert (In HTAB (HTAB :: r)) as HI by (left; reflexivity)];
    apply HB in HI; discriminate HI.
Qed.
Lemma ext_read : forall e, simple_extension e ->
  print_ext e <> [] /\ ~ In CR (print_ext e) /\ ~ In LF (print_ext e) /\ ~ starts_blank (print_ext e).
Proof.
  intros e [HN HP]. destruct (word_read _ HN) as (H1 & H2 & H3 & H4). unfold print_ext.
  assert (forall c, In c (flat_map (fun p => str "; " ++ print_param p) (x_params e)) ->
            In c (str "; ") \/ exists p, In p (x_params e) /\ In c (print_param p)) as HF.
  { intros c HI. apply in_flat_map in HI as (p & HI & HC). apply in_app_or in HC as [HC|HC]; [left; exact HC|].
    right. exists p. auto. }
  rewrite Forall_forall in HP.
  assert (forall c, In c (str "; ") -> c <> CR /\ c <> LF) as HS
    by (intros c HI; cbn in HI; decompose [or] HI; subst; try contradiction; split; discriminate).
  split; [destruct (x_name e); [congruence|discriminate]|]. split; [|split].
  - intros HI. apply in_app_or in HI as [HI|HI]; [contradiction|]. apply HF in HI as [HI|(p & HI & HC)].
    + apply HS in HI. tauto.
    + apply HP, word_read in HI. tauto.
  - intros HI. apply in_app_or in HI as [HI|HI]; [contradiction|]. apply HF in HI as [HI|(p & HI & HC)].
    + apply HS in HI. tauto.
    + apply HP, word_read in HI. tauto.
  - destruct (x_name e) as [|c s]; [congruence|]. intros (r & [E|E]); injection E as -> _; apply H4; exists s; auto.
Qed.
Lemma carried : forall (A E : Type) n (f : bytes -> A) proj h v, unique_names h ->
  hfind n h = Some (Typed v) -> forall x l, val_lines v = [x] -> as_read x = x ->
  obind (comma_delimited [x]) (fun es => Some (map f es)) = Some l ->
  hget (E := E) n (fun ls => obind (comma_delimited ls) (fun es => Some (map f es))) proj
    (from_raw (read_back (fields h))) = Ok (Some l).
Proof.
  intros A E n f proj h v HU HF x l HV HR HP. rewrite hget_from_raw, values_read_back, values_fields by exact HU.
  rewrite HF. cbn [item_lines]. rewrite HV. cbn [map]. rewrite HR. f_equal. rewrite <- HP.
  cbn [comma_delimited]. rewrite utf8_cut, comma_elements_cut. reflexivity.
Qed.

(** [C37] A list of protocols in a header map is read on the other side as the same list. *)
Lemma protocols_carried_proof : forall h l, unique_names h ->
  stored (ascii "Sec-WebSocket-Protocol") (Typed (VProtocol l)) h -> Forall list_word l ->
  @get_protocols unit (from_raw (read_back (fields h))) = Ok (Some l).
Proof.
  intros h l HU HS HW. apply hfind_some in HS.
  pose proof (protocols_round_trip_proof l HW) as HP.
  unfold get_protocols. rewrite hget_from_raw, values_read_back, values_fields by exact HU.
  change (ascii "Sec-WebSocket-Protocol") with n_protocol in HS. rewrite HS. cbn [item_lines val_lines map].
  rewrite join_read by (eapply Forall_impl; [|exact HW]; exact word_read). f_equal. rewrite <- HP.
  unfold parse_protocols. cbn [comma_delimited]. rewrite utf8_cut, comma_elements_cut. reflexivity.
Qed.
(** [C38] A list of extensions is read as the same list, with every parameter's value folded
    into its name. *)
Lemma extensions_carried_proof : forall h l, unique_names h ->
  stored (ascii "Sec-WebSocket-Extensions") (Typed (VExtensions l)) h -> Forall simple_extension l ->
  @get_extensions unit (from_raw (read_back (fields h))) = Ok (Some (map without_values l)).
Proof.
  intros h l HU HS HW. apply hfind_some in HS. unfold get_extensions, parse_extensions.
  eapply (carried extension unit n_extensions ext_of_str as_extensions h (VExtensions l) HU HS (join (str ", ") (map print_ext l))).
  - reflexivity.
  - apply join_read. apply Forall_map. eapply Forall_impl; [|exact HW]. exact ext_read.
  - exact (extensions_reparsed_proof l HW).
Qed.

(*EX
(** A parameter with a value: the value ends up in the name. *)
Example extensions_carried_ex :
  let e := mk_ext (ascii "permessage-deflate") [mk_param (ascii "bits") (Some (ascii "10")); mk_param (ascii "x") None] in
  @get_extensions unit (from_raw (read_back (fields [(ascii "Sec-WebSocket-Extensions", Typed (VExtensions [e]))])))
  = Ok (Some [mk_ext (ascii "permessage-deflate") [mk_param (ascii "bits=10") None; mk_param (ascii "x") None]]).
Proof. vm_compute. reflexivity. Qed.
EX*)


Lemma built_other : forall rnd b n, Forall (fun m => eq_nocase m n = false)
    [n_key; n_version; n_upgrade; n_connection; n_authorization; n_host] ->
  hfind n (b_headers (build_request rnd b)) = hfind n (b_headers b).
Proof.
  intros rnd b n H. rewrite built_find.
  rewrite Forall_forall in H.
  rewrite !(H n_key), !(H n_version), !(H n_upgrade), !(H n_connection), !(H n_authorization), !(H n_host)
    by (cbn [In]; tauto).
  rewrite !andb_false_r. destruct (u_host (b_url b)); reflexivity.
Qed.
(** [C37] The server sees exactly the protocols the client asked for. *)
Lemma server_sees_protocols_proof : forall u cs rnd b,
  run_calls cs (builder_init u) = Ok b -> Forall (leaves_alone (ascii "Sec-WebSocket-Protocol")) cs ->
  Forall list_word (asked_protocols (rev cs)) ->
  @protocols unit (from_raw (request_fields rnd b)) = Ok (asked_protocols (rev cs)).
Proof.
  intros u cs rnd b HR HL HW. unfold request_fields, protocols.
  pose proof (run_unique cs (builder_init u) b unique_nil HR) as HU. apply (built_unique rnd) in HU.
  assert (hfind n_protocol (b_headers (build_request rnd b)) = hfind n_protocol (b_headers b)) as HB
    by (apply built_other; repeat apply Forall_cons; reflexivity || apply Forall_nil).
  pose proof (builder_protocols_proof u cs b HL HR) as HH. apply holds_hfind in HH. fold n_protocol in HH.
  change (ascii "Sec-WebSocket-Protocol") with n_protocol in HH. rewrite <- HB in HH.
  destruct HH as [HH|[E HH]].
  - rewrite protocols_carried_proof with (l := asked_protocols (rev cs)); [reflexivity|exact HU|apply hfind_some, HH|exact HW].
  - unfold get_protocols, hget. rewrite hfind_from_raw, values_read_back, values_fields, HH by exact HU.
    rewrite E. reflexivity.
Qed.
(*EX Example server_sees_protocols_ex : exists b, run_calls some_calls (builder_init some_url) = Ok b /\
  @protocols unit (from_raw (request_fields (ascii "the sample nonce") b)) = Ok [ascii "chat"; ascii "superchat"].
Proof. eexists. split; [reflexivity|]. vm_compute. reflexivity. Qed. EX*)
(** [C38] And the extensions. *)
Lemma server_sees_extensions_proof : forall u cs rnd b,
  run_calls cs (builder_init u) = Ok b -> Forall (leaves_alone (ascii "Sec-WebSocket-Extensions")) cs ->
  Forall simple_extension (asked_extensions (rev cs)) ->
  @extensions unit (from_raw (request_fields rnd b)) = Ok (map without_values (asked_extensions (rev cs))).
Proof.
  intros u cs rnd b HR HL HW. unfold request_fields, extensions.
  pose proof (run_unique cs (builder_init u) b unique_nil HR) as HU. apply (built_unique rnd) in HU.
  assert (hfind n_extensions (b_headers (build_request rnd b)) = hfind n_extensions (b_headers b)) as HB
    by (apply built_other; repeat apply Forall_cons; reflexivity || apply Forall_nil).
  pose proof (builder_extensions_proof u cs b HL HR) as HH. apply holds_hfind in HH.
  change (ascii "Sec-WebSocket-Extensions") with n_extensions in HH. rewrite <- HB in HH.
  destruct HH as [HH|[E HH]].
  - rewrite extensions_carried_proof with (l := asked_extensions (rev cs)); [reflexivity|exact HU|apply hfind_some, HH|exact HW].
  - unfold get_extensions, hget. rewrite hfind_from_raw, values_read_back, values_fields, HH by exact HU.
    rewrite E. reflexivity.
Qed.

(*EX
Example server_sees_extensions_ex : exists b,
  run_calls [AddExtension (mk_ext (ascii "a") []); AddExtension (mk_ext (ascii "b") [mk_param (ascii "c") None])]
    (builder_init some_url) = Ok b /\
  @extensions unit (from_raw (request_fields (ascii "the sample nonce") b))
  = Ok [mk_ext (ascii "a") []; mk_ext (ascii "b") [mk_param (ascii "c") None]].
Proof. eexists. split; [reflexivity|]. vm_compute. reflexivity. Qed.
EX*)


(** [C37] The client sees exactly the protocol the server chose with [use_protocol] (unless the
    server's custom headers have that field too). *)
Lemma client_sees_protocol_proof : forall X u cs rnd b p h0 custom h rtext,
  configured X u cs rnd b -> list_word p ->
  @use_protocol unit p [] = Ok h0 -> all_unique custom ->
  match custom with Some c => unset (ascii "Sec-WebSocket-Protocol") c | None => True end ->
  response_text custom h0 (request_fields rnd b) h rtext ->
  @get_protocols unit (from_raw (read_back (fields h))) = Ok (Some [p]).
Proof.
  intros X u cs rnd b p h0 custom h rtext HC HW HP HA HN [HR _].
  destruct (request_good_proof X u cs rnd b HC) as [HQ HK]. apply server_validate_iff_proof in HQ.
  apply Ok_inj in HP.
  assert (unique_names h0) as HU by (subst h0; constructor; [intros []|constructor]).
  destruct (accept_headers_proof _ _ _ custom h0 HU HA HQ) as (k & h' & HKF & HP' & HU' & _ & HO).
  rewrite HR in HP'. apply Ok_inj in HP'. subst h'.
  apply protocols_carried_proof; [exact HU'| |constructor; [exact HW|constructor]].
  apply HO.
  - intros HE. apply Exists_exists in HE as (x & HI & HE). cbn [In] in HI. decompose [or] HI; subst; try contradiction; discriminate HE.
  - subst h0. assert (stored (ascii "Sec-WebSocket-Protocol") (Typed (VProtocol [p])) [(n_protocol, Typed (VProtocol [p]))])
      by (apply stored_here; reflexivity).
    destruct custom as [c|]; cbn [overlaid]; auto.
Qed.

(*EX
Example client_sees_protocol_ex : exists b h0 h rtext,
  run_calls some_calls (builder_init some_url) = Ok b /\ @use_protocol unit (ascii "chat") [] = Ok h0 /\
  response_text None h0 (request_fields (ascii "the sample nonce") b) h rtext /\
  @get_protocols unit (from_raw (read_back (fields h))) = Ok (Some [ascii "chat"]).
Proof.
  eexists _, _, _, _. split; [reflexivity|]. split; [reflexivity|]. split; [split; vm_compute; reflexivity|].
  vm_compute. reflexivity.
Qed.
EX*)

