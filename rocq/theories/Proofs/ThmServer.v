(** The server side of the handshake: which requests are accepted, and what is answered:
    C33, C34. *)
From Coq Require Import NArith ZArith String Bool List Lia.
From Coq Require Import ZifyBool ZifyNat ZifyN.
From Coq.Strings Require Import Byte.
From Verif.Model Require Import Base Utf8 Text Base64 Sha1 WsKey Headers Handshake.
From Verif.Spec Require Import FrameSpec Unicode Rfc4648 Accept Fields Upgrade.
From Verif.Proofs Require Import BaseFacts Utf8Facts Base64Facts ThmKeys TextFacts MapFacts.
Import ListNotations.
Local Open Scope string_scope.
Local Open Scope list_scope.
Local Open Scope N_scope.

Lemma ff_exclusive : forall (E : Type) (l : list (Prop * E)) e,
  first_failing l e -> Forall (fun c => fst c) l -> False.
Proof.
  induction 1; intros HF; inversion HF; subst; cbn [fst] in *; auto.
Qed.
Lemma ff_unique : forall (E : Type) (l : list (Prop * E)) e e',
  first_failing l e -> first_failing l e' -> e = e'.
Proof.
  intros E l e e' H. revert e'. induction H; intros e2 H2; inversion H2; subst; auto; contradiction.
Qed.

Lemma hget_raw : forall (A E : Type) n parse (proj : hval -> option A) fs, parse [] = None ->
  hget (E := E) n parse proj (from_raw fs) = Ok (parse (map cut_spaces (values n fs))).
Proof.
  intros. rewrite hget_from_raw. destruct (values n fs); [rewrite <- H|]; reflexivity.
Qed.
Lemma not_ws_nil : ~ names_websocket [].
Proof.
  intros (n & H & [E|(v & E)]); [subst n; discriminate H|].
  destruct n; [discriminate H|discriminate E].
Qed.
Lemma not_up_nil : ~ same_name [] (ascii "upgrade").
Proof. discriminate. Qed.

Lemma key_read : forall (E : Type) fs,
  (exists k, get_key (E := E) (from_raw fs) = Ok (Some k) /\ key_field fs k) \/
  (get_key (E := E) (from_raw fs) = Ok None /\ ~ exists k, key_field fs k).
Proof.
  intros E fs. unfold get_key. rewrite hget_raw by reflexivity.
  destruct (parse_key _) as [k|] eqn:EK.
  - left. exists k. split; [reflexivity|]. apply parse_key_iff, EK.
  - right. split; [reflexivity|]. intros [k HK]. apply parse_key_iff in HK. unfold n_key in *. congruence.
Qed.
Lemma accept_read : forall (E : Type) fs,
  (exists k, get_accept (E := E) (from_raw fs) = Ok (Some k) /\ accept_field fs k) \/
  (get_accept (E := E) (from_raw fs) = Ok None /\ ~ exists k, accept_field fs k).
Proof.
  intros E fs. unfold get_accept. rewrite hget_raw by reflexivity.
  destruct (parse_accept _) as [k|] eqn:EK.
  - left. exists k. split; [reflexivity|]. apply parse_accept_iff, EK.
  - right. split; [reflexivity|]. intros [k HK]. apply parse_accept_iff in HK. unfold n_accept in *. congruence.
Qed.
Lemma list_read : forall (A E : Type) n (f : bytes -> A) proj fs,
  (readable n fs /\ hget (E := E) n (fun ls => obind (comma_delimited ls) (fun es => Some (map f es))) proj (from_raw fs)
     = Ok (Some (map f (flat_map comma_elements (values n fs))))) \/
  (~ readable n fs /\ hget (E := E) n (fun ls => obind (comma_delimited ls) (fun es => Some (map f es))) proj (from_raw fs)
     = Ok None).
Proof.
  intros A E n f proj fs. rewrite hget_from_raw. unfold readable.
  destruct (values n fs) as [|v vs] eqn:EV; [right; split; [intros [H _]; congruence|reflexivity]|].
  destruct (comma_delimited (map cut_spaces (v :: vs))) as [es|] eqn:EC.
  - apply comma_delimited_cut in EC as [HU ->]. left. split; [split; [discriminate|exact HU]|].
    reflexivity.
  - right. apply comma_delimited_none in EC. split; [intros [_ H]; auto|reflexivity].
Qed.

Lemma some_websocket : forall l, forallb (fun p => negb (is_websocket p)) l = false ->
  exists x, In x l /\ is_websocket x = true.
Proof.
  induction l as [|y l IH]; cbn [forallb]; [discriminate|]. intros H.
  destruct (is_websocket y) eqn:EY; [exists y; split; [left; reflexivity|exact EY]|].
  cbn [negb andb] in H. destruct (IH H) as (x & ? & ?). exists x. split; [right|]; assumption.
Qed.
Lemma validate_cases : forall m v fs,
  match validate m v (from_raw fs) with
  | Ok _ => Forall (fun c => fst c) (request_conditions m v fs)
  | Err e => first_failing (request_conditions m v fs) e
  | _ => False
  end.
Proof.
  intros m v fs. unfold validate, request_conditions.
  destruct m; [|apply ff_here; discriminate].
  assert ((v <> Http09 /\ v <> Http10) \/ (v = Http09 \/ v = Http10)) as [HV|HV]
    by (destruct v; ((left; split; discriminate) || (right; auto))).
  2:{ assert (match v with Http09 | Http10 => True | _ => False end) by (destruct HV; subst; exact I).
      destruct v; try contradiction; apply ff_next; try reflexivity; apply ff_here; intros [H1 H2]; auto. }
  assert (forall X (a b : X), match v with Http09 | Http10 => a | _ => b end = b) as EV
    by (intros; destruct HV; destruct v; congruence).
  rewrite EV. clear EV.
  unfold get_version. rewrite hget_raw by reflexivity. cbn [rbind].
  pose proof (parse_version_bad fs) as PV.
  destruct (parse_version (map cut_spaces (values n_version fs))) as [wv|];
  [destruct wv as [|s]|].
  2:{ apply ff_next; [reflexivity|]. apply ff_next; [exact HV|]. apply ff_here. tauto. }
  all: assert (version_acceptable fs) as PV' by tauto; clear PV.
  all: destruct (key_read upgrade_error fs) as [(k & -> & HK)|[-> HK]]; cbn [rbind];
    [|do 3 (apply ff_next; [auto|]); apply ff_here; exact HK].
  all: unfold get_upgrade, parse_upgrade;
    destruct (list_read _ upgrade_error n_upgrade proto_of_str as_upgrade fs) as [[HR ->]|[HR ->]]; cbn [rbind];
    [|do 4 (apply ff_next; [eauto|]); apply ff_here; exact HR].
  all: destruct (forallb _ _) eqn:EF;
    [do 5 (apply ff_next; [eauto|]); apply ff_here;
     rewrite lists_iff by exact not_ws_nil; intros (t & HI & HT);
     rewrite forallb_forall in EF; specialize (EF (proto_of_str t) (in_map _ _ _ HI));
     apply proto_websocket in HT; rewrite HT in EF; discriminate|].
  all: assert (lists names_websocket (ascii "Upgrade") fs) as HW
    by (rewrite lists_iff by exact not_ws_nil;
        apply some_websocket in EF as (x & HX & HX2);
        apply in_map_iff in HX as (t & <- & HT); exists t; split; [exact HT|apply proto_websocket, HX2]).
  all: unfold get_connection, parse_connection;
    destruct (list_read _ upgrade_error n_connection conn_of_str as_connection fs) as [[HR2 ->]|[HR2 ->]]; cbn [rbind];
    [|do 6 (apply ff_next; [eauto|]); apply ff_here; exact HR2].
  all: destruct (check_connection_header _) eqn:EC;
    [apply check_connection_iff in EC;
     repeat (apply Forall_cons; cbn [fst]); eauto; rewrite lists_iff by exact not_up_nil; exact EC|].
  all: do 7 (apply ff_next; [eauto|]); apply ff_here; rewrite lists_iff by exact not_up_nil;
    intros HC; apply check_connection_iff in HC; unfold n_connection, str, ascii in *; congruence.
Qed.

(** ** Which requests are accepted *)

(** [C33] A request is accepted exactly when it meets all the conditions. *)
Lemma server_validate_iff_proof : forall m v fs,
  validate m v (from_raw fs) = Ok tt <-> Forall (fun c => fst c) (request_conditions m v fs).
Proof.
  intros m v fs. pose proof (validate_cases m v fs) as H.
  destruct (validate m v (from_raw fs)) as [[]|e| |]; try contradiction; [tauto|].
  split; [discriminate|]. intros HF. exfalso. eapply ff_exclusive; eassumption.
Qed.
(*EX Example server_validate_ex : validate Get Http11 (from_raw
    [(ascii "Host", ascii "example.com"); (ascii "upgrade", ascii "h2c , WebSocket/1");
     (ascii "CONNECTION", ascii "keep-alive"); (ascii "Connection", ascii "x, uPgrade ");
     (ascii "Sec-WebSocket-Key", ascii "  dGhlIHNhbXBsZSBub25jZQ==")]) = Ok tt.
Proof. reflexivity. Qed. EX*)

(** [C33] Otherwise the error names the first condition, in the order of the list, that the
    request does not meet; the server never panics on a request. *)
Lemma server_validate_error_proof : forall m v fs e,
  validate m v (from_raw fs) = Err e <-> first_failing (request_conditions m v fs) e.
Proof.
  intros m v fs e. pose proof (validate_cases m v fs) as H.
  destruct (validate m v (from_raw fs)) as [[]|e'| |]; try contradiction.
  - split; [discriminate|]. intros HF. exfalso. eapply ff_exclusive; eassumption.
  - split; [intros E; injection E as <-; exact H|]. intros H2. f_equal. eapply ff_unique; eassumption.
Qed.
(*EX Example server_validate_error_ex : validate Get Http11 (from_raw
    [(ascii "Upgrade", ascii "websockets"); (ascii "Sec-WebSocket-Key", ascii "dGhlIHNhbXBsZSBub25jZQ==")])
  = Err NoWsUpgradeHeader.
Proof. reflexivity. Qed. EX*)

(** [C33] Every answer is one of the two: no panic. *)
Lemma server_validate_total_proof : forall m v fs,
  validate m v (from_raw fs) = Ok tt \/ exists e, validate m v (from_raw fs) = Err e.
Proof.
  intros m v fs. pose proof (validate_cases m v fs) as H.
  destruct (validate m v (from_raw fs)) as [[]|e'| |]; try contradiction; [left|right; exists e']; reflexivity.
Qed.
(*EX Example server_validate_total_ex :
  validate Get Http11 (from_raw [(ascii "Upgrade", [xff; x00])]) = Err NoSecWsKeyHeader.
Proof. reflexivity. Qed. EX*)

(** [C33] Every request RFC 6455 (4.2.1) calls valid is accepted, provided its Upgrade and
    Connection fields are UTF-8. *)
Lemma server_accepts_rfc_proof : forall m v fs,
  rfc_request m v fs ->
  Forall utf8_text (values (ascii "Upgrade") fs) ->
  Forall utf8_text (values (ascii "Connection") fs) ->
  validate m v (from_raw fs) = Ok tt.
Proof.
  intros m v fs (-> & HV & _ & HU & HC & HK & HS) U1 U2. apply server_validate_iff_proof.
  assert (forall P n, lists P n fs -> values n fs <> []) as HN
    by (intros P n (x & ? & ? & ? & HI & _) E; rewrite E in HI; exact HI).
  repeat apply Forall_cons; cbn [fst]; auto.
  - destruct HV; subst; split; discriminate.
  - destruct HS as (w & EW & _ & HP). intros x EX _ _. rewrite EW in EX. injection EX as <-. exact HP.
  - split; [eapply HN, HU|exact U1].
  - destruct HU as (x & ps & p & t & H1 & H2 & H3 & H4 & H5). exists x, ps, p, t.
    repeat split; auto; try apply H2; try apply H4. exists t. auto.
  - split; [eapply HN, HC|exact U2].
Qed.
(*EX Example server_accepts_rfc_ex : validate Get Http11 (from_raw
    [(ascii "Host", ascii "server.example.com"); (ascii "Upgrade", ascii "websocket");
     (ascii "Connection", ascii "Upgrade"); (ascii "Sec-WebSocket-Key", ascii "dGhlIHNhbXBsZSBub25jZQ==");
     (ascii "Origin", ascii "http://example.com"); (ascii "Sec-WebSocket-Protocol", ascii "chat, superchat");
     (ascii "Sec-WebSocket-Version", ascii "13")]) = Ok tt.
Proof. reflexivity. Qed. EX*)

(** [C33] The converse fails: requests the RFC calls invalid are accepted.  Here: without a
    version; with two version fields, none of them 13; without Host; and, although the
    error for it is documented as "unsupported HTTP version", with HTTP/2.0. *)
Lemma server_validate_refuted_proof :
  let base := [(ascii "Upgrade", ascii "websocket"); (ascii "Connection", ascii "Upgrade");
               (ascii "Sec-WebSocket-Key", ascii "dGhlIHNhbXBsZSBub25jZQ==")] in
  let host := (ascii "Host", ascii "example.com") in
  let version s := (ascii "Sec-WebSocket-Version", s) in
  (forall fs, In fs [host :: base;
                     host :: version (ascii "7") :: version (ascii "8") :: base;
                     version (ascii "13") :: base;
                     host :: version [xff] :: base] ->
     validate Get Http11 (from_raw fs) = Ok tt /\ ~ rfc_request Get Http11 fs) /\
  validate Get Http20 (from_raw (host :: version (ascii "13") :: base)) = Ok tt.
Proof.
  cbv zeta. split; [|reflexivity].
  intros fs HI. cbn [In] in HI.
  destruct HI as [<-|[<-|[<-|[<-|[]]]]]; (split; [reflexivity|]); intros (_ & _ & HH & _ & _ & _ & HS).
  - destruct HS as (w & EW & _). vm_compute in EW. discriminate.
  - destruct HS as (w & EW & _). vm_compute in EW. discriminate.
  - vm_compute in HH. discriminate.
  - destruct HS as (w & EW & HU & _). vm_compute in EW. injection EW as <-.
    apply utf8_text_iff in HU. discriminate HU.
Qed.

(** ** The response *)

Lemma hfind_base : forall custom h n i, all_unique custom ->
  hfind n (match custom with Some c => hextend h c | None => h end) = Some i <-> overlaid custom h n i.
Proof.
  intros [c|] h n i HU; cbn [overlaid all_unique] in *; [|apply hfind_some].
  destruct (hfind n c) as [j|] eqn:E.
  - apply hfind_some in E. rewrite (hfind_extend_some n j c h HU E). split.
    + intros EQ. injection EQ as <-. left. exact E.
    + intros [H|[H _]]; [|exfalso; apply hfind_none in H; apply hfind_some in E; congruence].
      apply hfind_some in E, H. congruence.
  - apply hfind_none in E. rewrite (hfind_extend_none n c h E). rewrite hfind_some. split; [tauto|].
    intros [H|[_ H]]; [|exact H]. apply hfind_some in H. apply hfind_none in E. congruence.
Qed.

(** [C34] For a validated request, whatever headers were chosen before and whichever custom
    headers are added: no panic; the response carries exactly one of each handshake field,
    the accept field being the token of the request's key; every other header is the custom
    one, or else the one chosen before. *)
Lemma accept_headers_proof : forall m v fs custom h,
  unique_names h -> all_unique custom -> validate m v (from_raw fs) = Ok tt ->
  exists k h', key_field fs k /\
    @prepare_headers unit custom h (from_raw fs) = Ok h' /\ unique_names h' /\
    completes k (fields h') /\
    (forall n i, ~ handshake_name n -> (stored n i h' <-> overlaid custom h n i)).
Proof.
  intros m v fs custom h HU HC HV. apply server_validate_iff_proof in HV.
  assert (exists k, key_field fs k) as HK.
  { inversion HV as [|? ? _ HV1]; subst. inversion HV1 as [|? ? _ HV2]; subst.
    inversion HV2 as [|? ? _ HV3]; subst. inversion HV3 as [|? ? HV4 _]; subst. exact HV4. }
  unfold prepare_headers.
  destruct (key_read unit fs) as [(k & -> & HKF)|[_ HN]]; [|contradiction]. cbn [rbind].
  set (h1 := match custom with Some c => hextend h c | None => h end).
  assert (unique_names h1) as HU1 by (unfold h1; destruct custom; [apply unique_extend|]; exact HU).
  eexists k, _. split; [exact HKF|]. split; [reflexivity|].
  match goal with |- unique_names ?x /\ _ => set (h' := x) end.
  assert (unique_names h') as HU' by (unfold h'; repeat apply unique_set; exact HU1).
  assert (forall n, hfind n h' =
    if eq_nocase n_upgrade n then Some (Typed upgrade_value)
    else if eq_nocase n_connection n then Some (Typed connection_value)
    else if eq_nocase n_accept n then Some (Typed (VAccept (accept_new k))) else hfind n h1) as HF
    by (intros n; unfold h'; rewrite !hfind_set; reflexivity).
  split; [exact HU'|]. split.
  - unfold completes. rewrite !values_fields by exact HU'. rewrite !HF. cbn -[accept_new].
    split; [|split; reflexivity].
    exists (accept_new k). split; [apply accept_rfc_token; apply HKF|].
    unfold accept_serialize. rewrite encode_rfc. reflexivity.
  - intros n i HN. rewrite <- hfind_base by exact HC. fold h1. rewrite <- hfind_some, HF.
    assert (forall x, In x [ascii "Sec-WebSocket-Accept"; ascii "Connection"; ascii "Upgrade"] ->
            eq_nocase x n = false) as HX.
    { intros x HI. apply eq_nocase_false. intros E. apply HN. apply Exists_exists. exists x.
      split; [exact HI|]. unfold same_name in *. congruence. }
    unfold n_upgrade, n_connection, n_accept.
    rewrite !HX; [reflexivity| | |]; cbn [In]; auto.
Qed.
(*EX Example accept_headers_ex :
  let req := from_raw [(ascii "Upgrade", ascii "websocket"); (ascii "Connection", ascii "Upgrade");
               (ascii "Sec-WebSocket-Key", ascii "dGhlIHNhbXBsZSBub25jZQ==")] in
  validate Get Http11 req = Ok tt /\
  exists h', @prepare_headers unit (Some [(ascii "connection", Raw [ascii "close"]); (ascii "Server", Raw [ascii "x"])])
               [(ascii "Server", Raw [ascii "y"])] req = Ok h' /\
    fields h' = [(ascii "Server", ascii "x"); (ascii "Connection", ascii "Upgrade");
                 (ascii "Sec-WebSocket-Accept", ascii "s3pPLMBiTxaQ9kYGzzhZRbK+xOo=");
                 (ascii "Upgrade", ascii "websocket")].
Proof. split; [reflexivity|]. eexists. split; [reflexivity|]. vm_compute. reflexivity. Qed. EX*)

(** [C34] Rejecting adds nothing: the headers are the custom ones and those chosen before. *)
Lemma reject_adds_nothing_proof : forall custom h n i,
  unique_names h -> all_unique custom ->
  (stored n i (reject_headers custom h) <-> overlaid custom h n i).
Proof. intros. unfold reject_headers. rewrite <- hfind_some. apply hfind_base. assumption. Qed.
(*EX Example reject_ex : fields (reject_headers (Some [(ascii "Server", Raw [ascii "x"])]) []) = [(ascii "Server", ascii "x")].
Proof. reflexivity. Qed. EX*)

(** [C34] Sending panics exactly when a raw header line is not UTF-8 (which only a caller's
    own header can be). *)
Lemma print_response_panics_iff_proof : forall v st h,
  @print_response unit v st h = Panic <->
  Exists (fun p : bytes * item => exists ls, snd p = Raw ls /\ ~ Forall utf8_text ls) h.
Proof.
  intros v st h. unfold print_response, print_headers.
  assert (forall i, item_printable i = false <-> exists ls, i = Raw ls /\ ~ Forall utf8_text ls) as HI.
  { intros [ls|x]; cbn [item_printable].
    - split.
      + intros H. exists ls. split; [reflexivity|]. intros HF. rewrite <- not_true_iff_false in H. apply H.
        apply forallb_forall. rewrite Forall_forall in HF. intros x HX. apply utf8_text_iff, HF, HX.
      + intros (ls' & EQ & HF). injection EQ as <-. apply not_true_iff_false. intros HT. apply HF.
        apply Forall_forall. rewrite forallb_forall in HT. intros x HX. apply utf8_text_iff, HT, HX.
    - split; [discriminate|]. intros (ls & EQ & _). discriminate. }
  destruct (forallb _ h) eqn:E.
  - cbn [rbind]. split; [discriminate|]. intros HE. apply Exists_exists in HE as (p & HP & HQ).
    rewrite forallb_forall in E. specialize (E p HP). apply HI in HQ. congruence.
  - cbn [rbind]. split; [intros _|reflexivity]. apply Exists_exists.
    assert (exists p, In p h /\ item_printable (snd p) = false) as (p & H1 & H2).
    { revert E. clear. induction h as [|p h IH]; cbn [forallb]; [discriminate|]. intros E.
      destruct (item_printable (snd p)) eqn:EP; [|exists p; split; [left; reflexivity|exact EP]].
      destruct (IH E) as (q & ? & ?). exists q. split; [right|]; assumption. }
    exists p. split; [exact H1|]. apply HI, H2.
Qed.
(** [C34] Refuted for such headers: accepting a valid request panics. *)
Lemma accept_panic_refuted_proof : exists custom req h',
  unique_names custom /\ validate Get Http11 (from_raw req) = Ok tt /\
  @prepare_headers unit (Some custom) [] (from_raw req) = Ok h' /\
  @print_response unit Http11 switching_protocols h' = Panic.
Proof.
  exists [(ascii "X", Raw [[xff]])],
    [(ascii "Upgrade", ascii "websocket"); (ascii "Connection", ascii "Upgrade");
     (ascii "Sec-WebSocket-Key", ascii "dGhlIHNhbXBsZSBub25jZQ==")].
  eexists. split; [repeat constructor; intros []|]. split; [reflexivity|]. split; reflexivity.
Qed.
