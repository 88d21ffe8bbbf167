(** The client side of the handshake: what the builder sends, which responses it accepts, where
    it connects to: C35, C37, C38, C40, C41. *)
From Coq Require Import NArith ZArith String Bool List Lia.
From Coq Require Import ZifyBool ZifyNat ZifyN.
From Coq.Strings Require Import Byte.
From Verif.Model Require Import Base Utf8 Text Base64 Sha1 WsKey Headers Handshake.
From Verif.Spec Require Import FrameSpec Unicode Rfc4648 Accept Fields Upgrade Builder.
From Verif.Proofs Require Import BaseFacts Utf8Facts Base64Facts ThmKeys TextFacts MapFacts ThmServer.
Import ListNotations.
Local Open Scope string_scope.
Local Open Scope list_scope.
Local Open Scope N_scope.

(** ** The builder's lists *)

Lemma Ok_inj : forall (A E : Type) (x y : A), @Ok A E x = Ok y -> x = y.
Proof. intros A E x y H. injection H. auto. Qed.
Lemma hget_find : forall (A E : Type) n parse (proj : hval -> option A) h i,
  hfind n h = Some i -> hget (E := E) n parse proj h =
  match i with Raw ls => Ok (parse ls) | Typed v => match proj v with Some a => Ok (Some a) | None => Panic end end.
Proof. intros. unfold hget. rewrite H. destruct i; reflexivity. Qed.

Lemma upsert_held : forall (A E : Type) n parse proj (inj : list A -> hval) more h l,
  (forall x, proj (inj x) = Some x) -> unique_names h -> holds_list inj n l h ->
  exists h', @upsert A E n parse proj inj more h = Ok h' /\ unique_names h' /\
    hfind n h' = Some (Typed (inj (l ++ more))) /\
    forall m, eq_nocase n m = false -> hfind m h' = hfind m h.
Proof.
  intros A E n parse proj inj more h l HP HU HL. unfold upsert, hhas. destruct HL as [HL|[-> HL]].
  - apply hfind_some in HL. rewrite HL. rewrite (hget_find (list A) E n parse proj h _ HL). cbn [rbind]. rewrite HP.
    cbn [rbind]. eexists. split; [reflexivity|]. split; [apply unique_update, HU|].
    split; [|intros m EM]; rewrite hfind_update; [rewrite eq_nocase_refl|rewrite EM; reflexivity].
    unfold hhas. rewrite HL. reflexivity.
  - apply hfind_none in HL. rewrite HL. eexists. split; [reflexivity|].
    split; [apply unique_set, HU|]. split; [|intros m EM]; rewrite hfind_set; [rewrite eq_nocase_refl|rewrite EM];
      reflexivity.
Qed.
Lemma upsert_frame : forall (A E : Type) n parse proj (inj : list A -> hval) more h h',
  unique_names h -> @upsert A E n parse proj inj more h = Ok h' ->
  unique_names h' /\ forall m, eq_nocase n m = false -> hfind m h' = hfind m h.
Proof.
  intros A E n parse proj inj more h h' HU H. unfold upsert in H. destruct (hhas n h).
  - destruct (hget n parse proj h) as [[l|]| | |]; try discriminate; cbn [rbind] in H;
      apply Ok_inj in H; subst h'; (split; [auto using unique_update|]); intros m EM; [|reflexivity].
    rewrite hfind_update, EM. reflexivity.
  - apply Ok_inj in H; subst h'. split; [apply unique_set, HU|]. intros m EM. rewrite hfind_set, EM. reflexivity.
Qed.

Definition touches (c : call) : option bytes :=
  match c with
  | AddProtocol _ | AddProtocols _ | ClearProtocols => Some n_protocol
  | AddExtension _ | AddExtensions _ | ClearExtensions => Some n_extensions
  | Key _ | ClearKey => Some n_key
  | Version _ | ClearVersion => Some n_version
  | SetOrigin _ | ClearOrigin => Some n_origin
  | _ => None
  end.
Lemma perform_unique : forall c b b', unique_names (b_headers b) -> perform c b = Ok b' -> unique_names (b_headers b').
Proof.
  intros c b b' HU H. destruct c; cbn [perform] in H;
    unfold add_protocol, add_protocols, add_extension, add_extensions in H;
    try (destruct (upsert _ _ _ _ _ _) as [h'| | |] eqn:EU; try discriminate; cbn [rbind] in H);
    apply Ok_inj in H; subst b'; cbn [b_headers with_headers];
    unfold clear_protocols, clear_extensions, set_max_df, set_max_msg, set_key, clear_key, set_version, clear_version,
      set_origin, clear_origin, custom_headers, clear_header, with_headers; cbn [b_headers];
    auto using unique_set, unique_remove, unique_extend;
    eapply upsert_frame; eassumption.
Qed.
Lemma perform_frame : forall n c b b', unique_names (b_headers b) -> perform c b = Ok b' -> leaves_alone n c ->
  match touches c with Some t => eq_nocase t n = false | None => True end ->
  hfind n (b_headers b') = hfind n (b_headers b).
Proof.
  intros n c b b' HU H HL HT. destruct c; cbn [perform touches leaves_alone] in *;
    unfold add_protocol, add_protocols, add_extension, add_extensions in H;
    try (destruct (upsert _ _ _ _ _ _) as [h'| | |] eqn:EU; try discriminate; cbn [rbind] in H);
    apply Ok_inj in H; subst b'; cbn [b_headers with_headers];
    unfold clear_protocols, clear_extensions, set_max_df, set_max_msg, set_key, clear_key, set_version, clear_version,
      set_origin, clear_origin, custom_headers, clear_header, with_headers; cbn [b_headers];
    rewrite ?hfind_set, ?HT; auto using hfind_remove_other, hfind_extend_none;
    try (eapply upsert_frame; eassumption).
  apply hfind_remove_other, eq_nocase_false, HL.
Qed.
Lemma run_snoc : forall cs c b, run_calls (cs ++ [c]) b = rbind (run_calls cs b) (perform c).
Proof.
  induction cs as [|d cs IH]; intros c b; cbn [app run_calls rbind].
  - destruct (perform c b); reflexivity.
  - destruct (perform d b); cbn [rbind]; [apply IH|reflexivity..].
Qed.
Lemma run_unique : forall cs b b', unique_names (b_headers b) -> run_calls cs b = Ok b' -> unique_names (b_headers b').
Proof.
  induction cs as [|c cs IH]; intros b b' HU H; cbn [run_calls] in H.
  - apply Ok_inj in H. subst b'. exact HU.
  - destruct (perform c b) as [b1| | |] eqn:E; try discriminate. cbn [rbind] in H.
    eapply IH; [|exact H]. eapply perform_unique; eassumption.
Qed.
(** Induction over histories. *)
Lemma history : forall (P : list call -> builder -> Prop) (ok : call -> Prop) u,
  P [] (builder_init u) ->
  (forall cs c b b', ok c -> unique_names (b_headers b) -> P cs b -> perform c b = Ok b' -> P (c :: cs) b') ->
  forall cs b, Forall ok cs -> run_calls cs (builder_init u) = Ok b -> P (rev cs) b.
Proof.
  intros P ok u H0 HS cs. induction cs as [|c cs IH] using rev_ind; intros b HF H.
  - cbn [run_calls] in H. apply Ok_inj in H. subst b. exact H0.
  - rewrite run_snoc in H. destruct (run_calls cs (builder_init u)) as [b1| | |] eqn:E; try discriminate.
    cbn [rbind] in H. apply Forall_app in HF as [HF HC]. inversion HC; subst.
    rewrite rev_app_distr. cbn [List.rev app]. eapply HS; [eassumption| |apply IH; [exact HF|reflexivity]|exact H].
    eapply run_unique; [|exact E]. apply unique_nil.
Qed.
Lemma holds_hfind : forall (A : Type) (inj : list A -> hval) n l h,
  holds_list inj n l h <-> hfind n h = Some (Typed (inj l)) \/ (l = [] /\ hfind n h = None).
Proof. intros. unfold holds_list. rewrite hfind_some, hfind_none. reflexivity. Qed.

(** [C37] After any history of calls the builder holds exactly the protocols added since the
    last [clear_protocols], in order (custom headers and [clear_header] not naming the
    field). *)
Lemma builder_protocols_proof : forall u cs b,
  Forall (leaves_alone (ascii "Sec-WebSocket-Protocol")) cs ->
  run_calls cs (builder_init u) = Ok b ->
  holds_list VProtocol (ascii "Sec-WebSocket-Protocol") (asked_protocols (rev cs)) (b_headers b).
Proof.
  intros u cs b HF H. revert H. apply (history (fun cs b =>
    holds_list VProtocol n_protocol (asked_protocols cs) (b_headers b)) (leaves_alone n_protocol)); [| |exact HF].
  - right. split; [reflexivity|constructor].
  - clear. intros cs c b b' HL HU HH HP.
    assert (match c with AddProtocol _ | AddProtocols _ | ClearProtocols => True | _ =>
              asked_protocols (c :: cs) = asked_protocols cs /\
              hfind n_protocol (b_headers b') = hfind n_protocol (b_headers b) end) as HO.
    { destruct c; try exact I; (split; [reflexivity|]);
        eapply perform_frame; try eassumption; cbn [touches]; try exact I; reflexivity. }
    assert (forall more b'', rbind (E := unit) (upsert n_protocol parse_protocols as_protocol VProtocol more (b_headers b))
      (fun h => Ok (with_headers b h)) = Ok b'' ->
      holds_list VProtocol n_protocol (asked_protocols cs ++ more) (b_headers b'')) as HA.
    { intros more b'' HB.
      destruct (upsert_held _ unit n_protocol parse_protocols as_protocol VProtocol more _ _ (fun x => eq_refl) HU HH)
        as (h' & EU & _ & HF & _).
      rewrite EU in HB. cbn [rbind] in HB. apply Ok_inj in HB. subst b''. left. apply hfind_some, HF. }
    destruct c; try solve [destruct HO as [EA HO]; rewrite EA; apply holds_hfind; rewrite HO; apply holds_hfind, HH].
    + cbn [perform asked_protocols] in *. apply HA. exact HP.
    + cbn [perform asked_protocols] in *. apply HA. exact HP.
    + cbn [perform asked_protocols] in *. apply Ok_inj in HP. subst b'. right. split; [reflexivity|].
      apply hfind_none. cbn [clear_protocols with_headers b_headers]. rewrite hfind_remove by exact HU.
      rewrite eq_nocase_refl. reflexivity.
Qed.
(*EX Example builder_protocols_ex :
  let cs := [AddProtocol (ascii "a"); ClearProtocols; AddProtocol (ascii "b"); Key (ascii "0123456789abcdef");
             AddProtocols [ascii "c"; ascii "d"]; CustomHeaders [(ascii "X", Raw [ascii "1"])]] in
  Forall (leaves_alone (ascii "Sec-WebSocket-Protocol")) cs /\
  asked_protocols (rev cs) = [ascii "b"; ascii "c"; ascii "d"] /\
  exists b, run_calls cs (builder_init (mk_url (ascii "ws") None None [] None (ascii "/"))) = Ok b.
Proof.
  cbv zeta. split; [|split; [reflexivity|eexists; reflexivity]].
  repeat constructor. discriminate.
Qed. EX*)

(** [C37] The same for extensions. *)
Lemma builder_extensions_proof : forall u cs b,
  Forall (leaves_alone (ascii "Sec-WebSocket-Extensions")) cs ->
  run_calls cs (builder_init u) = Ok b ->
  holds_list VExtensions (ascii "Sec-WebSocket-Extensions") (asked_extensions (rev cs)) (b_headers b).
Proof.
  intros u cs b HF H. revert H. apply (history (fun cs b =>
    holds_list VExtensions n_extensions (asked_extensions cs) (b_headers b)) (leaves_alone n_extensions)); [| |exact HF].
  - right. split; [reflexivity|constructor].
  - clear. intros cs c b b' HL HU HH HP.
    assert (match c with AddExtension _ | AddExtensions _ | ClearExtensions => True | _ =>
              asked_extensions (c :: cs) = asked_extensions cs /\
              hfind n_extensions (b_headers b') = hfind n_extensions (b_headers b) end) as HO.
    { destruct c; try exact I; (split; [reflexivity|]);
        eapply perform_frame; try eassumption; cbn [touches]; try exact I; reflexivity. }
    assert (forall more b'', rbind (E := unit) (upsert n_extensions parse_extensions as_extensions VExtensions more (b_headers b))
      (fun h => Ok (with_headers b h)) = Ok b'' ->
      holds_list VExtensions n_extensions (asked_extensions cs ++ more) (b_headers b'')) as HA.
    { intros more b'' HB.
      destruct (upsert_held _ unit n_extensions parse_extensions as_extensions VExtensions more _ _ (fun x => eq_refl) HU HH)
        as (h' & EU & _ & HF & _).
      rewrite EU in HB. cbn [rbind] in HB. apply Ok_inj in HB. subst b''. left. apply hfind_some, HF. }
    destruct c; try solve [destruct HO as [EA HO]; rewrite EA; apply holds_hfind; rewrite HO; apply holds_hfind, HH].
    + cbn [perform asked_extensions] in *. apply HA. exact HP.
    + cbn [perform asked_extensions] in *. apply HA. exact HP.
    + cbn [perform asked_extensions] in *. apply Ok_inj in HP. subst b'. right. split; [reflexivity|].
      apply hfind_none. cbn [clear_extensions with_headers b_headers]. rewrite hfind_remove by exact HU.
      rewrite eq_nocase_refl. reflexivity.
Qed.
(*EX Example builder_extensions_ex :
  asked_extensions [AddExtensions [mk_ext (ascii "b") []]; AddProtocol (ascii "x"); AddExtension (mk_ext (ascii "a") []); ClearExtensions;
                    AddExtension (mk_ext (ascii "c") [])] = [mk_ext (ascii "a") []; mk_ext (ascii "b") []].
Proof. reflexivity. Qed. EX*)

(** [C37] No history that leaves the two list fields to the builder panics. *)
Lemma builder_never_panics_proof : forall u cs,
  Forall (fun c => leaves_alone (ascii "Sec-WebSocket-Protocol") c /\
                   leaves_alone (ascii "Sec-WebSocket-Extensions") c) cs ->
  exists b, run_calls cs (builder_init u) = Ok b.
Proof.
  intros u cs. induction cs as [|c cs IH] using rev_ind; intros HF; [eexists; reflexivity|].
  apply Forall_app in HF as [HF HC]. destruct (IH HF) as [b EB]. rewrite run_snoc, EB. cbn [rbind].
  pose proof (run_unique cs (builder_init u) b unique_nil EB) as HU.
  pose proof (builder_protocols_proof u cs b (Forall_impl _ (fun c H => proj1 H) HF) EB) as H1.
  pose proof (builder_extensions_proof u cs b (Forall_impl _ (fun c H => proj2 H) HF) EB) as H2.
  assert (forall more, exists h', upsert (E := unit) n_protocol parse_protocols as_protocol VProtocol more (b_headers b) = Ok h') as HP.
  { intros more. destruct (upsert_held _ unit n_protocol parse_protocols as_protocol VProtocol more _ _ (fun x => eq_refl) HU H1)
      as (h' & E & _). eauto. }
  assert (forall more, exists h', upsert (E := unit) n_extensions parse_extensions as_extensions VExtensions more (b_headers b) = Ok h') as HE.
  { intros more. destruct (upsert_held _ unit n_extensions parse_extensions as_extensions VExtensions more _ _ (fun x => eq_refl) HU H2)
      as (h' & E & _). eauto. }
  destruct c; cbn [perform]; try (eexists; reflexivity);
    unfold add_protocol, add_protocols, add_extension, add_extensions.
  - destruct (HP [p]) as [h' ->]. eexists; reflexivity.
  - destruct (HP ps) as [h' ->]. eexists; reflexivity.
  - destruct (HE [e]) as [h' ->]. eexists; reflexivity.
  - destruct (HE es) as [h' ->]. eexists; reflexivity.
Qed.
(*EX Example builder_never_panics_ex :
  Forall (fun c => leaves_alone (ascii "Sec-WebSocket-Protocol") c /\ leaves_alone (ascii "Sec-WebSocket-Extensions") c)
    [CustomHeaders [(ascii "X", Typed (VOther []))]; ClearHeader (ascii "Host"); AddProtocol (ascii "p")].
Proof. repeat constructor; discriminate. Qed. EX*)

(** [C37] Refuted when a raw protocol header that is not UTF-8 was set first: the added
    protocol is silently dropped.  And a header of a foreign type makes the call panic. *)
Lemma builder_protocols_refuted_proof : forall u,
  (exists b, run_calls [CustomHeaders [(ascii "Sec-WebSocket-Protocol", Raw [[xff]])]; AddProtocol (ascii "chat")]
               (builder_init u) = Ok b /\
     b_headers b = [(ascii "Sec-WebSocket-Protocol", Raw [[xff]])]) /\
  run_calls [CustomHeaders [(ascii "Sec-WebSocket-Protocol", Typed (VOther [ascii "a"]))]; AddProtocol (ascii "chat")]
    (builder_init u) = Panic.
Proof. intros u. split; [eexists; split|]; reflexivity. Qed.

(** ** The request *)

Lemma built_find : forall rnd b n,
  hfind n (b_headers (build_request rnd b)) =
  if negb (b_key_set b) && eq_nocase n_key n then Some (Typed (VKey rnd))
  else if negb (b_version_set b) && eq_nocase n_version n then Some (Typed (VVersion WebSocket13))
  else if eq_nocase n_upgrade n then Some (Typed upgrade_value)
  else if eq_nocase n_connection n then Some (Typed connection_value)
  else if (match u_user (b_url b) with [] => false | _ => true end) && eq_nocase n_authorization n
       then Some (Typed (VBasic (u_user (b_url b)) (u_password (b_url b))))
  else match u_host (b_url b) with
       | Some host => if eq_nocase n_host n then Some (Typed (VHost host (u_port (b_url b)))) else hfind n (b_headers b)
       | None => hfind n (b_headers b)
       end.
Proof.
  intros rnd b n. unfold build_request. cbn [with_headers b_headers].
  destruct (b_key_set b), (b_version_set b), (u_user (b_url b)), (u_host (b_url b)); cbn [negb andb];
    rewrite ?hfind_set; reflexivity.
Qed.
Lemma built_unique : forall rnd b, unique_names (b_headers b) -> unique_names (b_headers (build_request rnd b)).
Proof.
  intros rnd b H. unfold build_request. cbn [with_headers b_headers].
  destruct (b_key_set b), (b_version_set b), (u_user (b_url b)), (u_host (b_url b)); repeat apply unique_set; exact H.
Qed.
Lemma built_values : forall rnd b n, unique_names (b_headers b) ->
  values n (fields (b_headers (build_request rnd b))) =
  match hfind n (b_headers (build_request rnd b)) with Some i => item_lines i | None => [] end.
Proof. intros. apply values_fields, built_unique. assumption. Qed.

Lemma key_history : forall u cs b,
  Forall (leaves_alone n_key) cs -> run_calls cs (builder_init u) = Ok b ->
  match asked_key (rev cs) with
  | Some k => b_key_set b = true /\ hfind n_key (b_headers b) = Some (Typed (VKey k))
  | None => b_key_set b = false
  end.
Proof.
  intros u cs b HF H. revert H. apply (history (fun cs b => match asked_key cs with
    | Some k => b_key_set b = true /\ hfind n_key (b_headers b) = Some (Typed (VKey k))
    | None => b_key_set b = false end) (leaves_alone n_key)); [reflexivity| |exact HF].
  clear. intros cs c b b' HL HU HH HP.
  assert (match c with Key _ | ClearKey => True | _ =>
            asked_key (c :: cs) = asked_key cs /\ b_key_set b' = b_key_set b /\
            hfind n_key (b_headers b') = hfind n_key (b_headers b) end) as HO.
  { destruct c; try exact I; (split; [reflexivity|]);
      (split; [|eapply perform_frame; try eassumption; cbn [touches]; try exact I; reflexivity]);
      cbn [perform] in HP; unfold add_protocol, add_protocols, add_extension, add_extensions in HP;
      try (destruct (upsert _ _ _ _ _ _) as [h'| | |] eqn:EU; try discriminate; cbn [rbind] in HP);
      apply Ok_inj in HP; subst b'; reflexivity. }
  destruct c; try solve [destruct HO as (EA & EK & EF); rewrite EA, EK, EF; exact HH]; cbn [perform] in HP;
    apply Ok_inj in HP; subst b'; cbn [asked_key set_key clear_key b_key_set b_headers]; [|reflexivity].
  split; [reflexivity|]. rewrite hfind_set, eq_nocase_refl. reflexivity.
Qed.
Lemma version_history : forall u cs b,
  Forall (leaves_alone n_version) cs -> run_calls cs (builder_init u) = Ok b ->
  match asked_version (rev cs) with
  | Some k => b_version_set b = true /\ hfind n_version (b_headers b) = Some (Typed (VVersion k))
  | None => b_version_set b = false
  end.
Proof.
  intros u cs b HF H. revert H. apply (history (fun cs b => match asked_version cs with
    | Some k => b_version_set b = true /\ hfind n_version (b_headers b) = Some (Typed (VVersion k))
    | None => b_version_set b = false end) (leaves_alone n_version)); [reflexivity| |exact HF].
  clear. intros cs c b b' HL HU HH HP.
  assert (match c with Version _ | ClearVersion => True | _ =>
            asked_version (c :: cs) = asked_version cs /\ b_version_set b' = b_version_set b /\
            hfind n_version (b_headers b') = hfind n_version (b_headers b) end) as HO.
  { destruct c; try exact I; (split; [reflexivity|]);
      (split; [|eapply perform_frame; try eassumption; cbn [touches]; try exact I; reflexivity]);
      cbn [perform] in HP; unfold add_protocol, add_protocols, add_extension, add_extensions in HP;
      try (destruct (upsert _ _ _ _ _ _) as [h'| | |] eqn:EU; try discriminate; cbn [rbind] in HP);
      apply Ok_inj in HP; subst b'; reflexivity. }
  destruct c; try solve [destruct HO as (EA & EK & EF); rewrite EA, EK, EF; exact HH]; cbn [perform] in HP;
    apply Ok_inj in HP; subst b'; cbn [asked_version set_version clear_version b_version_set b_headers]; [|reflexivity].
  split; [reflexivity|]. rewrite hfind_set, eq_nocase_refl. reflexivity.
Qed.

Lemma run_url : forall cs u b, run_calls cs (builder_init u) = Ok b -> b_url b = u /\ b_version b = Http11.
Proof.
  intros cs u b H. revert H.
  apply (history (fun _ b => b_url b = u /\ b_version b = Http11) (fun _ => True)); [auto| |apply Forall_forall; auto].
  clear. intros cs c b b' _ _ HH HP. destruct c; cbn [perform] in HP;
    unfold add_protocol, add_protocols, add_extension, add_extensions in HP;
    try (destruct (upsert _ _ _ _ _ _) as [h'| | |] eqn:EU; try discriminate; cbn [rbind] in HP);
    apply Ok_inj in HP; subst b'; exact HH.
Qed.

(** [C38] Whatever calls were made, the request carries Connection: Upgrade and
    Upgrade: websocket, once each, and Host once with the URL's host, and its port unless that
    is 80 or 443. *)
Lemma request_fixed_fields_proof : forall u cs b rnd,
  run_calls cs (builder_init u) = Ok b ->
  let fs := fields (b_headers (build_request rnd b)) in
  values (ascii "Connection") fs = [ascii "Upgrade"] /\
  values (ascii "Upgrade") fs = [ascii "websocket"] /\
  (forall host, u_host u = Some host ->
     exists v, values (ascii "Host") fs = [v] /\
       (u_port u = None \/ u_port u = Some 80 \/ u_port u = Some 443 -> v = host) /\
       (forall p, u_port u = Some p -> p <> 80 -> p <> 443 -> v = host ++ ascii ":" ++ dec p)).
Proof.
  intros u cs b rnd H. cbv zeta. destruct (run_url _ _ _ H) as [EU _].
  pose proof (run_unique cs (builder_init u) b unique_nil H) as HU.
  rewrite !built_values by exact HU. rewrite !built_find, EU.
  change (eq_nocase n_key (ascii "Connection")) with false.
  change (eq_nocase n_version (ascii "Connection")) with false.
  change (eq_nocase n_key (ascii "Upgrade")) with false.
  change (eq_nocase n_version (ascii "Upgrade")) with false.
  rewrite !andb_false_r. split; [reflexivity|]. split; [reflexivity|]. intros host EH.
  rewrite EH.
  change (eq_nocase n_key (ascii "Host")) with false.
  change (eq_nocase n_version (ascii "Host")) with false.
  change (eq_nocase n_authorization (ascii "Host")) with false.
  rewrite ?andb_false_r. eexists. split; [reflexivity|]. cbn [val_lines]. split.
  - intros [E|[E|E]]; rewrite E; reflexivity.
  - intros p E H1 H2. rewrite E. replace ((p =? 80) || (p =? 443)) with false by lia. reflexivity.
Qed.
(*EX Example request_fixed_fields_ex : exists b,
  run_calls [CustomHeaders [(ascii "Connection", Raw [ascii "close"])]; ClearHeader (ascii "Upgrade")]
    (builder_init (mk_url (ascii "ws") (Some (ascii "h")) (Some 8080) [] None (ascii "/"))) = Ok b /\
  values (ascii "Host") (fields (b_headers (build_request [] b))) = [ascii "h:8080"].
Proof. eexists. split; [reflexivity|]. vm_compute. reflexivity. Qed. EX*)

(** [C38] The key field is the key last given (and not cleared), else the fresh random key,
    encoded as in RFC 4648; custom headers and [clear_header] not naming the field. *)
Lemma request_key_proof : forall u cs b rnd,
  Forall (leaves_alone (ascii "Sec-WebSocket-Key")) cs -> run_calls cs (builder_init u) = Ok b ->
  values (ascii "Sec-WebSocket-Key") (fields (b_headers (build_request rnd b)))
  = [base64_text (or_else (asked_key (rev cs)) rnd)].
Proof.
  intros u cs b rnd HF H. pose proof (run_unique cs (builder_init u) b unique_nil H) as HU.
  rewrite built_values by exact HU. rewrite built_find.
  pose proof (key_history u cs b HF H) as HK. destruct (asked_key (rev cs)) as [k|]; cbn [or_else].
  - destruct HK as [-> HK]. cbn [negb andb].
    change (eq_nocase n_version (ascii "Sec-WebSocket-Key")) with false.
    change (eq_nocase n_upgrade (ascii "Sec-WebSocket-Key")) with false.
    change (eq_nocase n_connection (ascii "Sec-WebSocket-Key")) with false.
    change (eq_nocase n_authorization (ascii "Sec-WebSocket-Key")) with false.
    change (eq_nocase n_host (ascii "Sec-WebSocket-Key")) with false.
    change (ascii "Sec-WebSocket-Key") with n_key.
    rewrite !andb_false_r. destruct (u_host (b_url b)); rewrite HK; cbn [item_lines val_lines]; unfold key_serialize;
      rewrite encode_rfc; reflexivity.
  - rewrite HK. cbn [negb andb]. change (eq_nocase n_key (ascii "Sec-WebSocket-Key")) with true.
    cbn [item_lines val_lines]. unfold key_serialize. rewrite encode_rfc. reflexivity.
Qed.
(*EX Example request_key_ex :
  let cs := [Key (ascii "0123456789abcdef"); ClearKey; Key (ascii "the sample nonce"); ClearHeader (ascii "Origin")] in
  Forall (leaves_alone (ascii "Sec-WebSocket-Key")) cs /\ asked_key (rev cs) = Some (ascii "the sample nonce") /\
  base64_text (ascii "the sample nonce") = ascii "dGhlIHNhbXBsZSBub25jZQ==".
Proof. cbv zeta. split; [repeat constructor; discriminate|split; reflexivity]. Qed. EX*)

(** [C38] The version field is the version last given, else 13. *)
Lemma request_version_proof : forall u cs b rnd,
  Forall (leaves_alone (ascii "Sec-WebSocket-Version")) cs -> run_calls cs (builder_init u) = Ok b ->
  values (ascii "Sec-WebSocket-Version") (fields (b_headers (build_request rnd b)))
  = [match or_else (asked_version (rev cs)) WebSocket13 with
     | WebSocket13 => ascii "13" | UnknownVersion s => s end].
Proof.
  intros u cs b rnd HF H. pose proof (run_unique cs (builder_init u) b unique_nil H) as HU.
  rewrite built_values by exact HU. rewrite built_find.
  change (eq_nocase n_key (ascii "Sec-WebSocket-Version")) with false. rewrite andb_false_r.
  pose proof (version_history u cs b HF H) as HK. destruct (asked_version (rev cs)) as [k|]; cbn [or_else].
  - destruct HK as [-> HK]. cbn [negb andb].
    change (eq_nocase n_upgrade (ascii "Sec-WebSocket-Version")) with false.
    change (eq_nocase n_connection (ascii "Sec-WebSocket-Version")) with false.
    change (eq_nocase n_authorization (ascii "Sec-WebSocket-Version")) with false.
    change (eq_nocase n_host (ascii "Sec-WebSocket-Version")) with false.
    change (ascii "Sec-WebSocket-Version") with n_version.
    rewrite !andb_false_r. destruct (u_host (b_url b)); rewrite HK; destruct k; reflexivity.
  - rewrite HK. cbn [negb andb]. change (eq_nocase n_version (ascii "Sec-WebSocket-Version")) with true.
    reflexivity.
Qed.
(*EX Example request_version_ex : asked_version (rev [Version (UnknownVersion (ascii "8")); AddProtocol []; ClearVersion]) = None /\
  asked_version (rev [Version (UnknownVersion (ascii "8")); AddProtocol []]) = Some (UnknownVersion (ascii "8")).
Proof. split; reflexivity. Qed. EX*)

(** [C38] Refuted with [clear_header]: after [key()] (or [version()]) it removes the header
    but not the mark that it was set, so the request goes out without it. *)
Lemma request_key_refuted_proof : forall u k v rnd,
  (exists b, run_calls [Key k; ClearHeader (ascii "Sec-WebSocket-Key")] (builder_init u) = Ok b /\
     values (ascii "Sec-WebSocket-Key") (fields (b_headers (build_request rnd b))) = []) /\
  (exists b, run_calls [Version v; ClearHeader (ascii "Sec-WebSocket-Version")] (builder_init u) = Ok b /\
     values (ascii "Sec-WebSocket-Version") (fields (b_headers (build_request rnd b))) = []).
Proof.
  intros u k v rnd. split; (eexists; split; [reflexivity|]);
  (rewrite built_values by (repeat (apply unique_remove || apply unique_set); apply unique_nil));
  rewrite built_find; cbn [clear_header set_key set_version with_headers b_key_set b_version_set negb andb b_url];
  rewrite ?andb_false_r;
  repeat match goal with |- context [eq_nocase ?a ?b] =>
    let r := eval vm_compute in (eq_nocase a b) in change (eq_nocase a b) with r end;
  rewrite ?andb_false_r; change (b_url (builder_init u)) with u; destruct (u_host u); reflexivity.
Qed.

(** [C38] The origin, likewise. *)
Lemma request_origin_proof : forall u cs b rnd,
  Forall (leaves_alone (ascii "Origin")) cs -> run_calls cs (builder_init u) = Ok b ->
  values (ascii "Origin") (fields (b_headers (build_request rnd b)))
  = match asked_origin (rev cs) with Some o => [o] | None => [] end.
Proof.
  intros u cs b rnd HF H. pose proof (run_unique cs (builder_init u) b unique_nil H) as HU.
  rewrite built_values by exact HU. rewrite built_find.
  repeat match goal with |- context [eq_nocase ?a ?b] =>
    let r := eval vm_compute in (eq_nocase a b) in change (eq_nocase a b) with r end.
  rewrite !andb_false_r.
  assert (hfind n_origin (b_headers b) = match asked_origin (rev cs) with Some o => Some (Typed (VOrigin o)) | None => None end) as HO.
  { revert H. apply (history (fun cs b => hfind n_origin (b_headers b) =
      match asked_origin cs with Some o => Some (Typed (VOrigin o)) | None => None end) (leaves_alone n_origin));
      [reflexivity| |exact HF].
    clear. intros cs c b b' HL HU HH HP.
    assert (match c with SetOrigin _ | ClearOrigin => True | _ =>
            asked_origin (c :: cs) = asked_origin cs /\
            hfind n_origin (b_headers b') = hfind n_origin (b_headers b) end) as HO.
    { destruct c; try exact I; (split; [reflexivity|]);
        eapply perform_frame; try eassumption; cbn [touches]; try exact I; reflexivity. }
    destruct c; try solve [destruct HO as (EA & EF); rewrite EA, EF; exact HH]; cbn [perform] in HP;
      apply Ok_inj in HP; subst b'; cbn [asked_origin set_origin clear_origin with_headers b_headers].
    - rewrite hfind_set, eq_nocase_refl. reflexivity.
    - rewrite hfind_remove, eq_nocase_refl by exact HU. reflexivity. }
  change (ascii "Origin") with n_origin.
  destruct (u_host (b_url b)); rewrite HO; destruct (asked_origin (rev cs)); reflexivity.
Qed.
(*EX Example request_origin_ex : asked_origin (rev [SetOrigin (ascii "http://a"); SetOrigin (ascii "http://b")]) = Some (ascii "http://b").
Proof. reflexivity. Qed. EX*)

(** ** The response *)

Lemma key_held_read : forall (E : Type) h k, key_held h k -> get_key (E := E) h = Ok (Some k).
Proof.
  intros E h k [H|(ls & H & HK)]; apply hfind_some in H; unfold get_key; rewrite (hget_find _ _ _ _ _ _ _ H);
    cbn [as_key]; [reflexivity|]. f_equal.
  destruct HK as (HL & t & HB & v & EV & HU & HP). rewrite (values_lines (ascii "Sec-WebSocket-Key")) in EV.
  change (eq_nocase (ascii "Sec-WebSocket-Key") (ascii "Sec-WebSocket-Key")) with true in EV. cbv iota in EV. subst ls.
  apply padded_black in HP; [|eapply base64_of_black, HB].
  unfold parse_key, one_raw_str. apply utf8_text_iff in HU.
  assert (t <> []) as HT.
  { intros ->. pose proof (proj2 (key_parse_iff_proof [] k) (conj HL HB)) as HX. discriminate HX. }
  destruct v as [|a v]; [cbn in HP; subst t; congruence|].
  rewrite HU. cbn [obind]. rewrite HP. rewrite (proj2 (key_parse_iff_proof t k) (conj HL HB)). reflexivity.
Qed.
Lemma built_connection : forall (E : Type) rnd b,
  get_connection (E := E) (b_headers (build_request rnd b)) = Ok (Some [ConnectionHeader (str "Upgrade")]).
Proof.
  intros E rnd b. unfold get_connection. erewrite hget_find; [|rewrite built_find].
  2:{ change (eq_nocase n_key n_connection) with false. change (eq_nocase n_version n_connection) with false.
      rewrite !andb_false_r. reflexivity. }
  reflexivity.
Qed.
Lemma beqb_opt_iff : forall a b, beqb_opt (Some a) (Some b) = true <-> a = b.
Proof. intros. apply beqb_eq. Qed.
Lemma same_ws_nil : ~ same_name [] (ascii "websocket").
Proof. discriminate. Qed.
Lemma blank_no_comma : forall w, blank w -> ~ In x2c w.
Proof.
  intros w H. apply blank_wtext in H. induction H as [|p w Hp Hw IH]; [auto|].
  intros HI. apply in_app_or in HI as [HI|HI]; [|auto].
  destruct Hp as [a H|a b H|a b c H]; cbn [In] in HI.
  - destruct HI as [->|[]]. discriminate.
  - unfold ws2 in H. destruct HI as [->|[->|[]]]; [discriminate|]. rewrite andb_false_r in H. discriminate.
  - apply ws3_inv in H. destruct HI as [->|[->|[->|[]]]]; change (b2n x2c) with 44 in H; lia.
Qed.
Lemma accept_field_unique : forall fs a b, accept_field fs a -> accept_field fs b -> a = b.
Proof.
  intros fs a b H1 H2. apply parse_accept_iff in H1, H2. congruence.
Qed.

Lemma client_101_cases : forall rnd b fs k v reason,
  key_held (b_headers (build_request rnd b)) k ->
  match client_validate (build_request rnd b) (mk_resp v 101 reason (from_raw fs)) with
  | Ok _ => Forall (fun c => fst c) (response_conditions (accept_new k) fs)
  | Err e => first_failing (response_conditions (accept_new k) fs) e
  | _ => False
  end.
Proof.
  intros rnd b fs k v reason HK. unfold client_validate. cbn [rs_status rs_headers].
  change (negb (101 =? 101)) with false. cbv iota. rewrite (key_held_read _ _ _ HK). cbn [rbind].
  assert (match get_accept (E := client_error) (from_raw fs) with
          | Ok o => beqb_opt o (Some (accept_new k)) = true <-> accept_field fs (accept_new k)
          | _ => False end) as HA.
  { destruct (accept_read client_error fs) as [(a & -> & HF)|[-> HN]].
    - rewrite beqb_opt_iff. split; [intros <-; exact HF|]. intros H. eapply accept_field_unique; eassumption.
    - cbn [beqb_opt]. split; [discriminate|]. intros H. exfalso. eauto. }
  destruct (get_accept (from_raw fs)) as [o| | |]; try contradiction. cbn [rbind].
  destruct (beqb_opt o (Some (accept_new k))) eqn:EB; cbn [negb].
  2:{ apply ff_here. intros H. apply HA in H. discriminate. }
  assert (accept_field fs (accept_new k)) as HAF by tauto. clear HA EB o.
  rewrite built_connection.
  unfold get_upgrade, parse_upgrade.
  destruct (list_read _ client_error n_upgrade proto_of_str as_upgrade fs) as [[HR ->]|[HR ->]]; cbn [rbind].
  2:{ apply ff_next; [exact HAF|]. apply ff_here. intros [H _]. contradiction. }
  assert (upgrade_is_websocket (Some (map proto_of_str (flat_map comma_elements (values n_upgrade fs)))) = true <->
          lists_only (fun t => same_name t (ascii "websocket")) (ascii "Upgrade") fs) as HL.
  { rewrite lists_only_iff by exact same_ws_nil. change (ascii "Upgrade") with n_upgrade.
    destruct (flat_map comma_elements (values n_upgrade fs)) as [|t [|t2 l]].
    - split; [discriminate|]. intros (t & E & _). discriminate.
    - cbn [map]. rewrite proto_websocket_only. split; [intros H; exists t; auto|].
      intros (t' & E & H). injection E as <-. exact H.
    - split; [discriminate|]. intros (t' & E & _). discriminate. }
  destruct (upgrade_is_websocket _); cbn [negb].
  - change (connection_is_upgrade (Some [ConnectionHeader (str "Upgrade")])) with true. cbn [negb].
    repeat apply Forall_cons; cbn [fst]; auto. split; [exact HR|tauto].
  - apply ff_next; [exact HAF|]. apply ff_here. intros [_ H]. apply HL in H. discriminate.
Qed.

(** [C35] With the key the request was sent with, the client accepts a response exactly when
    its status is 101, its accept field is the token of that key, and its Upgrade field names
    websocket and nothing else. *)
Lemma client_validate_iff_proof : forall rnd b fs k d v st reason,
  key_held (b_headers (build_request rnd b)) k -> rfc_token k d ->
  (client_validate (build_request rnd b) (mk_resp v st reason (from_raw fs)) = Ok tt <->
   st = 101 /\ Forall (fun c => fst c) (response_conditions d fs)).
Proof.
  intros rnd b fs k d v st reason HK HD. apply token_accept in HD. subst d. destruct (N.eq_dec st 101) as [->|HS].
  - pose proof (client_101_cases rnd b fs k v reason HK) as HC.
    destruct (client_validate _ _) as [[]|e| |]; try contradiction; [tauto|].
    split; [discriminate|]. intros [_ H]. exfalso. eapply ff_exclusive; eassumption.
  - split; [|tauto]. unfold client_validate. cbn [rs_status rs_headers].
    replace (st =? 101) with false by lia. cbn [negb].
    destruct (is_redirection st); [|discriminate]. unfold get_location. rewrite hget_raw by reflexivity.
    cbn [rbind]. destruct (parse_location _); discriminate.
Qed.
(*EX Example client_validate_ex : forall u,
  let b := set_key (ascii "the sample nonce") (builder_init u) in
  key_held (b_headers (build_request [] b)) (ascii "the sample nonce") /\
  client_validate (build_request [] b) (mk_resp Http11 101 (ascii "Switching Protocols") (from_raw
    [(ascii "sec-websocket-accept", ascii " s3pPLMBiTxaQ9kYGzzhZRbK+xOo= "); (ascii "Upgrade", ascii "WebSocket");
     (ascii "Connection", ascii "Upgrade")])) = Ok tt.
Proof.
  intros u. cbv zeta. assert (key_held (b_headers (build_request [] (set_key (ascii "the sample nonce") (builder_init u)))) (ascii "the sample nonce")).
  { left. destruct u as [s [h|] p [|c us] pw r]; vm_compute;
    repeat ((apply stored_here; reflexivity) || (apply stored_next; [discriminate|])). }
  split; [assumption|]. destruct u as [s [h|] p [|c us] pw r]; vm_compute; reflexivity.
Qed. EX*)

(** [C35] A 101 response that is refused: the error names the first field that is wrong. *)
Lemma client_validate_error_proof : forall rnd b fs k d v reason e,
  key_held (b_headers (build_request rnd b)) k -> rfc_token k d ->
  (client_validate (build_request rnd b) (mk_resp v 101 reason (from_raw fs)) = Err e <->
   first_failing (response_conditions d fs) e).
Proof.
  intros rnd b fs k d v reason e HK HD. apply token_accept in HD. subst d. pose proof (client_101_cases rnd b fs k v reason HK) as HC.
  destruct (client_validate _ _) as [[]|e'| |]; try contradiction.
  - split; [discriminate|]. intros H. exfalso. eapply ff_exclusive; eassumption.
  - split; [intros E; injection E as <-; exact HC|]. intros H. f_equal. eapply ff_unique; eassumption.
Qed.
(*EX Example client_validate_error_ex : forall u,
  client_validate (build_request [] (set_key (ascii "the sample nonce") (builder_init u)))
    (mk_resp Http11 101 [] (from_raw [(ascii "Sec-WebSocket-Accept", ascii "s3pPLMBiTxaQ9kYGzzhZRbK+xOo=");
       (ascii "Upgrade", ascii "websocket, h2c")])) = Err (ResponseError "Upgrade field must be WebSocket").
Proof. intros [s [h|] p [|c us] pw r]; vm_compute; reflexivity. Qed. EX*)

(** [C35] Any other status is reported: as a redirection if it is one and there is a Location,
    otherwise as it is. *)
Lemma client_status_proof : forall b fs v st reason, st <> 101 ->
  (forall loc, 300 <= st < 400 -> location_field fs loc ->
     client_validate b (mk_resp v st reason (from_raw fs)) = Err (RedirectError st loc)) /\
  (~ (300 <= st < 400) \/ ~ (exists loc, location_field fs loc) ->
     client_validate b (mk_resp v st reason (from_raw fs)) = Err (StatusCodeError st)).
Proof.
  intros b fs v st reason HS. unfold client_validate. cbn [rs_status rs_headers].
  replace (st =? 101) with false by lia. cbn [negb]. unfold get_location. rewrite hget_raw by reflexivity. cbn [rbind].
  unfold parse_location. unfold is_redirection.
  assert (forall loc, location_field fs loc <-> one_raw_str (map cut_spaces (values n_location fs)) = Some loc) as HL.
  { intros loc. rewrite one_raw_str_cut. unfold location_field. split; intros (x & H1 & H2 & H3 & H4); exists x;
      (split; [exact H1|split; [exact H2|split; [exact H3|]]]); [symmetry|]; apply element_trim; auto. }
  split.
  - intros loc HR HF. apply HL in HF. rewrite HF. replace ((300 <=? st) && (st <? 400)) with true by lia. reflexivity.
  - intros [HR|HN].
    + replace ((300 <=? st) && (st <? 400)) with false by lia. reflexivity.
    + destruct (one_raw_str _) as [loc|]; [exfalso; apply HN; exists loc; apply HL; reflexivity|].
      destruct (_ && _); reflexivity.
Qed.
(*EX Example client_status_ex : forall b,
  client_validate b (mk_resp Http11 302 [] (from_raw [(ascii "Location", ascii " ws://b/ ")])) = Err (RedirectError 302 (ascii "ws://b/")) /\
  client_validate b (mk_resp Http11 302 [] (from_raw [])) = Err (StatusCodeError 302) /\
  client_validate b (mk_resp Http11 404 [] (from_raw [(ascii "Location", ascii "x")])) = Err (StatusCodeError 404).
Proof. intros b. repeat split. Qed. EX*)

(** [C35] Without a key in the request no response is accepted. *)
Lemma client_validate_no_key_proof : forall b fs v reason,
  unset (ascii "Sec-WebSocket-Key") (b_headers b) ->
  client_validate b (mk_resp v 101 reason (from_raw fs)) = Err (RequestError "Request Sec-WebSocket-Key was invalid").
Proof.
  intros b fs v reason H. apply hfind_none in H. unfold client_validate. cbn [rs_status].
  change (negb (101 =? 101)) with false. cbv iota. unfold get_key, hget. fold n_key in H.
  change (ascii "Sec-WebSocket-Key") with n_key in H. rewrite H. reflexivity.
Qed.
(*EX Example client_no_key_ex : forall u, unset (ascii "Sec-WebSocket-Key") (b_headers (builder_init u)).
Proof. intros u. constructor. Qed. EX*)

(** [C35] Every response RFC 6455 (4.1) calls valid is accepted, if it carries the token and
    its Upgrade field is UTF-8. *)
Lemma client_accepts_rfc_proof : forall rnd b fs k d v st reason,
  key_held (b_headers (build_request rnd b)) k -> rfc_token k d ->
  rfc_response st fs -> accept_field fs d -> Forall utf8_text (values (ascii "Upgrade") fs) ->
  client_validate (build_request rnd b) (mk_resp v st reason (from_raw fs)) = Ok tt.
Proof.
  intros rnd b fs k d v st reason HK HD (-> & (w & EW & t & HT & HN) & _) HA HU.
  apply (client_validate_iff_proof rnd b fs k d v 101 reason HK HD). split; [reflexivity|].
  repeat apply Forall_cons; cbn [fst]; auto. split; [split; [rewrite EW; discriminate|exact HU]|].
  apply lists_only_iff; [exact same_ws_nil|]. exists t. split; [|exact HN]. rewrite EW. cbn [flat_map].
  rewrite app_nil_r. unfold comma_elements.
  assert (~ In x2c w) as HC.
  { destruct HT as [(w1 & w2 & H1 & H2 & ->) _]. intros HI. apply in_app_or in HI as [HI|HI]; [|apply in_app_or in HI as [HI|HI]].
    - apply (blank_no_comma w1 H1 HI).
    - revert HI HN. clear. intros HI HN.
      assert (forall l, In x2c l -> In x2c (map upcase l)) as HM
        by (intros l HL; change x2c with (upcase x2c); apply in_map, HL).
      apply HM in HI. unfold same_name in HN. rewrite HN in HI. vm_compute in HI.
      decompose [or] HI; try discriminate; contradiction.
    - apply (blank_no_comma w2 H2 HI). }
  rewrite split_on_one by exact HC. cbn [map filter]. apply element_trim in HT. rewrite HT.
  destruct t; [discriminate HN|reflexivity].
Qed.
(*EX Example client_accepts_rfc_ex :
  rfc_response 101 [(ascii "Upgrade", ascii " websocket"); (ascii "Connection", ascii "Upgrade")].
Proof.
  split; [reflexivity|]. split.
  - exists (ascii " websocket"). split; [reflexivity|]. exists (ascii "websocket"). split; [|reflexivity].
    apply MapFacts.element_trim. reflexivity.
  - exists (ascii "Upgrade"), [ascii "Upgrade"], (ascii "Upgrade"), (ascii "Upgrade").
    assert (pieces (ascii "Upgrade") [ascii "Upgrade"]) by (apply TextFacts.pieces_split; reflexivity).
    assert (element (ascii "Upgrade") (ascii "Upgrade")) by (apply MapFacts.element_trim; reflexivity).
    split; [left; reflexivity|]. split; [assumption|]. split; [left; reflexivity|]. split; [assumption|reflexivity].
Qed. EX*)

(** [C35] The converse fails: a response without any Connection field is accepted. *)
Lemma client_validate_refuted_proof : forall u, exists fs,
  client_validate (build_request [] (set_key (ascii "the sample nonce") (builder_init u)))
    (mk_resp Http11 101 (ascii "Switching Protocols") (from_raw fs)) = Ok tt /\
  values (ascii "Connection") fs = [] /\ ~ rfc_response 101 fs.
Proof.
  intros u. exists [(ascii "Sec-WebSocket-Accept", ascii "s3pPLMBiTxaQ9kYGzzhZRbK+xOo="); (ascii "Upgrade", ascii "websocket")].
  split; [destruct u as [s [h|] p [|c us] pw r]; vm_compute; reflexivity|]. split; [reflexivity|].
  intros (_ & _ & w & ps & p & t & HI & _). exact HI.
Qed.

(** ** Lists on the wire *)

Lemma word_black : forall s, list_word s -> forallb black s = true /\ ~ In x2c s /\ ~ In x3b s /\
  utf8_valid s = true.
Proof.
  intros s [_ H]. split; [|split; [|split]].
  - induction H as [|b s (Hb & _) H IH]; [reflexivity|]. cbn [forallb]. rewrite IH.
    replace (black b) with true; [reflexivity|]. symmetry. unfold black, ws1. change Byte.to_N with b2n in Hb. lia.
  - intros HI. rewrite Forall_forall in H. destruct (H _ HI) as (_ & H1 & H2). congruence.
  - intros HI. rewrite Forall_forall in H. destruct (H _ HI) as (_ & H1 & H2). congruence.
  - apply utf8_ascii_text. induction H as [|b s (Hb & _) H IH]; [reflexivity|]. cbn [forallb]. rewrite IH.
    change Byte.to_N with b2n in Hb. lia.
Qed.
Lemma elements_cons : forall p s, ~ In x2c p ->
  comma_elements (p ++ x2c :: s) = comma_elements p ++ comma_elements s.
Proof.
  intros p s H. unfold comma_elements. rewrite split_on_cons by exact H. rewrite (split_on_one x2c p H).
  cbn [map filter]. destruct (trim p); reflexivity.
Qed.
Lemma elements_space : forall s, comma_elements (x20 :: s) = comma_elements s.
Proof.
  intros s. unfold comma_elements. cbn [split_on]. change (Byte.eqb x20 x2c) with false. cbv iota.
  pose proof (split_on_nonnil x2c s) as HN. destruct (split_on x2c s) as [|p ps]; [congruence|]. cbn [map filter].
  assert (trim (x20 :: p) = trim p) as -> by (apply (trim_blank_l p [x20]), blank_space). reflexivity.
Qed.
Lemma join_elements : forall l,
  Forall (fun p => p <> [] /\ trim p = p /\ ~ In x2c p) l -> comma_elements (join (str ", ") l) = l.
Proof.
  induction l as [|p l IH]; intros H; [reflexivity|]. inversion H as [|? ? (HN & HT & HC) HL]; subst.
  assert (comma_elements p = [p]) as HP.
  { unfold comma_elements. rewrite split_on_one by exact HC. cbn [map filter]. rewrite HT. destruct p; [congruence|reflexivity]. }
  destruct l as [|q l]; [exact HP|]. 
  change (join (str ", ") (p :: q :: l)) with (p ++ x2c :: x20 :: join (str ", ") (q :: l)).
  rewrite elements_cons by exact HC. rewrite HP, elements_space, (IH HL). reflexivity.
Qed.
Lemma join_utf8 : forall l, Forall (fun p => utf8_valid p = true) l -> utf8_valid (join (str ", ") l) = true.
Proof.
  induction l as [|p l IH]; intros H; [reflexivity|]. inversion H as [|? ? HP HL]; subst.
  destruct l as [|q l]; [exact HP|].
  change (join (str ", ") (p :: q :: l)) with (p ++ str ", " ++ join (str ", ") (q :: l)). rewrite utf8_app by exact HP.
  rewrite utf8_app by reflexivity. apply IH, HL.
Qed.

(** [C37] A protocol list as a client sends it (or a server answers it) is read back by the
    other side exactly. *)
Lemma protocols_round_trip_proof : forall l, Forall list_word l ->
  parse_protocols [join (ascii ", ") l] = Some l.
Proof.
  intros l H. unfold parse_protocols. cbn [comma_delimited].
  change (ascii ", ") with (str ", "). rewrite join_utf8, join_elements, app_nil_r; [reflexivity| |].
  - eapply Forall_impl; [|exact H]. intros s HS. destruct (word_black s HS) as (HB & HC & _). destruct HS.
    split; [assumption|]. split; [apply trim_black, HB|exact HC].
  - eapply Forall_impl; [|exact H]. intros s HS. apply word_black, HS.
Qed.
(*EX Example protocols_round_trip_ex : Forall list_word [ascii "chat"; ascii "soap.v2"] /\
  parse_protocols [ascii "chat, soap.v2"] = Some [ascii "chat"; ascii "soap.v2"].
Proof. split; [|reflexivity]. repeat constructor; discriminate. Qed. EX*)

Lemma list_end : forall (A : Type) (l : list A), l = [] \/ exists x a, l = x ++ [a].
Proof. intros A l. destruct l as [|b l]; [auto|]. right. destruct (@exists_last _ (b :: l)) as (x & a & E); [discriminate|eauto]. Qed.
Lemma last_black : forall s, forallb black s = true -> s <> [] -> exists x a, s = x ++ [a] /\ black a = true.
Proof.
  intros s H HN. destruct (exists_last HN) as (x & a & ->). exists x, a. split; [reflexivity|].
  rewrite forallb_app in H. apply andb_true_iff in H as [_ H]. cbn [forallb] in H. rewrite andb_true_r in H. exact H.
Qed.
Lemma ext_elements : forall e, simple_extension e ->
  print_ext e <> [] /\ trim (print_ext e) = print_ext e /\ ~ In x2c (print_ext e) /\ utf8_valid (print_ext e) = true /\
  ext_of_str (print_ext e) = without_values e.
Proof.
  intros [n ps] [HN HP]. cbn [x_name x_params] in *. unfold print_ext, without_values. cbn [x_name x_params].
  destruct (word_black n HN) as (B1 & C1 & S1 & U1). destruct HN as [HN _].
  set (tail := flat_map (fun p => str "; " ++ print_param p) ps).
  assert (n ++ tail <> []) as H1 by (destruct n; [congruence|discriminate]).
  assert (ends_black (n ++ tail)) as HE.
  { unfold tail. destruct (list_end _ ps) as [->|(ps' & p & ->)].
    - cbn [flat_map]. rewrite app_nil_r. apply black_text, B1.
    - rewrite flat_map_app. cbn [flat_map]. rewrite app_nil_r. apply Forall_app in HP as [_ HP].
      inversion HP as [|? ? HP1 _]; subst. destruct (word_black _ HP1) as (B & _). destruct HP1 as [HP1 _].
      destruct (last_black _ B HP1) as (x & a & -> & HA). rewrite !app_assoc. apply ends_black_byte, HA. }
  assert (starts_black (n ++ tail)) as HS.
  { destruct n as [|a n]; [congruence|]. apply starts_black_byte. cbn [forallb] in B1. apply andb_true_iff in B1. apply B1. }
  assert (~ In x2c tail) as HC.
  { unfold tail. intros HI. apply in_flat_map in HI as (p & HPI & HI). rewrite Forall_forall in HP.
    destruct (word_black _ (HP p HPI)) as (_ & C & _). cbn [str list_byte_of_string map app In] in HI.
    destruct HI as [HI|[HI|HI]]; [discriminate HI|discriminate HI|contradiction]. }
  split; [exact H1|]. split; [apply trim_id; assumption|]. split; [|split].
  - intros HI. apply in_app_or in HI as [HI|HI]; contradiction.
  - rewrite utf8_app by exact U1. unfold tail. clear -HP. induction HP as [|p ps HP1 HP2 IH]; [reflexivity|].
    cbn [flat_map]. rewrite <- app_assoc. rewrite utf8_app by reflexivity. rewrite utf8_app; [exact IH|]. apply word_black, HP1.
  - unfold ext_of_str.
    assert (forall m, ~ In x3b m -> map trim (split_on x3b (m ++ tail)) = trim m :: map (fun p => print_param p) ps) as HT.
    { unfold tail. clear -HP. induction HP as [|p ps HP1 HP2 IH]; intros m HM.
      - cbn [flat_map map]. rewrite app_nil_r, split_on_one by exact HM. reflexivity.
      - cbn [flat_map map]. change (str "; ") with [x3b; x20]. cbn [app]. rewrite split_on_cons by exact HM. cbn [map].
        change (x20 :: print_param p ++ flat_map (fun p => x3b :: x20 :: print_param p) ps)
          with ((x20 :: print_param p) ++ flat_map (fun p => str "; " ++ print_param p) ps).
        destruct (word_black _ HP1) as (B & _ & S & _).
        rewrite IH by (intros [HI|HI]; [discriminate HI|contradiction]).
        assert (trim (x20 :: print_param p) = print_param p) as ->; [|reflexivity].
        change (x20 :: print_param p) with ([x20] ++ print_param p).
        rewrite (trim_blank_l _ [x20] blank_space). apply trim_black, B. }
    rewrite HT by exact S1. rewrite trim_black by exact B1. f_equal. rewrite map_map. apply map_ext_in.
    intros p HI. unfold param_of_str. cbn [split1]. rewrite Forall_forall in HP.
    rewrite trim_black by (apply word_black, HP, HI). reflexivity.
Qed.

(** ** Extensions *)

(** [C40] What printing and parsing an extension list does to it, exactly: the names are kept
    and every parameter comes back as one without a value, its name being the printed text. *)
Lemma extensions_reparsed_proof : forall l, Forall simple_extension l ->
  parse_extensions [join (ascii ", ") (map print_ext l)] = Some (map without_values l).
Proof.
  intros l H. unfold parse_extensions. cbn [comma_delimited]. change (ascii ", ") with (str ", ").
  rewrite join_utf8, join_elements, app_nil_r.
  - cbn [obind]. rewrite map_map. f_equal. apply map_ext_in. intros e HI. rewrite Forall_forall in H.
    apply ext_elements, H, HI.
  - apply Forall_forall. intros x HX. apply in_map_iff in HX as (e & <- & HI). rewrite Forall_forall in H.
    destruct (ext_elements e (H e HI)) as (H1 & H2 & H3 & _). auto.
  - apply Forall_forall. intros x HX. apply in_map_iff in HX as (e & <- & HI). rewrite Forall_forall in H.
    apply ext_elements, H, HI.
Qed.
(*EX Example extensions_reparsed_ex : let l := [mk_ext (ascii "foo") [mk_param (ascii "bar") None; mk_param (ascii "baz") (Some (ascii "1"))]; mk_ext (ascii "q") []] in
  Forall simple_extension l /\ join (ascii ", ") (map print_ext l) = ascii "foo; bar; baz=1, q".
Proof. cbv zeta. split; [|reflexivity]. repeat constructor; discriminate. Qed. EX*)

(** [C40] So lists whose parameters have no values survive. *)
Lemma extensions_round_trip_proof : forall l, Forall simple_extension l ->
  Forall (fun e => Forall (fun p => p_value p = None) (x_params e)) l ->
  parse_extensions [join (ascii ", ") (map print_ext l)] = Some l.
Proof.
  intros l H HV. rewrite extensions_reparsed_proof by exact H. f_equal. rewrite <- (map_id l) at 2. apply map_ext_in.
  intros [n ps] HI. rewrite Forall_forall in HV. specialize (HV _ HI). cbn [x_params] in HV. unfold without_values.
  cbn [x_name x_params]. f_equal. rewrite <- (map_id ps) at 2. apply map_ext_in. intros [pn pv] HP.
  rewrite Forall_forall in HV. specialize (HV _ HP). cbn [p_value] in HV. subst pv. unfold print_param.
  cbn [p_name p_value]. rewrite app_nil_r. reflexivity.
Qed.
(*EX Example extensions_round_trip_ex : let l := [mk_ext (ascii "permessage-deflate") [mk_param (ascii "client_max_window_bits") None]] in
  Forall simple_extension l /\ Forall (fun e => Forall (fun p => p_value p = None) (x_params e)) l.
Proof. cbv zeta. split; repeat constructor; discriminate. Qed. EX*)

(** [C40] Printing what was parsed and parsing again gives the same list. *)
Lemma extensions_stable_proof : forall l, Forall simple_extension l ->
  parse_extensions [join (ascii ", ") (map print_ext (map without_values l))] = Some (map without_values l) /\
  map print_ext (map without_values l) = map print_ext l.
Proof.
  intros l H.
  assert (map print_ext (map without_values l) = map print_ext l) as E.
  { rewrite map_map. apply map_ext. intros [n ps]. unfold print_ext, without_values. cbn [x_name x_params]. f_equal.
    induction ps as [|p ps IH]; [reflexivity|]. cbn [map flat_map]. rewrite IH. unfold print_param at 1. cbn [p_name p_value].
    rewrite app_nil_r. reflexivity. }
  split; [|exact E]. rewrite E. apply extensions_reparsed_proof, H.
Qed.
(*EX Example extensions_stable_ex : parse_extensions [ascii "foo; bar=1"] = Some [mk_ext (ascii "foo") [mk_param (ascii "bar=1") None]].
Proof. reflexivity. Qed. EX*)

(** [C40] Refuted for every extension that has a parameter with a value: it does not come
    back. *)
Lemma extensions_refuted_proof : forall e, simple_extension e ->
  Exists (fun p => p_value p <> None) (x_params e) ->
  exists e', parse_extensions [print_ext e] = Some [e'] /\ e' <> e.
Proof.
  intros e H HE. exists (without_values e). split; [apply (extensions_reparsed_proof [e]); constructor; [exact H|constructor]|].
  intros EQ. apply (f_equal x_params) in EQ. unfold without_values in EQ. cbn [x_params] in EQ.
  apply Exists_exists in HE as (p & HI & HP). rewrite <- EQ in HI. apply in_map_iff in HI as (q & <- & _). apply HP. reflexivity.
Qed.
(*EX Example extensions_refuted_ex : let e := mk_ext (ascii "foo") [mk_param (ascii "qux") (Some (ascii "quux"))] in
  simple_extension e /\ parse_extensions [ascii "foo; qux=quux"] = Some [mk_ext (ascii "foo") [mk_param (ascii "qux=quux") None]].
Proof. cbv zeta. split; [|reflexivity]. repeat constructor; discriminate. Qed. EX*)

(** ** Where to connect *)

(** [C41] An explicit port is used as it is; a URL without a host is refused; the default port
    follows the scheme, whichever of [connect], [connect_secure], [connect_insecure] is
    called. *)
Lemma connect_address_proof : forall secure u,
  (u_host u = None -> extract_host_port secure u = Err NoHostName) /\
  forall host, u_host u = Some host ->
    (forall p, u_port u = Some p -> extract_host_port secure u = Ok (host, p)) /\
    (u_port u = None -> In (u_scheme u) [ascii "ws"; ascii "http"] -> extract_host_port secure u = Ok (host, 80)) /\
    (u_port u = None -> In (u_scheme u) [ascii "wss"; ascii "https"] -> extract_host_port secure u = Ok (host, 443)) /\
    (u_port u = None -> ~ In (u_scheme u) [ascii "ws"; ascii "http"; ascii "wss"; ascii "https"; ascii "ftp"; ascii "gopher"] ->
       extract_host_port secure u = Ok (host, match secure with Some true => 443 | _ => 80 end)).
Proof.
  intros secure u. unfold extract_host_port, with_default_port. split; [intros ->; reflexivity|].
  intros host ->. split; [intros p ->; reflexivity|].
  split; [|split]; intros ->.
  - intros HI. cbn [In] in HI. destruct HI as [<-|[<-|[]]]; reflexivity.
  - intros HI. cbn [In] in HI. destruct HI as [<-|[<-|[]]]; reflexivity.
  - intros HI.
    assert (forall s, In s [ascii "ws"; ascii "http"; ascii "wss"; ascii "https"; ascii "ftp"; ascii "gopher"] ->
            beqb (u_scheme u) s = false) as HB.
    { intros s HS. apply beqb_false. intros E. apply HI. rewrite E. exact HS. }
    unfold known_port. rewrite !HB; cbn [In]; auto 8; cbn [orb].
Qed.
(*EX Example connect_address_ex :
  extract_host_port None (mk_url (ascii "wss") (Some (ascii "h")) None [] None (ascii "/")) = Ok (ascii "h", 443) /\
  extract_host_port (Some true) (mk_url (ascii "foo") (Some (ascii "h")) None [] None (ascii "/")) = Ok (ascii "h", 443) /\
  extract_host_port (Some true) (mk_url (ascii "ws") (Some (ascii "h")) (Some 9) [] None (ascii "/")) = Ok (ascii "h", 9).
Proof. repeat split. Qed. EX*)

(** [C41] [connect] encrypts exactly for wss and https. *)
Lemma connect_secure_iff_proof : forall u,
  is_secure_url u = true <-> u_scheme u = ascii "wss" \/ u_scheme u = ascii "https".
Proof. intros u. unfold is_secure_url. rewrite orb_true_iff, !beqb_eq. reflexivity. Qed.
(*EX Example connect_secure_ex : is_secure_url (mk_url (ascii "https") None None [] None []) = true.
Proof. reflexivity. Qed. EX*)

(** [C41] Refuted: asking for a secure connection to a ws URL goes to the plain-text port, and
    for an insecure one to a wss URL goes to the TLS port. *)
Lemma connect_secure_port_refuted_proof : forall host,
  extract_host_port (Some true) (mk_url (ascii "ws") (Some host) None [] None (ascii "/")) = Ok (host, 80) /\
  extract_host_port (Some false) (mk_url (ascii "wss") (Some host) None [] None (ascii "/")) = Ok (host, 443).
Proof. intros host. split; reflexivity. Qed.
