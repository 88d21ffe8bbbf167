(** Reaching the server: addresses, ports and TLS; and the servers with TLS: C47, C51. *)
From Coq Require Import NArith ZArith String Bool List Lia Permutation.
From Coq Require Import ZifyBool ZifyNat ZifyN.
From Coq.Strings Require Import Byte.
From Verif.Model Require Import Base Io Text Base64 WsKey Headers Handshake Codec Framed Http Connect Dial.
From Verif.Spec Require Import Fields HttpHead Connection Dialling.
From Verif.Proofs Require Import BaseFacts TextFacts ThmClient ThmConnect.
Import ListNotations.
Local Open Scope string_scope.
Local Open Scope list_scope.
Local Open Scope N_scope.

(** ** The client *)

Lemma host_port : forall flag u, says_port u ->
  match extract_host_port flag u with
  | Ok (host, port) => destination u host port
  | Err e => e = NoHostName /\ u_host u = None
  | _ => False
  end.
Proof.
  intros flag u HS. destruct (connect_address_proof flag u) as [HN HP].
  destruct (u_host u) as [host|] eqn:EH; [|rewrite HN by reflexivity; auto].
  destruct (HP host eq_refl) as (H1 & H2 & H3 & _).
  destruct (u_port u) as [p|] eqn:EP.
  - rewrite (H1 p eq_refl). split; [exact EH|]. rewrite EP. reflexivity.
  - destruct HS as [HS|[HS|HS]]; [congruence| |].
    + rewrite (H3 eq_refl) by (destruct HS as [-> | ->]; cbn [In]; auto).
      split; [exact EH|]. rewrite EP. auto.
    + rewrite (H2 eq_refl) by (destruct HS as [-> | ->]; cbn [In]; auto).
      split; [exact EH|]. rewrite EP. auto.
Qed.
Lemma destination_unique : forall u h p h' p', destination u h p -> destination u h' p' -> h = h' /\ p = p'.
Proof.
  intros u h p h' p' [H1 H2] [H1' H2']. split; [congruence|]. destruct (u_port u); [congruence|].
  destruct H2 as [[[H|H] ->]|[[H|H] ->]], H2' as [[[H'|H'] ->]|[[H'|H'] ->]]; try reflexivity;
    rewrite H in H'; discriminate H'.
Qed.
Lemma dial_each_cases : forall W l last,
  match dial_each W l last with
  | (inl a, acts) => exists before after, l = before ++ a :: after /\ Forall (refuses W) before /\
      answers W a /\ acts = map Dialled (before ++ [a])
  | (inr k, acts) => Forall (refuses W) l /\ acts = map Dialled l /\
      match List.rev l with [] => k = last | a :: _ => n_dial W a = Some k end
  end.
Proof.
  intros W. induction l as [|a l IH]; intros last; cbn [dial_each];
    [split; [constructor|split; reflexivity]|].
  destruct (n_dial W a) as [k|] eqn:E.
  - specialize (IH k). destruct (dial_each W l k) as [[a'|k'] acts].
    + destruct IH as (before & after & -> & HB & HA & ->). exists (a :: before), after.
      split; [reflexivity|]. split; [constructor; [exists k; exact E|exact HB]|]. auto.
    + destruct IH as (HF & -> & HL). split; [constructor; [exists k; exact E|exact HF]|].
      split; [reflexivity|]. cbn [List.rev]. destruct (List.rev l) as [|x r]; cbn [app]; [congruence|exact HL].
  - exists [], l. auto.
Qed.
Lemma first_answer_unique : forall W (l1 : list address) a r1 l2 b r2,
  l1 ++ a :: r1 = l2 ++ b :: r2 -> Forall (refuses W) l1 -> Forall (refuses W) l2 ->
  answers W a -> answers W b -> l1 = l2 /\ a = b.
Proof.
  intros W. induction l1 as [|x l1 IH]; intros a r1 [|y l2] b r2 E H1 H2 HA HB; cbn [app] in E.
  - split; congruence.
  - inversion H2 as [|? ? [k Hk] _]; subst. injection E as <- _. unfold answers in HA. congruence.
  - inversion H1 as [|? ? [k Hk] _]; subst. injection E as -> _. unfold answers in HB. congruence.
  - inversion H1; inversion H2; subst. injection E as -> E.
    destruct (IH _ _ _ _ _ E) as [-> ->]; auto.
Qed.
Lemma spoken_app : forall a b, spoken (a ++ b) = spoken a ++ spoken b.
Proof. induction a as [|[h p|x|c n x|t] a IH]; intros b; cbn [app spoken]; rewrite ?IH; reflexivity. Qed.
Lemma spoken_dialled : forall l, spoken (map Dialled l) = [].
Proof. induction l; cbn [map spoken]; auto. Qed.
Lemma secure_dec : forall u, is_secure_url u = true /\ secure_scheme u \/ is_secure_url u = false /\ ~ secure_scheme u.
Proof.
  intros u. pose proof (connect_secure_iff_proof u) as H. fold (secure_scheme u) in H.
  destruct (is_secure_url u); [left; tauto|]. right. split; [reflexivity|]. intros HS. apply H in HS. discriminate.
Qed.

(** What the code prepares before it speaks. *)
Definition prepared (W : network) (ssl : option connector) (w : way) (u : url)
  : result transport client_error * list act :=
  match w with
  | ByScheme => if is_secure_url u then then_wrap W ssl u (establish_tcp W None u)
                else then_plain (establish_tcp W None u)
  | Always => then_wrap W ssl u (establish_tcp W (Some true) u)
  | Never => then_plain (establish_tcp W (Some false) u)
  end.
Lemma connect_by_prepared : forall X W rnd ssl w b,
  connect_by X W rnd ssl w b
  = let '(r, acts) := prepared W ssl w (b_url b) in then_connect_on X W rnd b r acts.
Proof. intros X W rnd ssl [] b; reflexivity. Qed.
Lemma establish_cases : forall W flag u, says_port u ->
  match establish_tcp W flag u with
  | (Ok a, acts) => exists host port before after,
      destination u host port /\ n_resolve W host port = inl (before ++ a :: after) /\
      Forall (refuses W) before /\ answers W a /\
      acts = Resolved host port :: map Dialled (before ++ [a])
  | (Err e, acts) => spoken acts = [] /\
      ~ (exists host port before a after, destination u host port /\
           n_resolve W host port = inl (before ++ a :: after) /\ Forall (refuses W) before /\ answers W a)
  | _ => False
  end.
Proof.
  intros W flag u HS. unfold establish_tcp. pose proof (host_port flag u HS) as HP.
  destruct (extract_host_port flag u) as [[host port]|e| |]; try contradiction.
  - assert (forall h p, destination u h p -> h = host /\ p = port) as HU
      by (intros; eapply destination_unique; eassumption).
    destruct (n_resolve W host port) as [l|k] eqn:ER.
    + pose proof (dial_each_cases W l no_address) as HD.
      destruct (dial_each W l no_address) as [[a|k] acts].
      * destruct HD as (before & after & -> & HB & HA & ->). exists host, port, before, after. auto.
      * destruct HD as (HF & -> & _). split; [cbn [spoken]; apply spoken_dialled|].
        intros (h & p & before & a & after & HD & HR & _ & HA). apply HU in HD as [-> ->].
        rewrite ER in HR. injection HR as ->. apply Forall_app in HF as [_ HF].
        inversion HF as [|? ? [k' Hk] _]; subst. unfold answers in HA. congruence.
    + split; [reflexivity|]. intros (h & p & before & a & after & HD & HR & _). apply HU in HD as [-> ->]. congruence.
  - destruct HP as [-> HP]. split; [reflexivity|]. intros (h & p & before & a & after & [HD _] & _). congruence.
Qed.
Lemma ssl_cases : forall W ssl u host, u_host u = Some host ->
  match extract_host_ssl_conn W ssl u with
  | Ok (h, c) => h = host /\ connector_for W ssl c
  | Err e => forall c, ~ connector_for W ssl c
  | _ => False
  end.
Proof.
  intros W ssl u host H. unfold extract_host_ssl_conn. rewrite H. unfold connector_for.
  destruct ssl as [c|]; [auto|]. destruct (n_default_tls W) as [c|]; [auto|]. intros c. congruence.
Qed.
Lemma connector_unique : forall W ssl c c', connector_for W ssl c -> connector_for W ssl c' -> c = c'.
Proof. intros W [x|] c c' H H'; cbn in *; congruence. Qed.

Definition outcome_of (W : network) ssl w u (p : result transport client_error * list act) : Prop :=
  match p with
  | (Ok t, acts) => exists host port before a after,
      destination u host port /\ n_resolve W host port = inl (before ++ a :: after) /\
      Forall (refuses W) before /\ answers W a /\ over W ssl w u host a t /\
      spoken acts = [] /\ dialled acts = before ++ [a]
  | (Err e, acts) => spoken acts = [] /\ ~ exists t, reaches W ssl w u t
  | _ => False
  end.
Lemma dialled_app : forall a b, dialled (a ++ b) = dialled a ++ dialled b.
Proof. induction a as [|[h p|x|c n x|t] a IH]; intros b; cbn [app dialled]; rewrite ?IH; reflexivity. Qed.
Lemma dialled_dialled : forall l, dialled (map Dialled l) = l.
Proof. induction l as [|x l IH]; cbn [map dialled]; rewrite ?IH; reflexivity. Qed.
Lemma wrap_outcome : forall W ssl w u flag, says_port u -> encrypted w u ->
  outcome_of W ssl w u (then_wrap W ssl u (establish_tcp W flag u)).
Proof.
  intros W ssl w u flag HS HE. pose proof (establish_cases W flag u HS) as H.
  destruct (establish_tcp W flag u) as [[a|e| |] acts]; try contradiction; cbn [then_wrap].
  - destruct H as (host & port & before & after & HD & HR & HB & HA & ->).
    unfold wrap_ssl. pose proof (ssl_cases W ssl u host (proj1 HD)) as HC.
    assert (forall P : Prop, (forall c, connector_for W ssl c -> n_tls W c host a = None -> P) ->
      (exists t, reaches W ssl w u t) -> P) as G.
    { intros P HP (t & h & p & before' & a' & after' & HD' & HR' & HB' & HA' & HO).
      destruct (destination_unique _ _ _ _ _ HD HD') as [<- <-]. rewrite HR in HR'. injection HR' as HR'.
      destruct (first_answer_unique _ _ _ _ _ _ _ HR' HB HB' HA HA') as [<- <-].
      destruct HO as [(_ & c & HC' & HT & _)|[HN _]]; [eauto|contradiction]. }
    destruct (extract_host_ssl_conn W ssl u) as [[h c]|e| |]; try contradiction.
    + destruct HC as [-> HC]. destruct (n_tls W c host a) as [[|]|] eqn:ET; unfold outcome_of.
      1,2: cbn [spoken app]; rewrite spoken_app, spoken_dialled; split; [reflexivity|];
           refine (G False _); intros c' HC' HT; rewrite (connector_unique _ _ _ _ HC HC') in ET; congruence.
      exists host, port, before, a, after. do 4 (split; [assumption|]). split; [|split].
      * left. split; [exact HE|]. exists c. auto.
      * cbn [spoken app]. rewrite spoken_app, spoken_dialled. reflexivity.
      * cbn [dialled app]. rewrite dialled_app, dialled_dialled. apply app_nil_r.
    + unfold outcome_of. cbn [spoken app]. rewrite spoken_app, spoken_dialled. split; [reflexivity|].
      refine (G False _). intros c HC' _. exact (HC c HC').
  - destruct H as [H1 H2]. split; [exact H1|]. intros (t & h & p & b & a & c & HD & HR & HB & HA & _).
    apply H2. exists h, p, b, a, c. auto.
Qed.
Lemma plain_outcome : forall W ssl w u flag, says_port u -> ~ encrypted w u ->
  outcome_of W ssl w u (then_plain (establish_tcp W flag u)).
Proof.
  intros W ssl w u flag HS HE. pose proof (establish_cases W flag u HS) as H.
  destruct (establish_tcp W flag u) as [[a|e| |] acts]; try contradiction; cbn [then_plain].
  - destruct H as (host & port & before & after & HD & HR & HB & HA & ->).
    exists host, port, before, a, after. do 4 (split; [assumption|]). split; [right; auto|].
    cbn [spoken dialled]. rewrite spoken_dialled, dialled_dialled. auto.
  - destruct H as [H1 H2]. split; [exact H1|]. intros (t & h & p & b & a & c & HD & HR & HB & HA & _).
    apply H2. exists h, p, b, a, c. auto.
Qed.
Lemma prepared_outcome : forall W ssl w u, says_port u -> outcome_of W ssl w u (prepared W ssl w u).
Proof.
  intros W ssl [] u HS; cbn [prepared].
  - destruct (secure_dec u) as [[-> H]|[-> H]]; [apply wrap_outcome|apply plain_outcome]; auto.
  - apply wrap_outcome; [exact HS|exact I].
  - apply plain_outcome; [exact HS|]. intros [].
Qed.

(** [C51] Whichever of the three blocking functions is called, on whatever network: either the
    handshake is carried out on one connection and no other, and that is the one the URL and
    the way of connecting stand for: to the first address of the URL's host and port that
    answers, the earlier ones having been tried in order; encrypted for the URL's host with
    the caller's connector exactly when it has to be; and the outcome is that of the handshake
    on it.  Or there is no such connection, nothing is said, an error is returned and the
    builder is as before. *)
Lemma connect_transport_proof : forall X W rnd ssl w b, says_port (b_url b) ->
  match connect_by X W rnd ssl w b with
  | (r, b', acts) =>
      (exists t, reaches W ssl w (b_url b) t /\ spoken acts = [t] /\
         connect_on X rnd b (fst (n_stream W t)) (snd (n_stream W t))
         = (r, b', snd (connect_on X rnd b (fst (n_stream W t)) (snd (n_stream W t)))))
      \/ (~ (exists t, reaches W ssl w (b_url b) t) /\ spoken acts = [] /\ b' = b /\ exists e, r = Err e)
  end.
Proof.
  intros X W rnd ssl w b HS. rewrite connect_by_prepared.
  pose proof (prepared_outcome W ssl w (b_url b) HS) as H.
  destruct (prepared W ssl w (b_url b)) as [[t|e| |] acts]; try contradiction; cbn [then_connect_on].
  - destruct H as (host & port & before & a & after & HD & HR & HB & HA & HO & HSp & _).
    destruct (n_stream W t) as [s v] eqn:EN.
    destruct (connect_on X rnd b s v) as [[r b'] v'] eqn:EC. left. exists t.
    split; [exists host, port, before, a, after; auto|].
    rewrite EN. cbn [fst snd]. rewrite EC. cbn [snd]. split; [|reflexivity].
    rewrite spoken_app, HSp. reflexivity.
  - destruct H as [H1 H2]. right. split; [exact H2|]. split; [exact H1|]. split; [reflexivity|eauto].
Qed.
(*EX (** A wss URL whose first address refuses; a default connector. *)
Example connect_transport_ex :
  let W := mk_network (fun _ _ => inl [1; 2]) (fun a => if a =? 1 then Some ConnectionReset else None)
             (Some 7) (fun _ _ _ => None) (fun _ => ([], mk_w [] []))
             (fun _ => ([], mk_fw (mk_bm [] 0) [] [] [])) in
  let u := mk_url (ascii "wss") (Some (ascii "h")) None [] None (ascii "/") in
  says_port u /\ reaches W None ByScheme u (Secured 7 (ascii "h") 2) /\
  forall X rnd, snd (connect_by X W rnd None ByScheme (builder_init u))
    = [Resolved (ascii "h") 443; Dialled 1; Dialled 2; Negotiated 7 (ascii "h") 2; Spoken (Secured 7 (ascii "h") 2)].
Proof.
  intros W u. split; [right; left; left; reflexivity|]. split.
  - exists (ascii "h"), 443, [1], 2, []. split; [split; [reflexivity|left; split; [left|]; reflexivity]|].
    split; [reflexivity|]. split; [constructor; [exists ConnectionReset; reflexivity|constructor]|].
    split; [reflexivity|]. left. split; [left; reflexivity|]. exists 7. split; [reflexivity|split; reflexivity].
  - intros X rnd. unfold connect_by, connect. cbn -[connect_on].
    destruct (connect_on X rnd (builder_init u) [] (mk_w [] [])) as [[r b'] w']. reflexivity.
Qed. EX*)
(** [C51] No other connection is right: the URL, the way and the network determine it. *)
Lemma reaches_unique_proof : forall W ssl w u t t',
  reaches W ssl w u t -> reaches W ssl w u t' -> t = t'.
Proof.
  intros W ssl w u t t' (h & p & b & a & c & HD & HR & HB & HA & HO) (h' & p' & b' & a' & c' & HD' & HR' & HB' & HA' & HO').
  destruct (destination_unique _ _ _ _ _ HD HD') as [<- <-]. rewrite HR in HR'. injection HR' as HR'.
  destruct (first_answer_unique _ _ _ _ _ _ _ HR' HB HB' HA HA') as [<- <-].
  destruct HO as [(HE & k & HK & HT & ->)|[HE ->]], HO' as [(HE' & k' & HK' & HT' & ->)|[HE' ->]]; try contradiction; [|reflexivity].
  rewrite (connector_unique _ _ _ _ HK HK'). reflexivity.
Qed.

(*EX
(** Each way of connecting to the same server stands for a connection of its own. *)
Example reaches_unique_ex :
  let W := mk_network (fun _ _ => inl [1]) (fun _ => None) (Some 7) (fun _ _ _ => None) (fun _ => ([], mk_w [] []))
             (fun _ => ([], mk_fw (mk_bm [] 0) [] [] [])) in
  let u := mk_url (ascii "ws") (Some (ascii "h")) (Some 9) [] None (ascii "/") in
  forall X rnd,
  spoken (snd (connect_by X W rnd None Never (builder_init u))) = [Plain 1] /\
  spoken (snd (connect_by X W rnd (Some 3) Always (builder_init u))) = [Secured 3 (ascii "h") 1].
Proof.
  intros W u X rnd. unfold connect_by. cbn -[connect_on].
  destruct (connect_on X rnd (builder_init u) [] (mk_w [] [])) as [[r b'] w']. split; reflexivity.
Qed.
EX*)

(** [C51] So a wss URL is never spoken to in the clear by [connect], nor any URL by
    [connect_secure]; and the certificate is checked for the URL's host. *)
Lemma never_in_the_clear_proof : forall X W rnd ssl w b r b' acts t,
  says_port (b_url b) -> encrypted w (b_url b) ->
  connect_by X W rnd ssl w b = (r, b', acts) -> In t (spoken acts) ->
  exists c host a, t = Secured c host a /\ u_host (b_url b) = Some host /\ connector_for W ssl c /\
    n_tls W c host a = None.
Proof.
  intros X W rnd ssl w b r b' acts t HS HE E HI.
  pose proof (connect_transport_proof X W rnd ssl w b HS) as H. rewrite E in H.
  destruct H as [(t' & (h & p & l & a & c & HD & HR & HB & HA & HO) & HSp & _)|(_ & HSp & _)];
    rewrite HSp in HI; [|contradiction].
  destruct HI as [<-|[]]. destruct HO as [(_ & k & HK & HT & ->)|[HN _]]; [|contradiction].
  exists k, h, a. destruct HD. auto.
Qed.

(*EX
(** TLS fails: nothing is said. *)
Example never_in_the_clear_ex :
  let W := mk_network (fun _ _ => inl [1]) (fun _ => None) (Some 7) (fun _ _ _ => Some TlsFails) (fun _ => ([], mk_w [] []))
             (fun _ => ([], mk_fw (mk_bm [] 0) [] [] [])) in
  let u := mk_url (ascii "wss") (Some (ascii "h")) None [] None (ascii "/") in
  encrypted ByScheme u /\
  forall X rnd, snd (connect_by X W rnd None ByScheme (builder_init u))
    = [Resolved (ascii "h") 443; Dialled 1; Negotiated 7 (ascii "h") 1].
Proof. intros W u. split; [left; reflexivity|]. intros X rnd. reflexivity. Qed.
EX*)


(** [C51] Errors: without a host nothing at all is done; if the name cannot be resolved the
    resolver's error is returned; if it has addresses and every one refuses, that of the last. *)
Lemma connect_errors_proof : forall X W rnd ssl w b,
  (u_host (b_url b) = None -> connect_by X W rnd ssl w b = (Err NoHostName, b, [])) /\
  forall host port, says_port (b_url b) -> destination (b_url b) host port ->
    (forall k, n_resolve W host port = inr k ->
       connect_by X W rnd ssl w b = (Err (CWs (of_io k)), b, [Resolved host port])) /\
    (forall l a k, n_resolve W host port = inl (l ++ [a]) -> Forall (refuses W) (l ++ [a]) ->
       n_dial W a = Some k ->
       connect_by X W rnd ssl w b
       = (Err (CWs (of_io k)), b, Resolved host port :: map Dialled (l ++ [a]))).
Proof.
  intros X W rnd ssl w b. rewrite connect_by_prepared.
  assert (forall e acts, (forall flag, establish_tcp W flag (b_url b) = (Err e, acts)) ->
    prepared W ssl w (b_url b) = (Err e, acts)) as G.
  { intros e acts H. destruct w; cbn [prepared]; rewrite H; [destruct (is_secure_url _)| |]; reflexivity. }
  split.
  - intros HN. rewrite (G NoHostName []); [reflexivity|]. intros flag. unfold establish_tcp.
    rewrite (proj1 (connect_address_proof flag (b_url b)) HN). reflexivity.
  - intros host port HS HD.
    assert (forall flag, extract_host_port flag (b_url b) = Ok (host, port)) as HP.
    { intros flag. pose proof (host_port flag _ HS) as H. destruct (extract_host_port flag (b_url b)) as [[h p]|e| |]; try contradiction.
      - destruct (destination_unique _ _ _ _ _ HD H) as [-> ->]. reflexivity.
      - destruct H as [_ H], HD. congruence. }
    split.
    + intros k HR. rewrite (G (CWs (of_io k)) [Resolved host port]); [reflexivity|].
      intros flag. unfold establish_tcp. rewrite HP, HR. reflexivity.
    + intros l a k HR HF HK. rewrite (G (CWs (of_io k)) (Resolved host port :: map Dialled (l ++ [a]))); [reflexivity|].
      intros flag. unfold establish_tcp. rewrite HP, HR.
      pose proof (dial_each_cases W (l ++ [a]) no_address) as HC.
      destruct (dial_each W (l ++ [a]) no_address) as [[x|k'] acts].
      * destruct HC as (before & after & E & _ & HA & _). rewrite E in HF. apply Forall_app in HF as [_ HF].
        inversion HF as [|? ? [k' Hk'] _]; subst. unfold answers in HA. congruence.
      * destruct HC as (_ & -> & HL). rewrite rev_unit in HL. rewrite HL in HK. injection HK as ->. reflexivity.
Qed.

(*EX
(** Two addresses that refuse, each for its own reason. *)
Example connect_errors_ex :
  let W := mk_network (fun _ _ => inl [1; 2]) (fun a => Some (if a =? 1 then ConnectionReset else OtherKind 111)) None
             (fun _ _ _ => None) (fun _ => ([], mk_w [] [])) (fun _ => ([], mk_fw (mk_bm [] 0) [] [] [])) in
  let u := mk_url (ascii "ws") (Some (ascii "h")) None [] None (ascii "/") in
  says_port u /\ destination u (ascii "h") 80 /\ Forall (refuses W) ([1] ++ [2]) /\
  forall X rnd, connect_by X W rnd None ByScheme (builder_init u)
    = (Err (CWs (IoError (OtherKind 111))), builder_init u, [Resolved (ascii "h") 80; Dialled 1; Dialled 2]).
Proof.
  intros W u. split; [right; right; left; reflexivity|].
  split; [split; [reflexivity|right; split; [left|]; reflexivity]|].
  split; [repeat constructor; eexists; reflexivity|]. intros X rnd. reflexivity.
Qed.
EX*)


(** ** Asynchronously *)
Definition aprepared (W : network) (ssl : option connector) (w : way) (u : url)
  : result transport client_error * list act :=
  match w with
  | ByScheme => let p := async_tcpstream W None u in
      if is_secure_url u then async_wrapped W ssl u p else then_plain (run_tcpstream W p)
  | Always => async_wrapped W ssl u (async_tcpstream W (Some true) u)
  | Never => then_plain (run_tcpstream W (async_tcpstream W (Some false) u))
  end.
Lemma aconnect_by_prepared : forall X W rnd ssl extra w b,
  async_connect_by X W rnd ssl extra w b
  = then_async_connect_on X W rnd extra b (aprepared W ssl w (b_url b)).
Proof. intros X W rnd ssl extra [] b; reflexivity. Qed.
Lemma tcpstream_cases : forall W flag u, says_port u ->
  match async_tcpstream W flag u with
  | (Ok a, acts) => exists host port after, destination u host port /\
      n_resolve W host port = inl (a :: after) /\ acts = [Resolved host port]
  | (Err e, acts) => spoken acts = [] /\ dialled acts = [] /\
      ~ exists host port a after, destination u host port /\ n_resolve W host port = inl (a :: after)
  | _ => False
  end.
Proof.
  intros W flag u HS. unfold async_tcpstream. pose proof (host_port flag u HS) as HP.
  destruct (extract_host_port flag u) as [[host port]|e| |]; try contradiction.
  - assert (forall h p, destination u h p -> h = host /\ p = port) as HU
      by (intros; eapply destination_unique; eassumption).
    destruct (n_resolve W host port) as [[|a l]|k] eqn:ER.
    + do 2 (split; [reflexivity|]). intros (h & p & a & after & HD & HR). apply HU in HD as [-> ->]. congruence.
    + exists host, port, l. auto.
    + do 2 (split; [reflexivity|]). intros (h & p & a & after & HD & HR). apply HU in HD as [-> ->]. congruence.
  - destruct HP as [_ HP]. do 2 (split; [reflexivity|]). intros (h & p & a & after & [HD _] & _). congruence.
Qed.
Definition aoutcome_of (W : network) ssl w u (p : result transport client_error * list act) : Prop :=
  match p with
  | (Ok t, acts) => areaches W ssl w u t /\ spoken acts = []
  | (Err e, acts) => spoken acts = [] /\ ~ exists t, areaches W ssl w u t
  | _ => False
  end.
Lemma awrapped_outcome : forall W ssl w u flag, says_port u -> encrypted w u ->
  aoutcome_of W ssl w u (async_wrapped W ssl u (async_tcpstream W flag u)).
Proof.
  intros W ssl w u flag HS HE. pose proof (tcpstream_cases W flag u HS) as H.
  unfold async_wrapped. destruct (u_host u) as [host|] eqn:EH.
  2:{ unfold extract_host_ssl_conn. rewrite EH.
      split; [|intros (t & h & p & a & r & [HD _] & _); congruence].
      destruct (async_tcpstream W flag u) as [[a|e| |] acts]; try contradiction; cbn [snd]; [|apply H].
      destruct H as (h & p & after & _ & _ & ->). reflexivity. }
  pose proof (ssl_cases W ssl u host EH) as HC.
  destruct (extract_host_ssl_conn W ssl u) as [[h c]|e| |]; try contradiction.
  - destruct HC as [-> HC].
    destruct (async_tcpstream W flag u) as [[a|e| |] acts]; try contradiction; cbn [run_tcpstream run_tls].
    + destruct H as (h & p & after & HD & HR & ->).
      assert (h = host) as -> by (destruct HD; congruence).
      assert (forall P : Prop, (answers W a -> n_tls W c host a = None -> P) ->
        (exists t, areaches W ssl w u t) -> P) as G.
      { intros P HP (t & h' & p' & a' & after' & HD' & HR' & HA' & HO).
        destruct (destination_unique _ _ _ _ _ HD HD') as [<- <-]. rewrite HR in HR'. injection HR' as <- <-.
        destruct HO as [(_ & c' & HC' & HT & _)|[HN _]]; [|contradiction].
        rewrite (connector_unique _ _ _ _ HC' HC) in HT. auto. }
      destruct (n_dial W a) as [k|] eqn:EA; cbn [run_tls aoutcome_of].
      * split; [reflexivity|]. refine (G False _). unfold answers. congruence.
      * destruct (n_tls W c host a) as [f|] eqn:ET; cbn [aoutcome_of].
        -- split; [reflexivity|]. refine (G False _). congruence.
        -- split; [|reflexivity]. exists host, p, a, after. do 3 (split; [assumption|]).
           left. split; [exact HE|]. exists c. auto.
    + destruct H as (H1 & _ & H2). split; [exact H1|].
      intros (t & h & p & a & r & HD & HR & _). apply H2. eauto 6.
  - destruct (async_tcpstream W flag u) as [[a|e'| |] acts]; try contradiction; cbn [snd aoutcome_of].
    + destruct H as (h & p & after & _ & _ & ->). split; [reflexivity|].
      intros (t & h' & p' & a' & r & _ & _ & _ & [(_ & c & HC' & _)|[HN _]]); [exact (HC c HC')|contradiction].
    + split; [apply H|]. intros (t & h' & p' & a' & r & HD & HR & _). apply H. eauto 6.
Qed.
Lemma aplain_outcome : forall W ssl w u flag, says_port u -> ~ encrypted w u ->
  aoutcome_of W ssl w u (then_plain (run_tcpstream W (async_tcpstream W flag u))).
Proof.
  intros W ssl w u flag HS HE. pose proof (tcpstream_cases W flag u HS) as H.
  destruct (async_tcpstream W flag u) as [[a|e| |] acts]; try contradiction; cbn [run_tcpstream].
  - destruct H as (h & p & after & HD & HR & ->). destruct (n_dial W a) as [k|] eqn:EA; cbn [then_plain aoutcome_of].
    + split; [reflexivity|]. intros (t & h' & p' & a' & r & HD' & HR' & HA & _).
      destruct (destination_unique _ _ _ _ _ HD HD') as [<- <-]. rewrite HR in HR'. injection HR' as <- <-.
      unfold answers in HA. congruence.
    + split; [|reflexivity]. exists h, p, a, after. do 3 (split; [assumption|]). right. auto.
  - cbn [then_plain aoutcome_of]. destruct H as (H1 & _ & H2). split; [exact H1|].
    intros (t & h & p & a & r & HD & HR & _). apply H2. eauto 6.
Qed.
(** [C51] The same asynchronously, except that only the first address is ever tried. *)
Lemma async_connect_transport_proof : forall X W rnd ssl extra w b, says_port (b_url b) ->
  match async_connect_by X W rnd ssl extra w b with
  | (r, acts) =>
      (exists t, areaches W ssl w (b_url b) t /\ spoken acts = [t] /\
         r = async_connect_on X rnd b extra (fst (n_astream W t)) (snd (n_astream W t)))
      \/ (~ (exists t, areaches W ssl w (b_url b) t) /\ spoken acts = [] /\ exists e, r = Err e)
  end.
Proof.
  intros X W rnd ssl extra w b HS. rewrite aconnect_by_prepared.
  assert (aoutcome_of W ssl w (b_url b) (aprepared W ssl w (b_url b))) as H.
  { destruct w; cbn [aprepared].
    - destruct (secure_dec (b_url b)) as [[-> H]|[-> H]]; [apply awrapped_outcome|apply aplain_outcome]; auto.
    - apply awrapped_outcome; [exact HS|exact I].
    - apply aplain_outcome; [exact HS|]. intros []. }
  destruct (aprepared W ssl w (b_url b)) as [[t|e| |] acts]; try contradiction; cbn [then_async_connect_on].
  - destruct H as [H1 H2]. destruct (n_astream W t) as [s v] eqn:EN. left. exists t.
    rewrite EN, spoken_app, H2. auto.
  - destruct H as [H1 H2]. right. split; [exact H2|]. split; [exact H1|eauto].
Qed.

(*EX
Example async_connect_transport_ex :
  let W := mk_network (fun _ _ => inl [1; 2]) (fun _ => None) (Some 7) (fun _ _ _ => None) (fun _ => ([], mk_w [] []))
             (fun _ => ([], mk_fw (mk_bm [] 0) [] [] [])) in
  let u := mk_url (ascii "https") (Some (ascii "h")) (Some 8443) [] None (ascii "/") in
  areaches W (Some 3) ByScheme u (Secured 3 (ascii "h") 1) /\
  forall X rnd, spoken (snd (async_connect_by X W rnd (Some 3) 0 ByScheme (builder_init u))) = [Secured 3 (ascii "h") 1].
Proof.
  intros W u. split.
  - exists (ascii "h"), 8443, 1, [2]. split; [split; reflexivity|]. split; [reflexivity|]. split; [reflexivity|].
    left. split; [right; reflexivity|]. exists 3. split; [reflexivity|split; reflexivity].
  - intros X rnd. unfold async_connect_by. cbn -[async_connect_on]. reflexivity.
Qed.
EX*)

(** [C51] Whenever the asynchronous functions reach a server, the blocking ones reach the same
    on the same connection. *)
Lemma async_reaches_same_proof : forall W ssl w u t, areaches W ssl w u t -> reaches W ssl w u t.
Proof.
  intros W ssl w u t (h & p & a & r & HD & HR & HA & HO). exists h, p, [], a, r. auto.
Qed.
(*EX
(** The network above: the connection an asynchronous client speaks on is the one a blocking
    client speaks on. *)
Example async_reaches_same_ex :
  let W := mk_network (fun _ _ => inl [1; 2]) (fun _ => None) (Some 7) (fun _ _ _ => None) (fun _ => ([], mk_w [] []))
             (fun _ => ([], mk_fw (mk_bm [] 0) [] [] [])) in
  let u := mk_url (ascii "https") (Some (ascii "h")) (Some 8443) [] None (ascii "/") in
  forall X rnd, spoken (snd (connect_by X W rnd (Some 3) ByScheme (builder_init u))) = [Secured 3 (ascii "h") 1].
Proof.
  intros W u X rnd. unfold connect_by, connect. cbn -[connect_on].
  destruct (connect_on X rnd (builder_init u) [] (mk_w [] [])) as [[r b'] w']. reflexivity.
Qed.
EX*)
(** [C51] The converse is refuted: with two addresses of which only the second answers, a
    blocking client speaks to the server and an asynchronous one gives up. *)
Lemma async_first_address_refuted_proof : exists W u t,
  says_port u /\ reaches W None Never u t /\
  forall X rnd extra b, b_url b = u -> exists acts,
    async_connect_by X W rnd None extra Never b = (Err (CWs (IoError (OtherKind 111))), acts).
Proof.
  exists (mk_network (fun _ _ => inl [1; 2]) (fun a => if a =? 1 then Some (OtherKind 111) else None)
            None (fun _ _ _ => None) (fun _ => ([], mk_w [] [])) (fun _ => ([], mk_fw (mk_bm [] 0) [] [] []))),
    (mk_url (ascii "ws") (Some (ascii "localhost")) (Some 8080) [] None (ascii "/")), (Plain 2).
  split; [left; discriminate|]. split.
  - exists (ascii "localhost"), 8080, [1], 2, []. split; [split; reflexivity|]. split; [reflexivity|].
    split; [constructor; [exists (OtherKind 111); reflexivity|constructor]|]. split; [reflexivity|].
    right. split; [intros []|reflexivity].
  - intros X rnd extra b E. unfold async_connect_by, async_connect_insecure. rewrite E.
    eexists. reflexivity.
Qed.

(** ** All that is done *)
Lemma establish_trail : forall W flag ssl w u, says_port u ->
  match establish_tcp W flag u with
  | (Ok a, acts) => exists host port before after,
      destination u host port /\ n_resolve W host port = inl (before ++ a :: after) /\
      Forall (refuses W) before /\ answers W a /\
      acts = Resolved host port :: map Dialled (before ++ [a])
  | (Err e, acts) => trail W ssl w u acts
  | _ => False
  end.
Proof.
  intros W flag ssl w u HS. unfold establish_tcp. pose proof (host_port flag u HS) as HP.
  destruct (extract_host_port flag u) as [[host port]|e| |]; try contradiction.
  - destruct (n_resolve W host port) as [l|k] eqn:ER; [|eapply TrUnknown; eassumption].
    pose proof (dial_each_cases W l no_address) as HD.
    destruct (dial_each W l no_address) as [[a|k] acts].
    + destruct HD as (before & after & -> & HB & HA & ->). exists host, port, before, after. auto.
    + destruct HD as (HF & -> & _). eapply TrRefused; eassumption.
  - destruct HP as [_ HP]. apply TrNowhere. exact HP.
Qed.
Lemma prepared_trail : forall X W rnd ssl w b, says_port (b_url b) ->
  trail W ssl w (b_url b) (snd (connect_by X W rnd ssl w b)).
Proof.
  intros X W rnd ssl w b HS. rewrite connect_by_prepared. set (u := b_url b) in *.
  assert (forall flag, encrypted w u -> forall r acts,
    then_wrap W ssl u (establish_tcp W flag u) = (r, acts) ->
    trail W ssl w u (snd (then_connect_on X W rnd b r acts))) as GE.
  { intros flag HE r acts E. pose proof (establish_trail W flag ssl w u HS) as H.
    destruct (establish_tcp W flag u) as [[a|e| |] acts0]; try contradiction; cbn [then_wrap] in E.
    - destruct H as (host & port & before & after & HD & HR & HB & HA & ->).
      unfold wrap_ssl in E. pose proof (ssl_cases W ssl u host (proj1 HD)) as HC.
      assert (forall rest, afterwards W ssl w u host a rest ->
        trail W ssl w u (Resolved host port :: map Dialled (before ++ [a]) ++ rest)) as GT
        by (intros rest HW; eapply TrReached; eassumption).
      destruct (extract_host_ssl_conn W ssl u) as [[h c]|e| |]; try contradiction.
      + destruct HC as [-> HC]. destruct (n_tls W c host a) as [f|] eqn:ET.
        * replace (snd (then_connect_on X W rnd b r acts)) with acts
            by (destruct f; injection E as <- <-; reflexivity).
          assert (acts = Resolved host port :: map Dialled (before ++ [a]) ++ [Negotiated c host a]) as ->
            by (destruct f; injection E as _ <-; reflexivity).
          apply GT. eapply AwFailed; eassumption.
        * injection E as <- <-. cbn [then_connect_on].
          destruct (n_stream W (Secured c host a)) as [s v]. destruct (connect_on X rnd b s v) as [[x b'] v'].
          cbn [snd app]. rewrite <- app_assoc. cbn [app]. apply GT. apply AwSecured; assumption.
      + injection E as <- <-. cbn [then_connect_on snd app]. apply GT. apply AwNoConnector; assumption.
    - injection E as <- <-. exact H. }
  assert (forall flag, ~ encrypted w u -> forall r acts,
    then_plain (establish_tcp W flag u) = (r, acts) ->
    trail W ssl w u (snd (then_connect_on X W rnd b r acts))) as GP.
  { intros flag HE r acts E. pose proof (establish_trail W flag ssl w u HS) as H.
    destruct (establish_tcp W flag u) as [[a|e| |] acts0]; try contradiction; cbn [then_plain] in E.
    - destruct H as (host & port & before & after & HD & HR & HB & HA & ->).
      injection E as <- <-. cbn [then_connect_on].
      destruct (n_stream W (Plain a)) as [s v]. destruct (connect_on X rnd b s v) as [[x b'] v'].
      cbn [snd app]. eapply TrReached; [eassumption..|]. apply AwPlain. exact HE.
    - injection E as <- <-. exact H. }
  destruct (prepared W ssl w u) as [r acts] eqn:E. destruct w; cbn [prepared] in E.
  - destruct (secure_dec u) as [[EU H]|[EU H]]; rewrite EU in E; [eapply GE|eapply GP]; eassumption.
  - eapply GE; [exact I|exact E].
  - eapply GP; [intros []|exact E].
Qed.
(** [C51] Everything a blocking client does before and around its handshake, in order: it looks
    the URL's host and port up, tries the addresses in turn up to the first that answers,
    negotiates TLS on that connection, for the URL's host and with the caller's connector, if
    and only if the connection has to be encrypted, and speaks on it; and it does nothing
    after the first of these that fails. *)
Lemma connect_trail_proof : forall X W rnd ssl w b, says_port (b_url b) ->
  trail W ssl w (b_url b) (snd (connect_by X W rnd ssl w b)).
Proof. exact prepared_trail. Qed.
(*EX
(** [connect_secure] without a connector: the name is looked up, the first address refuses, the
    second answers, and the connection is given up. *)
Example connect_trail_ex :
  let W := mk_network (fun _ _ => inl [1; 2; 3]) (fun a => if a =? 1 then Some ConnectionReset else None)
             None (fun _ _ _ => None) (fun _ => ([], mk_w [] []))
             (fun _ => ([], mk_fw (mk_bm [] 0) [] [] [])) in
  let u := mk_url (ascii "ws") (Some (ascii "h")) (Some 8080) [] None (ascii "/") in
  says_port u /\
  forall X rnd,
    connect_by X W rnd None Always (builder_init u)
    = (Err CTlsError, builder_init u, [Resolved (ascii "h") 8080; Dialled 1; Dialled 2]) /\
    trail W None Always u [Resolved (ascii "h") 8080; Dialled 1; Dialled 2].
Proof.
  intros W u. split; [left; discriminate|]. intros X rnd.
  assert (connect_by X W rnd None Always (builder_init u)
    = (Err CTlsError, builder_init u, [Resolved (ascii "h") 8080; Dialled 1; Dialled 2])) as E by reflexivity.
  split; [exact E|]. assert (says_port (b_url (builder_init u))) as HS by (left; discriminate).
  pose proof (ThmDial.connect_trail_proof X W rnd None Always (builder_init u) HS) as H.
  rewrite E in H. exact H.
Qed.
EX*)
Lemma tcpstream_trail : forall W flag ssl w u, says_port u ->
  match async_tcpstream W flag u with
  | (Ok a, acts) => exists host port after, destination u host port /\
      n_resolve W host port = inl (a :: after) /\ acts = [Resolved host port]
  | (Err e, acts) => async_trail W ssl w u acts
  | _ => False
  end.
Proof.
  intros W flag ssl w u HS. unfold async_tcpstream. pose proof (host_port flag u HS) as HP.
  destruct (extract_host_port flag u) as [[host port]|e| |]; try contradiction.
  - destruct (n_resolve W host port) as [[|a l]|k] eqn:ER.
    + apply ATrUnknown; [exact HP|auto].
    + exists host, port, l. auto.
    + apply ATrUnknown; [exact HP|eauto].
  - apply ATrNowhere. apply HP.
Qed.
(** [C51] Everything an asynchronous client does, likewise: it looks the name up, tries the
    first address and no other, negotiates TLS if and only if the connection has to be
    encrypted, and speaks.  If it has to be and there is no connector, it does not even
    connect, where a blocking client finds that out afterwards. *)
Lemma async_connect_trail_proof : forall X W rnd ssl extra w b, says_port (b_url b) ->
  async_trail W ssl w (b_url b) (snd (async_connect_by X W rnd ssl extra w b)).
Proof.
  intros X W rnd ssl extra w b HS. rewrite aconnect_by_prepared. set (u := b_url b) in *.
  assert (forall flag, encrypted w u ->
    async_trail W ssl w u (snd (then_async_connect_on X W rnd extra b
      (async_wrapped W ssl u (async_tcpstream W flag u))))) as GE.
  { intros flag HE. unfold async_wrapped.
    destruct (u_host u) as [host|] eqn:EH.
    2:{ unfold async_tcpstream, extract_host_ssl_conn.
        rewrite (proj1 (connect_address_proof flag u) EH), EH. apply ATrNowhere. exact EH. }
    pose proof (tcpstream_trail W flag ssl w u HS) as H. pose proof (ssl_cases W ssl u host EH) as HC.
    destruct (extract_host_ssl_conn W ssl u) as [[h c]|e| |]; try contradiction.
    - destruct HC as [-> HC]. assert (equipped W ssl w u) as HQ by (intros _; exists c; exact HC).
      destruct (async_tcpstream W flag u) as [[a|e| |] acts]; try contradiction; cbn [run_tcpstream run_tls].
      + destruct H as (h & p & after & HD & HR & ->).
        assert (h = host) as -> by (destruct HD; congruence).
        destruct (n_dial W a) as [k|] eqn:EA; cbn [run_tls].
        * cbn [then_async_connect_on snd app]. eapply ATrRefused; [eassumption..|]. exists k. exact EA.
        * destruct (n_tls W c host a) as [f|] eqn:ET; cbn [then_async_connect_on].
          -- cbn [snd app]. eapply ATrReached; [eassumption..|]. eapply AwFailed; eassumption.
          -- destruct (n_astream W (Secured c host a)) as [s v]. cbn [snd app].
             eapply ATrReached; [eassumption..|]. apply AwSecured; assumption.
      + exact H.
    - destruct (async_tcpstream W flag u) as [[a|e'| |] acts]; try contradiction;
        cbn [snd then_async_connect_on]; [|exact H].
      destruct H as (h & p & after & HD & HR & ->). apply ATrUnequipped; [exact HD|].
      intros HQ. destruct (HQ HE) as [c Hc]. exact (HC c Hc). }
  assert (forall flag, ~ encrypted w u ->
    async_trail W ssl w u (snd (then_async_connect_on X W rnd extra b
      (then_plain (run_tcpstream W (async_tcpstream W flag u)))))) as GP.
  { intros flag HE. assert (equipped W ssl w u) as HQ by (intros HE'; contradiction).
    pose proof (tcpstream_trail W flag ssl w u HS) as H.
    destruct (async_tcpstream W flag u) as [[a|e| |] acts]; try contradiction; cbn [run_tcpstream]; [|exact H].
    destruct H as (h & p & after & HD & HR & ->).
    destruct (n_dial W a) as [k|] eqn:EA; cbn [then_plain then_async_connect_on].
    - cbn [snd app]. eapply ATrRefused; [eassumption..|]. exists k. exact EA.
    - destruct (n_astream W (Plain a)) as [s v]. cbn [snd app].
      eapply ATrReached; [eassumption..|]. apply AwPlain. exact HE. }
  destruct w; cbn [aprepared].
  - destruct (secure_dec u) as [[EU H]|[EU H]]; rewrite EU; [apply GE|apply GP]; exact H.
  - apply GE. exact I.
  - apply GP. intros [].
Qed.
(*EX
(** The URL and network of [connect_trail_ex]: nothing but the lookup.  With a connector the
    first address is tried; if that one answers, TLS comes before the handshake. *)
Example async_connect_trail_ex :
  let W d := mk_network (fun _ _ => inl [1; 2; 3]) d
             None (fun _ _ _ => None) (fun _ => ([], mk_w [] []))
             (fun _ => ([], mk_fw (mk_bm [] 0) [] [] [])) in
  let refuse := fun a => if a =? 1 then Some ConnectionReset else None in
  let u := mk_url (ascii "ws") (Some (ascii "h")) (Some 8080) [] None (ascii "/") in
  says_port u /\
  forall X rnd,
    async_connect_by X (W refuse) rnd None 0 Always (builder_init u)
    = (Err CTlsError, [Resolved (ascii "h") 8080]) /\
    snd (async_connect_by X (W refuse) rnd (Some 3) 0 Always (builder_init u))
    = [Resolved (ascii "h") 8080; Dialled 1] /\
    snd (async_connect_by X (W (fun _ => None)) rnd (Some 3) 0 Always (builder_init u))
    = [Resolved (ascii "h") 8080; Dialled 1; Negotiated 3 (ascii "h") 1; Spoken (Secured 3 (ascii "h") 1)].
Proof.
  intros W refuse u. split; [left; discriminate|]. intros X rnd.
  split; [reflexivity|]. split; [reflexivity|]. unfold async_connect_by. cbn -[async_connect_on]. reflexivity.
Qed.
EX*)

(** ** The servers with TLS *)

(** [C51] A blocking server with TLS takes a request only from a connection whose TLS handshake
    succeeded, and then answers as a server without TLS would to what is inside. *)
Lemma server_inside_tls_proof : forall X tls s w,
  (forall u, server_accept_tls X tls (Arrives s w) = Ok u ->
     exists s' w', tls s w = Some (s', w') /\ server_accept X (Arrives s' w') = Ok u) /\
  (forall s' w', tls s w = Some (s', w') ->
     server_accept_tls X tls (Arrives s w) = server_accept X (Arrives s' w')) /\
  (tls s w = None -> exists k, server_accept_tls X tls (Arrives s w) = Err (None, UpIo k)).
Proof.
  intros X tls s w. cbn [server_accept_tls]. destruct (tls s w) as [[s' w']|].
  - split; [|split]; [|intros ? ? E; injection E as <- <-; reflexivity|discriminate].
    intros u H. exists s', w'. split; [reflexivity|exact H].
  - split; [|split]; [discriminate|discriminate|eauto].
Qed.

(*EX
(** What is inside is what counts: the bytes outside are no request at all. *)
Example server_inside_tls_ex :
  let req := str "GET / HTTP/1.1" ++ [x0d; x0a] ++ str "Upgrade: websocket" ++ [x0d; x0a] ++ str "Connection: upgrade" ++
    [x0d; x0a] ++ str "Sec-WebSocket-Key: dGhlIHNhbXBsZSBub25jZQ==" ++ [x0d; x0a; x0d; x0a] in
  let tls (s : script) (w : wstream) := match s with [] => None | _ => Some (push_back req [], w) end in
  (exists u, server_accept_tls httparse_lib tls (Arrives [RData x16 [x03; x01]] (mk_w [] [])) = Ok u) /\
  (exists k, server_accept_tls httparse_lib tls (Arrives [] (mk_w [] [])) = Err (None, UpIo k)).
Proof. cbv zeta. split; eexists; vm_compute; reflexivity. Qed.
EX*)


Definition tls_fate (X : http_lib) (h : tls_handshake) : N * option (result aupgrade arefusal) :=
  match h with
  | Negotiating p _ o => tls_alone X (p, o)
  | Upgrading h' => let '(p, r) := fate X h' in (p, Some r)
  end.
Definition tls_sane (h : tls_handshake) : Prop :=
  match h with Negotiating _ _ _ => True | Upgrading h' => sane h' end.
(** How many more polls it can take. *)
Definition tls_left (h : tls_handshake) : nat :=
  match h with
  | Negotiating _ n (Some (s, _)) => n + S (length s)
  | Negotiating _ n None => n
  | Upgrading h' => length (hs_in h')
  end.
Lemma tls_poll_fate : forall X h, tls_sane h ->
  match tls_handshake_poll X h with
  | inl h' => tls_fate X h' = tls_fate X h /\ tls_sane h' /\ (tls_left h' < tls_left h)%nat
  | inr o => o = tls_fate X h
  end.
Proof.
  intros X h HS.
  assert (forall h', sane h' ->
    match (match handshake_poll X h' with inl h'' => inl (Upgrading h'') | inr (p, o) => inr (p, Some o) end) with
    | inl t => tls_fate X t = (let '(p, r) := fate X h' in (p, Some r)) /\ tls_sane t /\ (tls_left t < length (hs_in h'))%nat
    | inr o => o = (let '(p, r) := fate X h' in (p, Some r))
    end) as G.
  { intros h' H'. pose proof (poll_fate X h' H') as HQ. destruct (handshake_poll X h') as [h''|[p o]].
    - destruct HQ as (Q1 & Q2 & Q3). cbn [tls_fate tls_sane tls_left]. rewrite Q1. auto.
    - rewrite <- HQ. reflexivity. }
  destruct h as [p [|n] [[s w]|]|h']; cbn [tls_handshake_poll].
  - pose proof (fate_new X (p, s, w)) as HN. pose proof (G (handshake_new p s w) eq_refl) as HG.
    rewrite HN in HG. cbn [alone] in HG. cbn [tls_fate tls_alone tls_left].
    destruct (match handshake_poll X (handshake_new p s w) with inl h'' => inl (Upgrading h'') | inr (p0, o) => inr (p0, Some o) end); [|exact HG].
    destruct HG as (G1 & G2 & G3). split; [exact G1|]. split; [exact G2|]. cbn [handshake_new hs_in] in G3. lia.
  - reflexivity.
  - split; [reflexivity|]. split; [exact I|]. cbn [tls_left]. lia.
  - split; [reflexivity|]. split; [exact I|]. cbn [tls_left]. lia.
  - exact (G h' HS).
Qed.
Lemma tls_step_invariant : forall X st e all errs, Forall tls_sane (ti_pending st) ->
  Permutation all (outcomes (ti_yielded st) ++ map (tls_fate X) (ti_pending st)) ->
  failures (ti_yielded st) = errs ->
  let st' := tls_incoming_step X st e in
  Forall tls_sane (ti_pending st') /\
  Permutation (all ++ match e with TlsConnection p n o => [tls_alone X (p, o)] | _ => [] end)
    (outcomes (ti_yielded st') ++ map (tls_fate X) (ti_pending st')) /\
  failures (ti_yielded st') = errs ++ match e with TlsListenerError k => [k] | _ => [] end.
Proof.
  intros X st e all errs HS HP HF. destruct e as [p n o|k|i]; cbn [tls_incoming_step].
  - cbn [ti_pending ti_yielded]. split; [|split; [|rewrite app_nil_r; exact HF]].
    + apply Forall_app. split; [exact HS|]. constructor; [exact I|constructor].
    + rewrite map_app, app_assoc. cbn [map tls_fate]. apply Permutation_app_tail. exact HP.
  - cbn [ti_pending ti_yielded]. rewrite outcomes_app, failures_app. cbn [outcomes failures].
    rewrite !app_nil_r. split; [exact HS|]. split; [exact HP|]. rewrite HF. reflexivity.
  - rewrite !app_nil_r. destruct (nth_error (ti_pending st) i) as [h|] eqn:E; [|auto].
    apply nth_cut in E. rewrite E in HS, HP. apply Forall_app in HS as [HS1 HS2].
    inversion HS2 as [|h0 l0 Hh HS3]; subst h0 l0.
    pose proof (tls_poll_fate X h Hh) as HQ. destruct (tls_handshake_poll X h) as [h'|o]; cbn [ti_pending ti_yielded].
    + destruct HQ as (Q1 & Q2 & _). split; [|split; [|exact HF]].
      * apply Forall_app. split; [exact HS1|]. constructor; assumption.
      * rewrite map_app in HP |- *. cbn [map] in HP |- *. rewrite Q1. exact HP.
    + split; [apply Forall_app; auto|]. rewrite outcomes_app, failures_app. cbn [outcomes failures].
      split; [|rewrite app_nil_r; exact HF].
      rewrite map_app in HP |- *. cbn [map] in HP. rewrite <- HQ in HP.
      eapply Permutation_trans; [exact HP|]. rewrite <- app_assoc. cbn [app].
      apply Permutation_app_head. apply Permutation_sym, Permutation_middle.
Qed.
Lemma tls_arrived_app : forall es fs, tls_arrived (es ++ fs) = tls_arrived es ++ tls_arrived fs.
Proof. induction es as [|[p n o|k|i] es IH]; intros fs; cbn [app tls_arrived]; rewrite ?IH; reflexivity. Qed.
Lemma tls_errors_app : forall es fs, tls_listener_errors (es ++ fs) = tls_listener_errors es ++ tls_listener_errors fs.
Proof. induction es as [|[p n o|k|i] es IH]; intros fs; cbn [app tls_listener_errors]; rewrite ?IH; reflexivity. Qed.
Lemma tls_run_snoc : forall X es e, tls_incoming_run X (es ++ [e]) = tls_incoming_step X (tls_incoming_run X es) e.
Proof. intros X es e. unfold tls_incoming_run. rewrite fold_left_app. reflexivity. Qed.
Lemma tls_run_invariant : forall X es,
  Forall tls_sane (ti_pending (tls_incoming_run X es)) /\
  Permutation (map (tls_alone X) (tls_arrived es))
    (outcomes (ti_yielded (tls_incoming_run X es)) ++ map (tls_fate X) (ti_pending (tls_incoming_run X es))) /\
  failures (ti_yielded (tls_incoming_run X es)) = tls_listener_errors es.
Proof.
  intros X es. induction es as [|e es (H1 & H2 & H3)] using rev_ind.
  - split; [constructor|]. split; [constructor|reflexivity].
  - rewrite tls_run_snoc, tls_arrived_app, tls_errors_app, map_app.
    pose proof (tls_step_invariant X (tls_incoming_run X es) e _ _ H1 H2 H3) as H. cbv zeta in H.
    destruct H as (A1 & A2 & A3). split; [exact A1|].
    destruct e as [p n o|k|i]; cbn [tls_arrived tls_listener_errors map]; split; assumption.
Qed.
(** [C47] The asynchronous server with TLS: every connection yields one outcome, that of its
    own TLS and WebSocket handshakes, whatever the others do; the listener's errors in order. *)
Lemma tls_one_outcome_each_proof : forall X es,
  let st := tls_incoming_run X es in
  exists open, length open = length (ti_pending st) /\
    Permutation (map (tls_alone X) (tls_arrived es)) (outcomes (ti_yielded st) ++ open) /\
    failures (ti_yielded st) = tls_listener_errors es.
Proof.
  intros X es st. destruct (tls_run_invariant X es) as (_ & H2 & H3).
  exists (map (tls_fate X) (ti_pending st)). split; [apply map_length|]. split; assumption.
Qed.
(*EX Example tls_one_outcome_ex :
  let ok := mk_fw (mk_bm [] 0) [] [] [] in
  let es := [TlsConnection 1 2 None; TlsConnection 2 0 (Some ([], ok)); TlsPoll 1; TlsPoll 0] in
  forall X, exists o, ti_yielded (tls_incoming_run X es) = [inl (2, Some o)] /\
    length (ti_pending (tls_incoming_run X es)) = 1%nat.
Proof. intros ok es X. eexists. split; reflexivity. Qed. EX*)
Lemma tls_poll_until : forall X n before h after ys, tls_sane h -> (tls_left h < n)%nat ->
  exists k, (k <= n)%nat /\
  fold_left (tls_incoming_step X) (repeat (TlsPoll (length before)) k) (mk_tls_incoming (before ++ h :: after) ys)
  = mk_tls_incoming (before ++ after) (ys ++ [inl (tls_fate X h)]).
Proof.
  intros X. induction n as [|n IH]; intros before h after ys Hs Hn; [lia|].
  pose proof (tls_poll_fate X h Hs) as HQ.
  assert (S1 : tls_incoming_step X (mk_tls_incoming (before ++ h :: after) ys) (TlsPoll (length before))
    = match tls_handshake_poll X h with
      | inl h' => mk_tls_incoming (before ++ h' :: after) ys
      | inr o => mk_tls_incoming (before ++ after) (ys ++ [inl o]) end).
  { cbn [tls_incoming_step ti_pending ti_yielded].
    rewrite nth_error_app2 by lia. rewrite Nat.sub_diag. cbn [nth_error].
    rewrite firstn_at, skipn_past. reflexivity. }
  destruct (tls_handshake_poll X h) as [h'|o] eqn:E.
  - destruct HQ as (Q1 & Q2 & Q3). destruct (IH before h' after ys Q2 ltac:(lia)) as (k & Hk & HF).
    exists (S k). split; [lia|]. cbn [repeat fold_left]. rewrite S1, HF, Q1. reflexivity.
  - exists 1%nat. split; [lia|]. cbn [repeat fold_left]. rewrite S1, HQ. reflexivity.
Qed.
(** [C47] And all of them can be brought to their end from any state. *)
Lemma tls_all_complete_proof : forall X es, exists polls, only_tls_polls polls /\
  let st := tls_incoming_run X (es ++ polls) in
  ti_pending st = [] /\ Permutation (map (tls_alone X) (tls_arrived es)) (outcomes (ti_yielded st)).
Proof.
  intros X es.
  assert (G : forall n es, length (ti_pending (tls_incoming_run X es)) = n -> exists polls, only_tls_polls polls /\
    ti_pending (tls_incoming_run X (es ++ polls)) = []).
  { induction n as [|n IH]; intros es0 Hn.
    - exists []. split; [constructor|]. rewrite app_nil_r.
      destruct (ti_pending (tls_incoming_run X es0)); [reflexivity|discriminate Hn].
    - destruct (tls_incoming_run X es0) as [[|h after] ys] eqn:E; [discriminate Hn|].
      destruct (tls_run_invariant X es0) as (H1 & _). rewrite E in H1. cbn [ti_pending] in H1.
      inversion H1 as [|h0 l0 Hh _]; subst h0 l0.
      destruct (tls_poll_until X (S (tls_left h)) [] h after ys Hh ltac:(lia)) as (k & _ & HF).
      cbn [app length] in HF. rewrite <- E in HF.
      assert (ti_pending (tls_incoming_run X (es0 ++ repeat (TlsPoll 0) k)) = after) as HA.
      { unfold tls_incoming_run in *. rewrite fold_left_app, HF. reflexivity. }
      destruct (IH (es0 ++ repeat (TlsPoll 0) k)) as (polls & P1 & P2).
      { rewrite HA. cbn [ti_pending length] in Hn. lia. }
      exists (repeat (TlsPoll 0) k ++ polls). split.
      + apply Forall_app. split; [|exact P1]. clear. induction k; cbn [repeat]; constructor; auto.
      + rewrite app_assoc. exact P2. }
  destruct (G _ es eq_refl) as (polls & P1 & P2). exists polls. split; [exact P1|]. cbv zeta.
  split; [exact P2|]. destruct (tls_run_invariant X (es ++ polls)) as (_ & H2 & _).
  rewrite P2 in H2. cbn [map] in H2. rewrite app_nil_r, tls_arrived_app in H2.
  assert (tls_arrived polls = []) as EA.
  { clear -P1. induction P1 as [|e polls He P1 IH]; [reflexivity|]. destruct e; try contradiction. exact IH. }
  rewrite EA, app_nil_r in H2. exact H2.
Qed.

(*EX
Example tls_all_complete_ex :
  let ok := mk_fw (mk_bm [] 0) [] [] [] in
  let es := [TlsConnection 1 2 None; TlsConnection 2 0 (Some ([], ok))] in
  forall X, map fst (outcomes (ti_yielded (tls_incoming_run X (es ++ [TlsPoll 0; TlsPoll 0; TlsPoll 0; TlsPoll 0])))) = [1; 2].
Proof. intros ok es X. vm_compute. reflexivity. Qed.
EX*)

