(** Reaching the server: addresses, ports and TLS; and the servers with TLS: C47, C51. *)
From Coq Require Import NArith ZArith String Bool List Lia Permutation.
From Coq.Strings Require Import Byte.
From Verif.Model Require Import Base Io Text Base64 WsKey Headers Handshake Codec Framed Http Connect Dial.
From Verif.Spec Require Import Fields HttpHead Connection Dialling.
From Verif.Proofs Require Import ExTac.
From Verif.Proofs Require ThmDial.
Import ListNotations.
Local Open Scope string_scope.
Local Open Scope list_scope.
Local Open Scope N_scope.

(** ** The client *)

(** [C51] Whichever of the three blocking functions is called, on whatever network: either the
    handshake is carried out on one connection and no other, and that is the one the URL and
    the way of connecting stand for: to the first address of the URL's host and port that
    answers, the earlier ones having been tried in order; encrypted for the URL's host with
    the caller's connector exactly when it has to be; and the outcome is that of the handshake
    on it.  Or there is no such connection, nothing is said, an error is returned and the
    builder is as before. *)
Theorem connect_transport : forall X W rnd ssl w b, says_port (b_url b) ->
  match connect_by X W rnd ssl w b with
  | (r, b', acts) =>
      (exists t, reaches W ssl w (b_url b) t /\ spoken acts = [t] /\
         connect_on X rnd b (fst (n_stream W t)) (snd (n_stream W t))
         = (r, b', snd (connect_on X rnd b (fst (n_stream W t)) (snd (n_stream W t)))))
      \/ (~ (exists t, reaches W ssl w (b_url b) t) /\ spoken acts = [] /\ b' = b /\ exists e, r = Err e)
  end.
Proof. exact ThmDial.connect_transport_proof. Qed.
Print Assumptions connect_transport.

(** A wss URL whose first address refuses; a default connector. *)
Example connect_transport_ex :
  let W := mk_network (fun _ _ => inl [1; 2]) (fun a => if a =? 1 then Some ConnectionReset else None)
             (Some 7) (fun _ _ _ => None) (fun _ => ([], mk_w [] []))
             (fun _ => ([], mk_fw (mk_bm [] 0) [] [] [])) in
  let u := mk_url (ascii "wss") (Some (ascii "h")) None [] None (ascii "/") in
  says_port u /\ reaches W None ByScheme u (Secured 7 (ascii "h") 2) /\
  forall X rnd, snd (connect_by X W rnd None ByScheme (builder_init u))
    = [Resolved (ascii "h") 443; Dialled 1; Dialled 2; Negotiated 7 (ascii "h") 2; Spoken (Secured 7 (ascii "h") 2)].
Proof.
  intros W u. split; [right; left; left; reflexivity|]. split.
  - exists (ascii "h"), 443, [1], 2, []. split; [split; [reflexivity|left; split; [left|]; reflexivity]|].
    split; [reflexivity|]. split; [constructor; [exists ConnectionReset; reflexivity|constructor]|].
    split; [reflexivity|]. left. split; [left; reflexivity|]. exists 7. split; [reflexivity|split; reflexivity].
  - intros X rnd. unfold connect_by, connect. cbn -[connect_on].
    destruct (connect_on X rnd (builder_init u) [] (mk_w [] [])) as [[r b'] w']. reflexivity.
Qed.

(** [C51] No other connection is right: the URL, the way and the network determine it. *)
Theorem reaches_unique : forall W ssl w u t t',
  reaches W ssl w u t -> reaches W ssl w u t' -> t = t'.
Proof. exact ThmDial.reaches_unique_proof. Qed.
Print Assumptions reaches_unique.

(** Each way of connecting to the same server stands for a connection of its own. *)
Example reaches_unique_ex :
  let W := mk_network (fun _ _ => inl [1]) (fun _ => None) (Some 7) (fun _ _ _ => None) (fun _ => ([], mk_w [] []))
             (fun _ => ([], mk_fw (mk_bm [] 0) [] [] [])) in
  let u := mk_url (ascii "ws") (Some (ascii "h")) (Some 9) [] None (ascii "/") in
  forall X rnd,
  spoken (snd (connect_by X W rnd None Never (builder_init u))) = [Plain 1] /\
  spoken (snd (connect_by X W rnd (Some 3) Always (builder_init u))) = [Secured 3 (ascii "h") 1].
Proof.
  intros W u X rnd. unfold connect_by. cbn -[connect_on].
  destruct (connect_on X rnd (builder_init u) [] (mk_w [] [])) as [[r b'] w']. split; reflexivity.
Qed.

(** [C51] So a wss URL is never spoken to in the clear by [connect], nor any URL by
    [connect_secure]; and the certificate is checked for the URL's host. *)
Theorem never_in_the_clear : forall X W rnd ssl w b r b' acts t,
  says_port (b_url b) -> encrypted w (b_url b) ->
  connect_by X W rnd ssl w b = (r, b', acts) -> In t (spoken acts) ->
  exists c host a, t = Secured c host a /\ u_host (b_url b) = Some host /\ connector_for W ssl c /\
    n_tls W c host a = None.
Proof. exact ThmDial.never_in_the_clear_proof. Qed.
Print Assumptions never_in_the_clear.

(** TLS fails: nothing is said. *)
Example never_in_the_clear_ex :
  let W := mk_network (fun _ _ => inl [1]) (fun _ => None) (Some 7) (fun _ _ _ => Some TlsFails) (fun _ => ([], mk_w [] []))
             (fun _ => ([], mk_fw (mk_bm [] 0) [] [] [])) in
  let u := mk_url (ascii "wss") (Some (ascii "h")) None [] None (ascii "/") in
  encrypted ByScheme u /\
  forall X rnd, snd (connect_by X W rnd None ByScheme (builder_init u))
    = [Resolved (ascii "h") 443; Dialled 1; Negotiated 7 (ascii "h") 1].
Proof. intros W u. split; [left; reflexivity|]. intros X rnd. reflexivity. Qed.

(** [C51] Errors: without a host nothing at all is done; if the name cannot be resolved the
    resolver's error is returned; if it has addresses and every one refuses, that of the last. *)
Theorem connect_errors : forall X W rnd ssl w b,
  (u_host (b_url b) = None -> connect_by X W rnd ssl w b = (Err NoHostName, b, [])) /\
  forall host port, says_port (b_url b) -> destination (b_url b) host port ->
    (forall k, n_resolve W host port = inr k ->
       connect_by X W rnd ssl w b = (Err (CWs (of_io k)), b, [Resolved host port])) /\
    (forall l a k, n_resolve W host port = inl (l ++ [a]) -> Forall (refuses W) (l ++ [a]) ->
       n_dial W a = Some k ->
       connect_by X W rnd ssl w b
       = (Err (CWs (of_io k)), b, Resolved host port :: map Dialled (l ++ [a]))).
Proof. exact ThmDial.connect_errors_proof. Qed.
Print Assumptions connect_errors.

(** Two addresses that refuse, each for its own reason. *)
Example connect_errors_ex :
  let W := mk_network (fun _ _ => inl [1; 2]) (fun a => Some (if a =? 1 then ConnectionReset else OtherKind 111)) None
             (fun _ _ _ => None) (fun _ => ([], mk_w [] [])) (fun _ => ([], mk_fw (mk_bm [] 0) [] [] [])) in
  let u := mk_url (ascii "ws") (Some (ascii "h")) None [] None (ascii "/") in
  says_port u /\ destination u (ascii "h") 80 /\ Forall (refuses W) ([1] ++ [2]) /\
  forall X rnd, connect_by X W rnd None ByScheme (builder_init u)
    = (Err (CWs (IoError (OtherKind 111))), builder_init u, [Resolved (ascii "h") 80; Dialled 1; Dialled 2]).
Proof.
  intros W u. split; [right; right; left; reflexivity|].
  split; [split; [reflexivity|right; split; [left|]; reflexivity]|].
  split; [repeat constructor; eexists; reflexivity|]. intros X rnd. reflexivity.
Qed.

(** ** Asynchronously *)

(** [C51] The same asynchronously, except that only the first address is ever tried. *)
Theorem async_connect_transport : forall X W rnd ssl extra w b, says_port (b_url b) ->
  match async_connect_by X W rnd ssl extra w b with
  | (r, acts) =>
      (exists t, areaches W ssl w (b_url b) t /\ spoken acts = [t] /\
         r = async_connect_on X rnd b extra (fst (n_astream W t)) (snd (n_astream W t)))
      \/ (~ (exists t, areaches W ssl w (b_url b) t) /\ spoken acts = [] /\ exists e, r = Err e)
  end.
Proof. exact ThmDial.async_connect_transport_proof. Qed.
Print Assumptions async_connect_transport.

Example async_connect_transport_ex :
  let W := mk_network (fun _ _ => inl [1; 2]) (fun _ => None) (Some 7) (fun _ _ _ => None) (fun _ => ([], mk_w [] []))
             (fun _ => ([], mk_fw (mk_bm [] 0) [] [] [])) in
  let u := mk_url (ascii "https") (Some (ascii "h")) (Some 8443) [] None (ascii "/") in
  areaches W (Some 3) ByScheme u (Secured 3 (ascii "h") 1) /\
  forall X rnd, spoken (snd (async_connect_by X W rnd (Some 3) 0 ByScheme (builder_init u))) = [Secured 3 (ascii "h") 1].
Proof.
  intros W u. split.
  - exists (ascii "h"), 8443, 1, [2]. split; [split; reflexivity|]. split; [reflexivity|]. split; [reflexivity|].
    left. split; [right; reflexivity|]. exists 3. split; [reflexivity|split; reflexivity].
  - intros X rnd. unfold async_connect_by. cbn -[async_connect_on]. reflexivity.
Qed.

(** [C51] Whenever the asynchronous functions reach a server, the blocking ones reach the same
    on the same connection. *)
Theorem async_reaches_same : forall W ssl w u t, areaches W ssl w u t -> reaches W ssl w u t.
Proof. exact ThmDial.async_reaches_same_proof. Qed.
Print Assumptions async_reaches_same.

(** The network above: the connection an asynchronous client speaks on is the one a blocking
    client speaks on. *)
Example async_reaches_same_ex :
  let W := mk_network (fun _ _ => inl [1; 2]) (fun _ => None) (Some 7) (fun _ _ _ => None) (fun _ => ([], mk_w [] []))
             (fun _ => ([], mk_fw (mk_bm [] 0) [] [] [])) in
  let u := mk_url (ascii "https") (Some (ascii "h")) (Some 8443) [] None (ascii "/") in
  forall X rnd, spoken (snd (connect_by X W rnd (Some 3) ByScheme (builder_init u))) = [Secured 3 (ascii "h") 1].
Proof.
  intros W u X rnd. unfold connect_by, connect. cbn -[connect_on].
  destruct (connect_on X rnd (builder_init u) [] (mk_w [] [])) as [[r b'] w']. reflexivity.
Qed.

(** [C51] The converse is refuted: with two addresses of which only the second answers, a
    blocking client speaks to the server and an asynchronous one gives up. *)
Theorem async_first_address_refuted : exists W u t,
  says_port u /\ reaches W None Never u t /\
  forall X rnd extra b, b_url b = u -> exists acts,
    async_connect_by X W rnd None extra Never b = (Err (CWs (IoError (OtherKind 111))), acts).
Proof. exact ThmDial.async_first_address_refuted_proof. Qed.
Print Assumptions async_first_address_refuted.

(** ** All that is done *)

(** [C51] Everything a blocking client does before and around its handshake, in order: it looks
    the URL's host and port up, tries the addresses in turn up to the first that answers,
    negotiates TLS on that connection, for the URL's host and with the caller's connector, if
    and only if the connection has to be encrypted, and speaks on it; and it does nothing
    after the first of these that fails. *)
Theorem connect_trail : forall X W rnd ssl w b, says_port (b_url b) ->
  trail W ssl w (b_url b) (snd (connect_by X W rnd ssl w b)).
Proof. exact ThmDial.connect_trail_proof. Qed.
Print Assumptions connect_trail.

(** [connect_secure] without a connector: the name is looked up, the first address refuses, the
    second answers, and the connection is given up. *)
Example connect_trail_ex :
  let W := mk_network (fun _ _ => inl [1; 2; 3]) (fun a => if a =? 1 then Some ConnectionReset else None)
             None (fun _ _ _ => None) (fun _ => ([], mk_w [] []))
             (fun _ => ([], mk_fw (mk_bm [] 0) [] [] [])) in
  let u := mk_url (ascii "ws") (Some (ascii "h")) (Some 8080) [] None (ascii "/") in
  says_port u /\
  forall X rnd,
    connect_by X W rnd None Always (builder_init u)
    = (Err CTlsError, builder_init u, [Resolved (ascii "h") 8080; Dialled 1; Dialled 2]) /\
    trail W None Always u [Resolved (ascii "h") 8080; Dialled 1; Dialled 2].
Proof.
  intros W u. split; [left; discriminate|]. intros X rnd.
  assert (connect_by X W rnd None Always (builder_init u)
    = (Err CTlsError, builder_init u, [Resolved (ascii "h") 8080; Dialled 1; Dialled 2])) as E by reflexivity.
  split; [exact E|]. assert (says_port (b_url (builder_init u))) as HS by (left; discriminate).
  pose proof (ThmDial.connect_trail_proof X W rnd None Always (builder_init u) HS) as H.
  rewrite E in H. exact H.
Qed.

(** [C51] Everything an asynchronous client does, likewise: it looks the name up, tries the
    first address and no other, negotiates TLS if and only if the connection has to be
    encrypted, and speaks.  If it has to be and there is no connector, it does not even
    connect, where a blocking client finds that out afterwards. *)
Theorem async_connect_trail : forall X W rnd ssl extra w b, says_port (b_url b) ->
  async_trail W ssl w (b_url b) (snd (async_connect_by X W rnd ssl extra w b)).
Proof. exact ThmDial.async_connect_trail_proof. Qed.
Print Assumptions async_connect_trail.

(** The URL and network of [connect_trail_ex]: nothing but the lookup.  With a connector the
    first address is tried; if that one answers, TLS comes before the handshake. *)
Example async_connect_trail_ex :
  let W d := mk_network (fun _ _ => inl [1; 2; 3]) d
             None (fun _ _ _ => None) (fun _ => ([], mk_w [] []))
             (fun _ => ([], mk_fw (mk_bm [] 0) [] [] [])) in
  let refuse := fun a => if a =? 1 then Some ConnectionReset else None in
  let u := mk_url (ascii "ws") (Some (ascii "h")) (Some 8080) [] None (ascii "/") in
  says_port u /\
  forall X rnd,
    async_connect_by X (W refuse) rnd None 0 Always (builder_init u)
    = (Err CTlsError, [Resolved (ascii "h") 8080]) /\
    snd (async_connect_by X (W refuse) rnd (Some 3) 0 Always (builder_init u))
    = [Resolved (ascii "h") 8080; Dialled 1] /\
    snd (async_connect_by X (W (fun _ => None)) rnd (Some 3) 0 Always (builder_init u))
    = [Resolved (ascii "h") 8080; Dialled 1; Negotiated 3 (ascii "h") 1; Spoken (Secured 3 (ascii "h") 1)].
Proof.
  intros W refuse u. split; [left; discriminate|]. intros X rnd.
  split; [reflexivity|]. split; [reflexivity|]. unfold async_connect_by. cbn -[async_connect_on]. reflexivity.
Qed.

(** ** The servers with TLS *)

(** [C51] A blocking server with TLS takes a request only from a connection whose TLS handshake
    succeeded, and then answers as a server without TLS would to what is inside. *)
Theorem server_inside_tls : forall X tls s w,
  (forall u, server_accept_tls X tls (Arrives s w) = Ok u ->
     exists s' w', tls s w = Some (s', w') /\ server_accept X (Arrives s' w') = Ok u) /\
  (forall s' w', tls s w = Some (s', w') ->
     server_accept_tls X tls (Arrives s w) = server_accept X (Arrives s' w')) /\
  (tls s w = None -> exists k, server_accept_tls X tls (Arrives s w) = Err (None, UpIo k)).
Proof. exact ThmDial.server_inside_tls_proof. Qed.
Print Assumptions server_inside_tls.

(** What is inside is what counts: the bytes outside are no request at all. *)
Example server_inside_tls_ex :
  let req := str "GET / HTTP/1.1" ++ [x0d; x0a] ++ str "Upgrade: websocket" ++ [x0d; x0a] ++ str "Connection: upgrade" ++
    [x0d; x0a] ++ str "Sec-WebSocket-Key: dGhlIHNhbXBsZSBub25jZQ==" ++ [x0d; x0a; x0d; x0a] in
  let tls (s : script) (w : wstream) := match s with [] => None | _ => Some (push_back req [], w) end in
  (exists u, server_accept_tls httparse_lib tls (Arrives [RData x16 [x03; x01]] (mk_w [] [])) = Ok u) /\
  (exists k, server_accept_tls httparse_lib tls (Arrives [] (mk_w [] [])) = Err (None, UpIo k)).
Proof. cbv zeta. split; eexists; vm_compute; reflexivity. Qed.

(** [C47] The asynchronous server with TLS: every connection yields one outcome, that of its
    own TLS and WebSocket handshakes, whatever the others do; the listener's errors in order. *)
Theorem tls_one_outcome_each : forall X es,
  let st := tls_incoming_run X es in
  exists open, length open = length (ti_pending st) /\
    Permutation (map (tls_alone X) (tls_arrived es)) (outcomes (ti_yielded st) ++ open) /\
    failures (ti_yielded st) = tls_listener_errors es.
Proof. exact ThmDial.tls_one_outcome_each_proof. Qed.
Print Assumptions tls_one_outcome_each.

Example tls_one_outcome_ex :
  let ok := mk_fw (mk_bm [] 0) [] [] [] in
  let es := [TlsConnection 1 2 None; TlsConnection 2 0 (Some ([], ok)); TlsPoll 1; TlsPoll 0] in
  forall X, exists o, ti_yielded (tls_incoming_run X es) = [inl (2, Some o)] /\
    length (ti_pending (tls_incoming_run X es)) = 1%nat.
Proof. intros ok es X. eexists. split; reflexivity. Qed.

(** [C47] And all of them can be brought to their end from any state. *)
Theorem tls_all_complete : forall X es, exists polls, only_tls_polls polls /\
  let st := tls_incoming_run X (es ++ polls) in
  ti_pending st = [] /\ Permutation (map (tls_alone X) (tls_arrived es)) (outcomes (ti_yielded st)).
Proof. exact ThmDial.tls_all_complete_proof. Qed.
Print Assumptions tls_all_complete.

Example tls_all_complete_ex :
  let ok := mk_fw (mk_bm [] 0) [] [] [] in
  let es := [TlsConnection 1 2 None; TlsConnection 2 0 (Some ([], ok))] in
  forall X, map fst (outcomes (ti_yielded (tls_incoming_run X (es ++ [TlsPoll 0; TlsPoll 0; TlsPoll 0; TlsPoll 0])))) = [1; 2].
Proof. intros ok es X. vm_compute. reflexivity. Qed.
