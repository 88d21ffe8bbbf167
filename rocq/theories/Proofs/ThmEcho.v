(** The example servers answer what they should: C66, C67. *)
From Coq Require Import NArith ZArith String Bool List Lia.
From Coq Require Import ZifyBool ZifyNat ZifyN.
From Coq.Strings Require Import Byte.
From Verif.Model Require Import Base Io Header Mask Dataframe Utf8 Text Base64 WsKey Headers
  Handshake Message Receiver Codec Framed Http Connect Examples.
From Verif.Spec Require Import RfcFrame FrameSpec Schedule Unicode Drive Session Connection Polled Fields Upgrade Builder HttpHead Wire Endpoint Echo.
From Verif.Proofs Require Import BaseFacts MaskFacts HeaderFacts FrameFacts CodecFacts ScriptFacts
  Machine FramedFacts AsyncFacts Utf8Facts ThmFrames ThmStream SessionFacts RecvFacts MessageFacts
  TextFacts MapFacts ExTac ThmMessages ThmFlow ThmLimits ThmServer ThmHttp ThmConnect ThmInterop ThmSession.
Import ListNotations.
Local Open Scope string_scope.
Local Open Scope list_scope.
Local Open Scope N_scope.

(** ** After the end *)

(** ** Sending *)

Lemma owned_sendable : forall m, typed m -> (control_message m -> size (payload_of m) <= 125) ->
  ops_sendable (owned_ops m).
Proof.
  intros m Ht Hc. destruct (proj2 (proj2 library_frames_honest_proof) m) as [Hs _].
  unfold ops_sendable. rewrite Hs, owned_payload by auto. clear Hs.
  destruct m as [d|d|[c|]|d|d]; cbn [owned_ops df_opcode mtype_u8] in *; unfold size in *;
    cbn [control_message] in Hc; try (specialize (Hc I)); lia.
Qed.

Lemma never_fails_write : forall w data, never_fails w ->
  exists w', write_all data w = (Ok tt, w') /\ w_out w' = w_out w ++ data /\ never_fails w'.
Proof.
  intros [out t] data H. unfold never_fails in *. cbn [w_script w_out] in *.
  destruct (write_never_fails t out data H) as (t' & E & H'). exists (mk_w (out ++ data) t').
  unfold write_all. cbn [w_script w_out]. auto.
Qed.

Lemma says_one : forall m k w, never_fails w -> sendable (2 ^ 34) m ->
  exists w', writer_send m k (mk_writer (mk_sender false) w) = (Ok tt, mk_writer (mk_sender false) w') /\
    octets (w_out w') = octets (w_out w) ++ server_says [m] /\ never_fails w'.
Proof.
  intros m k w Hw (Ht & Hs & Hc). pose proof (owned_sendable m Ht Hc) as HO.
  pose proof (proj2 (proj2 library_frames_honest_proof) m) as HH.
  pose proof (frame_bytes_ok (owned_ops m) None HO (proj2 HH)) as HB.
  set (data := header_bytes _ ++ _) in HB.
  destruct (never_fails_write w data Hw) as (w' & E & Eo & Hw').
  exists w'. split; [|split; [|exact Hw']].
  - unfold writer_send, writer_send_frame, send_frame, write_to. cbn [wr_sender s_mask wr_out].
    rewrite HB, E. reflexivity.
  - rewrite Eo, octets_app. f_equal. unfold server_says. cbn [map concat]. rewrite app_nil_r.
    rewrite <- owned_rfc by auto. apply frame_bytes_rfc; auto.
    rewrite owned_payload by auto. unfold size in Hs. clear - Hs. lia.
Qed.
Lemma says_app : forall a b, server_says (a ++ b) = server_says a ++ server_says b.
Proof. intros a b. unfold server_says. rewrite map_app. apply concat_app. Qed.

(** ** Receiving *)

Lemma delivers_control : forall p fs ms p' lim, delivers p fs ms p' -> fits lim fs ->
  Forall (fun m => control_message m -> size (payload_of m) <= 125) ms.
Proof.
  intros p fs ms p' lim H. induction H as [p|p m fs ms p' Hc Ht H IH|p f fs ms p' H1 H2 H3 H IH|p f fs m ms p' Ht Hf H IH];
    intros HF; [constructor| | |]; inversion HF as [|? ? [HL _] HF']; subst.
  - constructor; auto. intros _. apply legal_frame_ok in HL. destruct HL as [_ HL].
    unfold size. fold (llen (payload_of m)). apply HL.
    clear - Hc. destruct m; cbn in *; try contradiction; lia.
  - auto.
  - constructor; auto. intros Hc. inversion Hf; contradiction.
Qed.

Lemma recv_good : forall df msg r s m r' s',
  let r0 := receiver_with_limits true df msg in
  receiving r0 r -> pend_ok (r_buffer r) -> recv_message r s = (Ok m, r', s') ->
  sendable (2 ^ 34) m /\ receiving r0 r' /\ pend_ok (r_buffer r') /\
  (script_bytes s' < script_bytes s)%nat.
Proof.
  intros df msg r s m r' s' r0 HR HP H.
  destruct (receiving_inv r0 r) as (I1 & _); [apply capped_isize|reflexivity|exact HR|].
  assert (r_max_df r <= isize_max) as Hm by (rewrite I1; apply (capped_isize df)).
  assert (recv_n 1 r s = (map Ok [m], r', s')) as H1 by (cbn [recv_n]; rewrite H; reflexivity).
  apply recv_n_sound in H1; auto. destruct H1 as (l & L1 & L2 & L3 & L4).
  pose proof (wire_ok_fits _ _ _ L2) as HF.
  apply results_delivers in L3; auto.
  2:{ apply Forall_map. eapply Forall_impl; [|exact L2]. intros [f k] [[_ G1] _] H8. apply G1, H8. }
  destruct L3 as [HD HP']. split; [|split; [|split; [exact HP'|]]].
  - pose proof (memory_bounded_blocking_proof _ _ _ _ _ _ _ _ HR H) as (_ & _ & HB).
    specialize (HB m eq_refl). split; [|split].
    + rewrite I1 in H. unfold with_buffer, r0, receiver_with_limits in H.
      cbn [r_mask r_max_df r_max_msg] in H. rewrite capped_eq in H. eapply delivered_well_formed_blocking_proof, H.
    + clear - HB. unfold capped in HB. lia.
    + pose proof (delivers_control _ _ _ _ _ HD HF) as HC. inversion HC; auto.
  - econstructor; eauto.
  - rewrite !script_bytes_flat, L1, app_length.
    destruct l as [|[f key] l].
    { cbn [map] in HD. inversion HD. }
    rewrite encs_cons, app_length. cbn [fst snd]. unfold enc. rewrite app_length.
    unfold header_bytes. cbn [app length]. lia.
Qed.

(** ** Accepting *)

Lemma validate_key : forall m v h, validate m v h = Ok tt -> exists k, forall E, @get_key E h = Ok (Some k).
Proof.
  intros m v h H. unfold validate in H. destruct m; [|discriminate].
  assert (rbind (get_version h) (fun wv =>
    match wv with
    | Some (UnknownVersion _) => Err UnsupportedWebsocketVersion
    | _ => rbind (@get_key upgrade_error h) (fun k =>
       match k with
       | None => Err NoSecWsKeyHeader
       | Some _ =>
        rbind (get_upgrade h) (fun u =>
        match u with
        | None => Err NoUpgradeHeader
        | Some up =>
          if forallb (fun p => negb (is_websocket p)) up then Err NoWsUpgradeHeader else
          rbind (get_connection h) (fun c =>
          match c with
          | None => Err NoConnectionHeader
          | Some co => if check_connection_header co then Ok tt else Err NoWsConnectionHeader
          end)
        end)
       end) end) = Ok tt) as H1 by (destruct v; try discriminate; exact H).
  clear H. destruct (get_version h) as [wv| | |]; try discriminate H1. cbn [rbind] in H1.
  assert (exists k, @get_key upgrade_error h = Ok (Some k)) as (k & Hk).
  { destruct wv as [[]|]; try discriminate H1;
      (destruct (get_key h) as [[k|]| | |]; try discriminate H1; eauto). }
  exists k. intros E. revert Hk. unfold get_key, hget. destruct (hfind n_key h) as [[ls|x]|]; try discriminate.
  - intros Hk. injection Hk as ->. reflexivity.
  - destruct (as_key x); [|discriminate]. intros Hk. injection Hk as ->. reflexivity.
Qed.

Definition typed_items (h : headers) : Prop :=
  forallb (fun p : bytes * Headers.item => item_printable (snd p)) h = true.
Lemma typed_set : forall n x h, typed_items h -> typed_items (hset n (Typed x) h).
Proof.
  unfold typed_items. intros n x h. induction h as [|[m j] h IH]; intros H; [reflexivity|].
  cbn [forallb] in H. apply andb_prop in H as [H1 H2]. cbn [hset]. destruct (eq_nocase m n); cbn [forallb].
  - rewrite H2. reflexivity.
  - rewrite H1, IH by exact H2. reflexivity.
Qed.

Lemma accept_ok : forall df msg u, typed_items (up_headers u) -> never_fails (up_out u) ->
  validate (rq_method (up_request u)) (rq_version (up_request u)) (rq_headers (up_request u)) = Ok tt ->
  exists c, internal_accept None df msg u = Ok c /\ never_fails (c_out c).
Proof.
  intros df msg u HT HW HV. destruct (validate_key _ _ _ HV) as (k & HK).
  unfold internal_accept, prepare_headers. rewrite HK. cbn [rbind]. unfold print_response, print_headers.
  match goal with |- context[forallb ?f ?h] => assert (forallb f h = true) as -> end.
  { repeat apply typed_set. exact HT. }
  cbn [rbind]. match goal with |- context[write_all ?d ?w] => destruct (never_fails_write w d HW) as (w' & -> & _ & HW') end.
  eexists. split; [reflexivity|]. exact HW'.
Qed.

(** ** The loop of the echo server *)

Lemma reader_push : forall rc b s, reader_recv (mk_reader rc b s) = reader_recv (mk_reader rc [] (push_back b s)).
Proof. reflexivity. Qed.
Lemma client_pushes : forall n c, fst (client_recv_n n c)
  = fst (fst (recv_n n (c_receiver c) (push_back (c_buf c) (c_in c)))).
Proof.
  induction n as [|n IH]; intros c; [reflexivity|]. cbn [client_recv_n recv_n]. unfold client_recv.
  destruct (recv_message (c_receiver c) (push_back (c_buf c) (c_in c))) as [[x rc] s].
  match goal with |- context[client_recv_n n ?c'] => specialize (IH c') end.
  cbn [c_receiver c_buf c_in push_back] in IH. destruct (client_recv_n n _) as [l c2].
  destruct (recv_n n rc s) as [[l' r2] s2]. cbn [fst] in *. congruence.
Qed.

Definition last_word (x : result owned ws_error) : Prop :=
  match x with Ok m => closing m | Err _ => True | _ => False end.

Lemma close_sendable : sendable (2 ^ 34) (OClose None).
Proof. repeat split; cbn; lia. Qed.
Lemma pong_sendable : forall d, sendable (2 ^ 34) (OPing d) -> sendable (2 ^ 34) (OPong d).
Proof. intros d (A & B & C). repeat split; auto. Qed.

Lemma msg_close_owned : forall k w, writer_send_frame (msg_ops msg_close) k w = writer_send (OClose None) k w.
Proof. reflexivity. Qed.

Lemma autobahn_run : forall df msg fuel k r b s w,
  let r0 := receiver_with_limits true df msg in
  receiving r0 r -> pend_ok (r_buffer r) -> never_fails w ->
  (script_bytes (push_back b s) < fuel)%nat ->
  exists ms x r' s' w',
    recv_n (S (length ms)) r (push_back b s) = (map Ok ms ++ [x], r', s') /\
    Forall (fun m => ~ closing m) ms /\ last_word x /\
    autobahn_loop fuel k (mk_reader r b s) (mk_writer (mk_sender false) w)
      = (Returned, mk_writer (mk_sender false) w') /\
    octets (w_out w') = octets (w_out w) ++ server_says (flat_map echo ms ++ [OClose None]).
Proof.
  intros df msg fuel k. induction fuel as [|fuel IH]; intros r b s w r0 HR HP HW HF; [lia|].
  set (q := push_back b s) in *. cbn [autobahn_loop]. unfold reader_recv at 1.
  cbn [rd_receiver rd_buf rd_in]. fold q.
  destruct (receiving_inv r0 r) as (I1 & _); [apply capped_isize|reflexivity|exact HR|].
  assert (r_max_df r <= isize_max) as Hm by (rewrite I1; apply (capped_isize df)).
  pose proof (recv_message_any r q Hm) as HA.
  destruct (recv_message r q) as [[y r1] s1] eqn:E. cbn [fst snd].
  destruct y as [m|e| |]; cbn [msg_post] in HA; try contradiction.
  - destruct (recv_good df msg _ _ _ _ _ HR HP E) as (G1 & G2 & G3 & G4).
    assert (forall reply w1, flat_map echo [m] = reply -> ~ closing m -> never_fails w1 ->
      octets (w_out w1) = octets (w_out w) ++ server_says reply ->
      exists ms x r' s' w',
        recv_n (S (length ms)) r q = (map Ok ms ++ [x], r', s') /\
        Forall (fun m => ~ closing m) ms /\ last_word x /\
        autobahn_loop fuel k (mk_reader r1 [] s1) (mk_writer (mk_sender false) w1)
          = (Returned, mk_writer (mk_sender false) w') /\
        octets (w_out w') = octets (w_out w) ++ server_says (flat_map echo ms ++ [OClose None])) as NEXT.
    { intros reply w1 Er Hc HW1 Ho.
      destruct (IH r1 [] s1 w1 G2 G3 HW1) as (ms & x & r' & s' & w' & J1 & J2 & J3 & J4 & J5).
      { cbn [push_back]. lia. }
      exists (m :: ms), x, r', s', w'. cbn [push_back] in J1. split; [|split; [|split; [|split]]]; auto.
      - cbn [length]. remember (S (length ms)) as n. cbn [recv_n]. rewrite E, J1. reflexivity.
      - rewrite J5, Ho. change (m :: ms) with ([m] ++ ms). rewrite flat_map_app, Er, !says_app, <- !app_assoc.
        reflexivity. }
    destruct m as [d|d|c|d|d].
    + destruct (says_one (OText d) k w HW G1) as (w1 & -> & O1 & W1). apply (NEXT _ _ eq_refl); auto.
    + destruct (says_one (OBinary d) k w HW G1) as (w1 & -> & O1 & W1). apply (NEXT _ _ eq_refl); auto.
    + destruct (says_one (OClose None) k w HW close_sendable) as (w1 & -> & O1 & W1).
      exists [], (Ok (OClose c)), r1, s1, w1. split; [|split; [|split; [|split]]].
      * cbn [length recv_n]. rewrite E. reflexivity.
      * constructor.
      * exact I.
      * reflexivity.
      * exact O1.
    + destruct (says_one (OPong d) k w HW (pong_sendable d G1)) as (w1 & -> & O1 & W1).
      apply (NEXT _ _ eq_refl); auto.
    + apply (NEXT _ _ eq_refl); auto. cbn [server_says map concat]. rewrite app_nil_r. reflexivity.
  - rewrite msg_close_owned.
    destruct (says_one (OClose None) k w HW close_sendable) as (w1 & -> & O1 & W1).
    exists [], (Err e), r1, s1, w1. split; [|split; [|split; [|split]]].
    + cbn [length recv_n]. rewrite E. reflexivity.
    + constructor.
    + exact I.
    + reflexivity.
    + exact O1.
Qed.

Lemma same_words : forall ms ms' x x' r s a a' b b',
  recv_n (S (length ms)) r s = (map Ok ms ++ [x], a, b) ->
  recv_n (S (length ms')) r s = (map Ok ms' ++ [x'], a', b') ->
  Forall (fun m => ~ closing m) ms -> Forall (fun m => ~ closing m) ms' ->
  last_word x -> last_word x' -> ms = ms' /\ x = x'.
Proof.
  assert (forall n r s, recv_n (S n) r s =
    let '(x, r', s') := recv_message r s in let '(xs, r'', s'') := recv_n n r' s' in (x :: xs, r'', s'')) as RN
    by reflexivity.
  induction ms as [|m ms IH]; intros [|m' ms'] x x' r s a a' b b' H H' F F' L L'; cbn [length] in *;
    rewrite RN in H, H'; destruct (recv_message r s) as [[y r1] s1].
  - cbn [recv_n map app] in H, H'. split; congruence.
  - destruct (recv_n _ r1 s1) as [[ys r2] s2] in H'. cbn [recv_n map app] in H, H'.
    assert (x = Ok m') as -> by congruence. inversion F'; subst. contradiction.
  - destruct (recv_n (S (length ms)) r1 s1) as [[ys r2] s2]. cbn [recv_n map app] in H, H'.
    assert (x' = Ok m) as -> by congruence. inversion F; subst. contradiction.
  - destruct (recv_n (S (length ms)) r1 s1) as [[ys r2] s2] eqn:E1.
    destruct (recv_n (S (length ms')) r1 s1) as [[ys' r2'] s2'] eqn:E2.
    cbn [map app] in H, H'. assert (m = m') as <- by congruence.
    destruct (IH ms' x x' r1 s1 r2 r2' s2 s2') as [<- <-]; auto; try congruence.
    + inversion F; auto.
    + inversion F'; auto.
Qed.

Lemma recv_n_add : forall a b r s, recv_n (a + b) r s =
  let '(xs, r', s') := recv_n a r s in let '(ys, r'', s'') := recv_n b r' s' in (xs ++ ys, r'', s'').
Proof.
  induction a as [|a IH]; intros b r s; cbn [recv_n plus].
  - destruct (recv_n b r s) as [[ys r1] s1]. reflexivity.
  - destruct (recv_message r s) as [[x r1] s1]. rewrite IH.
    destruct (recv_n a r1 s1) as [[xs r2] s2]. destruct (recv_n b r2 s2) as [[ys r3] s3]. reflexivity.
Qed.

Lemma recv_n_first : forall n k r s, fst (fst (recv_n n r s)) = firstn n (fst (fst (recv_n (n + k) r s))).
Proof.
  induction n as [|n IH]; intros k r s; [reflexivity|]. cbn [recv_n plus].
  destruct (recv_message r s) as [[x r1] s1]. specialize (IH k r1 s1).
  destruct (recv_n n r1 s1) as [[a b] c], (recv_n (n + k) r1 s1) as [[a' b'] c']. cbn [fst firstn] in *.
  congruence.
Qed.

Lemma recv_delivered : forall masked df msg fs ms p ws rest s,
  delivers [] fs ms p -> under (capped msg) [] fs -> fits (capped df) fs -> on_wire masked fs ws ->
  carries s (ws ++ rest) ->
  fst (fst (recv_n (length ms) (receiver_with_limits masked df msg) s)) = map Ok ms.
Proof.
  intros masked df msg fs ms p ws rest s HD HU HF HW Hs. apply carries_iff in Hs as [Hc Hf].
  apply under_iff in HU. apply delivers_results in HD.
  destruct (on_wire_ok _ _ _ _ HW HF) as (l & L1 & L2 & L3).
  set (r := receiver_with_limits masked df msg).
  destruct (results_snd (S (length fs)) fs _ _ _ ltac:(lia) HD) as (b1 & fs2 & pre & R1 & _).
  destruct (recv_n_runs _ _ _ _ _ R1 l r s rest) as (s1 & l2 & E1 & _); auto.
  - congruence.
  - apply (capped_u32 df).
  - rewrite map_length in E1. rewrite E1. reflexivity.
Qed.

(** ** The echo server *)

Lemma autobahn_connection : forall X k s w u, never_fails w -> into_ws X s w = Ok u ->
  exists c ms x r' s' w', accept u = Ok c /\
    recv_n (S (length ms)) (c_receiver c) (push_back (c_buf c) (c_in c)) = (map Ok ms ++ [x], r', s') /\
    Forall (fun m => ~ closing m) ms /\ last_word x /\
    autobahn_server X None k s w = (Returned, w') /\
    octets (w_out w') = octets (w_out (c_out c)) ++ server_says (flat_map echo ms ++ [OClose None]).
Proof.
  intros X k s w u HW HI. pose proof HI as HI'. apply into_ws_inv in HI'.
  destruct HI' as (q & rest & s2 & HQ & HV & Hu).
  destruct (accept_ok SERVER_MAX_DATAFRAME_SIZE SERVER_MAX_MESSAGE_SIZE u) as (c & HA & HC);
    try (subst u; auto; reflexivity).
  pose proof HA as HA'. apply accept_inv in HA'. destruct HA' as (h & data & w1 & _ & _ & _ & Hc).
  assert (c_sender c = mk_sender false /\
    c_receiver c = receiver_with_limits true SERVER_MAX_DATAFRAME_SIZE SERVER_MAX_MESSAGE_SIZE) as [HS HR]
    by (subst c; split; reflexivity).
  destruct (autobahn_run SERVER_MAX_DATAFRAME_SIZE SERVER_MAX_MESSAGE_SIZE
    (S (script_bytes (push_back (c_buf c) (c_in c)))) k (c_receiver c) (c_buf c) (c_in c) (c_out c))
    as (ms & x & r' & s' & w' & J1 & J2 & J3 & J4 & J5); auto.
  { rewrite HR. constructor. }
  { rewrite HR. constructor. }
  exists c, ms, x, r', s', w'. split; [exact HA|]. split; [exact J1|]. split; [exact J2|].
  split; [exact J3|]. split; [|exact J5].
  unfold autobahn_server, server_accept. rewrite HI. unfold accept. rewrite HA.
  unfold split. rewrite HS. unfold loop_fuel. cbn [rd_buf rd_in]. rewrite J4. reflexivity.
Qed.

(** [C66] Whatever a client sends, and however its stream fails: if its handshake is refused,
    the echo server of the Autobahn tests writes nothing; otherwise it completes the handshake,
    receives messages up to the first Close or the first error, answers each of them - with
    exactly the bytes RFC 6455 says - and then writes one Close and nothing else.  It does not
    panic as long as its writes do not fail. *)
Lemma echo_server_proof : forall X k s w, never_fails w ->
  (forall f, into_ws X s w = Err f -> autobahn_server X None k s w = (Dropped, w)) /\
  (forall u, into_ws X s w = Ok u ->
   exists c ms x w', accept u = Ok c /\
    fst (client_recv_n (S (length ms)) c) = map Ok ms ++ [x] /\
    Forall (fun m => ~ closing m) ms /\
    match x with Ok m => closing m | Err _ => True | _ => False end /\
    autobahn_server X None k s w = (Returned, w') /\
    octets (w_out w') = octets (w_out (c_out c)) ++ server_says (flat_map echo ms ++ [OClose None])).
Proof.
  intros X k s w HW. split.
  - intros f H. unfold autobahn_server, server_accept. rewrite H. unfold into_ws in H.
    destruct (parse_request X s) as [[[q|e| |] rest] s2]; try discriminate H.
    + destruct (validate _ _ _); try discriminate H. injection H as <-. reflexivity.
    + injection H as <-. reflexivity.
  - intros u H. destruct (autobahn_connection X k s w u HW H) as (c & ms & x & r' & s' & w' & H1 & H2 & H3 & H4 & H5 & H6).
    exists c, ms, x, w'. rewrite client_pushes, H2. auto 10.
Qed.
(*EX
Definition a_request : bytes := str "GET / HTTP/1.1" ++ crlf ++ str "Upgrade: websocket" ++ crlf ++ str "Connection: upgrade" ++ crlf ++
  str "Sec-WebSocket-Key: dGhlIHNhbXBsZSBub25jZQ==" ++ crlf ++ crlf.
Definition no_key : mkey := mk_key x00 x00 x00 x00.
Definition zeros : bytes := [x00; x00; x00; x00].
Definition slow : wstream := mk_w [] [WAccept 3; WIntr].
(** A client sends a text, a ping, a fragment, a pong, and a Close with a status; what follows
    is not looked at. *)
Example echo_server_ex :
  let sent := [x81; x82] ++ zeros ++ str "hi" ++ [x89; x81] ++ zeros ++ str "p" ++ [x01; x81] ++ zeros ++ str "f" ++
    [x8a; x80] ++ zeros ++ [x88; x82] ++ zeros ++ [x03; xe8] ++ [xff; xff] in
  exists c u, into_ws httparse_lib (push_back (a_request ++ sent) []) slow = Ok u /\ accept u = Ok c /\ never_fails slow /\
    autobahn_server httparse_lib None no_key (push_back (a_request ++ sent) []) slow
    = (Returned, mk_w (w_out (c_out c) ++ [x81; x02] ++ str "hi" ++ [x8a; x01] ++ str "p" ++ [x88; x00]) []).
Proof.
  cbv zeta. eexists _, _. split; [vm_compute; reflexivity|]. split; [vm_compute; reflexivity|].
  split; [repeat constructor|]. vm_compute. reflexivity.
Qed.
(** A request that is refused. *)
Example echo_refused_ex :
  autobahn_server httparse_lib None no_key (push_back (str "GET / HTTP/1.1" ++ crlf ++ crlf) []) slow = (Dropped, slow).
Proof. vm_compute. reflexivity. Qed.
EX*)

(** [C66] A client that, after the handshake, sends any legal sequence of frames within the
    limits, cut into reads in any way, gets the answer to every message, in order, then a Close:
    whether it closes the stream - even inside a message - ... *)
Lemma echo_until_end_proof : forall X k s w u c fs ms p ws, never_fails w ->
  into_ws X s w = Ok u -> accept u = Ok c ->
  carries (push_back (c_buf c) (c_in c)) ws ->
  delivers [] fs ms p -> under 209715200 [] fs -> fits 104857600 fs -> on_wire true fs ws ->
  Forall (fun m => ~ closing m) ms ->
  exists w', autobahn_server X None k s w = (Returned, w') /\
    octets (w_out w') = octets (w_out (c_out c)) ++ server_says (flat_map echo ms ++ [OClose None]).
Proof.
  intros X k s w u c fs ms p ws HW HI HA Hs HD HU HF HO HN.
  destruct (autobahn_connection X k s w u HW HI) as (c' & ms' & x & r' & s' & w' & H1 & H2 & H3 & H4 & H5 & H6).
  rewrite HA in H1. injection H1 as <-. exists w'. split; [exact H5|].
  apply accept_inv in HA. destruct HA as (h & data & w1 & _ & _ & _ & Hc).
  assert (c_receiver c = receiver_with_limits true SERVER_MAX_DATAFRAME_SIZE SERVER_MAX_MESSAGE_SIZE) as HR
    by (subst c; reflexivity).
  rewrite HR in H2.
  destruct (legal_frames_received_blocking_proof true SERVER_MAX_DATAFRAME_SIZE SERVER_MAX_MESSAGE_SIZE
    fs ms p ws _ HD HU HF HO Hs) as (r1 & s1 & r2 & s2 & E1 & E2 & _).
  assert (recv_n (S (length ms)) (receiver_with_limits true SERVER_MAX_DATAFRAME_SIZE SERVER_MAX_MESSAGE_SIZE)
    (push_back (c_buf c) (c_in c)) = (map Ok ms ++ [Err NoDataAvailable], r2, s2)) as E.
  { replace (S (length ms)) with (length ms + 1)%nat by lia. rewrite recv_n_add, E1. cbn [recv_n].
    rewrite E2. reflexivity. }
  destruct (same_words _ _ _ _ _ _ _ _ _ _ E H2) as [-> _]; auto. exact I.
Qed.

(*EX Example echo_until_end_ex :
  let f := mk_df false no_rsv Text (str "f") in
  let fs := [f; whole_frame (OPing [])] in
  let ws := ([x01; x81] ++ zeros ++ str "f") ++ [x89; x80] ++ zeros in
  exists u c, into_ws httparse_lib (push_back a_request (push_back ws [])) slow = Ok u /\ accept u = Ok c /\
    carries (push_back (c_buf c) (c_in c)) ws /\
    delivers [] fs [OPing []] [f] /\ under 209715200 [] fs /\ fits 104857600 fs /\ on_wire true fs ws /\
    autobahn_server httparse_lib None no_key (push_back a_request (push_back ws [])) slow
    = (Returned, mk_w (w_out (c_out c) ++ [x8a; x00; x88; x00]) []).
Proof.
  cbv zeta. eexists _, _. split; [vm_compute; reflexivity|]. split; [vm_compute; reflexivity|]. split.
  { vm_compute. rewrite <- app_nil_r. apply (carries_data x01). constructor. }
  split; [|split; [|split; [|split]]].
  - apply del_fragment; [reflexivity|reflexivity|split; [discriminate|reflexivity]|].
    apply del_control; [exact I|exact I|]. constructor.
  - vm_compute. repeat split.
  - unfold fits. facts.
  - apply (wire_cons _ _ (Some no_key) ([x01; x81] ++ zeros ++ str "f")); [reflexivity|reflexivity|].
    rewrite <- app_nil_r. apply (wire_cons _ _ (Some no_key) ([x89; x80] ++ zeros) []); [reflexivity|reflexivity|]. constructor.
  - vm_compute. reflexivity.
Qed. EX*)

(** [C66] ... or sends a Close, after which nothing it sends matters. *)
Lemma echo_until_close_proof : forall X k s w u c fs ms cl more p ws rest, never_fails w ->
  into_ws X s w = Ok u -> accept u = Ok c ->
  carries (push_back (c_buf c) (c_in c)) (ws ++ rest) ->
  delivers [] fs (ms ++ OClose cl :: more) p -> under 209715200 [] fs -> fits 104857600 fs -> on_wire true fs ws ->
  Forall (fun m => ~ closing m) ms ->
  exists w', autobahn_server X None k s w = (Returned, w') /\
    octets (w_out w') = octets (w_out (c_out c)) ++ server_says (flat_map echo ms ++ [OClose None]).
Proof.
  intros X k s w u c fs ms cl more p ws rest HW HI HA Hs HD HU HF HO HN.
  destruct (autobahn_connection X k s w u HW HI) as (c' & ms' & x & r' & s' & w' & H1 & H2 & H3 & H4 & H5 & H6).
  rewrite HA in H1. injection H1 as <-. exists w'. split; [exact H5|].
  apply accept_inv in HA. destruct HA as (h & data & w1 & _ & _ & _ & Hc).
  assert (c_receiver c = receiver_with_limits true SERVER_MAX_DATAFRAME_SIZE SERVER_MAX_MESSAGE_SIZE) as HR
    by (subst c; reflexivity).
  rewrite HR in H2.
  pose proof (recv_delivered true SERVER_MAX_DATAFRAME_SIZE SERVER_MAX_MESSAGE_SIZE
    fs _ p ws rest _ HD HU HF HO Hs) as E1.
  rewrite app_length in E1. cbn [length] in E1.
  replace (length ms + S (length more))%nat with (S (length ms) + length more)%nat in E1 by lia.
  pose proof (recv_n_first (S (length ms)) (length more)
    (receiver_with_limits true SERVER_MAX_DATAFRAME_SIZE SERVER_MAX_MESSAGE_SIZE) (push_back (c_buf c) (c_in c))) as E2.
  rewrite E1, map_app in E2. cbn [map] in E2.
  destruct (recv_n (S (length ms)) _ _) as [[xs r2] s2] eqn:E. cbn [fst] in E2.
  assert (xs = map Ok ms ++ [Ok (OClose cl)]) as ->.
  { rewrite E2. rewrite firstn_app, firstn_all2 by (rewrite map_length; lia).
    rewrite map_length. replace (S (length ms) - length ms)%nat with 1%nat by lia. reflexivity. }
  destruct (same_words _ _ _ _ _ _ _ _ _ _ E H2) as [-> _]; auto. exact I.
Qed.
(*EX
(** After the Close comes what is no frame at all. *)
Example echo_until_close_ex :
  let fs := [whole_frame (OText (str "a")); whole_frame (OClose None)] in
  let ws := ([x81; x81] ++ zeros ++ str "a") ++ [x88; x80] ++ zeros in
  exists u c, into_ws httparse_lib (push_back a_request (push_back (ws ++ [xff]) [])) slow = Ok u /\ accept u = Ok c /\
    carries (push_back (c_buf c) (c_in c)) (ws ++ [xff]) /\
    delivers [] fs ([OText (str "a")] ++ OClose None :: []) [] /\ under 209715200 [] fs /\ fits 104857600 fs /\ on_wire true fs ws /\
    autobahn_server httparse_lib None no_key (push_back a_request (push_back (ws ++ [xff]) [])) slow
    = (Returned, mk_w (w_out (c_out c) ++ [x81; x01; x61; x88; x00]) []).
Proof.
  cbv zeta. eexists _, _. split; [vm_compute; reflexivity|]. split; [vm_compute; reflexivity|]. split.
  { vm_compute. rewrite <- app_nil_r. apply (carries_data x81). constructor. }
  split; [|split; [|split; [|split]]].
  - apply (del_message _ _ _ (OText (str "a"))); [facts|apply (frag_whole (OText (str "a"))); intros []|].
    apply del_control; [exact I|exact I|]. constructor.
  - vm_compute. repeat split.
  - unfold fits. facts.
  - apply (wire_cons _ _ (Some no_key) ([x81; x81] ++ zeros ++ str "a")); [reflexivity|reflexivity|].
    rewrite <- app_nil_r. apply (wire_cons _ _ (Some no_key) ([x88; x80] ++ zeros) []); [reflexivity|reflexivity|]. constructor.
  - vm_compute. reflexivity.
Qed.
EX*)

Lemma says_encs : forall ms, server_says ms = octets (encs (masked_frames false (map (fun m => (m, mk_key x00 x00 x00 x00)) ms))).
Proof.
  intros ms. unfold server_says, masked_frames. induction ms as [|m ms IH]; [reflexivity|].
  cbn [map concat]. rewrite encs_cons, octets_app, <- IH. cbn [fst snd]. f_equal.
  symmetry. apply (enc_rfc (whole_frame m) None).
Qed.
Lemma echo_sendable : forall d ms, Forall (sendable d) ms -> Forall (sendable d) (flat_map echo ms ++ [OClose None]).
Proof.
  intros d ms H. apply Forall_app. split.
  - induction H as [|m ms (H1 & H2 & H3) H IH]; [constructor|]. cbn [flat_map].
    destruct m as [x|x|c|x|x]; cbn [echo app]; auto; constructor; auto; repeat split; auto.
  - constructor; [|constructor]. repeat split; cbn; lia.
Qed.

(** [C66] A client of this library and the echo server: the client gets back what it sent -
    texts and binaries as they are, pings as pongs - in the order in which it sent it, then a
    Close, whatever its own kind, its keys, and what the transports do between the two. *)
Lemma echo_conversation_proof : forall X d ce l wire k s w u c,
  client_end X d ce -> puts ce l wire -> Forall (fun p => ~ closing (fst p)) l ->
  Forall (fun p => sendable (capped d) (fst p) /\ sendable 104857600 (fst p)) l ->
  never_fails w -> into_ws X s w = Ok u -> accept u = Ok c ->
  carries (push_back (c_buf c) (c_in c)) wire ->
  exists w' back, autobahn_server X None k s w = (Returned, w') /\
    w_out w' = w_out (c_out c) ++ back /\
    gets ce back (flat_map echo (map fst l) ++ [OClose None]).
Proof.
  intros X d ce l wire k s w u c HC HP HN HL HW HI HA Hs.
  set (max := 104857600) in HL.
  assert (max < 2 ^ 64) as Hmax by (unfold max; lia).
  assert (Forall (fun p => sendable max (fst p)) l) as HL2 by (eapply Forall_impl; [|exact HL]; intros p H; apply H).
  assert (Forall (fun p => sendable (capped d) (fst p)) l) as HL1 by (eapply Forall_impl; [|exact HL]; intros p H; apply H).
  rewrite (client_wire X d ce l wire max HC Hmax HL2 HP) in Hs.
  destruct (echo_until_end_proof X k s w u c (map whole_frame (map fst l)) (map fst l) []
    (encs (masked_frames true l)) HW HI HA Hs) as (w' & E1 & E2).
  - eapply whole_results. apply Forall_map. exact HL2.
  - change 209715200 with (capped 209715200). apply under_iff. apply whole_within.
  - pose proof (wire_ok_fits _ _ _ (masked_frames_ok true _ l Hmax HL2)) as HO.
    unfold masked_frames in HO. rewrite map_map in HO. cbn [fst] in HO. rewrite map_map. exact HO.
  - pose proof (encs_on_wire _ _ _ (masked_frames_ok true _ l Hmax HL2)) as HO.
    unfold masked_frames in HO at 1. rewrite map_map in HO. cbn [fst] in HO. rewrite map_map. exact HO.
  - apply Forall_map. exact HN.
  - set (ms := flat_map echo (map fst l) ++ [OClose None]) in *.
    set (l2 := map (fun m => (m, mk_key x00 x00 x00 x00)) ms).
    exists w', (encs (masked_frames false l2)). split; [exact E1|]. split.
    + apply octets_inj. rewrite octets_app, E2, says_encs. reflexivity.
    + assert (map fst l2 = ms) as Hms by (unfold l2; rewrite map_map; cbn [fst]; apply map_id).
      rewrite <- Hms.
      assert (Forall (fun p => sendable (capped d) (fst p)) l2) as HL3.
      { unfold l2. apply Forall_map. cbn [fst]. apply echo_sendable. apply Forall_map. exact HL1. }
      destruct ce as [cc|a].
      * destruct (client_end_blocking _ _ _ HC) as (_ & HR). eapply blocking_gets; eassumption.
      * destruct (client_end_async _ _ _ HC) as (msg & HR).
        exact (async_gets a CtxClient d msg l2 HR HL3).
Qed.

(*EX
(** A client, through its own handshake, sends a text and a ping; the server, given exactly the
    bytes this puts on the wire, sends the text, a pong and a Close, which the client gets. *)
Example echo_conversation_ex :
  let u := mk_url (ascii "ws") (Some (ascii "h")) None [] None (ascii "/") in
  let head := str "HTTP/1.1 101 Switching Protocols" ++ crlf ++ str "Connection: Upgrade" ++ crlf ++
    str "Upgrade: websocket" ++ crlf ++ str "Sec-WebSocket-Accept: s3pPLMBiTxaQ9kYGzzhZRbK+xOo=" ++ crlf ++ crlf in
  let back := [x81; x02] ++ str "hi" ++ [x8a; x00; x88; x00] in
  let wire := [x81; x82; x01; x02; x03; x04; x69; x6b] ++ [x89; x80; x00; x00; x00; x00] in
  exists cc b' w' sc up,
    connect_on httparse_lib (ascii "the sample nonce") (builder_init u) (push_back head (push_back back [])) (mk_w [] []) = (Ok cc, b', w') /\
    puts (Blocking cc) [(OText (str "hi"), mk_key x01 x02 x03 x04); (OPing [], no_key)] wire /\
    into_ws httparse_lib (push_back a_request (push_back wire [])) slow = Ok up /\ accept up = Ok sc /\
    autobahn_server httparse_lib None no_key (push_back a_request (push_back wire [])) slow
    = (Returned, mk_w (w_out (c_out sc) ++ back) []) /\
    fst (client_recv_n 3 cc) = [Ok (OText (str "hi")); Ok (OPong []); Ok (OClose None)].
Proof.
  cbv zeta. eexists _, _, _, _, _. split; [vm_compute; reflexivity|]. split.
  { eapply blocking_puts; [vm_compute; reflexivity| |vm_compute; reflexivity]. repeat constructor. }
  split; [vm_compute; reflexivity|]. split; [vm_compute; reflexivity|].
  split; [vm_compute; reflexivity|]. vm_compute. reflexivity.
Qed.
EX*)

(** ** The example server *)

Lemma server_run : forall df msg fuel k r b s w,
  let r0 := receiver_with_limits true df msg in
  receiving r0 r -> pend_ok (r_buffer r) -> never_fails w ->
  (script_bytes (push_back b s) < fuel)%nat ->
  exists ms x r' s' w',
    recv_n (S (length ms)) r (push_back b s) = (map Ok ms ++ [x], r', s') /\
    Forall (fun m => ~ closing m) ms /\ last_word x /\
    server_loop fuel k (mk_reader r b s) (mk_writer (mk_sender false) w)
      = (match x with Ok _ => Returned | _ => Panicked end, mk_writer (mk_sender false) w') /\
    octets (w_out w') = octets (w_out w) ++
      server_says (flat_map echo_all ms ++ match x with Ok _ => [OClose None] | _ => [] end).
Proof.
  intros df msg fuel k. induction fuel as [|fuel IH]; intros r b s w r0 HR HP HW HF; [lia|].
  set (q := push_back b s) in *. cbn [server_loop]. unfold reader_recv at 1.
  cbn [rd_receiver rd_buf rd_in]. fold q.
  destruct (receiving_inv r0 r) as (I1 & _); [apply capped_isize|reflexivity|exact HR|].
  assert (r_max_df r <= isize_max) as Hm by (rewrite I1; apply (capped_isize df)).
  pose proof (recv_message_any r q Hm) as HA.
  destruct (recv_message r q) as [[y r1] s1] eqn:E. cbn [fst snd].
  destruct y as [m|e| |]; cbn [msg_post] in HA; try contradiction.
  - destruct (recv_good df msg _ _ _ _ _ HR HP E) as (G1 & G2 & G3 & G4).
    assert (forall reply w1, flat_map echo_all [m] = reply -> ~ closing m -> never_fails w1 ->
      octets (w_out w1) = octets (w_out w) ++ server_says reply ->
      exists ms x r' s' w',
        recv_n (S (length ms)) r q = (map Ok ms ++ [x], r', s') /\
        Forall (fun m => ~ closing m) ms /\ last_word x /\
        server_loop fuel k (mk_reader r1 [] s1) (mk_writer (mk_sender false) w1)
          = (match x with Ok _ => Returned | _ => Panicked end, mk_writer (mk_sender false) w') /\
        octets (w_out w') = octets (w_out w) ++
          server_says (flat_map echo_all ms ++ match x with Ok _ => [OClose None] | _ => [] end)) as NEXT.
    { intros reply w1 Er Hc HW1 Ho.
      destruct (IH r1 [] s1 w1 G2 G3 HW1) as (ms & x & r' & s' & w' & J1 & J2 & J3 & J4 & J5).
      { cbn [push_back]. lia. }
      exists (m :: ms), x, r', s', w'. cbn [push_back] in J1. split; [|split; [|split; [|split]]]; auto.
      - cbn [length]. remember (S (length ms)) as n. cbn [recv_n]. rewrite E, J1. reflexivity.
      - rewrite J5, Ho. change (m :: ms) with ([m] ++ ms). rewrite flat_map_app, Er, !says_app, <- !app_assoc.
        reflexivity. }
    destruct m as [d|d|c|d|d].
    + destruct (says_one (OText d) k w HW G1) as (w1 & -> & O1 & W1). apply (NEXT _ _ eq_refl); auto.
    + destruct (says_one (OBinary d) k w HW G1) as (w1 & -> & O1 & W1). apply (NEXT _ _ eq_refl); auto.
    + destruct (says_one (OClose None) k w HW close_sendable) as (w1 & -> & O1 & W1).
      exists [], (Ok (OClose c)), r1, s1, w1. split; [|split; [|split; [|split]]].
      * cbn [length recv_n]. rewrite E. reflexivity.
      * constructor.
      * exact I.
      * reflexivity.
      * exact O1.
    + destruct (says_one (OPong d) k w HW (pong_sendable d G1)) as (w1 & -> & O1 & W1).
      apply (NEXT _ _ eq_refl); auto.
    + destruct (says_one (OPong d) k w HW G1) as (w1 & -> & O1 & W1). apply (NEXT _ _ eq_refl); auto.
  - exists [], (Err e), r1, s1, w. split; [|split; [|split; [|split]]].
    + cbn [length recv_n]. rewrite E. reflexivity.
    + constructor.
    + exact I.
    + reflexivity.
    + cbn. rewrite app_nil_r. reflexivity.
Qed.

Lemma reject_ok : forall u, up_headers u = [] -> never_fails (up_out u) ->
  exists w', reject None u = Ok (up_in u, w') /\
    w_out w' = w_out (up_out u) ++ print_version_http (rq_version (up_request u)) ++ str " 400 Bad Request" ++ crlf ++ crlf.
Proof.
  intros u HU HW. unfold reject, reject_headers. rewrite HU. unfold print_response, print_headers.
  cbn [forallb rbind]. match goal with |- context[write_all ?d ?w] => destruct (never_fails_write w d HW) as (w' & -> & E & HW') end.
  exists w'. split; [reflexivity|]. rewrite E. f_equal.
Qed.

Lemma existsb_beqb : forall p l, existsb (beqb p) l = true <-> In p l.
Proof.
  intros p l. rewrite existsb_exists. split.
  - intros (x & H & E). apply beqb_eq in E. subst. exact H.
  - intros H. exists p. split; [exact H|]. apply beqb_eq. reflexivity.
Qed.

(** [C67] The example server: a refused handshake leaves nothing written; a client that does
    not offer the protocol "rust-websocket" gets a rejection and nothing else; any other client
    gets the acceptance, the message "Hello", and the answer to each message up to the first
    Close or the first error.  If it is a Close, the server answers with a Close; if it is an
    error, the thread of the connection panics without one. *)
Lemma example_answers_proof : forall X k s w, sound_lib X -> never_fails w ->
  (forall f, into_ws X s w = Err f -> example_server X true None k s w = (Dropped, w)) /\
  (forall u, into_ws X s w = Ok u ->
   exists ps, @seen_protocols unit (up_request u) = Ok ps /\
   (~ In (ascii "rust-websocket") ps ->
    exists w', example_server X true None k s w = (Returned, w') /\
      w_out w' = w_out w ++ ascii "HTTP/1.1 400 Bad Request" ++ crlf ++ crlf) /\
   (In (ascii "rust-websocket") ps ->
    exists h c ms x w', @use_protocol unit (ascii "rust-websocket") [] = Ok h /\
      accept (mk_upgrade h (up_request u) (up_buffer u) (up_in u) (up_out u)) = Ok c /\
      fst (client_recv_n (S (length ms)) c) = map Ok ms ++ [x] /\
      Forall (fun m => ~ closing m) ms /\
      match x with
      | Ok m => closing m /\ example_server X true None k s w = (Returned, w') /\
          octets (w_out w') = octets (w_out (c_out c)) ++
            server_says (OText (ascii "Hello") :: flat_map echo_all ms ++ [OClose None])
      | Err e => example_server X true None k s w = (Panicked, w') /\
          octets (w_out w') = octets (w_out (c_out c)) ++
            server_says (OText (ascii "Hello") :: flat_map echo_all ms)
      | _ => False
      end)).
Proof.
  intros X k s w HS HW. split.
  - intros f H. unfold example_server, server_accept. rewrite H. unfold into_ws in H.
    destruct (parse_request X s) as [[[q|e| |] rest] s2]; try discriminate H.
    + destruct (validate _ _ _); try discriminate H. injection H as <-. reflexivity.
    + injection H as <-. reflexivity.
  - intros u HI. pose proof HI as HI'. apply into_ws_inv in HI'.
    destruct HI' as (q & rest & s2 & HQ & HV & Hu).
    destruct (sync_request_only_proof X s q rest s2 HS HQ) as (head & m & t & v & fs & _ & HH & _ & _ & Hq).
    assert (v = Http11) as ->.
    { destruct HH as (? & vt & ? & ? & _ & _ & _ & _ & Hv & _). rewrite Hq in HV. cbn [rq_method rq_version] in HV.
      unfold validate in HV. inversion Hv; subst; [|reflexivity]. destruct (method_named m); discriminate HV. }
    clear HH.
    assert (up_headers u = [] /\ up_out u = w /\ up_request u = q) as (U1 & U2 & U3) by (subst u; auto).
    assert (exists ps, @seen_protocols unit (up_request u) = Ok ps) as (ps & HP).
    { rewrite U3, Hq. unfold seen_protocols, protocols, get_protocols. cbn [rq_headers].
      rewrite hget_from_raw. cbn [rbind]. eexists. reflexivity. }
    exists ps. split; [exact HP|].
    pose proof (existsb_beqb (ascii "rust-websocket") ps) as HB'.
    change (ascii "rust-websocket") with example_protocol in *.
    unfold example_server, server_accept. rewrite HI, HP.
    destruct (existsb (beqb example_protocol) ps) eqn:EP; split; intros HIn.
    + exfalso. apply HIn, HB'. reflexivity.
    + clear HB'. cbn [negb]. set (h := [(n_protocol, Typed (VProtocol [example_protocol]))]).
      assert (@use_protocol unit example_protocol (up_headers u) = Ok h) as HU by (rewrite U1; reflexivity).
      rewrite HU. set (u' := mk_upgrade h (up_request u) (up_buffer u) (up_in u) (up_out u)).
      destruct (accept_ok SERVER_MAX_DATAFRAME_SIZE SERVER_MAX_MESSAGE_SIZE u') as (c & HA & HC).
      { reflexivity. }
      { unfold u'. cbn [up_out]. rewrite U2. exact HW. }
      { unfold u'. cbn [up_request]. rewrite U3. exact HV. }
      pose proof HA as HA'. apply accept_inv in HA'. destruct HA' as (h1 & data & w1 & _ & _ & _ & Hc).
      assert (c_sender c = mk_sender false /\
        c_receiver c = receiver_with_limits true SERVER_MAX_DATAFRAME_SIZE SERVER_MAX_MESSAGE_SIZE) as [HSe HR]
        by (subst c; split; reflexivity).
      destruct (says_one (OText (str "Hello")) k (c_out c) HC) as (w2 & E2 & O2 & W2).
      { facts. }
      destruct (server_run SERVER_MAX_DATAFRAME_SIZE SERVER_MAX_MESSAGE_SIZE
        (S (script_bytes (push_back (c_buf c) (c_in c)))) k (c_receiver c) (c_buf c) (c_in c) w2)
        as (ms & x & r' & s' & w' & J1 & J2 & J3 & J4 & J5); auto.
      { rewrite HR. constructor. }
      { rewrite HR. constructor. }
      exists h, c, ms, x, w'. split; [rewrite <- U1; exact HU|]. split; [exact HA|].
      split; [rewrite client_pushes, J1; reflexivity|]. split; [exact J2|].
      unfold accept. rewrite HA. unfold client_send, client_send_frame.
      unfold writer_send, writer_send_frame in E2. cbn [wr_sender wr_out] in E2. rewrite HSe.
      destruct (send_frame (mk_sender false) (owned_ops (OText (str "Hello"))) k (c_out c)) as [y wy].
      injection E2 as -> ->. unfold split. cbn [c_sender c_receiver c_buf c_in c_out].
      unfold loop_fuel. cbn [rd_buf rd_in]. rewrite J4.
      change (ascii "Hello") with (str "Hello").
      rewrite J5, O2, <- app_assoc, <- says_app. cbn [app].
      destruct x as [m0|e| |]; cbn [last_word] in J3; try contradiction; auto.
      rewrite app_nil_r. auto.
    + cbn [negb]. destruct (reject_ok u U1) as (w' & HRj & HO); [rewrite U2; exact HW|].
      rewrite HRj. exists w'. split; [reflexivity|]. rewrite HO, U2, U3, Hq. reflexivity.
    + apply HB' in HIn. discriminate HIn.
Qed.
(*EX
Definition b_request : bytes := str "GET / HTTP/1.1" ++ crlf ++ str "Upgrade: websocket" ++ crlf ++ str "Connection: upgrade" ++ crlf ++
  str "Sec-WebSocket-Key: dGhlIHNhbXBsZSBub25jZQ==" ++ crlf ++ str "Sec-WebSocket-Protocol: chat, rust-websocket" ++ crlf ++ crlf.
(** A client that asks for the protocol, sends a ping, a pong and a Close; one that does not
    ask for it. *)
Example example_answers_ex :
  (exists u, into_ws httparse_lib (push_back a_request []) slow = Ok u /\
     @seen_protocols unit (up_request u) = Ok [] /\
     example_server httparse_lib true None no_key (push_back a_request []) slow
     = (Returned, mk_w (str "HTTP/1.1 400 Bad Request" ++ crlf ++ crlf) [])) /\
  let sent := [x89; x81] ++ zeros ++ str "p" ++ [x8a; x80] ++ zeros ++ [x88; x80] ++ zeros in
  exists u h c, into_ws httparse_lib (push_back (b_request ++ sent) []) slow = Ok u /\
     @seen_protocols unit (up_request u) = Ok [ascii "chat"; ascii "rust-websocket"] /\
     @use_protocol unit (ascii "rust-websocket") [] = Ok h /\
     accept (mk_upgrade h (up_request u) (up_buffer u) (up_in u) (up_out u)) = Ok c /\
     example_server httparse_lib true None no_key (push_back (b_request ++ sent) []) slow
     = (Returned, mk_w (w_out (c_out c) ++ [x81; x05] ++ str "Hello" ++ [x8a; x01] ++ str "p" ++ [x8a; x00; x88; x00]) []).
Proof.
  split.
  - eexists. split; [vm_compute; reflexivity|]. split; [vm_compute; reflexivity|]. vm_compute. reflexivity.
  - cbv zeta. eexists _, _, _. split; [vm_compute; reflexivity|]. split; [vm_compute; reflexivity|].
    split; [vm_compute; reflexivity|]. split; [vm_compute; reflexivity|]. vm_compute. reflexivity.
Qed.
EX*)

(** [C67] So any client can make the thread that serves it panic: by leaving without a Close. *)
Lemma example_never_panics_refuted_proof : exists request u,
  into_ws httparse_lib (push_back request []) (mk_w [] []) = Ok u /\ up_in u = [] /\
  fst (example_server httparse_lib true None (mk_key x00 x00 x00 x00) (push_back request []) (mk_w [] [])) = Panicked.
Proof.
  exists (str "GET / HTTP/1.1" ++ crlf ++ str "Upgrade: websocket" ++ crlf ++ str "Connection: upgrade" ++ crlf ++
    str "Sec-WebSocket-Key: dGhlIHNhbXBsZSBub25jZQ==" ++ crlf ++ str "Sec-WebSocket-Protocol: rust-websocket" ++ crlf ++ crlf).
  eexists. split; [vm_compute; reflexivity|]. split; [vm_compute; reflexivity|]. vm_compute. reflexivity.
Qed.
