(** Both servers and both clients alike, what a handshake costs, and what each side sees of
    the other: C57, C58, C61, C62, C63. *)
From Coq Require Import NArith ZArith String Bool List Lia.
From Coq Require Import ZifyBool ZifyNat ZifyN.
From Coq.Strings Require Import Byte.
From Verif.Model Require Import Base Io Header Mask Dataframe Utf8 Text Base64 WsKey Headers
  Handshake Message Receiver Codec Framed Http Connect.
From Verif.Spec Require Import RfcFrame FrameSpec Fields Upgrade Builder HttpHead Connection Wire Sides.
From Verif.Proofs Require Import BaseFacts FrameFacts TextFacts MapFacts ThmKeys ThmStream ThmServer ThmClient HttpFacts ThmHttp ThmConnect ThmInterop.
Import ListNotations.
Local Open Scope string_scope.
Local Open Scope list_scope.
Local Open Scope N_scope.

(** ** What a handshake costs *)

Lemma read_step : forall n s d s', rd_read n s = (Ok d, s') ->
  llen d <= n /\ (spread s = map inl d ++ spread s' \/
                  (d = [] /\ exists e, spread s = inr e :: spread s')).
Proof.
  intros n s d s' H. unfold rd_read in H. destruct (N.eqb_spec n 0) as [->|Hn].
  - injection H as <- <-. split; [rewrite llen_nil; lia|]. left. reflexivity.
  - destruct s as [|[b bs| | |k] s].
    + injection H as <- <-. split; [rewrite llen_nil; lia|]. left. reflexivity.
    + apply pair_equal_spec in H as [H <-]. apply (f_equal (fun r => match r with Ok x => x | _ => [] end)) in H.
      cbn beta iota in H. subst d. split; [rewrite llen_take; lia|]. left.
      rewrite spread_push_back, app_assoc, <- map_app, take_drop. reflexivity.
    + discriminate H.
    + injection H as <- <-. split; [rewrite llen_nil; lia|]. right. split; [reflexivity|]. exists REof. reflexivity.
    + discriminate H.
Qed.
Lemma read_fails : forall n s k s', rd_read n s = (Err k, s') -> exists e, spread s = inr e :: spread s'.
Proof.
  intros n s k s' H. unfold rd_read in H. destruct (n =? 0); [discriminate H|].
  destruct s as [|[b bs| | |j] s]; try discriminate H; injection H as <- <-; eexists; reflexivity.
Qed.
Lemma read_no_panic : forall n s, match rd_read n s with (Ok _, _) | (Err _, _) => True | _ => False end.
Proof.
  intros n s. unfold rd_read. destruct (n =? 0); [exact I|]. destruct s as [|[b bs| | |j] s]; exact I.
Qed.

Lemma parse_bounded : forall A (try : bytes -> pres A) room, stab try ->
  (forall n, n <= 417792 -> n + room n <= 417792) ->
  forall fuel buf s r rest s', llen buf <= 417792 ->
  parse_loop try room fuel buf s = (r, rest, s') ->
  llen rest <= 417792 /\ exists taken, llen buf + llen taken <= 417792 /\
    (spread s = map inl taken ++ spread s' \/ exists e, spread s = map inl taken ++ inr e :: spread s').
Proof.
  intros A try room Hst Hroom fuel. induction fuel as [|fuel IH]; intros buf s r rest s' HB H; cbn [parse_loop] in H.
  - destruct (try buf) as [a x| |e] eqn:E.
    + injection H as <- <- <-. destruct (stab_done _ _ _ _ _ Hst E) as (c & Ec & _).
      split; [apply (f_equal llen) in Ec; rewrite llen_app in Ec; lia|].
      exists []. rewrite llen_nil. split; [lia|]. left. reflexivity.
    + injection H as <- <- <-. split; [exact HB|]. exists []. rewrite llen_nil. split; [lia|]. left. reflexivity.
    + injection H as <- <- <-. split; [exact HB|]. exists []. rewrite llen_nil. split; [lia|]. left. reflexivity.
  - destruct (try buf) as [a x| |e] eqn:E.
    + injection H as <- <- <-. destruct (stab_done _ _ _ _ _ Hst E) as (c & Ec & _).
      split; [apply (f_equal llen) in Ec; rewrite llen_app in Ec; lia|].
      exists []. rewrite llen_nil. split; [lia|]. left. reflexivity.
    + pose proof (read_no_panic (room (llen buf)) s) as HP.
      destruct (rd_read (room (llen buf)) s) as [[d|k| |] s1] eqn:ER; try contradiction.
      * apply read_step in ER as [HL HS]. specialize (Hroom _ HB).
        destruct d as [|d0 d].
        -- injection H as <- <- <-. split; [exact HB|]. exists []. rewrite llen_nil. split; [lia|].
           destruct HS as [HS|[_ HS]]; [left|right]; exact HS.
        -- destruct HS as [HS|[HS _]]; [|discriminate HS].
           apply IH in H as (H1 & t & H2 & H3); [|rewrite llen_app; lia].
           split; [exact H1|]. exists ((d0 :: d) ++ t). rewrite llen_app in *. split; [lia|].
           rewrite HS, map_app.
           destruct H3 as [->|[e ->]]; [left|right; exists e]; rewrite app_assoc; reflexivity.
      * injection H as <- <- <-. split; [exact HB|]. exists []. rewrite llen_nil. split; [lia|].
        right. apply read_fails in ER. exact ER.
    + injection H as <- <- <-. split; [exact HB|]. exists []. rewrite llen_nil. split; [lia|]. left. reflexivity.
Qed.

(** [C57] The blocking server reads at most 417792 bytes of a connection before it has an
    answer, whatever the peer sends, and holds no more. *)
Lemma request_bounded_proof : forall X s r rest s', capped_room X ->
  parse_request X s = (r, rest, s') -> read_at_most 417792 s s' /\ llen rest <= 417792.
Proof.
  intros X s r rest s' HX H. apply parse_bounded in H as (H1 & t & H2 & H3); auto using stab_request.
  - split; [|exact H1]. exists t. rewrite llen_nil in H2. split; [lia|exact H3].
  - rewrite llen_nil. lia.
Qed.
(** [C57] So does the blocking client with the response. *)
Lemma response_bounded_proof : forall X s r rest s', capped_room X ->
  parse_response X s = (r, rest, s') -> read_at_most 417792 s s' /\ llen rest <= 417792.
Proof.
  intros X s r rest s' HX H. apply parse_bounded in H as (H1 & t & H2 & H3); auto using stab_response.
  - split; [|exact H1]. exists t. rewrite llen_nil in H2. split; [lia|exact H3].
  - rewrite llen_nil. lia.
Qed.
(*EX Example bounded_ex : capped_room httparse_lib /\
  parse_request httparse_lib [RData x0d [x0a; "G"%byte]; RData "E"%byte []; REof; RData "T"%byte []]
  = (Err (PEIo UnexpectedEof), [x0d; x0a; "G"%byte; "E"%byte], [RData "T"%byte []]).
Proof. split; [intros n H; cbn [l_room httparse_lib]; unfold MAX_BUFFER_SIZE; Lia.lia|reflexivity]. Qed. EX*)

(** [C57] The asynchronous server keeps everything a peer sends until there is an empty line in
    it: whatever has come by the time the transport has nothing more, in any chunks, is
    buffered, and the handshake still waits. *)
Lemma async_hoards_proof : forall X p w chunks s,
  ~ has_end (concat (map (fun c => fst c :: snd c) chunks)) ->
  incoming_run X [NewConnection p (map (fun c => AData (fst c) (snd c)) chunks ++ ANotReady :: s) w; PollFuture 0]
  = mk_incoming [mk_hs p (mk_framed tt (concat (map (fun c : byte * bytes => fst c :: snd c) chunks)) false false) s w] [].
Proof.
  intros X p w chunks s HE.
  assert (G : forall chunks buf rd, ~ has_end (buf ++ concat (map (fun c : byte * bytes => fst c :: snd c) chunks)) ->
    framed_poll (http_decode (try_request X)) (map (fun c => AData (fst c) (snd c)) chunks ++ ANotReady :: s)
      (mk_framed tt buf rd false)
    = (PNotReady, mk_framed tt (buf ++ concat (map (fun c : byte * bytes => fst c :: snd c) chunks)) false false, s)).
  { clear. induction chunks as [|[b bs] chunks IH]; intros buf rd HE; cbn [map concat app fst snd] in *.
    - rewrite app_nil_r in *. cbn [framed_poll]. rewrite fd_wait by exact HE. reflexivity.
    - cbn [framed_poll]. rewrite fd_wait.
      2:{ intros (x & y & E). apply HE. exists x, (y ++ b :: bs ++ concat (map (fun c : byte * bytes => fst c :: snd c) chunks)).
          rewrite E, <- !app_assoc. reflexivity. }
      cbn [fr_eof fr_st fr_buf]. rewrite IH; [|rewrite <- app_assoc; exact HE].
      rewrite <- app_assoc. reflexivity. }
  unfold incoming_run. cbn [fold_left incoming_step in_pending in_yielded app nth_error firstn skipn].
  unfold handshake_poll, handshake_new. cbn [hs_in hs_framed hs_peer hs_out]. unfold framed_new.
  rewrite (G chunks [] _ HE). reflexivity.
Qed.
(*EX Example async_hoards_ex :
  incoming_run httparse_lib [NewConnection 7 [AData "G"%byte (str "ET /"); AData " "%byte []; ANotReady] (mk_fw (mk_bm [] 0) [] [] []); PollFuture 0]
  = mk_incoming [mk_hs 7 (mk_framed tt (str "GET / ") false false) [] (mk_fw (mk_bm [] 0) [] [] [])] [].
Proof. reflexivity. Qed. EX*)
(** [C57] Refuted therefore for the asynchronous server: no bound holds. *)
Lemma async_bounded_refuted_proof : forall X bound, exists p s w h,
  in_pending (incoming_run X [NewConnection p s w; PollFuture 0]) = [h] /\
  bound < llen (fr_buf (hs_framed h)).
Proof.
  intros X bound.
  set (l := repeat "a"%byte (N.to_nat bound)).
  exists 0, (AData "a"%byte l :: ANotReady :: []), (mk_fw (mk_bm [] 0) [] [] []).
  exists (mk_hs 0 (mk_framed tt (concat (map (fun c : byte * bytes => fst c :: snd c) [("a"%byte, l)])) false false) []
            (mk_fw (mk_bm [] 0) [] [] [])). split.
  - pose proof (async_hoards_proof X 0 (mk_fw (mk_bm [] 0) [] [] []) [("a"%byte, l)] []) as H.
    cbn [map app fst snd] in H |- *. rewrite H; [reflexivity|].
    cbn [map concat fst snd app]. rewrite app_nil_r. intros (x & y & E).
    assert (In CR ("a"%byte :: l)) as HI.
    { rewrite E. apply in_or_app. right. left. reflexivity. }
    destruct HI as [HI|HI]; [discriminate HI|]. apply repeat_spec in HI. discriminate HI.
  - cbn [hs_framed fr_buf map concat fst snd app]. rewrite app_nil_r. unfold l, llen. cbn [length].
    rewrite repeat_length. lia.
Qed.

(** ** Both servers alike *)

(** [C58] Given the same request the blocking and the asynchronous server do the same: both
    offer the upgrade, with the same request to look at, or both refuse, for the same reason
    and with the same request; however the bytes come to either. *)
Lemma servers_alike_proof : forall X m t v fs head after s w sa sa' wa, sound_lib X -> sound_room X ->
  request_head X m t v fs head -> (length fs <= 100)%nat -> target_accepted X t ->
  llen head <= 417792 -> ends_first head ->
  first_come head after s -> aflows sa head sa' ->
  match into_ws X s w, async_into_ws X sa wa with
  | Ok u, Ok a => up_request u = au_request a
  | Err f, Err g => rf_error f = ar_error g /\ rf_request f = ar_request g
  | _, _ => False
  end.
Proof.
  intros X m t v fs head after s w sa sa' wa HX HR HH HN HT HL HE HF HA.
  destruct (sync_request_read_proof X m t v fs head after s HX HR HH HN HT HL HF) as (rest & s2 & E1 & _).
  destruct (async_request_read_proof X m t v fs head sa sa' HX HH HN HT HE HA) as (rest' & s2' & E2 & _).
  unfold into_ws, async_into_ws. rewrite E1, E2. cbn [finish_into_ws rq_method rq_version rq_headers].
  destruct (server_validate_total_proof (method_named m) v fs) as [->|[e ->]]; cbn; auto.
Qed.
(*EX Example servers_alike_ex :
  let head := str "GET /a HTTP/1.1" ++ crlf ++ str "Sec-WebSocket-Version: 8" ++ crlf ++ crlf in
  let q := mk_req Get (str "/a") Http11 (from_raw [(str "Sec-WebSocket-Version", str "8")]) in
  into_ws httparse_lib (push_back (head ++ str "x") []) (mk_w [] [])
    = Err (mk_refusal [] (mk_w [] []) (Some q) (Some (str "x")) UnsupportedWebsocketVersion) /\
  async_into_ws httparse_lib (apush_back (head ++ str "x") []) (mk_fw (mk_bm [] 0) [] [] [])
    = Err (mk_arefusal [] (mk_fw (mk_bm [] 0) [] [] []) (Some q) (str "x") UnsupportedWebsocketVersion).
Proof. split; vm_compute; reflexivity. Qed. EX*)

(** ** Both clients alike *)

(** [C58] Given the same response the blocking and the asynchronous client do the same: both
    connect, with the same headers to look at, or both fail with the same error. *)
Lemma clients_alike_proof : forall X rnd b v code r fs head after s w sa sa' wa extra, sound_lib X -> sound_room X ->
  response_head X v code r fs head -> (length fs <= 100)%nat ->
  llen head <= 417792 -> ends_first head ->
  first_come head after s -> aflows sa head sa' -> never_fails w -> afails_never wa ->
  match fst (fst (connect_on X rnd b s w)), async_connect_on X rnd b extra sa wa with
  | Ok c, Ok (_, h) => c_headers c = h
  | Err e, Err e' => e = e'
  | Panic, Panic => True
  | _, _ => False
  end.
Proof.
  intros X rnd b v code r fs head after s w sa sa' wa extra HX HR HH HN HL HE HF HA HW HWA.
  destruct (sync_response_read_proof X v code r fs head after s HX HR HH HN HL HF) as (rest & s2 & E1 & _).
  destruct (async_response_read_proof X v code r fs head sa sa' HX HH HN HE HA) as (rest' & s2' & E2 & _).
  unfold connect_on, async_connect_on.
  destruct (print_request (E := client_error) (build_request rnd b)) as [data|e| |] eqn:EP.
  - destruct (write_never_fails (w_script w) (w_out w) data HW) as (t' & EW & _).
    unfold write_all. rewrite EW, E1. cbn [rbind].
    destruct (head_sent_proof data extra wa) as [(w' & EH & _)|(e & w' & _ & C)]; [|contradiction].
    rewrite EH, E2.
    destruct (client_validate (build_request rnd b) (mk_resp v code r (from_raw fs))) as [[]|e| |] eqn:EV;
      cbn [fst rbind unchecked_with_limits c_headers rs_headers]; auto.
    exfalso. revert EV. unfold client_validate, get_location, get_accept, get_upgrade, get_key, get_connection.
    cbn [rs_status rs_headers].
    destruct (negb (code =? 101)).
    { rewrite hget_from_raw. cbn [rbind].
      destruct (is_redirection code); [|discriminate].
      destruct (match values n_location fs with [] => None | _ => _ end); discriminate. }
    unfold hget at 1. destruct (hfind n_key _) as [[ls|hv]|]; cbn [rbind].
    2:{ destruct (as_key hv); cbn [rbind]; [|discriminate].
        rewrite hget_from_raw. cbn [rbind]. destruct (negb (beqb_opt _ _)); [discriminate|].
        rewrite hget_from_raw. cbn [rbind]. destruct (negb (upgrade_is_websocket _)); [discriminate|].
        unfold hget. destruct (hfind n_connection _) as [[ls|hv']|]; cbn [rbind];
          [|destruct (as_connection hv'); cbn [rbind]; [|discriminate]|];
          destruct (negb (connection_is_upgrade _)); discriminate. }
    + destruct (parse_key ls); [|discriminate].
      rewrite hget_from_raw. cbn [rbind]. destruct (negb (beqb_opt _ _)); [discriminate|].
      rewrite hget_from_raw. cbn [rbind]. destruct (negb (upgrade_is_websocket _)); [discriminate|].
      unfold hget. destruct (hfind n_connection _) as [[ls'|hv']|]; cbn [rbind];
        [|destruct (as_connection hv'); cbn [rbind]; [|discriminate]|];
        destruct (negb (connection_is_upgrade _)); discriminate.
    + discriminate.
  - cbn [fst rbind]. reflexivity.
  - exact I.
  - exfalso. unfold print_request, print_headers in EP. destruct (forallb _ _); discriminate EP.
Qed.
(*EX
(** A redirection, met by both kinds of client. *)
Example clients_alike_ex :
  let b := builder_init (mk_url (ascii "ws") (Some (ascii "h")) None [] None (ascii "/")) in
  let head := str "HTTP/1.1 302 Found" ++ crlf ++ str "Location: ws://b/" ++ crlf ++ crlf in
  fst (fst (connect_on httparse_lib (ascii "the sample nonce") b (push_back head []) (mk_w [] [WAccept 9]))) = Err (RedirectError 302 (ascii "ws://b/")) /\
  async_connect_on httparse_lib (ascii "the sample nonce") b 0 (apush_back head [ANotReady]) (mk_fw (mk_bm [] 0) [] [AwNotReady] [])
    = Err (RedirectError 302 (ascii "ws://b/")).
Proof. split; vm_compute; reflexivity. Qed.
EX*)

(** ** Connecting never panics *)

(** [C61] Writing a request panics exactly when a raw header line the caller set is not UTF-8. *)
Lemma print_request_panics_iff_proof : forall rnd b,
  @print_request unit (build_request rnd b) = Panic <-> Exists bad_line (b_headers (build_request rnd b)).
Proof.
  intros rnd b. set (h := b_headers (build_request rnd b)).
  pose proof (print_response_panics_iff_proof Http11 [] h) as H.
  assert (@print_request unit (build_request rnd b) = Panic <-> @print_response unit Http11 [] h = Panic) as HE.
  { unfold print_request, print_response. fold h. unfold print_headers.
    destruct (forallb _ h); cbn [rbind]; split; intros; discriminate || reflexivity. }
  rewrite HE. exact H.
Qed.
(*EX
Example print_request_panics_ex :
  let b := builder_init (mk_url (ascii "ws") (Some (ascii "h")) None [] None (ascii "/")) in
  exists b1, run_calls [CustomHeaders [(ascii "X", Raw [[xff]])]] b = Ok b1 /\
    Exists bad_line (b_headers (build_request [] b1)) /\ @print_request unit (build_request [] b1) = Panic.
Proof.
  eexists. split; [reflexivity|]. assert (E : @print_request unit (build_request [] (snd (tt,
    match run_calls [CustomHeaders [(ascii "X", Raw [[xff]])]] (builder_init (mk_url (ascii "ws") (Some (ascii "h")) None [] None (ascii "/"))) with
    | Ok b1 => b1 | _ => builder_init (mk_url [] None None [] None []) end))) = Panic) by reflexivity.
  split; [apply ThmSame.print_request_panics_iff_proof|]; exact E.
Qed.
EX*)

Lemma bad_set : forall n v h, Exists bad_line (hset n (Typed v) h) -> Exists bad_line h.
Proof.
  intros n v. induction h as [|[m j] h IH]; intros H; cbn [hset] in H.
  - inversion H as [? ? (ls & E & _)|? ? H1]; subst; [discriminate E|inversion H1].
  - destruct (eq_nocase m n).
    + inversion H as [? ? (ls & E & _)|? ? H1]; subst; [discriminate E|]. right. exact H1.
    + inversion H as [? ? H1|? ? H1]; subst; [left; exact H1|right; apply IH, H1].
Qed.
Lemma bad_built : forall rnd b, Exists bad_line (b_headers (build_request rnd b)) -> Exists bad_line (b_headers b).
Proof.
  intros rnd b. unfold build_request. cbn [with_headers b_headers].
  assert (forall (t : bool) n v h, Exists bad_line (if t then h else hset n (Typed v) h) -> Exists bad_line h) as G
    by (intros [|] n v h H; [exact H|exact (bad_set _ _ _ H)]).
  intros H. apply G in H. apply G in H. apply bad_set in H. apply bad_set in H.
  destruct (u_user (b_url b)); [|apply bad_set in H]; (destruct (u_host (b_url b)); [apply bad_set in H|]; exact H).
Qed.
Lemma key_built : forall rnd b, key_known (b_headers b) -> key_known (b_headers (build_request rnd b)).
Proof.
  intros rnd b H v HS. apply hfind_some in HS. change (ascii "Sec-WebSocket-Key") with n_key in HS.
  rewrite built_find in HS.
  change (eq_nocase n_key n_key) with true in HS. change (eq_nocase n_version n_key) with false in HS.
  change (eq_nocase n_upgrade n_key) with false in HS. change (eq_nocase n_connection n_key) with false in HS.
  change (eq_nocase n_authorization n_key) with false in HS. change (eq_nocase n_host n_key) with false in HS.
  rewrite ?andb_false_r, ?andb_true_r in HS. destruct (b_key_set b); cbn [negb] in HS.
  - apply H. apply hfind_some. destruct (u_host (b_url b)); exact HS.
  - injection HS as <-. eauto.
Qed.
Lemma client_validate_total : forall rnd b v code r fs, key_known (b_headers b) ->
  client_validate (build_request rnd b) (mk_resp v code r (from_raw fs)) = Ok tt \/
  exists e, client_validate (build_request rnd b) (mk_resp v code r (from_raw fs)) = Err e.
Proof.
  intros rnd b v code r fs HK. apply (key_built rnd) in HK. set (b' := build_request rnd b) in *.
  assert (HC : @get_connection client_error (b_headers b') = Ok (Some [ConnectionHeader (str "Upgrade")])).
  { unfold get_connection, hget, b'. rewrite built_find.
    change (eq_nocase n_key n_connection) with false. change (eq_nocase n_version n_connection) with false.
    change (eq_nocase n_upgrade n_connection) with false. change (eq_nocase n_connection n_connection) with true.
    rewrite ?andb_false_r. reflexivity. }
  unfold client_validate. cbn [rs_status rs_headers].
  destruct (negb (code =? 101)).
  { unfold get_location. rewrite hget_from_raw. cbn [rbind]. right.
    destruct (is_redirection code); [|eauto]. destruct (match values n_location fs with [] => None | _ => _ end); eauto. }
  assert (exists o, @get_key client_error (b_headers b') = Ok o) as [o ->].
  { unfold get_key, hget. destruct (hfind n_key (b_headers b')) as [[ls|hv]|] eqn:EF; eauto.
    destruct (HK hv) as [k ->]; [apply hfind_some; exact EF|]. cbn. eauto. }
  cbn [rbind]. destruct o as [key|]; [|eauto].
  unfold get_accept. rewrite hget_from_raw. cbn [rbind]. destruct (negb (beqb_opt _ _)); [eauto|].
  unfold get_upgrade. rewrite hget_from_raw. cbn [rbind]. destruct (negb (upgrade_is_websocket _)); [eauto|].
  rewrite HC. cbn [rbind]. destruct (negb (connection_is_upgrade _)); eauto.
Qed.

(** [C61] The blocking client's [connect] on a stream ends with a connection or an error,
    whatever the peer sends and the stream does. *)
Lemma connect_total_proof : forall X rnd b s w, sound_lib X ->
  ~ Exists bad_line (b_headers b) -> key_known (b_headers b) ->
  (exists c, fst (fst (connect_on X rnd b s w)) = Ok c) \/
  (exists e, fst (fst (connect_on X rnd b s w)) = Err e).
Proof.
  intros X rnd b s w HX HB HK. unfold connect_on.
  destruct (print_request (E := client_error) (build_request rnd b)) as [data|e| |] eqn:EP.
  - destruct (write_all data w) as [[[]|k| |] w'] eqn:EW; cbn [fst]; eauto.
    + destruct (parse_response X s) as [[r rest] s2] eqn:ER.
      pose proof (parse_sound _ (try_response X) (l_room X) (S (script_bytes s)) [] s (stab_response X) (le_n _)) as HS.
      fold (parse_response X s) in HS. rewrite ER in HS.
      destruct r as [q|e| |]; try contradiction; [|cbn [fst]; eauto].
      apply (sync_response_only_proof X s q rest s2 HX) in ER as (head & v & code & rr & fs & _ & _ & _ & ->).
      destruct (client_validate_total rnd b v code rr fs HK) as [->|[e ->]]; cbn [fst]; eauto.
    + exfalso. unfold write_all in EW. destruct (write_all_go_spec (w_script w) (w_out w) data) as (n & HN).
      rewrite EW in HN. destruct HN as (_ & _ & [HN|[? HN]]); discriminate HN.
    + exfalso. unfold write_all in EW. destruct (write_all_go_spec (w_script w) (w_out w) data) as (n & HN).
      rewrite EW in HN. destruct HN as (_ & _ & [HN|[? HN]]); discriminate HN.
  - cbn [fst]. eauto.
  - exfalso. apply HB. apply (bad_built rnd). apply print_request_panics_iff_proof.
    unfold print_request, print_headers in *. destruct (forallb _ _); [discriminate EP|reflexivity].
  - exfalso. unfold print_request, print_headers in EP. destruct (forallb _ _); discriminate EP.
Qed.
(** [C61] So does the asynchronous client's. *)
Lemma async_connect_total_proof : forall X rnd b extra s w, sound_lib X ->
  ~ Exists bad_line (b_headers b) -> key_known (b_headers b) ->
  (exists c, async_connect_on X rnd b extra s w = Ok c) \/
  (exists e, async_connect_on X rnd b extra s w = Err e).
Proof.
  intros X rnd b extra s w HX HB HK. unfold async_connect_on.
  destruct (print_request (E := client_error) (build_request rnd b)) as [data|e| |] eqn:EP; cbn [rbind].
  - destruct (head_sent_proof data extra w) as [(w' & EH & _)|(e & w' & EH & _)]; rewrite EH; [|eauto].
    unfold await_head.
    assert (G : forall n s f, fr_eof f = false -> (length s < n)%nat ->
      match first_item (http_decode (try_response X)) n s f with
      | (PItem (inl q), _, _) => exists h r, try_response X h = Done q r
      | (PNotReady, _, _) | (PPanic, _, _) | (POutOfFuel, _, _) => False
      | _ => True end).
    { induction n as [|n IH]; intros s0 f Hf Hn; [lia|]. cbn [first_item].
      pose proof (http_poll _ (try_response X) s0 f Hf) as H.
      destruct (framed_poll (http_decode (try_response X)) s0 f) as [[[[q|e]| | |e| |] f'] s']; auto.
      destruct H. apply IH; [assumption|lia]. }
    specialize (G (S (length s)) s (framed_new tt []) eq_refl ltac:(lia)).
    destruct (first_item (http_decode (try_response X)) (S (length s)) s (framed_new tt [])) as [[[[q|e]| | |e| |] f'] s'];
      try contradiction; eauto.
    destruct G as (h & r & G).
    apply response_exact_proof in G as (head & v & code & rr & fs & _ & _ & _ & ->); [|exact HX].
    destruct (client_validate_total rnd b v code rr fs HK) as [->|[e ->]]; cbn [rbind]; eauto.
  - eauto.
  - exfalso. apply HB. apply (bad_built rnd). apply print_request_panics_iff_proof.
    unfold print_request, print_headers in *. destruct (forallb _ _); [discriminate EP|reflexivity].
  - exfalso. unfold print_request, print_headers in EP. destruct (forallb _ _); discriminate EP.
Qed.
(*EX Example connect_total_ex :
  let b := custom_headers [(str "X-Note", Raw [str "hello"])] (builder_init (mk_url (str "ws") (Some (str "h")) None [] None (str "/"))) in
  ~ Exists bad_line (b_headers b) /\ key_known (b_headers b) /\
  fst (fst (connect_on httparse_lib (str "the sample nonce") b [RErr WouldBlock] (mk_w [] []))) = Err (CParsing (PEIo WouldBlock)).
Proof.
  cbv zeta. split; [|split; [|vm_compute; reflexivity]].
  - intros H. inversion H as [? ? HB|? ? H1]; subst; [|inversion H1]. destruct HB as (ls & E & HN).
    injection E as <-. apply HN. constructor; [|constructor]. apply TextFacts.utf8_text_iff. reflexivity.
  - intros v H. inversion H as [|? ? ? E H1]; subst. inversion H1.
Qed. EX*)
(** [C61] Refuted for a raw header line that is not UTF-8: connecting panics. *)
Lemma connect_panic_refuted_proof : forall X u rnd extra s w sa wa, exists c b,
  run_calls [CustomHeaders c] (builder_init u) = Ok b /\
  fst (fst (connect_on X rnd b s w)) = Panic /\ async_connect_on X rnd b extra sa wa = Panic.
Proof.
  intros X u rnd extra s w sa wa.
  exists [(ascii "X-Bytes", Raw [[xff]])]. eexists. split; [reflexivity|].
  assert (E : @print_request client_error (build_request rnd
     (custom_headers [(ascii "X-Bytes", Raw [[xff]])] (builder_init u))) = Panic).
  { destruct u as [sc [h|] po [|c us] pw rs]; reflexivity. }
  cbn [perform run_calls rbind] in *.
  unfold connect_on, async_connect_on. rewrite E. split; reflexivity.
Qed.

(** ** What the client looks at *)

(** [C62] Of a response the client looks at the status and at three fields; version, reason
    and every other field make no difference. *)
Lemma client_looks_proof : forall b v1 v2 r1 r2 st fs gs,
  agree_on [ascii "Sec-WebSocket-Accept"; ascii "Upgrade"; ascii "Location"] fs gs ->
  client_validate b (mk_resp v1 st r1 (from_raw fs)) = client_validate b (mk_resp v2 st r2 (from_raw gs)).
Proof.
  intros b v1 v2 r1 r2 st fs gs H. unfold agree_on in H.
  inversion H as [|? ? HA H']; subst. inversion H' as [|? ? HU H'']; subst. inversion H'' as [|? ? HL _]; subst.
  change (ascii "Sec-WebSocket-Accept") with n_accept in HA.
  change (ascii "Upgrade") with n_upgrade in HU. change (ascii "Location") with n_location in HL.
  unfold client_validate. cbn [rs_status rs_headers]. unfold get_location, get_accept, get_upgrade.
  rewrite !hget_from_raw. rewrite HA, HU, HL. reflexivity.
Qed.
(*EX Example client_looks_ex :
  agree_on [ascii "Sec-WebSocket-Accept"; ascii "Upgrade"; ascii "Location"]
    [(ascii "Upgrade", ascii "websocket"); (ascii "Sec-WebSocket-Protocol", ascii "chat")]
    [(ascii "Connection", ascii "close"); (ascii "upgrade", ascii "websocket")].
Proof. repeat constructor. Qed. EX*)
(** [C62] Refuted therefore of RFC 6455 4.1 (points 5 and 6, the server may choose only among
    what was asked for): a client that asked for no protocol and no extension connects to a
    server that chose one, blocking or not. *)
Lemma unasked_refuted_proof : forall u extra, exists fs head s sa b,
  run_calls [] (builder_init u) = Ok b /\ response_head httparse_lib Http11 101 (ascii "Switching Protocols") fs head /\
  values (ascii "Sec-WebSocket-Protocol") fs = [ascii "chat"] /\
  values (ascii "Sec-WebSocket-Extensions") fs = [ascii "permessage-deflate"] /\
  first_come head [] s /\ aflows sa head [] /\
  (exists c, fst (fst (connect_on httparse_lib (ascii "the sample nonce") b s (mk_w [] []))) = Ok c /\
     @protocols unit (c_headers c) = Ok [ascii "chat"]) /\
  exists a h, async_connect_on httparse_lib (ascii "the sample nonce") b extra sa (mk_fw (mk_bm [] 0) [] [] []) = Ok (a, h).
Proof.
  intros u extra.
  set (h := [(ascii "Sec-WebSocket-Accept", Raw [ascii "s3pPLMBiTxaQ9kYGzzhZRbK+xOo="]); (ascii "Upgrade", Raw [ascii "websocket"]);
    (ascii "Sec-WebSocket-Protocol", Raw [ascii "chat"]); (ascii "Sec-WebSocket-Extensions", Raw [ascii "permessage-deflate"])]).
  assert (exists head, @print_response unit Http11 switching_protocols h = Ok head) as [head HP]
    by (eexists; vm_compute; reflexivity).
  assert (HL : Forall (legible httparse_lib) (fields h)) by (apply legible_check; vm_compute; reflexivity).
  assert (HR : Forall (fun b => l_reason httparse_lib b = true) (ascii "Switching Protocols")) by (repeat constructor).
  pose proof (response_as_read_proof httparse_lib Http11 h head HR HL (or_intror eq_refl) HP) as HH.
  assert (HX : sound_lib httparse_lib) by (repeat split).
  assert (HRM : sound_room httparse_lib) by (split; [intros n; cbn [l_room httparse_lib]; lia|reflexivity]).
  assert (HLn : llen head <= 417792).
  { assert (E : head = match @print_response unit Http11 switching_protocols h with Ok t => t | _ => [] end) by (rewrite HP; reflexivity).
    rewrite E. vm_compute. discriminate. }
  assert (HE : ends_first head).
  { apply (legible_end httparse_lib h Http11 switching_protocols head HX); auto.
    split; intros HI; cbn in HI; decompose [or] HI; try discriminate; contradiction. }
  set (b := builder_init u).
  assert (HF : first_come head [] (push_back head [])) by (unfold first_come; rewrite spread_push_back; reflexivity).
  assert (HA : aflows (apush_back head []) head []).
  { destruct head as [|x t]; [exfalso; exact (ends_first_nil HE)|]. cbn [apush_back].
    rewrite <- (app_nil_r (x :: t)). apply aflows_read. apply aflows_nil. }
  assert (HN : (length (read_back (fields h)) <= 100)%nat) by (vm_compute; lia).
  destruct (sync_response_read_proof httparse_lib _ _ _ _ head [] (push_back head []) HX HRM HH HN HLn HF) as (rest & s2 & E1 & _).
  destruct (async_response_read_proof httparse_lib _ _ _ _ head (apush_back head []) [] HX HH HN HE HA) as (rest' & s2' & E2 & _).
  assert (HV : client_validate (build_request (ascii "the sample nonce") b)
     (mk_resp Http11 101 (ascii "Switching Protocols") (from_raw (read_back (fields h)))) = Ok tt).
  { unfold b. destruct u as [sc [hh|] po [|c us] pw rs]; vm_compute; reflexivity. }
  assert (exists d, @print_request client_error (build_request (ascii "the sample nonce") b) = Ok d) as [d EP].
  { unfold b. destruct u as [sc [hh|] po [|c us] pw rs]; eexists; reflexivity. }
  exists (read_back (fields h)), head, (push_back head []), (apush_back head []), b.
  split; [reflexivity|]. split; [exact HH|]. split; [reflexivity|]. split; [reflexivity|].
  split; [exact HF|]. split; [exact HA|]. split.
  - unfold connect_on. rewrite EP.
    destruct (write_never_fails [] [] d (Forall_nil _)) as (t' & EW & _).
    unfold write_all. cbn [w_script w_out]. rewrite EW, E1. rewrite HV. cbn [fst].
    eexists. split; [reflexivity|]. cbn [c_headers unchecked_with_limits rs_headers]. vm_compute. reflexivity.
  - unfold async_connect_on. rewrite EP. cbn [rbind].
    destruct (head_sent_proof d extra (mk_fw (mk_bm [] 0) [] [] [])) as [(w' & EH & _)|(e & w' & _ & C)].
    + rewrite EH, E2, HV. cbn [rbind]. eauto.
    + exfalso. apply C. split; constructor.
Qed.

(** ** What the server sees of the client *)

Lemma visible_black : forall t, visible_text t -> forallb black t = true.
Proof.
  intros t [_ H]. apply forallb_forall. intros x HX. rewrite Forall_forall in H. apply H in HX.
  unfold black. revert HX. destruct x; vm_compute; intros [A B]; try reflexivity; exfalso; (apply A; reflexivity) || (apply B; reflexivity).
Qed.
Lemma visible_value : forall t, visible_text t -> one_raw_str [cut_spaces t] = Some t.
Proof.
  intros t HV. pose proof (visible_black t HV) as HB. apply (one_raw_str_cut [t]). exists t.
  assert (HT : trim t = t) by (apply (padded_black t t HB), padded_refl).
  split; [reflexivity|]. split; [apply utf8_black, HB|]. split; [|congruence].
  apply exists_non_space. rewrite HT. apply HV.
Qed.
(** [C63] The server's [key()] is the client's key. *)
Lemma server_sees_key_proof : forall X u cs rnd b v, configured X u cs rnd b ->
  @seen_key unit (mk_req Get (u_resource u) v (from_raw (request_fields rnd b)))
  = Ok (Some (or_else (asked_key (rev cs)) rnd)).
Proof.
  intros X u cs rnd b v HC. destruct (request_good_proof X u cs rnd b HC) as [_ HK].
  unfold seen_key, get_key. cbn [rq_headers]. rewrite hget_from_raw. f_equal.
  apply parse_key_iff in HK. destruct (values n_key (request_fields rnd b)); [discriminate HK|exact HK].
Qed.
(** [C63] Its [version()] is the version the client asked for, or 13. *)
Lemma server_sees_version_proof : forall m t u cs rnd b v,
  Forall (leaves_alone (ascii "Sec-WebSocket-Version")) cs -> run_calls cs (builder_init u) = Ok b ->
  (forall s, asked_version (rev cs) = Some (UnknownVersion s) -> visible_text s /\ s <> ascii "13") ->
  @seen_version unit (mk_req m t v (from_raw (request_fields rnd b)))
  = Ok (Some (or_else (asked_version (rev cs)) WebSocket13)).
Proof.
  intros m t u cs rnd b v HL HR HV. unfold seen_version, get_version. cbn [rq_headers]. rewrite hget_from_raw.
  unfold request_fields. rewrite values_read_back.
  pose proof (request_version_proof u cs b rnd HL HR) as E. change (ascii "Sec-WebSocket-Version") with n_version in E.
  rewrite E. f_equal. set (w := or_else (asked_version (rev cs)) WebSocket13) in *.
  assert (HW : match w with WebSocket13 => True | UnknownVersion s => visible_text s /\ s <> ascii "13" end).
  { unfold w. destruct (asked_version (rev cs)) as [[|s]|]; cbn [or_else]; auto. }
  destruct w as [|s].
  - reflexivity.
  - destruct HW as [HW HN]. cbn [map]. rewrite black_read by (apply visible_black, HW).
    unfold parse_version. rewrite (visible_value s HW). cbn [obind].
    replace (beqb s (str "13")) with false; [reflexivity|]. symmetry. apply not_true_iff_false. intros EB. apply HN.
    apply beqb_eq in EB. exact EB.
Qed.
(** [C63] Its [origin()] is the origin the client asked for. *)
Lemma server_sees_origin_proof : forall m t u cs rnd b v,
  Forall (leaves_alone (ascii "Origin")) cs -> run_calls cs (builder_init u) = Ok b ->
  (forall o, asked_origin (rev cs) = Some o -> visible_text o) ->
  @seen_origin unit (mk_req m t v (from_raw (request_fields rnd b))) = Ok (asked_origin (rev cs)).
Proof.
  intros m t u cs rnd b v HL HR HV. unfold seen_origin, get_origin. cbn [rq_headers]. rewrite hget_from_raw.
  unfold request_fields. rewrite values_read_back.
  pose proof (request_origin_proof u cs b rnd HL HR) as E. change (ascii "Origin") with n_origin in E.
  rewrite E. destruct (asked_origin (rev cs)) as [o|]; [|reflexivity]. specialize (HV o eq_refl).
  cbn [map]. rewrite black_read by (apply visible_black, HV). unfold parse_origin.
  rewrite (visible_value o HV). reflexivity.
Qed.
(** [C63] Together, and over the wire: the upgrade a blocking or asynchronous server offers for
    the request of such a client names the client's path, key, version, origin and protocols. *)
Lemma server_sees_client_proof : forall X u cs rnd b text s w after sa sa' wa,
  speaks X -> sound_room X -> configured X u cs rnd b -> request_text rnd b text -> llen text <= 417792 ->
  first_come text after s -> aflows sa text sa' ->
  Forall (leaves_alone (ascii "Origin")) cs -> (forall o, asked_origin (rev cs) = Some o -> visible_text o) ->
  Forall (leaves_alone (ascii "Sec-WebSocket-Protocol")) cs -> Forall list_word (asked_protocols (rev cs)) ->
  exists up au, into_ws X s w = Ok up /\ async_into_ws X sa wa = Ok au /\
    Forall (fun q => seen_uri q = u_resource u /\
      @seen_key unit q = Ok (Some (or_else (asked_key (rev cs)) rnd)) /\
      @seen_version unit q = Ok (Some WebSocket13) /\
      @seen_origin unit q = Ok (asked_origin (rev cs)) /\
      @seen_protocols unit q = Ok (asked_protocols (rev cs))) [up_request up; au_request au].
Proof.
  intros X u cs rnd b text s w after sa sa' wa HS HR HC HT HL HF HA HO1 HO2 HP1 HP2.
  destruct (server_takes_client_proof X u cs rnd b text s w after HS HR HC HT HL HF) as (up & E1 & Q1 & _).
  destruct (async_server_takes_client_proof X u cs rnd b text sa sa' wa HS HC HT HA) as (au & E2 & Q2 & _).
  exists up, au. split; [exact E1|]. split; [exact E2|]. rewrite Q1, Q2.
  assert (G : let q := mk_req Get (u_resource u) Http11 (from_raw (request_fields rnd b)) in
    seen_uri q = u_resource u /\
      @seen_key unit q = Ok (Some (or_else (asked_key (rev cs)) rnd)) /\
      @seen_version unit q = Ok (Some WebSocket13) /\
      @seen_origin unit q = Ok (asked_origin (rev cs)) /\
      @seen_protocols unit q = Ok (asked_protocols (rev cs))).
  { cbv zeta. pose proof HC as (HRun & _ & HV & EV & _).
    split; [reflexivity|]. split; [apply (server_sees_key_proof X), HC|]. split; [|split].
    - rewrite (server_sees_version_proof _ _ u cs rnd b Http11 HV HRun); [rewrite EV; reflexivity|].
      intros x Ex. rewrite Ex in EV. discriminate EV.
    - apply (server_sees_origin_proof _ _ u); assumption.
    - apply (server_sees_protocols_proof u); assumption. }
  constructor; [exact G|constructor; [exact G|constructor]].
Qed.
(*EX Example server_sees_client_ex :
  let u := mk_url (ascii "ws") (Some (ascii "example.org")) (Some 8080) [] None (ascii "/chat?a=b") in
  exists b text up, run_calls [AddProtocol (ascii "chat"); SetOrigin (ascii "http://a.b")] (builder_init u) = Ok b /\
  request_text (ascii "the sample nonce") b text /\
  into_ws httparse_lib (push_back text []) (mk_w [] []) = Ok up /\
  seen_uri (up_request up) = ascii "/chat?a=b" /\ @seen_origin unit (up_request up) = Ok (Some (ascii "http://a.b")) /\
  @seen_key unit (up_request up) = Ok (Some (ascii "the sample nonce")).
Proof.
  cbv zeta. do 3 eexists. split; [reflexivity|]. split; [vm_compute; reflexivity|]. split; [vm_compute; reflexivity|].
  split; [reflexivity|]. split; vm_compute; reflexivity.
Qed. EX*)
