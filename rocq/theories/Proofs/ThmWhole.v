(** A whole session, from the request to the last message: C83. *)
From Coq Require Import NArith ZArith String Bool List Lia Permutation.
From Coq Require Import ZifyBool ZifyNat ZifyN.
From Coq.Strings Require Import Byte.
From Verif.Model Require Import Base Io Header Mask Dataframe Utf8 Text Base64 Sha1 WsKey Headers
  Handshake Message Receiver Codec Framed Http Connect Examples ChatClient.
From Verif.Spec Require Import RfcFrame FrameSpec Unicode Schedule Drive Session Sink Rfc4648 Accept Fields Upgrade Builder
  HttpHead Connection Wire Endpoint Echo Chat Whole.
From Verif.Proofs Require Import BaseFacts MaskFacts HeaderFacts FrameFacts CodecFacts ScriptFacts
  Machine FramedFacts AsyncFacts Utf8Facts ThmFrames ThmStream SessionFacts RecvFacts MessageFacts
  ThmMessages ThmFlow HttpFacts ThmHttp SpreadFacts ThmConnect ThmSession ThmServer ThmClient ThmInterop ThmEcho ThmChat ThmAsyncEcho.
Import ListNotations.
Local Open Scope string_scope.
Local Open Scope list_scope.
Local Open Scope N_scope.

(** ** Streams *)
Lemma carries_spread : forall s l, carries s l <->
  (Forall (fun x => match x with inl _ => True | inr e => e = RIntr end) (spread s) /\
   l = flat_map (fun x => match x with inl b => [b] | inr _ => [] end) (spread s)).
Proof.
  assert (HM : forall (bs : bytes), flat_map (fun x : byte + rd_ev => match x with inl b => [b] | inr _ => [] end) (map inl bs) = bs).
  { induction bs as [|b bs IH]; [reflexivity|]. cbn. rewrite IH. reflexivity. }
  assert (HF : forall (bs : bytes), Forall (fun x : byte + rd_ev => match x with inl _ => True | inr e => e = RIntr end) (map inl bs)).
  { induction bs; constructor; auto. }
  split.
  - induction 1 as [|b bs s l H [I1 I2]|s l H [I1 I2]]; cbn [spread].
    + split; [constructor|reflexivity].
    + split; [constructor; [exact I|]; apply Forall_app; auto|].
      cbn [flat_map app]. rewrite flat_map_app, HM, <- I2. reflexivity.
    + split; [constructor; auto|]. cbn [flat_map app]. exact I2.
  - revert l. induction s as [|e s IH]; intros l [H1 ->]; [constructor|]. destruct e as [b bs| | |]; cbn [spread] in *.
    + inversion H1 as [|? ? _ H2]; subst. apply Forall_app in H2 as [_ H2].
      cbn [flat_map app]. rewrite flat_map_app, HM. apply (carries_data b bs). auto.
    + inversion H1 as [|? ? H2 H3]; subst. cbn [flat_map app]. apply carries_intr. auto.
    + inversion H1 as [|? ? H2 H3]; subst. discriminate H2.
    + inversion H1 as [|? ? H2 H3]; subst. discriminate H2.
Qed.
Lemma carries_alike : forall s1 s2 l, spread s1 = spread s2 -> carries s1 l -> carries s2 l.
Proof. intros s1 s2 l E H. apply carries_spread. rewrite <- E. apply carries_spread. exact H. Qed.
Lemma acarries_flows : forall s a b, acarries s (a ++ b) -> exists s', aflows s a s' /\ acarries s' b.
Proof.
  induction s as [|e s IH]; intros a b H.
  - inversion H as [E0 E| |]. symmetry in E. apply app_eq_nil in E as [-> ->]. exists []. split; constructor.
  - destruct a as [|x a]; [exists (e :: s); split; [constructor|exact H]|].
    remember ((x :: a) ++ b) as l eqn:EL.
    inversion H as [|y ys s0 l0 H0 E1 E2|s0 l0 H0 E1 E2]; subst e s0 l.
    + cbn [app] in E2. injection E2 as <- E2.
      destruct (le_lt_dec (length ys) (length a)) as [HL|HL].
      * assert (exists a', a = ys ++ a') as (a' & ->).
        { exists (skipn (length ys) a). rewrite <- (firstn_skipn (length ys) a) at 1. f_equal.
          apply (f_equal (firstn (length ys))) in E2. rewrite !firstn_app, Nat.sub_diag, firstn_all, firstn_O, app_nil_r in E2.
          replace (length ys - length a)%nat with 0%nat in E2 by lia. rewrite firstn_O, app_nil_r in E2. symmetry. exact E2. }
        rewrite <- app_assoc in E2. apply app_inv_head in E2. subst l0.
        destruct (IH a' b H0) as (s' & F & C). exists s'. split; [|exact C].
        change (y :: ys ++ a') with ((y :: ys) ++ a'). constructor. exact F.
      * assert (exists z r, ys = a ++ z :: r) as (z & r & ->).
        { assert (ys = a ++ skipn (length a) ys) as HY.
          { rewrite <- (firstn_skipn (length a) ys) at 1. f_equal.
            apply (f_equal (firstn (length a))) in E2. rewrite !firstn_app, Nat.sub_diag, firstn_all, firstn_O, app_nil_r in E2.
            replace (length a - length ys)%nat with 0%nat in E2 by lia. rewrite firstn_O, app_nil_r in E2. exact E2. }
          destruct (skipn (length a) ys) as [|z r] eqn:ES; [|eauto].
          rewrite app_nil_r in HY. subst ys. lia. }
        rewrite <- app_assoc in E2. apply app_inv_head in E2. cbn [app] in E2. subst b.
        exists (AData z r :: s). split; [constructor|]. apply (acarries_data z r). exact H0.
    + subst l0. destruct (IH (x :: a) b) as (s' & F & C); [exact H0|]. exists s'. split; [|exact C].
      constructor; [discriminate|exact F].
Qed.

(** ** Saying *)
Lemma sendable_34 : forall d m, sendable (capped d) m -> sendable (2 ^ 34) m.
Proof. intros d m (H1 & H2 & H3). split; [exact H1|]. split; [unfold capped in H2; lia|exact H3]. Qed.
Lemma send_all_good : forall s l w, never_fails w -> Forall (fun p => sendable (2 ^ 34) (fst p)) l ->
  exists rs w' wire, send_all s (map (fun p : owned * mkey => (owned_ops (fst p), snd p)) l) w = (rs, w') /\
    Forall (fun r => r = Ok tt) rs /\ w_out w' = w_out w ++ wire.
Proof.
  intros s. induction l as [|[m k] l IH]; intros w HW HL.
  - exists [], w, []. split; [reflexivity|]. split; [constructor|]. rewrite app_nil_r. reflexivity.
  - inversion HL as [|? ? (Ht & Hs & Hc) HL']; subst. cbn [fst] in *. pose proof (owned_sendable m Ht Hc) as HO.
    pose proof (proj2 (proj2 library_frames_honest_proof) m) as HH.
    pose proof (frame_bytes_ok (owned_ops m) (if s_mask s then Some k else None) HO (proj2 HH)) as HB.
    set (data := header_bytes _ ++ _) in HB.
    destruct (never_fails_write w data HW) as (w1 & E & Eo & Hw1).
    destruct (IH w1 Hw1 HL') as (rs & w' & wire & ES & HR & EO).
    cbn [map send_all fst snd]. unfold send_frame, write_to. rewrite HB, E, ES.
    exists (Ok tt :: rs), w', (data ++ wire). split; [reflexivity|]. split; [constructor; auto|].
    rewrite EO, Eo, app_assoc. reflexivity.
Qed.
Lemma blocking_says : forall c l, never_fails (c_out c) -> Forall (fun p => sendable (2 ^ 34) (fst p)) l ->
  exists wire, puts (Blocking c) l wire.
Proof.
  intros c l HW HL. destruct (send_all_good (c_sender c) l (c_out c) HW HL) as (rs & w' & wire & ES & HR & EO).
  pose proof (client_run_sends l c) as HS. rewrite ES in HS.
  destruct (client_run _ c) as [an c'] eqn:ER. destruct HS as [-> HC].
  exists wire. eapply blocking_puts; [exact ER| |rewrite HC; exact EO].
  apply Forall_map. eapply Forall_impl; [|exact HR]. intros r ->. reflexivity.
Qed.
Lemma sink_run_app : forall is_server a b w,
  sink_run is_server (a ++ b) w =
  let '(r1, w1) := sink_run is_server a w in let '(r2, w2) := sink_run is_server b w1 in (r1 ++ r2, w2).
Proof.
  intros is_server. induction a as [|op a IH]; intros b w; cbn [app sink_run].
  - destruct (sink_run is_server b w). reflexivity.
  - destruct (match op with Send d k extra => _ | Flush => _ end) as [r w1]. rewrite IH.
    destruct (sink_run is_server a w1) as [r1 w2]. destruct (sink_run is_server b w2). reflexivity.
Qed.
Lemma sink_run_length : forall is_server a w, length (fst (sink_run is_server a w)) = length a.
Proof.
  intros is_server. induction a as [|op a IH]; intros w; cbn [sink_run]; [reflexivity|].
  destruct (match op with Send d k extra => _ | Flush => _ end) as [r w1]. specialize (IH w1).
  destruct (sink_run is_server a w1). cbn [fst length] in *. lia.
Qed.
Lemma accepted_flushes : forall n rs ops rs', length rs = n -> accepted (repeat Flush n ++ ops) (rs ++ rs') = accepted ops rs'.
Proof.
  induction n as [|n IH]; intros [|r rs] ops rs' H; try discriminate H; [reflexivity|].
  cbn [repeat app accepted]. apply IH. injection H as H. exact H.
Qed.
Lemma offered_app : forall a b, offered (a ++ b) = offered a ++ offered b.
Proof. induction a as [|[d k e|] a IH]; intros b; cbn [app offered]; rewrite ?IH; reflexivity. Qed.
Lemma offered_flushes : forall n, offered (repeat Flush n) = [].
Proof. induction n as [|n IH]; [reflexivity|exact IH]. Qed.

Lemma sink_says : forall is_server l w, Forall (fun p => sendable (2 ^ 34) (fst p)) l ->
  exists ops rs w' wire, sink_run is_server ops w = (rs, w') /\
    accepted ops rs = map (fun p : owned * mkey => (owned_ops (fst p), snd p)) l /\
    offered ops = map (fun p : owned * mkey => owned_ops (fst p)) l /\
    bm_data (fw_buf w') = [] /\ fw_out w' = (fw_out w ++ bm_data (fw_buf w)) ++ wire.
Proof.
  intros is_server. induction l as [|[m k] l IH]; intros w HL.
  - destruct (flush_terminates_proof is_server w) as (n & rs & w' & E & _ & HB & HO).
    exists (repeat Flush n), (rs ++ [SReady]), w', []. split; [exact E|]. split.
    { rewrite <- (app_nil_r (repeat Flush n)), <- (app_nil_r (rs ++ [SReady])).
      rewrite accepted_flushes; [reflexivity|]. pose proof (sink_run_length is_server (repeat Flush n) w) as HN.
      rewrite E, repeat_length in HN. exact HN. }
    split; [apply offered_flushes|]. split; [exact HB|]. rewrite app_nil_r. exact HO.
  - inversion HL as [|? ? (Ht & Hs & Hc) HL']; subst. cbn [fst] in *. pose proof (owned_sendable m Ht Hc) as HS.
    pose proof (proj2 (proj2 library_frames_honest_proof) m) as HH.
    destruct (flush_terminates_proof is_server w) as (n & rs & w1 & E & _ & HB & HO).
    destruct (encode_good is_server (owned_ops m) k 0 (fw_buf w1) HH HS) as (one & dst & E1 & E2 & E3).
    set (w2 := mk_fw dst (fw_out w1) (fw_ws w1) (fw_fs w1)).
    assert (start_send is_server (owned_ops m) k 0 w1 = (SReady, w2)) as ESS.
    { unfold start_send. rewrite HB. cbn [llen length]. change (BACKPRESSURE <=? N.of_nat 0) with false. cbv iota. rewrite E1. reflexivity. }
    destruct (IH w2 HL') as (ops & rs2 & w' & wire & F1 & F2 & F3 & F4 & F5).
    exists (repeat Flush n ++ Send (owned_ops m) k 0 :: ops), ((rs ++ [SReady]) ++ SReady :: rs2), w'.
    assert (length (rs ++ [SReady]) = n) as HN.
    { pose proof (sink_run_length is_server (repeat Flush n) w) as HN. rewrite E, repeat_length in HN. exact HN. }
    exists (one ++ wire). split.
    { rewrite sink_run_app, E. cbn [sink_run]. rewrite ESS, F1. reflexivity. }
    split. { rewrite accepted_flushes by exact HN. cbn [accepted map fst snd]. rewrite F2. reflexivity. }
    split. { rewrite offered_app, offered_flushes. cbn [app offered map fst]. rewrite F3. reflexivity. }
    split; [exact F4|]. rewrite F5. subst w2. cbn [fw_out fw_buf]. rewrite E2, HB, HO. cbn [app].
    rewrite <- !app_assoc. reflexivity.
Qed.

Lemma async_says : forall a l, Forall (fun p => sendable (2 ^ 34) (fst p)) l -> exists wire, puts (Async a) l wire.
Proof.
  intros a l HL. destruct (sink_says (dc_is_server (mc_df (fr_st (ac_read a)))) l (ac_out a) HL) as (ops & rs & w & wire & H1 & H2 & H3 & H4 & H5).
  exists wire. eapply async_puts; [|exact H1|exact H2|exact H4|exact H5].
  rewrite H3. apply Forall_map. eapply Forall_impl; [|exact HL]. intros p (G1 & G2 & _). exists (fst p).
  split; [reflexivity|]. split; [clear - G2; lia|exact G1].
Qed.

(** ** Both handshakes *)
Lemma server_stands : forall X u cs rnd b text custom h0 h rtext df msg st wire,
  speaks X -> sound_room X -> configured X u cs rnd b -> request_text rnd b text -> llen text <= 417792 ->
  response_text custom h0 (request_fields rnd b) h rtext -> reliable st -> brings st text wire ->
  exists e, serves X h0 custom df msg st = Some e /\ wrote st e rtext /\ server_end df e /\
    (forall l, Forall (fun p => sendable (2 ^ 34) (fst p)) l -> exists w, puts e l w) /\
    (forall ms, gets e wire ms -> hears e ms).
Proof.
  intros X u cs rnd b text custom h0 h rtext df msg st wire HS HR HC HT HL [HP HPR] HF HB. destruct st as [s w|extra s w]; cbn [serves wrote reliable brings] in *.
  - destruct HB as (s' & HFC & HCA).
    destruct (server_got X u cs rnd b text s w _ HS HR HC HT HL HFC) as (rest & s2 & E & HE).
    rewrite E. cbn [up_request up_buffer up_in up_out].
    set (up := mk_upgrade h0 _ (Some rest) s2 w).
    destruct (never_fails_write w rtext HF) as (w' & EW & EO & HW').
    assert (internal_accept custom df msg up = Ok (unchecked_with_limits rest s2 w' h false true df msg)) as EA.
    { subst up. unfold internal_accept. cbn [up_headers up_request rq_headers rq_version up_out up_buffer up_in].
      rewrite (prepare_any _ _ _ _ _ _ HP). cbn [rbind]. rewrite (print_response_any _ _ _ _ _ _ HPR). cbn [rbind].
      rewrite EW. reflexivity. }
    rewrite EA. eexists. split; [reflexivity|]. cbn [wrote unchecked_with_limits c_out]. split; [exact EO|].
    split; [eapply blocking_server; exact EA|]. split.
    + intros l HLS. apply blocking_says; [exact HW'|exact HLS].
    + intros ms HG. apply HG. unfold unchecked_with_limits. cbn [c_buf c_in].
      eapply carries_alike; [|exact HCA]. symmetry. exact HE.
  - destruct (acarries_flows s text wire HB) as (s' & HFL & HCA).
    destruct (configured_head X u cs rnd b text HS HC HT) as (H1 & H2 & H4).
    destruct (request_good_proof X u cs rnd b HC) as [H3 _].
    destruct (async_request_read_proof X _ _ _ _ text s s' (proj1 HS) H1 H2) as (rest & s2 & E & ES); auto.
    { apply HC. }
    unfold async_into_ws. rewrite E, named_get. cbn [finish_into_ws rq_method rq_version rq_headers fr_buf].
    apply server_validate_iff_proof in H3. rewrite H3. cbn [au_request au_buffer au_in au_out].
    set (up := mk_aupgrade h0 _ rest s2 w).
    destruct (http_send_ok rtext extra w HF) as (w' & EW & HW' & HB' & HO).
    assert (async_accept custom df msg extra up
      = Ok (mk_aclient (framed_new (msg_codec_with_limits CtxServer df msg) rest) s2 w', h)) as EA.
    { subst up. unfold async_accept. cbn [au_headers au_request rq_headers rq_version au_out au_buffer au_in].
      rewrite (prepare_any _ _ _ _ _ _ HP). cbn [rbind]. rewrite (print_response_any _ _ _ _ _ _ HPR). cbn [rbind].
      rewrite EW. reflexivity. }
    rewrite EA. eexists. split; [reflexivity|]. cbn [ac_out]. split; [auto|].
    split; [eapply async_server; exact EA|]. split.
    + intros l HLS. apply async_says. exact HLS.
    + intros ms HG. apply HG. cbn [ac_read ac_in framed_new fr_buf]. rewrite <- ES. exact HCA.
Qed.
Lemma client_stands : forall X u cs rnd b text custom h0 h rtext st wire,
  speaks X -> sound_room X -> configured X u cs rnd b -> request_text rnd b text ->
  unique_names h0 -> all_unique custom ->
  response_text custom h0 (request_fields rnd b) h rtext -> legible_all X (fields h) -> llen rtext <= 417792 ->
  reliable st -> brings st rtext wire ->
  exists e, connects X rnd b st = Some e /\ wrote st e text /\ client_end X (b_max_df b) e /\
    (forall l, Forall (fun p => sendable (2 ^ 34) (fst p)) l -> exists w, puts e l w) /\
    (forall ms, gets e wire ms -> hears e ms).
Proof.
  intros X u cs rnd b text custom h0 h rtext st wire HS HR HC HT HU HA HX [HL HN] HLR HF HB.
  pose proof (response_good X u cs rnd b custom h0 h rtext Http11 (ascii "Switching Protocols") HC HU HA HX) as HG.
  destruct HX as [HP HPR].
  pose proof (response_as_read_proof X Http11 h rtext (proj2 (proj2 HS)) HL (or_intror eq_refl) HPR) as HH.
  destruct st as [s w|extra s w]; cbn [connects wrote reliable brings] in *.
  - destruct HB as (s' & HFC & HCA).
    destruct (sync_response_read_proof X _ _ _ _ rtext (spread s') s (proj1 HS) HR HH) as (rest & s2 & E & HE);
      [unfold read_back; rewrite map_length; exact HN|exact HLR|exact HFC|].
    destruct (never_fails_write w text HF) as (w' & EW & EO & HW').
    assert (connect_on X rnd b s w = (Ok (unchecked_with_limits rest s2 w' (from_raw (read_back (fields h))) true false
        (b_max_df b) (b_max_df b)), build_request rnd b, w')) as EC.
    { unfold connect_on. rewrite (print_request_any _ client_error _ _ HT). rewrite EW, E, HG. reflexivity. }
    rewrite EC. eexists. split; [reflexivity|]. cbn [wrote unchecked_with_limits c_out]. split; [exact EO|].
    split; [eapply blocking_client; exact EC|]. split.
    + intros l HLS. apply blocking_says; [exact HW'|exact HLS].
    + intros ms HGT. apply HGT. unfold unchecked_with_limits. cbn [c_buf c_in].
      eapply carries_alike; [|exact HCA]. symmetry. exact HE.
  - destruct (acarries_flows s rtext wire HB) as (s' & HFL & HCA).
    assert (ends_first rtext) as HE.
    { eapply legible_end; [apply (proj1 HS)| |exact HL|exact HPR].
      split; intros HI; cbn in HI; decompose [or] HI; try discriminate; contradiction. }
    destruct (async_response_read_proof X _ _ _ _ rtext s s' (proj1 HS) HH) as (rest & s2 & E & ES);
      [unfold read_back; rewrite map_length; exact HN|exact HE|exact HFL|].
    destruct (http_send_ok text extra w HF) as (w' & EW & HW' & HB' & HO).
    assert (async_connect_on X rnd b extra s w
      = Ok (mk_aclient (framed_new (msg_codec_with_limits CtxClient (b_max_df b) (b_max_msg b)) rest) s2 w',
            from_raw (read_back (fields h)))) as EC.
    { unfold async_connect_on. rewrite (print_request_any _ client_error _ _ HT). cbn [rbind]. rewrite EW, E, HG. reflexivity. }
    rewrite EC. eexists. split; [reflexivity|]. cbn [ac_out]. split; [auto|].
    split; [eapply async_client; exact EC|]. split.
    + intros l HLS. apply async_says. exact HLS.
    + intros ms HGT. apply HGT. cbn [ac_read ac_in framed_new fr_buf]. rewrite <- ES. exact HCA.
Qed.

(** ** The session *)

(** [C83] A client and a server of this library, each blocking or asynchronous.  The client was
    configured in any way that does not break the handshake; the server chooses any headers, adds
    any and sets any limits; and each side's reads give what the other writes: request and
    response, then the frames of the messages each wants to say.  Then both get through the
    handshake, having written just the request and the response; all their messages go out and
    are those frames; and each hears all the other says, in order, whatever the two transports
    do with the bytes. *)
Lemma whole_session_proof : forall X u cs rnd b text custom h0 h rtext df msg cst sst l1 l2 wire1 wire2,
  speaks X -> sound_room X ->
  configured X u cs rnd b -> request_text rnd b text -> llen text <= 417792 ->
  unique_names h0 -> all_unique custom ->
  response_text custom h0 (request_fields rnd b) h rtext -> legible_all X (fields h) -> llen rtext <= 417792 ->
  Forall (fun p => sendable (capped df) (fst p)) l1 ->
  Forall (fun p => sendable (capped (b_max_df b)) (fst p)) l2 ->
  octets wire1 = client_says l1 -> octets wire2 = server_says (map fst l2) ->
  reliable cst -> reliable sst -> brings sst text wire1 -> brings cst rtext wire2 ->
  exists ce se,
    connects X rnd b cst = Some ce /\ serves X h0 custom df msg sst = Some se /\
    wrote cst ce text /\ wrote sst se rtext /\
    puts ce l1 wire1 /\ puts se l2 wire2 /\
    hears se (map fst l1) /\ hears ce (map fst l2).
Proof.
  intros X u cs rnd b text custom h0 h rtext df msg cst sst l1 l2 wire1 wire2
    HS HR HC HT HLT HU HA HX HL HLR HL1 HL2 HW1 HW2 HF1 HF2 HB1 HB2.
  destruct (server_stands X u cs rnd b text custom h0 h rtext df msg sst wire1 HS HR HC HT HLT HX HF2 HB1)
    as (se & S1 & S2 & S3 & S4 & S5).
  destruct (client_stands X u cs rnd b text custom h0 h rtext cst wire2 HS HR HC HT HU HA HX HL HLR HF1 HB2)
    as (ce & C1 & C2 & C3 & C4 & C5).
  assert (forall d l, Forall (fun p : owned * mkey => sendable (capped d) (fst p)) l ->
    Forall (fun p : owned * mkey => sendable (2 ^ 34) (fst p)) l) as HCAP.
  { intros d l H. eapply Forall_impl; [|exact H]. intros p. apply sendable_34. }
  assert (forall d, capped d < 2 ^ 64) as HD by (intros d; unfold capped; lia).
  assert (puts ce l1 wire1) as P1.
  { destruct (C4 l1 (HCAP _ _ HL1)) as (w & HP).
    pose proof (client_masks_proof X _ ce l1 w _ C3 (HD df) HL1 HP) as HM.
    replace wire1 with w; [exact HP|]. apply octets_inj. rewrite HM, HW1. reflexivity. }
  assert (puts se l2 wire2) as P2.
  { destruct (S4 l2 (HCAP _ _ HL2)) as (w & HP).
    pose proof (server_does_not_mask_proof _ se l2 w _ S3 (HD (b_max_df b)) HL2 HP) as HM.
    replace wire2 with w; [exact HP|]. apply octets_inj. rewrite HM, HW2. unfold server_says. rewrite map_map. reflexivity. }
  exists ce, se. repeat (split; [assumption|]). split.
  - apply S5. eapply client_to_server_proof; eassumption.
  - apply C5. eapply server_to_client_proof; eassumption.
Qed.

(*EX
(** An asynchronous client and a blocking server: the first bytes of the client's first frame come
    together with its request, the server's ping byte by byte. *)
Definition whole_url : url := mk_url (ascii "ws") (Some (ascii "example.org")) (Some 8080) [] None (ascii "/chat?a=b").
Definition whole_calls : list call := [AddProtocol (ascii "chat"); MaxMessageSize 1000; SetOrigin (ascii "http://example.org")].
Definition whole_rnd : bytes := ascii "the sample nonce".
Definition whole_key : mkey := mk_key x01 x02 x03 x04.
Example whole_session_ex : exists b text h rtext ce se,
  configured httparse_lib whole_url whole_calls whole_rnd b /\
  request_text whole_rnd b text /\ llen text <= 417792 /\
  response_text (Some [(ascii "X", Raw [ascii "y"])]) [(n_protocol, Typed (VProtocol [ascii "chat"]))]
    (request_fields whole_rnd b) h rtext /\
  legible_all httparse_lib (fields h) /\ llen rtext <= 417792 /\
  let l1 := [(OText (str "hi"), whole_key); (OClose None, whole_key)] in
  let l2 := [(OPing [], whole_key)] in
  let wire1 := [x81; x82; x01; x02; x03; x04; x69; x6b; x88; x80; x01; x02; x03; x04] in
  octets wire1 = client_says l1 /\ octets [x89; x00] = server_says (map fst l2) /\
  let sst := OverBlocking (push_back (text ++ [x81; x82; x01]) [RIntr; RData x02 (skipn 4 wire1)]) (mk_w [] [WAccept 7; WIntr]) in
  let cst := OverAsync 0 (apush_back rtext [ANotReady; AData x89 []; ANotReady; AData x00 []]) (mk_fw (mk_bm [] 0) [] [AwNotReady] []) in
  brings sst text wire1 /\ brings cst rtext [x89; x00] /\
  connects httparse_lib whole_rnd b cst = Some ce /\
  serves httparse_lib [(n_protocol, Typed (VProtocol [ascii "chat"]))] (Some [(ascii "X", Raw [ascii "y"])]) 100 200 sst = Some se /\
  hears se [OText (str "hi"); OClose None] /\ hears ce [OPing []].
Proof.
  eexists _, _, _, _, _, _. split.
  { split; [reflexivity|]. split; [repeat constructor|]. split; [repeat constructor|].
    split; [reflexivity|]. split; [reflexivity|]. split; [repeat constructor; discriminate|].
    split; [split; [discriminate|right; left; eexists; reflexivity]|].
    split; [split; intros HI; cbn in HI; decompose [or] HI; try discriminate; contradiction|].
    split; [apply ThmInterop.legible_check; vm_compute; reflexivity|vm_compute; lia]. }
  split; [vm_compute; reflexivity|]. split; [vm_compute; discriminate|]. split; [split; vm_compute; reflexivity|].
  split; [split; [apply ThmInterop.legible_check; vm_compute; reflexivity|vm_compute; lia]|].
  split; [vm_compute; discriminate|]. cbv zeta.
  split; [vm_compute; reflexivity|]. split; [vm_compute; reflexivity|].
  split. { exists [RData x81 [x82; x01]; RIntr; RData x02 [x03; x04; x69; x6b; x88; x80; x01; x02; x03; x04]].
    split; [vm_compute; reflexivity|]. apply (carries_data x81 [x82; x01]). apply carries_intr.
    apply (carries_data x02 [x03; x04; x69; x6b; x88; x80; x01; x02; x03; x04] [] []). constructor. }
  split. { apply ThmSession.acarries_mk. apply acarries_not_ready. apply (acarries_data x89 [] _ [x00]).
    apply acarries_not_ready. apply (acarries_data x00 [] [] []). constructor. }
  split; [vm_compute; reflexivity|]. split; [vm_compute; reflexivity|]. split; vm_compute; reflexivity.
Qed. EX*)
