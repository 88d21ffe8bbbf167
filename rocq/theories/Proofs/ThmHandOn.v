(** What a server gives back with a connection it refuses: C102. *)
From Coq Require Import NArith ZArith String Bool List Lia.
From Coq Require Import ZifyBool ZifyNat ZifyN.
From Coq.Strings Require Import Byte.
From Verif.Model Require Import Base Io Header Mask Dataframe Utf8 Text Base64 WsKey Headers
  Handshake Message Receiver Codec Framed Http Connect.
From Verif.Spec Require Import RfcFrame FrameSpec Fields Upgrade Builder HttpHead Connection Wire Sides Accept.
From Verif.Proofs Require Import BaseFacts FrameFacts TextFacts HttpFacts ThmHttp.
Import ListNotations.
Local Open Scope string_scope.
Local Open Scope list_scope.
Local Open Scope N_scope.

Lemma rd_read_all : forall n s, 0 < n ->
  match rd_read n s with
  | (Ok [], s') => s = [] /\ s' = [] \/ spread s = inr REof :: spread s'
  | (Ok d, s') => spread s = map inl d ++ spread s'
  | (Err k, s') => exists x, spread s = inr x :: spread s' /\ stops [inr x] = Some k
  | _ => False
  end.
Proof.
  intros n s Hn. pose proof (rd_read_spread n s Hn) as HD. destruct s as [|[b bs| | |k] s].
  - unfold rd_read. replace (n =? 0) with false by lia. auto.
  - destruct (rd_read n (RData b bs :: s)) as [[[|d0 d]|k| |] s1]; try discriminate HD; try contradiction.
    exact (proj1 HD).
  - unfold rd_read. replace (n =? 0) with false by lia. eexists. split; reflexivity.
  - unfold rd_read. replace (n =? 0) with false by lia. right. reflexivity.
  - unfold rd_read. replace (n =? 0) with false by lia. eexists. split; reflexivity.
Qed.
Lemma parse_keeps : forall A (try : bytes -> pres A) room, 
  (forall n, n < MAX_BUFFER_SIZE -> 0 < room n) -> room MAX_BUFFER_SIZE = 0 ->
  forall fuel buf s e rest s2, parse_loop try room fuel buf s = (Err e, rest, s2) ->
  exists ev, (ev = [] \/ exists x k, ev = [inr x] /\ e = PEIo k /\ stops [inr x] = Some k) /\
    map inl buf ++ spread s = map inl rest ++ ev ++ spread s2.
Proof.
  intros A try room HR HR0. induction fuel as [|fuel IH]; intros buf s e rest s2 E; cbn [parse_loop] in E;
    destruct (try buf) as [a r| |e0]; try discriminate E.
  - injection E as <- <- <-. exists []. auto.
  - destruct (N.eqb_spec (room (llen buf)) 0) as [H0|H0].
    + rewrite H0 in E. unfold rd_read in E. cbn [N.eqb] in E. injection E as <- <- <-. exists []. auto.
    + pose proof (rd_read_all (room (llen buf)) s ltac:(lia)) as HD.
      destruct (rd_read (room (llen buf)) s) as [[[|d0 d]|k| |] s1]; try contradiction.
      * replace (llen buf =? MAX_BUFFER_SIZE) with false in E.
        2:{ symmetry. apply N.eqb_neq. intros EM. rewrite EM in H0. contradiction. }
        injection E as <- <- <-. destruct HD as [[-> ->]|HD]; [exists []; auto|].
        exists [inr REof]. split; [right; exists REof, UnexpectedEof; auto|]. rewrite HD. reflexivity.
      * destruct (IH _ _ _ _ _ E) as (ev & G1 & G2). exists ev. split; [exact G1|].
        rewrite <- G2, HD, map_app, <- app_assoc. reflexivity.
      * injection E as <- <- <-. destruct HD as (x & H1 & H2). exists [inr x]. split; [right; exists x, k; auto|].
        rewrite H1. reflexivity.
  - injection E as <- <- <-. exists []. auto.
Qed.

(** [C102] A connection the blocking server refuses comes back with nothing written to it and nothing
    lost: either there is a request, which stands for the bytes of a head, and buffer and stream go on
    right after it; or there is none, and buffer and stream together still hold all that came, except for
    the end of the stream or the failure of it that is the reported error, if it is one. *)
Lemma refusal_keeps_all_proof : forall X s w f, sound_room X -> into_ws X s w = Err f ->
  rf_out f = w /\ exists b, rf_buffer f = Some b /\
  ((exists q head, rf_request f = Some q /\ try_request X head = Done q [] /\
      spread s = map inl head ++ map inl b ++ spread (rf_in f)) \/
   (rf_request f = None /\ exists ev, (ev = [] \/ exists x k, ev = [inr x] /\ rf_error f = UpParsing (PEIo k) /\ stops [inr x] = Some k) /\
      spread s = map inl b ++ ev ++ spread (rf_in f))).
Proof.
  intros X s w f [HR HR0] E. unfold into_ws, parse_request in E.
  pose proof (parse_sound _ (try_request X) (l_room X) (S (script_bytes s)) [] s (stab_request X) (le_n _)) as HS.
  destruct (parse_loop (try_request X) (l_room X) (S (script_bytes s)) [] s) as [[[q|e| |] rest] s2] eqn:EL; try contradiction.
  - destruct HS as (head & more & H1 & H2 & H3). cbn [app] in H2.
    destruct (validate (rq_method q) (rq_version q) (rq_headers q)); try discriminate E.
    injection E as <-. cbn [rf_out rf_buffer rf_request rf_in]. split; [reflexivity|]. exists rest. split; [reflexivity|].
    left. exists q, head. split; [reflexivity|]. split; [exact H1|]. rewrite H3, H2, map_app, <- app_assoc. reflexivity.
  - injection E as <-. cbn [rf_out rf_buffer rf_request rf_in]. split; [reflexivity|]. exists rest. split; [reflexivity|].
    right. split; [reflexivity|]. destruct (parse_keeps _ _ _ HR HR0 _ _ _ _ _ _ EL) as (ev & G1 & G2).
    exists ev. split; [|exact G2]. destruct G1 as [->|(x & k & -> & -> & G)]; [left; reflexivity|right; exists x, k; auto].
Qed.
(*EX
(** How a connection for HTTP/2 begins (RFC 7540, 3.5): all of it can be handed on. *)
Definition http2_preface : bytes := str "PRI * HTTP/2.0" ++ head_end ++ str "SM" ++ head_end.
Example refusal_keeps_all_ex :
  into_ws httparse_lib (RData "P"%byte (str "RI * HTT") :: push_back (skipn 9 http2_preface) [REof]) (mk_w [] [])
    = Err (mk_refusal [REof] (mk_w [] []) None (Some http2_preface) (UpParsing PEVersion)).
Proof. vm_compute. reflexivity. Qed.
EX*)

(** [C102] In particular a caller of [accept] who is given no request and not told of a failing stream can
    hand on the connection as if it had never been looked at. *)
Lemma refused_as_new_proof : forall X s w f e b, sound_room X -> server_accept X (Arrives s w) = Err (Some f, e) ->
  rf_request f = None -> (forall k, e <> UpParsing (PEIo k)) -> rf_buffer f = Some b ->
  same_stream (push_back b (rf_in f)) s /\ rf_out f = w.
Proof.
  intros X s w f e b HR E HN HE HB. cbn [server_accept] in E.
  destruct (into_ws X s w) as [u|f0| |] eqn:EI; try discriminate E. injection E as -> <-.
  destruct (refusal_keeps_all_proof X s w f HR EI) as (HW & b' & HB' & HC). split; [|exact HW].
  rewrite HB in HB'. injection HB' as <-. unfold same_stream. rewrite spread_push_back.
  destruct HC as [(q & head & HQ & _)|(_ & ev & [->|(x & k & _ & HK & _)] & HS)].
  - rewrite HN in HQ. discriminate HQ.
  - rewrite HS. reflexivity.
  - exfalso. exact (HE k HK).
Qed.
(*EX Example refused_as_new_ex :
  match server_accept httparse_lib (Arrives (push_back http2_preface [REof]) (mk_w [] [])) with
  | Err (Some f, UpParsing PEVersion) => rf_request f = None /\ rf_buffer f = Some http2_preface
  | _ => False
  end.
Proof. vm_compute. auto. Qed. EX*)

(** [C102] The asynchronous server gives back the connection with nothing written to it, too.  If it has a
    request, buffer and stream go on right after its head. *)
Lemma async_refusal_keeps_rest_proof : forall X h q r sa sa' wa g, ends_first h ->
  try_request X h = Done q r -> aflows sa h sa' -> async_into_ws X sa wa = Err g ->
  ar_out g = wa /\ ar_request g = Some q /\ sa' = apush_back (ar_buffer g) (ar_in g).
Proof.
  intros X h q r sa sa' wa g HE HD HA E.
  destruct (await_head_go _ (try_request X) sa h sa' (inl q) HA HE) as (rest & s2 & E1 & E2).
  { rewrite HD. reflexivity. }
  unfold async_into_ws in E. rewrite E1 in E. cbn [finish_into_ws] in E.
  destruct (validate (rq_method q) (rq_version q) (rq_headers q)); try discriminate E.
  injection E as <-. cbn [ar_out ar_request ar_buffer ar_in fr_buf]. auto.
Qed.
(*EX Example async_refusal_keeps_rest_ex :
  let h := str "POST /form HTTP/1.1" ++ crlf ++ str "Content-Length: 3" ++ head_end in
  let w := mk_fw (mk_bm [] 0) [] [] [] in
  exists q, try_request httparse_lib h = Done q [] /\
  async_into_ws httparse_lib (apush_back (h ++ str "a") [AData "="%byte [x31]]) w
    = Err (mk_arefusal [AData "="%byte [x31]] w (Some q) (str "a") MethodNotGet).
Proof. eexists. split; vm_compute; reflexivity. Qed. EX*)

(** [C102] But a head the parser refuses is gone: there is no request, and buffer and stream go on right
    after it. *)
Lemma async_refusal_drops_head_proof : forall X h e sa sa' wa, ends_first h ->
  try_request X h = Fail e -> e <> PETooLarge -> aflows sa h sa' ->
  exists g, async_into_ws X sa wa = Err g /\ ar_out g = wa /\ ar_request g = None /\
    sa' = apush_back (ar_buffer g) (ar_in g).
Proof.
  intros X h e sa sa' wa HE He Hne HA.
  destruct (async_request_refused_proof X h e sa sa' HE He Hne HA) as (rest & s2 & E1 & E2).
  unfold async_into_ws. rewrite E1. cbn [finish_into_ws]. eexists. split; [reflexivity|]. auto.
Qed.

(** [C102] So that nothing is lost is refuted for the asynchronous server. *)
Lemma async_refusal_keeps_all_refuted_proof : ~ (forall X sa wa g, undisturbed sa -> async_into_ws X sa wa = Err g ->
  ar_request g = None -> aev_bytes sa = ar_buffer g ++ aev_bytes (ar_in g)).
Proof.
  intros H. specialize (H httparse_lib (apush_back (str "PRI * HTTP/2.0" ++ head_end ++ str "SM" ++ head_end) []) (mk_fw (mk_bm [] 0) [] [] [])
    (mk_arefusal [] (mk_fw (mk_bm [] 0) [] [] []) None (str "SM" ++ head_end) (UpParsing PEVersion))).
  assert (HU : undisturbed (apush_back (str "PRI * HTTP/2.0" ++ head_end ++ str "SM" ++ head_end) [])).
  { cbv. repeat constructor. }
  specialize (H HU ltac:(vm_compute; reflexivity) eq_refl). vm_compute in H. discriminate H.
Qed.
(*EX
(** Of the beginning of a connection for HTTP/2 only the end is given back. *)
Example async_refusal_keeps_all_refuted_ex :
  let w := mk_fw (mk_bm [] 0) [] [] [] in
  async_into_ws httparse_lib (apush_back http2_preface []) w
    = Err (mk_arefusal [] w None (str "SM" ++ head_end) (UpParsing PEVersion)).
Proof. vm_compute. reflexivity. Qed.
EX*)
