(** Heads the parser refuses, given to both kinds of server and of client: C58. *)
From Coq Require Import NArith ZArith String Bool List Lia.
From Coq Require Import ZifyBool ZifyNat ZifyN.
From Coq.Strings Require Import Byte.
From Verif.Model Require Import Base Io Header Mask Dataframe Utf8 Text Base64 WsKey Headers
  Handshake Message Receiver Codec Framed Http Connect.
From Verif.Spec Require Import RfcFrame FrameSpec Fields Upgrade Builder HttpHead Connection Wire Sides Accept.
From Verif.Proofs Require Import BaseFacts FrameFacts TextFacts MapFacts ThmKeys ThmStream ThmServer ThmClient HttpFacts ThmHttp ThmConnect ThmInterop.
Import ListNotations.
Local Open Scope string_scope.
Local Open Scope list_scope.
Local Open Scope N_scope.

Lemma parse_fails_go : forall A (try : bytes -> pres A) room h e t, stab try -> try h = Fail e ->
  (forall n, n < llen h -> 0 < room n) ->
  forall fuel buf s, (script_bytes s < fuel)%nat -> map inl buf ++ spread s = map inl h ++ t ->
  exists buf2 s2, parse_loop try room fuel buf s = (Err e, buf2, s2) /\
    map inl buf2 ++ spread s2 = map inl h ++ t.
Proof.
  intros A try room h e t Hst He Hr. induction fuel as [|fuel IH]; intros buf s Hf Hs; [lia|].
  pose proof (Hst h) as SH. rewrite He in SH. pose proof (Hst buf) as SB. cbn [parse_loop].
  destruct (map_inl_split _ _ _ _ Hs) as [(c' & Ec & Hu)|(r & Hne & Eh & Ht)].
  - rewrite Ec, SH. exists (h ++ c'), s. split; [reflexivity|]. rewrite <- Ec. exact Hs.
  - destruct (try buf) as [a rest| |e'] eqn:E.
    + destruct SB as (c & Eb & Hc). rewrite Eh, Eb, <- app_assoc, Hc in He. discriminate He.
    + assert (0 < room (llen buf)) as Hroom.
      { apply Hr. rewrite Eh, llen_app. destruct r; [congruence|]. rewrite llen_cons. lia. }
      pose proof (rd_read_spread _ s Hroom) as HD. rewrite Ht in HD.
      destruct (rd_read (room (llen buf)) s) as [[[|d0 d]|k| |] s1]; try contradiction.
      * destruct r; [congruence|]. discriminate HD.
      * destruct HD as [HD HB]. apply IH; [lia|].
        rewrite map_app, <- app_assoc, <- HD, app_assoc, <- map_app, <- Eh. reflexivity.
      * destruct r; [congruence|]. discriminate HD.
    + rewrite Eh, SB in He. injection He as ->. exists buf, s. auto.
Qed.

(** ** The servers *)

(** [C58] Given bytes the parser refuses, other than as too large, the blocking and the asynchronous server
    both refuse them, with the parser's error and without a request, however the bytes come to either.  The
    blocking one may refuse before it has them all. *)
Lemma servers_refuse_alike_proof : forall X h e after s w sa sa' wa, sound_room X ->
  try_request X h = Fail e -> e <> PETooLarge -> llen h <= 417792 -> ends_first h ->
  first_come h after s -> aflows sa h sa' ->
  (exists f, into_ws X s w = Err f /\ rf_error f = UpParsing e /\ rf_request f = None) /\
  (exists g, async_into_ws X sa wa = Err g /\ ar_error g = UpParsing e /\ ar_request g = None).
Proof.
  intros X h e after s w sa sa' wa HR He Hne HL HE HF HA. split.
  - destruct (parse_fails_go _ (try_request X) (l_room X) h e after (stab_request X) He) with (fuel := S (script_bytes s)) (buf := @nil byte) (s := s)
      as (buf & s2 & E & _).
    + intros n Hn. apply HR. unfold MAX_BUFFER_SIZE. lia.
    + lia.
    + exact HF.
    + unfold into_ws, parse_request. rewrite E. eexists. split; [reflexivity|]. split; reflexivity.
  - destruct (async_request_refused_proof X h e sa sa' HE He Hne HA) as (rest & s2 & E & _).
    unfold async_into_ws. rewrite E. cbn [finish_into_ws]. eexists. split; [reflexivity|]. split; reflexivity.
Qed.
(*EX
(** A request with a version that is no version; the blocking server has not read the rest of it. *)
Example servers_refuse_alike_ex :
  let h := str "GET / HTTP/2.0" ++ head_end in
  try_request httparse_lib h = Fail PEVersion /\
  into_ws httparse_lib (RData "G"%byte (str "ET / HTTP/2") :: push_back (str ".0" ++ head_end) []) (mk_w [] [])
    = Err (mk_refusal (push_back (str ".0" ++ head_end) []) (mk_w [] []) None (Some (str "GET / HTTP/2")) (UpParsing PEVersion)) /\
  async_into_ws httparse_lib (ANotReady :: apush_back (h ++ str "x") []) (mk_fw (mk_bm [] 0) [] [] [])
    = Err (mk_arefusal [] (mk_fw (mk_bm [] 0) [] [] []) None (str "x") (UpParsing PEVersion)).
Proof. split; [|split]; vm_compute; reflexivity. Qed.
EX*)

(** ** The clients *)

(** [C58] Given bytes the parser refuses as a response, other than as too large, the blocking and the
    asynchronous client of one builder both fail with the parser's error, once they have sent the request. *)
Lemma clients_refuse_alike_proof : forall X rnd b data h e after s w sa sa' wa extra, sound_room X ->
  @print_request client_error (build_request rnd b) = Ok data -> never_fails w -> afails_never wa ->
  try_response X h = Fail e -> e <> PETooLarge -> llen h <= 417792 -> ends_first h ->
  first_come h after s -> aflows sa h sa' ->
  fst (fst (connect_on X rnd b s w)) = Err (CParsing e) /\
  async_connect_on X rnd b extra sa wa = Err (CParsing e).
Proof.
  intros X rnd b data h e after s w sa sa' wa extra HR EP HW HWA He Hne HL HE HF HA. split.
  - destruct (parse_fails_go _ (try_response X) (l_room X) h e after (stab_response X) He) with (fuel := S (script_bytes s)) (buf := @nil byte) (s := s)
      as (buf & s2 & E & _).
    + intros n Hn. apply HR. unfold MAX_BUFFER_SIZE. lia.
    + lia.
    + exact HF.
    + unfold connect_on, parse_response. rewrite EP.
      destruct (write_never_fails (w_script w) (w_out w) data HW) as (t' & EW & _). unfold write_all. rewrite EW, E. reflexivity.
  - unfold async_connect_on. rewrite EP. cbn [rbind].
    destruct (head_sent_proof data extra wa) as [(w' & EH & _)|(e0 & w' & _ & C)]; [|contradiction].
    destruct (await_head_go _ (try_response X) sa h sa' (inr e) HA HE) as (rest & s2 & E & _).
    { rewrite He. destruct e; try reflexivity. congruence. }
    rewrite EH, E. reflexivity.
Qed.
(*EX
Example clients_refuse_alike_ex :
  let u := mk_url (ascii "ws") (Some (ascii "h")) None [] None (ascii "/") in
  let h := str "HTTP/2.0 101 X" ++ head_end in
  try_response httparse_lib h = Fail PEVersion /\
  fst (fst (connect_on httparse_lib (ascii "the sample nonce") (builder_init u) (push_back h []) (mk_w [] []))) = Err (CParsing PEVersion) /\
  async_connect_on httparse_lib (ascii "the sample nonce") (builder_init u) 0 (ANotReady :: apush_back h []) (mk_fw (mk_bm [] 0) [] [] [])
    = Err (CParsing PEVersion).
Proof. split; [|split]; vm_compute; reflexivity. Qed.
EX*)
