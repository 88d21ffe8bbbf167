(** Handshakes that are cut off: C96. *)
From Coq Require Import NArith ZArith String Bool List Lia.
From Coq Require Import ZifyBool ZifyNat ZifyN.
From Coq.Strings Require Import Byte.
From Verif.Model Require Import Base Io Header Mask Dataframe Utf8 Text Base64 WsKey Headers
  Handshake Message Receiver Codec Framed Http Connect.
From Verif.Spec Require Import RfcFrame FrameSpec Fields Upgrade Builder HttpHead Connection Wire Sides CutOff.
From Verif.Proofs Require Import BaseFacts FrameFacts TextFacts MapFacts ThmKeys ThmStream ThmServer ThmClient HttpFacts ThmHttp ThmConnect ThmInterop.
Import ListNotations.
Local Open Scope string_scope.
Local Open Scope list_scope.
Local Open Scope N_scope.

Lemma broken_go : forall A (try : bytes -> pres A) s, undisturbed s ->
  forall k more buf rd n, ~ has_end (buf ++ aev_bytes s) -> (length (s ++ AErr k :: more) < n)%nat ->
  exists f, first_item (http_decode try) n (s ++ AErr k :: more) (mk_framed tt buf rd false)
  = (PErr (of_io k), f, more) /\ fr_buf f = buf ++ aev_bytes s.
Proof.
  intros A try s H. induction H as [|e s He Hs IH]; intros k more buf rd n Hb Hn.
  - destruct n as [|n]; [cbn [length] in Hn; lia|]. cbn [aev_bytes app] in *. rewrite app_nil_r in *.
    cbn [first_item framed_poll]. rewrite fd_wait by exact Hb. cbn [fr_eof fr_st fr_buf].
    eexists. split; reflexivity.
  - destruct n as [|n]; [cbn [length app] in Hn; lia|]. cbn [length app] in *.
    assert (Hb0 : ~ has_end buf).
    { intros (a & c & ->). apply Hb. exists a, (c ++ aev_bytes (e :: s)).
      rewrite <- !app_assoc. reflexivity. }
    destruct e as [b bs| |k']; [| |contradiction].
    + rewrite fi_data by exact Hb0. cbn [aev_bytes] in *.
      replace (buf ++ b :: bs ++ aev_bytes s) with ((buf ++ b :: bs) ++ aev_bytes s) in *
        by (rewrite <- app_assoc; reflexivity).
      apply IH; auto; lia.
    + rewrite fi_wait by exact Hb0. cbn [aev_bytes] in *. apply IH; auto; lia.
Qed.
Lemma await_cut : forall A (try : bytes -> pres A) c o s, acut c o s -> ~ has_end c ->
  exists f s2, await_head try s = (told c o PEnd (fun k => PErr (of_io k)), f, s2) /\ fr_buf f = c.
Proof.
  intros A try c o s (s1 & Hu & <- & Ho) Hc. unfold await_head, framed_new. destruct o as [|k].
  - subst s. rewrite (no_head_go A try s1 Hu [] false) by (auto with arith). cbn [app].
    exists (mk_framed tt (aev_bytes s1) true true), []. split; [|reflexivity]. cbn [told]. destruct (aev_bytes s1); reflexivity.
  - destruct Ho as (more & ->).
    destruct (broken_go A try s1 Hu k more [] false (S (length (s1 ++ AErr k :: more))) Hc) as (f & E & Ef); [lia|].
    exists f, more. rewrite E. split; [reflexivity|exact Ef].
Qed.

Lemma io_back : forall k, io_of (of_io k) = k. Proof. intros []; reflexivity. Qed.

(** ** The servers *)

(** [C96] A request that stops in the middle, because the client went away, or the connection broke or
    timed out, is refused by the blocking server with just that error; what had come is in the buffer
    that comes with the refusal, and nothing has been written. *)
Lemma request_cut_off_proof : forall X m t v fs c d after k s w, sound_lib X -> sound_room X ->
  request_head X m t v fs (c ++ d) -> (length fs <= 100)%nat -> target_accepted X t ->
  d <> [] -> llen c < 417792 -> first_come c after s -> stops after = Some k ->
  exists s2, into_ws X s w = Err (mk_refusal s2 w None (Some c) (UpParsing (PEIo k))).
Proof.
  intros X m t v fs c d after k s w HX HR HH HN HT Hd HL HF HS.
  destruct (sync_request_cut_proof X m t v fs c d after k s HX HR HH HN HT Hd HL HF HS) as (s2 & E).
  exists s2. unfold into_ws. rewrite E. reflexivity.
Qed.
(*EX Example request_cut_off_ex :
  let c := str "GET / HTT" in let d := str "P/1.1" ++ head_end in
  request_head httparse_lib (str "GET") (str "/") Http11 [] (c ++ d) /\ target_accepted httparse_lib (str "/") /\
  first_come c [] [RData "G"%byte (str "ET"); RData " "%byte (str "/ HTT")] /\ stops [] = Some UnexpectedEof /\
  into_ws httparse_lib [RData "G"%byte (str "ET"); RData " "%byte (str "/ HTT")] (mk_w [] [])
  = Err (mk_refusal [] (mk_w [] []) None (Some c) (UpParsing (PEIo UnexpectedEof))).
Proof.
  cbv zeta. split; [|split; [|split; [reflexivity|split; reflexivity]]].
  - exists [], (str "HTTP/1.1"), [CR; LF], [CR; LF].
    split; [constructor|]. split; [discriminate|].
    split; [repeat constructor; discriminate|]. split; [repeat constructor; discriminate|].
    split; [constructor|]. split; [constructor|]. split; [constructor; constructor|reflexivity].
  - split; [discriminate|]. right. left. exists []. reflexivity.
Qed. EX*)

(** [C96] The asynchronous server refuses it too, whatever it is that stops before its first empty line:
    with the error of the transport; and if the client went away, as a reset connection when it had said
    nothing, with an error of another kind when it had. *)
Lemma async_request_cut_off_proof : forall X c o s w, acut c o s -> ~ has_end c ->
  exists s2, async_into_ws X s w = Err (mk_arefusal s2 w None c (UpIo (told c o ConnectionReset (fun k => k)))).
Proof.
  intros X c o s w HC HE. destruct (await_cut _ (try_request X) c o s HC HE) as (f & s2 & E & Ef).
  exists s2. unfold async_into_ws. rewrite E. unfold finish_into_ws. rewrite Ef.
  destruct o as [|k]; [destruct c|]; cbn [told]; rewrite ?io_back; reflexivity.
Qed.
(*EX Example async_request_cut_off_ex :
  acut [] Ends [ANotReady] /\ acut (str "GE") Ends [AData "G"%byte []; ANotReady; AData "E"%byte []] /\
  acut (str "G") (Breaks ConnectionReset) [AData "G"%byte []; AErr ConnectionReset] /\ ~ has_end (str "GE") /\
  (forall w, async_into_ws httparse_lib [ANotReady] w = Err (mk_arefusal [] w None [] (UpIo ConnectionReset))) /\
  (forall w, async_into_ws httparse_lib [AData "G"%byte []; ANotReady; AData "E"%byte []] w
             = Err (mk_arefusal [] w None (str "GE") (UpIo (OtherKind 0)))).
Proof.
  split; [exists [ANotReady]; split; [repeat constructor|split; reflexivity]|].
  split; [eexists; split; [|split; [|reflexivity]]; [repeat constructor|reflexivity]|].
  split; [exists [AData "G"%byte []]; split; [repeat constructor|split; [reflexivity|exists []; reflexivity]]|].
  split; [|split; intros w; reflexivity].
  intros (a & b & E). apply (f_equal (@length byte)) in E. rewrite !app_length in E. cbn in E. lia.
Qed. EX*)

(** ** The clients *)

(** [C96] A response that stops in the middle makes the blocking client's [connect] fail with the error
    that stopped it, after the request has been written. *)
Lemma response_cut_off_proof : forall X rnd b v code r fs c d after k s w data, sound_lib X -> sound_room X ->
  response_head X v code r fs (c ++ d) -> (length fs <= 100)%nat ->
  d <> [] -> llen c < 417792 -> first_come c after s -> stops after = Some k -> never_fails w ->
  @print_request client_error (build_request rnd b) = Ok data ->
  exists w', connect_on X rnd b s w = (Err (CParsing (PEIo k)), build_request rnd b, w') /\ w_out w' = w_out w ++ data.
Proof.
  intros X rnd b v code r fs c d after k s w data HX HR HH HN Hd HL HF HS HW HP.
  destruct (sync_response_cut_proof X v code r fs c d after k s HX HR HH HN Hd HL HF HS) as (s2 & E).
  destruct (write_never_fails (w_script w) (w_out w) data HW) as (t' & EW & _).
  exists (mk_w (w_out w ++ data) t'). unfold connect_on. rewrite HP. unfold write_all. rewrite EW, E. split; reflexivity.
Qed.
(*EX Example response_cut_off_ex :
  let b := builder_init (mk_url (str "ws") (Some (str "h")) None [] None (str "/")) in
  let c := str "HTTP/1.1 101 Swi" in
  (exists data, @print_request client_error (build_request (str "the sample nonce") b) = Ok data /\ llen data > 100) /\
  first_come c [] [RData "H"%byte (str "TTP/1.1 101 Swi")] /\ stops [] = Some UnexpectedEof /\ never_fails (mk_w [] [WAccept 9; WIntr]) /\
  fst (fst (connect_on httparse_lib (str "the sample nonce") b [RData "H"%byte (str "TTP/1.1 101 Swi")] (mk_w [] [WAccept 9; WIntr])))
  = Err (CParsing (PEIo UnexpectedEof)).
Proof.
  cbv zeta. split; [eexists; split; [vm_compute; reflexivity|vm_compute; reflexivity]|].
  split; [reflexivity|]. split; [reflexivity|]. split; [repeat constructor|]. vm_compute. reflexivity.
Qed. EX*)

(** [C96] So does the asynchronous client's: with the error of the transport; and if the server went
    away, saying so when it had said nothing, with an error of another kind when it had. *)
Lemma async_response_cut_off_proof : forall X rnd b extra c o s w data, acut c o s -> ~ has_end c -> afails_never w ->
  @print_request client_error (build_request rnd b) = Ok data ->
  async_connect_on X rnd b extra s w =
  Err (told c o (CWs (ProtocolError "Connection closed before handshake could complete.")) COtherIo).
Proof.
  intros X rnd b extra c o s w data HC HE HW HP.
  destruct (await_cut _ (try_response X) c o s HC HE) as (f & s2 & E & _).
  unfold async_connect_on. rewrite HP. cbn [rbind].
  destruct (head_sent_proof data extra w) as [(w' & EH & _)|(e & w' & _ & C)]; [|contradiction].
  rewrite EH, E. destruct o as [|k]; [destruct c|]; cbn [told]; rewrite ?io_back; reflexivity.
Qed.
(*EX Example async_response_cut_off_ex :
  let b := builder_init (mk_url (str "ws") (Some (str "h")) None [] None (str "/")) in
  let go s := async_connect_on httparse_lib (str "the sample nonce") b 0 s (mk_fw (mk_bm [] 0) [] [AwNotReady] []) in
  acut [] Ends [ANotReady; ANotReady] /\ go [ANotReady; ANotReady] = Err (CWs (ProtocolError "Connection closed before handshake could complete.")) /\
  acut (str "H") Ends [AData "H"%byte []] /\ go [AData "H"%byte []] = Err (COtherIo (OtherKind 0)) /\
  acut (str "H") (Breaks WouldBlock) [AData "H"%byte []; AErr WouldBlock; ANotReady] /\
  go [AData "H"%byte []; AErr WouldBlock; ANotReady] = Err (COtherIo WouldBlock).
Proof.
  cbv zeta. split; [exists [ANotReady; ANotReady]; split; [repeat constructor|split; reflexivity]|].
  split; [vm_compute; reflexivity|].
  split; [exists [AData "H"%byte []]; split; [repeat constructor|split; reflexivity]|].
  split; [vm_compute; reflexivity|].
  split; [exists [AData "H"%byte []]; split; [repeat constructor|split; [reflexivity|exists [ANotReady]; reflexivity]]|].
  vm_compute; reflexivity.
Qed. EX*)

(** ** All alike *)

(** [C96] Refuted: that the same mishap is told the same way.  A server that goes away before it has said
    anything, and one that goes away in the middle of its response: the blocking client says the same of
    both, the asynchronous client two other things; and so the servers of a client. *)
Lemma cut_alike_refuted_proof : exists X b rnd,
  let go s := fst (fst (connect_on X rnd b s (mk_w [] []))) in
  let ago s := async_connect_on X rnd b 0 s (mk_fw (mk_bm [] 0) [] [] []) in
  let up s := match into_ws X s (mk_w [] []) with Err f => Some (rf_error f) | _ => None end in
  let aup s := match async_into_ws X s (mk_fw (mk_bm [] 0) [] [] []) with Err f => Some (ar_error f) | _ => None end in
  go [] = Err (CParsing (PEIo UnexpectedEof)) /\ go [RData "H"%byte []] = go [] /\
  ago [] = Err (CWs (ProtocolError "Connection closed before handshake could complete.")) /\
  ago [AData "H"%byte []] = Err (COtherIo (OtherKind 0)) /\
  up [] = Some (UpParsing (PEIo UnexpectedEof)) /\ up [RData "G"%byte []] = up [] /\
  aup [] = Some (UpIo ConnectionReset) /\ aup [AData "G"%byte []] = Some (UpIo (OtherKind 0)).
Proof.
  exists httparse_lib, (builder_init (mk_url (str "ws") (Some (str "h")) None [] None (str "/"))), (str "the sample nonce").
  repeat split; vm_compute; reflexivity.
Qed.
