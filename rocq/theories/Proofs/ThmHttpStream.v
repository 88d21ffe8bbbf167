(** The HTTP codecs as streams of requests and responses: C81. *)
From Coq Require Import NArith ZArith String Bool List Lia.
From Coq Require Import ZifyBool ZifyNat ZifyN.
From Coq.Strings Require Import Byte.
From Verif.Model Require Import Base Io Header Mask Dataframe Utf8 Text Base64 WsKey Headers
  Handshake Message Receiver Codec Framed Http Connect HttpStream.
From Verif.Spec Require Import Fields Upgrade HttpHead Wire Schedule HttpSeries.
From Verif.Proofs Require Import BaseFacts HeaderFacts Machine TextFacts HttpFacts ThmHttp ThmConnect
  ThmClient ThmInterop ThmFlow.
Import ListNotations.
Local Open Scope string_scope.
Local Open Scope list_scope.
Local Open Scope N_scope.

(** ** One poll *)
Definition fresh (buf : bytes) (rd : bool) : Prop := rd = true \/ ~ has_end buf.
Lemma poll_data : forall A (try : bytes -> pres A) b bs s buf rd, ~ has_end buf ->
  framed_poll (http_decode try) (AData b bs :: s) (mk_framed tt buf rd false) =
  framed_poll (http_decode try) s (mk_framed tt (buf ++ b :: bs) true false).
Proof. intros A try b bs s buf rd H. cbn [framed_poll]. rewrite fd_wait by exact H. reflexivity. Qed.
Lemma poll_wait : forall A (try : bytes -> pres A) s buf rd, ~ has_end buf ->
  framed_poll (http_decode try) (ANotReady :: s) (mk_framed tt buf rd false) =
  (PNotReady, mk_framed tt buf false false, s).
Proof. intros A try s buf rd H. cbn [framed_poll]. rewrite fd_wait by exact H. reflexivity. Qed.
Lemma poll_item : forall A (try : bytes -> pres A) s h r i, ends_first h ->
  answer (try h) = Some i ->
  framed_poll (http_decode try) s (mk_framed tt (h ++ r) true false) =
  (PItem i, mk_framed tt r true false, s).
Proof.
  intros A try s h r i H Hi.
  assert (E : framed_decode (http_decode try) (mk_framed tt (h ++ r) true false)
              = (Some (PItem i), mk_framed tt r true false)).
  { unfold framed_decode. cbn [fr_readable fr_st fr_buf fr_eof].
    rewrite (decode_head A try h r i H Hi). reflexivity. }
  destruct s; cbn [framed_poll]; rewrite E; reflexivity.
Qed.
Lemma run_data : forall A (try : bytes -> pres A) n b bs s buf rd, ~ has_end buf ->
  http_run try (S n) (AData b bs :: s) (mk_framed tt buf rd false) =
  http_run try (S n) s (mk_framed tt (buf ++ b :: bs) true false).
Proof. intros A try n b bs s buf rd H. cbn [http_run]. rewrite poll_data by exact H. reflexivity. Qed.

(** ** One head after the other *)
Definition cost (buf : bytes) (s : list aev) : nat := (length s + length (buf ++ aev_bytes s))%nat.
Lemma app_longer : forall (a b h r : bytes), a ++ b = h ++ r -> (length a < length h)%nat ->
  exists d, d <> [] /\ h = a ++ d /\ b = d ++ r.
Proof.
  induction a as [|x a IH]; intros b h r E L.
  - exists h. destruct h; [cbn in L; lia|]. split; [discriminate|]. auto.
  - destruct h as [|y h]; [cbn in L; lia|]. cbn [app] in E. injection E as <- E.
    destruct (IH b h r E) as (d & D1 & -> & D2); [cbn [length] in L; lia|]. exists d. auto.
Qed.
Lemma app_shorter : forall (a b h r : bytes), a ++ b = h ++ r -> (length h <= length a)%nat ->
  exists d, a = h ++ d /\ r = d ++ b.
Proof.
  intros a b h. revert a b. induction h as [|x h IH]; intros a b r E L.
  - exists a. auto.
  - destruct a as [|y a]; [cbn in L; lia|]. cbn [app] in E. injection E as -> E.
    destruct (IH a b r E) as (d & -> & D2); [cbn [length] in L; lia|]. exists d. auto.
Qed.
Lemma run_head : forall A (try : bytes -> pres A) h i, ends_first h -> answer (try h) = Some i ->
  forall s1, undisturbed s1 -> forall buf rd r s2 n, fresh buf rd ->
  buf ++ aev_bytes s1 = h ++ r -> (cost buf s1 < n)%nat ->
  exists buf' s1' n', undisturbed s1' /\ buf' ++ aev_bytes s1' = r /\
    (n + cost buf' s1' <= n' + cost buf s1)%nat /\
    http_run try n (s1 ++ s2) (mk_framed tt buf rd false)
    = match i with
      | inl a => let '(l, e) := http_run try n' (s1' ++ s2) (mk_framed tt buf' true false) in (a :: l, e)
      | inr e => ([], HBad e)
      end.
Proof.
  intros A try h i Hh Hi.
  assert (H4 : (4 <= length h)%nat).
  { destruct Hh as [[p ->] _]. rewrite app_length. cbn [length head_end]. lia. }
  intros s1 Hs. induction Hs as [|e s1 He Hs IH]; intros buf rd r s2 n Hf E Hn.
  - cbn [aev_bytes] in E. rewrite app_nil_r in E. subst buf. destruct n as [|n]; [lia|].
    destruct Hf as [-> |Hf]; [|destruct Hf; destruct Hh as [[p ->] _]; exists p, r; rewrite <- app_assoc; reflexivity].
    exists r, [], n. split; [constructor|]. cbn [aev_bytes]. rewrite app_nil_r. split; [reflexivity|].
    split; [unfold cost; rewrite !app_length; cbn [length aev_bytes]; lia|].
    cbn [http_run]. rewrite (poll_item A try _ h r i Hh Hi). cbn [app]. destruct i; reflexivity.
  - destruct (le_lt_dec (length h) (length buf)) as [L|L].
    + destruct (app_shorter _ _ _ _ E L) as (d & -> & ->). destruct n as [|n]; [lia|].
      destruct Hf as [-> |Hf]; [|destruct Hf; destruct Hh as [[p ->] _]; exists p, d; rewrite <- app_assoc; reflexivity].
      exists d, (e :: s1), n. split; [constructor; assumption|]. split; [reflexivity|].
      split; [unfold cost; rewrite !app_length; cbn [length aev_bytes]; lia|].
      cbn [http_run]. rewrite (poll_item A try _ h d i Hh Hi). destruct i; reflexivity.
    + destruct (app_longer _ _ _ _ E L) as (d & Hd & Ed & Er).
      assert (HN : ~ has_end buf) by (apply (ends_first_before buf d); [rewrite <- Ed; exact Hh|exact Hd]).
      destruct n as [|n]; [lia|]. destruct e as [b bs| |k]; [| |contradiction].
      * cbn [app]. rewrite run_data by exact HN. cbn [aev_bytes] in E.
        replace (buf ++ b :: bs ++ aev_bytes s1) with ((buf ++ b :: bs) ++ aev_bytes s1) in E
          by (rewrite <- app_assoc; reflexivity).
        destruct (IH (buf ++ b :: bs) true r s2 (S n)) as (buf' & s1' & n' & I1 & I2 & I3 & I4);
          [left; reflexivity|exact E|unfold cost in *; rewrite ?app_length in *; cbn [length aev_bytes app] in *; rewrite ?app_length in *; lia|].
        exists buf', s1', n'. split; [exact I1|]. split; [exact I2|]. split; [|exact I4].
        unfold cost in *. rewrite !app_length in *. cbn [length aev_bytes app] in *. rewrite ?app_length in *. lia.
      * cbn [app http_run]. rewrite poll_wait by exact HN. cbn [aev_bytes] in E.
        destruct (IH buf false r s2 n) as (buf' & s1' & n' & I1 & I2 & I3 & I4);
          [right; exact HN|exact E|unfold cost in *; cbn [length aev_bytes] in *; lia|].
        exists buf', s1', n'. split; [exact I1|]. split; [exact I2|]. split; [|exact I4].
        unfold cost in *. cbn [length aev_bytes] in *. lia.
Qed.

(** Heads and what they are read as. *)
Definition series {A : Type} (try : bytes -> pres A) (l : list (bytes * A)) : Prop :=
  Forall (fun p => ends_first (fst p) /\ answer (try (fst p)) = Some (inl (snd p))) l.
Lemma run_series : forall A (try : bytes -> pres A) l, series try l ->
  forall s1, undisturbed s1 -> forall buf rd r s2 n, fresh buf rd ->
  buf ++ aev_bytes s1 = concat (map fst l) ++ r -> (cost buf s1 < n)%nat ->
  exists buf' rd' s1' n', fresh buf' rd' /\ undisturbed s1' /\ buf' ++ aev_bytes s1' = r /\
    (n + cost buf' s1' <= n' + cost buf s1)%nat /\
    http_run try n (s1 ++ s2) (mk_framed tt buf rd false)
    = let '(l', e) := http_run try n' (s1' ++ s2) (mk_framed tt buf' rd' false) in (map snd l ++ l', e).
Proof.
  intros A try l H. induction H as [|[h a] l [Hh Ha] Hl IH]; intros s1 Hs buf rd r s2 n Hf E Hn.
  - exists buf, rd, s1, n. repeat split; auto. cbn [map app]. destruct (http_run _ _ _ _). reflexivity.
  - cbn [map concat fst] in *. rewrite <- app_assoc in E.
    destruct (run_head A try h (inl a) Hh Ha s1 Hs buf rd _ s2 n Hf E Hn) as (b1 & s3 & n1 & R1 & R2 & R3 & R4).
    destruct (IH s3 R1 b1 true r s2 n1) as (b2 & rd2 & s4 & n2 & I1 & I2 & I3 & I4 & I5);
      [left; reflexivity|exact R2|lia|].
    exists b2, rd2, s4, n2. repeat split; auto; [lia|]. rewrite R4, I5.
    destruct (http_run _ n2 _ _). reflexivity.
Qed.
(** What is left is no head. *)
Lemma run_rest : forall A (try : bytes -> pres A) s1, undisturbed s1 -> forall buf rd s2 n e,
  ~ has_end (buf ++ aev_bytes s1) -> (cost buf s1 < n)%nat -> runs_out (buf ++ aev_bytes s1) s2 e ->
  http_run try n (s1 ++ s2) (mk_framed tt buf rd false) = ([], e).
Proof.
  intros A try s1 H. induction H as [|x s1 Hx Hs IH]; intros buf rd s2 n e Hb Hn HR.
  - destruct n as [|n]; [lia|]. cbn [aev_bytes app] in *. rewrite app_nil_r in *.
    inversion HR as [E|b rest E|rest k s E]; subst; cbn [http_run framed_poll]; rewrite fd_wait by exact Hb.
    + reflexivity.
    + cbn [fr_eof fr_st fr_buf]. unfold framed_decode. cbn [fr_readable fr_st fr_buf fr_eof].
      rewrite decode_wait by exact Hb. reflexivity.
    + cbn [fr_eof]. f_equal. f_equal. destruct k; reflexivity.
  - destruct n as [|n]; [lia|].
    assert (Hb0 : ~ has_end buf).
    { intros (a & c & ->). apply Hb. exists a, (c ++ aev_bytes (x :: s1)).
      rewrite <- !app_assoc. reflexivity. }
    destruct x as [b bs| |k]; [| |contradiction].
    + cbn [app]. rewrite run_data by exact Hb0. cbn [aev_bytes] in *.
      replace (buf ++ b :: bs ++ aev_bytes s1) with ((buf ++ b :: bs) ++ aev_bytes s1) in *
        by (rewrite <- app_assoc; reflexivity).
      apply IH; auto. unfold cost in *. cbn [length aev_bytes] in *. rewrite !app_length in *. cbn [length] in *.
      rewrite app_length in *. lia.
    + cbn [app http_run]. rewrite poll_wait by exact Hb0. cbn [aev_bytes] in *. apply IH; auto.
      unfold cost in *. cbn [length aev_bytes] in *. lia.
Qed.
Lemma aev_bytes_app : forall s1 s2, aev_bytes (s1 ++ s2) = aev_bytes s1 ++ aev_bytes s2.
Proof.
  induction s1 as [|[b bs| |k] s1 IH]; intros s2; cbn [app aev_bytes]; rewrite ?IH; try reflexivity.
  rewrite <- app_assoc. reflexivity.
Qed.
Lemma fuel_enough : forall s1 s2, (cost [] s1 < length (aev_bytes (s1 ++ s2)) + length (s1 ++ s2) + 2)%nat.
Proof. intros. unfold cost. rewrite aev_bytes_app, !app_length. cbn [app length]. lia. Qed.
Lemma not_end_nil : ~ has_end [].
Proof. intros (a & b & E). destruct a; discriminate E. Qed.
Lemma all_series : forall A (try : bytes -> pres A) l s1 s2 r, series try l -> undisturbed s1 ->
  aev_bytes s1 = concat (map fst l) ++ r ->
  exists l' e, http_all try (s1 ++ s2) = (map snd l ++ l', e) /\
    (forall h x more, ends_first h -> try h = Fail x -> x <> PETooLarge -> r = h ++ more -> l' = [] /\ e = HBad x) /\
    (forall e', ~ has_end r -> runs_out r s2 e' -> l' = [] /\ e = e').
Proof.
  intros A try l s1 s2 r Hl Hs E. unfold http_all, framed_new.
  destruct (run_series A try l Hl s1 Hs [] false r s2 _ (or_intror not_end_nil) E (fuel_enough s1 s2))
    as (b1 & rd1 & s3 & n1 & R1 & R2 & R3 & R4 & R5).
  pose proof (fuel_enough s1 s2) as HF.
  rewrite R5. destruct (http_run try n1 (s3 ++ s2) (mk_framed tt b1 rd1 false)) as [l' e] eqn:ER.
  exists l', e. split; [reflexivity|]. split.
  - intros h x more Hh Hx Hne ->.
    destruct (run_head A try h (inr x) Hh) with (s1 := s3) (buf := b1) (rd := rd1) (r := more) (s2 := s2) (n := n1)
      as (b2 & s4 & n2 & _ & _ & _ & Q); auto; [rewrite Hx; destruct x; try reflexivity; congruence|lia|].
    rewrite Q in ER. injection ER as <- <-. auto.
  - intros e' Hr HR. rewrite <- R3 in Hr, HR.
    rewrite (run_rest A try s3 R2 b1 rd1 s2 n1 e' Hr ltac:(lia) HR) in ER. injection ER as <- <-. auto.
Qed.

(** ** Requests *)
Lemma requests_series : forall X qs text, sound_lib X -> requests_on X qs text ->
  exists l, series (try_request X) l /\ concat (map fst l) = text /\ map snd l = map presented qs.
Proof.
  intros X qs text HX H. induction H as [|m t v fs head qs text H1 H2 H3 H4 H5 (l & L1 & L2 & L3)].
  - exists []. split; [constructor|]. auto.
  - exists ((head, presented (m, t, v, fs)) :: l). split.
    + constructor; [|exact L1]. cbn [fst snd]. split; [exact H4|].
      rewrite (request_alone X m t v fs head) by assumption. reflexivity.
    + cbn [map concat fst snd]. rewrite L2, L3. auto.
Qed.
Lemma responses_series : forall X rs text, sound_lib X -> responses_on X rs text ->
  exists l, series (try_response X) l /\ concat (map fst l) = text /\ map snd l = map shown rs.
Proof.
  intros X qs text HX H. induction H as [|v c why fs head qs text H1 H2 H4 H5 (l & L1 & L2 & L3)].
  - exists []. split; [constructor|]. auto.
  - exists ((head, shown (v, c, why, fs)) :: l). split.
    + constructor; [|exact L1]. cbn [fst snd]. split; [exact H4|].
      rewrite (response_alone X v c why fs head) by assumption. reflexivity.
    + cbn [map concat fst snd]. rewrite L2, L3. auto.
Qed.
(** [C81] A server that uses the codec on its own gets exactly the requests that were sent, in
    order, however they were cut into chunks, several in one or one in several; then, if the
    rest of the bytes is no whole head, the stream ends or fails as the transport does, and a
    connection closed inside a head is an error. *)
Lemma requests_in_order_proof : forall X qs text rest s1 s2 e, sound_lib X ->
  requests_on X qs text -> ~ has_end rest -> undisturbed s1 -> aev_bytes s1 = text ++ rest ->
  runs_out rest s2 e ->
  http_requests X (s1 ++ s2) = (map presented qs, e).
Proof.
  intros X qs text rest s1 s2 e HX H Hr Hs E HR.
  destruct (requests_series X qs text HX H) as (l & L1 & <- & <-).
  destruct (all_series _ _ l s1 s2 rest L1 Hs E) as (l' & e' & Q1 & _ & Q3).
  destruct (Q3 e Hr HR) as [-> ->]. unfold http_requests. rewrite Q1, app_nil_r. reflexivity.
Qed.

(*EX
(** Two requests, the first in three chunks, the second in the chunk that ends the first, and
    the beginning of a third. *)
Definition two_requests_script : list aev :=
  [AData "G"%byte (str "ET /a HTT"); ANotReady; AData "P"%byte (str "/1.1" ++ crlf ++ str "Host: h" ++ [CR; LF; CR]);
   AData LF (str "PUT /b HTTP/1.0" ++ head_end ++ str "GE"); ANotReady].
Definition two_requests : list req_parts :=
  [(str "GET", str "/a", Http11, [(str "Host", str "h")]); (str "PUT", str "/b", Http10, [])].
Example requests_in_order_ex :
  requests_on httparse_lib two_requests
    (str "GET /a HTTP/1.1" ++ crlf ++ str "Host: h" ++ head_end ++ str "PUT /b HTTP/1.0" ++ head_end) /\
  ~ has_end (str "GE") /\ undisturbed two_requests_script /\ runs_out (str "GE") [] (HIo (OtherKind 0)) /\
  http_requests httparse_lib two_requests_script
  = ([mk_req Get (str "/a") Http11 (from_raw [(str "Host", str "h")]);
      mk_req (OtherMethod (str "PUT")) (str "/b") Http10 []], HIo (OtherKind 0)).
Proof.
  split; [|split; [|split; [|split]]].
  - change (str "GET /a HTTP/1.1" ++ crlf ++ str "Host: h" ++ head_end ++ str "PUT /b HTTP/1.0" ++ head_end)
      with ((str "GET /a HTTP/1.1" ++ crlf ++ str "Host: h" ++ head_end) ++ (str "PUT /b HTTP/1.0" ++ head_end) ++ []).
    apply more_requests.
    + exists [], (str "HTTP/1.1"), [CR; LF], (str "Host: h" ++ head_end).
      split; [constructor|]. split; [discriminate|]. split; [repeat constructor; discriminate|].
      split; [repeat constructor; discriminate|]. split; [constructor|]. split; [constructor|].
      split; [|reflexivity]. apply (next_line _ (str "Host", str "h") [] (str "Host: h" ++ crlf) crlf).
      * apply (a_field_line _ (str "Host") (str "h") (str " ") crlf); [discriminate|repeat constructor; discriminate| | | |constructor].
        -- constructor; [left; reflexivity|constructor].
        -- constructor; [right; vm_compute; split; discriminate|constructor].
        -- intros (r & [E|E]); discriminate E.
      * apply last_line. constructor.
    + vm_compute. repeat constructor.
    + split; [discriminate|]. right. left. eexists. reflexivity.
    + apply (proj1 (ThmHttp.split_exact_proof (str "GET /a HTTP/1.1" ++ crlf ++ str "Host: h" ++ head_end)
                      (str "GET /a HTTP/1.1" ++ crlf ++ str "Host: h" ++ head_end) [])). vm_compute. reflexivity.
    + apply more_requests; [| | | |constructor].
      * exists [], (str "HTTP/1.0"), [CR; LF], [CR; LF].
        split; [constructor|]. split; [discriminate|]. split; [repeat constructor; discriminate|].
        split; [repeat constructor; discriminate|]. split; [constructor|]. split; [constructor|].
        split; [apply last_line; constructor|reflexivity].
      * vm_compute. repeat constructor.
      * split; [discriminate|]. right. left. eexists. reflexivity.
      * apply (proj1 (ThmHttp.split_exact_proof (str "PUT /b HTTP/1.0" ++ head_end)
                      (str "PUT /b HTTP/1.0" ++ head_end) [])). vm_compute. reflexivity.
  - apply ThmHttp.split_waits_proof. reflexivity.
  - repeat constructor.
  - constructor.
  - vm_compute. reflexivity.
Qed.
EX*)
(** [C81] The same for a client and responses. *)
Lemma responses_in_order_proof : forall X rs text rest s1 s2 e, sound_lib X ->
  responses_on X rs text -> ~ has_end rest -> undisturbed s1 -> aev_bytes s1 = text ++ rest ->
  runs_out rest s2 e ->
  http_responses X (s1 ++ s2) = (map shown rs, e).
Proof.
  intros X qs text rest s1 s2 e HX H Hr Hs E HR.
  destruct (responses_series X qs text HX H) as (l & L1 & <- & <-).
  destruct (all_series _ _ l s1 s2 rest L1 Hs E) as (l' & e' & Q1 & _ & Q3).
  destruct (Q3 e Hr HR) as [-> ->]. unfold http_responses. rewrite Q1, app_nil_r. reflexivity.
Qed.

(*EX
(** The body of a response is taken for the beginning of the next head. *)
Example responses_in_order_ex :
  http_responses httparse_lib
    [AData "H"%byte (str "TTP/1.1 404 Not Found" ++ head_end ++ str "HTTP/1.0 200 O"); ANotReady;
     AData "K"%byte (head_end ++ str "Hello"); AErr ConnectionReset]
  = ([mk_resp Http11 404 (str "Not Found") []; mk_resp Http10 200 (str "OK") []], HIo ConnectionReset) /\
  runs_out (str "Hello") [AErr ConnectionReset] (HIo ConnectionReset).
Proof. split; [vm_compute; reflexivity|constructor]. Qed.
EX*)
(** [C81] No request is held back: once its last byte is there, it is delivered whatever the
    transport does next. *)
Lemma requests_prompt_proof : forall X qs text s1 s2, sound_lib X ->
  requests_on X qs text -> undisturbed s1 -> aev_bytes s1 = text ->
  exists more e, http_requests X (s1 ++ s2) = (map presented qs ++ more, e).
Proof.
  intros X qs text s1 s2 HX H Hs E.
  destruct (requests_series X qs text HX H) as (l & L1 & <- & <-). rewrite <- (app_nil_r (concat _)) in E.
  destruct (all_series _ _ l s1 s2 [] L1 Hs E) as (l' & e' & Q1 & _ & Q3). exists l', e'. exact Q1.
Qed.

(*EX
Example requests_prompt_ex :
  http_requests httparse_lib ([AData "G"%byte (str "ET / HTTP/1.1" ++ head_end)] ++ [AErr ConnectionReset])
  = ([mk_req Get (str "/") Http11 []], HIo ConnectionReset) /\
  http_requests httparse_lib ([AData "G"%byte (str "ET / HTTP/1.1" ++ head_end)] ++ [AData "x"%byte head_end])
  = ([mk_req Get (str "/") Http11 []], HBad PEHeader).
Proof. split; vm_compute; reflexivity. Qed.
EX*)
(** [C81] *)
Lemma responses_prompt_proof : forall X rs text s1 s2, sound_lib X ->
  responses_on X rs text -> undisturbed s1 -> aev_bytes s1 = text ->
  exists more e, http_responses X (s1 ++ s2) = (map shown rs ++ more, e).
Proof.
  intros X qs text s1 s2 HX H Hs E.
  destruct (responses_series X qs text HX H) as (l & L1 & <- & <-). rewrite <- (app_nil_r (concat _)) in E.
  destruct (all_series _ _ l s1 s2 [] L1 Hs E) as (l' & e' & Q1 & _ & Q3). exists l', e'. exact Q1.
Qed.
(*EX
Example responses_prompt_ex :
  http_responses httparse_lib ([AData "H"%byte (str "TTP/1.1 200 OK" ++ head_end)] ++ [AErr ConnectionReset])
  = ([mk_resp Http11 200 (str "OK") []], HIo ConnectionReset).
Proof. vm_compute. reflexivity. Qed.
EX*)
(** [C81] A head that is none, between or after good ones, is an error, and the requests before
    it have been delivered; so have they been when what follows is the body of a request, for
    the codec knows no bodies. *)
Lemma bad_request_reported_proof : forall X qs text bad e after s1 s2, sound_lib X ->
  requests_on X qs text -> ends_first bad -> try_request X bad = Fail e -> e <> PETooLarge ->
  undisturbed s1 -> aev_bytes s1 = text ++ bad ++ after ->
  http_requests X (s1 ++ s2) = (map presented qs, HBad e).
Proof.
  intros X qs text bad e after s1 s2 HX H Hb He Hne Hs E.
  destruct (requests_series X qs text HX H) as (l & L1 & <- & <-).
  destruct (all_series _ _ l s1 s2 _ L1 Hs E) as (l' & e' & Q1 & Q2 & _).
  destruct (Q2 bad e after Hb He Hne eq_refl) as [-> ->]. unfold http_requests. rewrite Q1, app_nil_r. reflexivity.
Qed.

(*EX
(** A request with a body, then another one: the second is not read. *)
Example bad_request_reported_ex :
  let bad := str "name=value GET / HTTP/1.1" ++ head_end in
  ends_first bad /\ try_request httparse_lib bad = Fail PEHeader /\
  http_requests httparse_lib [AData "P"%byte (str "UT / HTTP/1.1" ++ head_end ++ bad)]
  = ([mk_req (OtherMethod (str "PUT")) (str "/") Http11 []], HBad PEHeader).
Proof.
  split; [|split; vm_compute; reflexivity].
  match goal with |- ends_first ?t => apply (proj1 (ThmHttp.split_exact_proof t t [])) end. vm_compute. reflexivity.
Qed.
EX*)
(** [C81] *)
Lemma bad_response_reported_proof : forall X rs text bad e after s1 s2, sound_lib X ->
  responses_on X rs text -> ends_first bad -> try_response X bad = Fail e -> e <> PETooLarge ->
  undisturbed s1 -> aev_bytes s1 = text ++ bad ++ after ->
  http_responses X (s1 ++ s2) = (map shown rs, HBad e).
Proof.
  intros X qs text bad e after s1 s2 HX H Hb He Hne Hs E.
  destruct (responses_series X qs text HX H) as (l & L1 & <- & <-).
  destruct (all_series _ _ l s1 s2 _ L1 Hs E) as (l' & e' & Q1 & Q2 & _).
  destruct (Q2 bad e after Hb He Hne eq_refl) as [-> ->]. unfold http_responses. rewrite Q1, app_nil_r. reflexivity.
Qed.
(*EX
(** A response, and then one of a version that is not known. *)
Example bad_response_reported_ex :
  let bad := str "HTTP/3.1 200 OK" ++ head_end in
  ends_first bad /\ try_response httparse_lib bad = Fail PEVersion /\
  http_responses httparse_lib [AData "H"%byte (str "TTP/1.1 200 OK" ++ head_end ++ bad)]
  = ([mk_resp Http11 200 (str "OK") []], HBad PEVersion).
Proof.
  split; [|split; vm_compute; reflexivity].
  match goal with |- ends_first ?t => apply (proj1 (ThmHttp.split_exact_proof t t [])) end. vm_compute. reflexivity.
Qed.
EX*)

(** ** Any bytes at all *)
Definition weight (s : list aev) (f : framed unit) : nat := (length s + length (fr_buf f ++ aev_bytes s))%nat.
Definition awake (f : framed unit) : Prop := fr_eof f = true -> fr_readable f = true.
(** What one poll takes from the bytes: nothing is made up. *)
Definition took {A : Type} (try : bytes -> pres A) (before after : bytes) (i : option A) : Prop :=
  match i with
  | Some a => exists gap head r, before = gap ++ head ++ after /\ try head = Done a r
  | None => exists gap, before = gap ++ after
  end.
Lemma decode_took : forall A (try : bytes -> pres A) st src,
  match http_decode try st src with
  | (Ok (Some (inl a)), _, src') => took try src src' (Some a) /\ (length src' < length src)%nat
  | (Ok _, _, src') => took try src src' None /\ (length src' <= length src)%nat
  | _ => False
  end.
Proof.
  intros A try st src. unfold http_decode. destruct (split_off_http src) as [[h r]|] eqn:E.
  - apply split_exact_proof in E as [-> Hh].
    assert (4 <= length h)%nat.
    { destruct Hh as [[p ->] _]. rewrite app_length. cbn [length head_end]. lia. }
    destruct (try h) as [a x| |e] eqn:ET.
    + split; [exists [], h, x; auto|rewrite app_length; lia].
    + split; [exists h; auto|rewrite app_length; lia].
    + destruct e; (split; [exists h; auto|rewrite app_length; lia]).
  - split; [exists []; auto|lia].
Qed.
Lemma fd_took : forall A (try : bytes -> pres A) f, awake f ->
  match framed_decode (http_decode try) f with
  | (Some (PItem (inl a)), f') => took try (fr_buf f) (fr_buf f') (Some a) /\
      (length (fr_buf f') < length (fr_buf f))%nat /\ awake f'
  | (Some (PItem (inr _)), _) | (Some PEnd, _) | (Some (PErr _), _) => True
  | (None, f') => took try (fr_buf f) (fr_buf f') None /\
      (length (fr_buf f') <= length (fr_buf f))%nat /\ fr_eof f' = false /\ fr_eof f = false
  | _ => False
  end.
Proof.
  intros A try f Hf. unfold framed_decode. destruct (fr_readable f) eqn:ER.
  - pose proof (decode_took A try (fr_st f) (fr_buf f)) as D.
    destruct (http_decode try (fr_st f) (fr_buf f)) as [[[[[a|e]|]|e| |] st] buf]; try contradiction.
    + cbn [fr_buf]. destruct D as [D1 D2]. split; [exact D1|]. split; [exact D2|]. intros _. reflexivity.
    + exact I.
    + destruct (fr_eof f) eqn:EE; [destruct buf; exact I|]. cbn [fr_buf fr_eof]. destruct D. auto.
  - split; [exists []; reflexivity|]. split; [lia|]. destruct (fr_eof f) eqn:EE; [|auto].
    specialize (Hf EE). congruence.
Qed.
Lemma took_more : forall A (try : bytes -> pres A) a b x i, took try a b i -> took try (a ++ x) (b ++ x) i.
Proof.
  intros A try a b x [v|]; [intros (gap & head & r & -> & H)|intros (gap & ->)].
  - exists gap, head, r. rewrite <- !app_assoc. auto.
  - exists gap. rewrite <- app_assoc. reflexivity.
Qed.
Lemma took_then : forall A (try : bytes -> pres A) a b c i, took try a b None -> took try b c i -> took try a c i.
Proof.
  intros A try a b c [v|] (gap & ->); [intros (gap2 & head & r & -> & H)|intros (gap2 & ->)].
  - exists (gap ++ gap2), head, r. rewrite <- !app_assoc. auto.
  - exists (gap ++ gap2). rewrite <- app_assoc. reflexivity.
Qed.
Lemma poll_took : forall A (try : bytes -> pres A) s f, awake f ->
  match framed_poll (http_decode try) s f with
  | (PItem (inl a), f', s') => took try (fr_buf f ++ aev_bytes s) (fr_buf f' ++ aev_bytes s') (Some a) /\
      (weight s' f' < weight s f)%nat /\ awake f'
  | (PNotReady, f', s') => took try (fr_buf f ++ aev_bytes s) (fr_buf f' ++ aev_bytes s') None /\
      (weight s' f' < weight s f)%nat /\ awake f'
  | (PPanic, _, _) | (POutOfFuel, _, _) => False
  | _ => True
  end.
Proof.
  intros A try s. unfold weight. induction s as [|e s IH]; intros f Hf; cbn [framed_poll];
    pose proof (fd_took A try f Hf) as D;
    destruct (framed_decode (http_decode try) f) as [[[[a|x]| | |x| |]|] f']; try contradiction; auto.
  - destruct D as (D1 & D2 & D3). cbn [aev_bytes length]. rewrite !app_nil_r. auto.
  - destruct D as (D1 & D2 & D3 & _). rewrite D3.
    pose proof (fd_took A try (mk_framed (fr_st f') (fr_buf f') true true) (fun _ => eq_refl)) as D4.
    destruct (framed_decode (http_decode try) _) as [[[[a|x]| | |x| |]|] f3]; try contradiction; auto.
    + destruct D4 as (E1 & E2 & E3). cbn [fr_buf aev_bytes length] in *. rewrite !app_nil_r.
      split; [|split; [lia|exact E3]]. eapply took_then; eassumption.
    + destruct D4 as (_ & _ & _ & E4). discriminate E4.
  - destruct D as (D1 & D2 & D3). split; [apply took_more, D1|]. split; [|exact D3]. rewrite !app_length. lia.
  - destruct D as (D1 & D2 & D3 & _). rewrite D3. destruct e as [b bs| |k].
    + specialize (IH (mk_framed (fr_st f') (fr_buf f' ++ b :: bs) true false) (fun _ => eq_refl)).
      assert (HT : took try (fr_buf f ++ aev_bytes (AData b bs :: s)) ((fr_buf f' ++ b :: bs) ++ aev_bytes s) None).
      { cbn [aev_bytes]. rewrite <- app_assoc. apply (took_more _ _ _ _ (b :: bs ++ aev_bytes s)), D1. }
      assert (HL : (length ((fr_buf f' ++ b :: bs) ++ aev_bytes s) <= length (fr_buf f ++ aev_bytes (AData b bs :: s)))%nat).
      { cbn [aev_bytes]. rewrite !app_length. cbn [length]. rewrite app_length. lia. }
      cbn [fr_buf] in IH.
      destruct (framed_poll (http_decode try) s _) as [[[[q|x]| | |x| |] f2] s2]; auto.
      * destruct IH as (I1 & I2 & I3). split; [eapply took_then; eassumption|]. split; [cbn [length]; lia|exact I3].
      * destruct IH as (I1 & I2 & I3). split; [eapply took_then; eassumption|]. split; [cbn [length]; lia|exact I3].
    + cbn [aev_bytes]. split; [apply took_more, D1|]. split; [rewrite !app_length; cbn [length]; lia|].
      intros HE. congruence.
    + exact I.
Qed.
Inductive items_from {A : Type} (try : bytes -> pres A) : list A -> bytes -> Prop :=
| from_none : forall text, items_from try [] text
| from_one : forall gap head r a l text, try head = Done a r -> items_from try l text ->
    items_from try (a :: l) (gap ++ head ++ text).
Lemma from_gap : forall A (try : bytes -> pres A) gap l text, items_from try l text -> items_from try l (gap ++ text).
Proof.
  intros A try gap l text H. destruct H as [|gap2 head r a l text H1 H2]; [constructor|].
  rewrite app_assoc. econstructor; eassumption.
Qed.
Lemma run_took : forall A (try : bytes -> pres A) n s f, awake f -> (weight s f < n)%nat ->
  items_from try (fst (http_run try n s f)) (fr_buf f ++ aev_bytes s) /\
  snd (http_run try n s f) <> HStuck /\ snd (http_run try n s f) <> HPanics.
Proof.
  intros A try. induction n as [|n IH]; intros s f Hf Hn; [lia|]. cbn [http_run].
  pose proof (poll_took A try s f Hf) as P.
  destruct (framed_poll (http_decode try) s f) as [[[[a|e]| | |e| |] f'] s']; try contradiction;
    try (split; [constructor|split; discriminate]).
  - destruct P as ((gap & head & r & P1 & P2) & P3 & P4). destruct (IH s' f' P4 ltac:(lia)) as (I1 & I2).
    destruct (http_run try n s' f') as [l e]. cbn [fst snd] in *. split; [|exact I2].
    rewrite P1. econstructor; eassumption.
  - destruct P as ((gap & P1) & P3 & P4). destruct (IH s' f' P4 ltac:(lia)) as (I1 & I2).
    split; [|exact I2]. rewrite P1. apply from_gap, I1.
Qed.
Lemma all_took : forall A (try : bytes -> pres A) s,
  items_from try (fst (http_all try s)) (aev_bytes s) /\
  snd (http_all try s) <> HStuck /\ snd (http_all try s) <> HPanics.
Proof.
  intros A try s. unfold http_all.
  apply (run_took A try _ s (framed_new tt [])); [intros H; discriminate H|].
  unfold weight, framed_new. cbn [fr_buf app]. lia.
Qed.
(** [C81] Nothing is made up: whatever the bytes, in whatever chunks and with whatever errors,
    every request delivered is there whole in the bytes, and in that order. *)
Lemma requests_genuine_proof : forall X s, sound_lib X ->
  requests_among X (fst (http_requests X s)) (aev_bytes s).
Proof.
  intros X s HX. destruct (all_took _ (try_request X) s) as [H _]. unfold http_requests.
  induction H as [text|gap head r a l text H1 H2 IH]; [constructor|].
  assert (G : forall l t, requests_among X l t -> requests_among X l (gap ++ t)).
  { intros l0 t Ht. induction gap as [|b g IHg]; [exact Ht|]. cbn [app]. constructor. exact IHg. }
  apply G. apply request_iff in H1 as (hd & m & t & v & fs & -> & R1 & R2 & R3 & ->); [|exact HX].
  rewrite <- app_assoc. apply (among_one X m t v fs hd); auto.
  clear -IH. induction r as [|b r IHr]; [exact IH|]. cbn [app]. constructor. exact IHr.
Qed.

(*EX
Example requests_genuine_ex :
  http_requests httparse_lib
    [AData CR [LF; CR; LF]; AData "G"%byte (str "ET / HTTP/1.1" ++ head_end); AErr ConnectionReset; AData "x"%byte []]
  = ([mk_req Get (str "/") Http11 []], HIo ConnectionReset).
Proof. vm_compute. reflexivity. Qed.
EX*)
(** [C81] *)
Lemma responses_genuine_proof : forall X s, sound_lib X ->
  responses_among X (fst (http_responses X s)) (aev_bytes s).
Proof.
  intros X s HX. destruct (all_took _ (try_response X) s) as [H _]. unfold http_responses.
  induction H as [text|gap head r a l text H1 H2 IH]; [constructor|].
  assert (G : forall l t, responses_among X l t -> responses_among X l (gap ++ t)).
  { intros l0 t Ht. induction gap as [|b g IHg]; [exact Ht|]. cbn [app]. constructor. exact IHg. }
  apply G. apply response_iff in H1 as (hd & v & c & why & fs & -> & R1 & R2 & ->); [|exact HX].
  rewrite <- app_assoc. apply (amongst_one X v c why fs hd); auto.
  clear -IH. induction r as [|b r IHr]; [exact IH|]. cbn [app]. constructor. exact IHr.
Qed.
(*EX
Example responses_genuine_ex :
  http_responses httparse_lib [AData "x"%byte (head_end ++ str "HTTP/1.1 200 OK" ++ head_end)] = ([], HBad PEVersion).
Proof. vm_compute. reflexivity. Qed.
EX*)
(** [C81] And reading always comes to its end, without a panic. *)
Lemma http_reading_ends_proof : forall X s,
  (snd (http_requests X s) <> HStuck /\ snd (http_requests X s) <> HPanics) /\
  (snd (http_responses X s) <> HStuck /\ snd (http_responses X s) <> HPanics).
Proof. intros X s. split; [apply (all_took _ (try_request X) s)|apply (all_took _ (try_response X) s)]. Qed.

(** ** The sink *)
Lemma http_start_send_spec : forall t extra w r w', http_start_send t extra w = (r, w') ->
  fw_out w' ++ bm_data (fw_buf w') = fw_out w ++ bm_data (fw_buf w) ++ match r with SReady => t | _ => [] end.
Proof.
  intros t extra w r w' H. unfold http_start_send in H.
  destruct (BACKPRESSURE <=? llen (bm_data (fw_buf w))).
  - destruct (poll_complete w) as [r1 w1] eqn:EP. apply poll_complete_spec in EP as (P1 & _).
    rewrite app_assoc, <- P1, <- app_assoc. destruct r1 as [| |e].
    + destruct (BACKPRESSURE <=? llen (bm_data (fw_buf w1))); injection H as <- <-; [rewrite app_nil_r; reflexivity|].
      cbn [fw_out fw_buf]. rewrite encode_all. reflexivity.
    + destruct (BACKPRESSURE <=? llen (bm_data (fw_buf w1))); injection H as <- <-; [rewrite app_nil_r; reflexivity|].
      cbn [fw_out fw_buf]. rewrite encode_all. reflexivity.
    + injection H as <- <-. rewrite app_nil_r. reflexivity.
  - injection H as <- <-. cbn [fw_out fw_buf]. rewrite encode_all. reflexivity.
Qed.
(** [C81] What goes out is the text of the items the sink took, in order and nothing else,
    however the transport behaves: written plus buffered. *)
Lemma http_sink_order_proof : forall ops w rs w', http_ops ops w = (rs, w') ->
  fw_out w' ++ bm_data (fw_buf w') = fw_out w ++ bm_data (fw_buf w) ++ concat (http_taken ops rs).
Proof.
  induction ops as [|op ops IH]; intros w rs w' H; cbn [http_ops] in H.
  - injection H as <- <-. cbn [http_taken concat]. rewrite app_nil_r. reflexivity.
  - destruct op as [t extra|].
    + destruct (http_start_send t extra w) as [r w1] eqn:E. apply http_start_send_spec in E.
      destruct (http_ops ops w1) as [rs2 w2] eqn:E2. injection H as <- <-. apply IH in E2. rewrite E2.
      rewrite app_assoc, E. rewrite <- !app_assoc. f_equal. f_equal.
      destruct r; cbn [http_taken concat app]; reflexivity.
    + destruct (poll_complete w) as [r w1] eqn:E. apply poll_complete_spec in E as (E & _).
      destruct (http_ops ops w1) as [rs2 w2] eqn:E2. injection H as <- <-. apply IH in E2. rewrite E2.
      rewrite app_assoc, E. rewrite <- app_assoc. f_equal.
Qed.

(*EX
(** A transport that takes three bytes, is busy, then takes the rest. *)
Example http_sink_order_ex :
  http_ops [HSend (str "abcd") 0; HFlush; HSend (str "ef") 7; HFlush]
    (mk_fw (mk_bm [] 0) [] [AwAccept 2; AwNotReady] [])
  = ([SReady; SNotReady; SReady; SReady], mk_fw (mk_bm [] 7) (str "abcdef") [] []).
Proof. vm_compute. reflexivity. Qed.
EX*)

(** ** There and back *)
Lemma version_no_cr : forall v, ~ In CR (print_version_http v).
Proof. intros v. destruct v; cbn; intros HI; decompose [or] HI; try discriminate; contradiction. Qed.
Lemma text_no : forall ok c t b, text_of ok c t -> ok b = false -> ~ In b t.
Proof. intros ok c t b H E HI. unfold text_of in H. rewrite Forall_forall in H. destruct (H b HI). congruence. Qed.
Lemma legible_names : forall X fs, sound_lib X -> Forall (legible X) fs -> Forall (fun f : field => no_break (fst f)) fs.
Proof.
  intros X fs (_ & _ & HC & HF & _) HL. eapply Forall_impl; [|exact HL]. intros [n x] (_ & HX & _). cbn [fst] in *.
  split; [apply (text_no _ _ _ _ HX HC)|apply (text_no _ _ _ _ HX HF)].
Qed.
Lemma request_sent_head : forall X q text, sound_lib X -> request_sent X q text ->
  ends_first text /\ answer (try_request X text) = Some (inl q).
Proof.
  intros X q text HX H. destruct H as [q text (H1 & H2 & H3 & H4 & H5 & H6 & H7 & H8 & H9) HT].
  unfold request_line in HT. destruct (@print_headers unit (rq_headers q)) as [hs| | |] eqn:EH; cbn [rbind] in HT; try discriminate HT.
  apply Ok_inj in HT. subst text. split.
  - apply ef_text; [apply (text_no _ _ _ _ H3), HX|].
    apply (ef_text (str " ")); [cbn; intros HI; decompose [or] HI; try discriminate; contradiction|].
    apply ef_text; [apply H6|].
    apply (ef_text (str " ")); [cbn; intros HI; decompose [or] HI; try discriminate; contradiction|].
    apply ef_text; [apply version_no_cr|]. pose proof (lines_end _ (legible_names X _ HX H8)) as HE.
    unfold print_headers in EH. destruct (forallb _ _); [|discriminate EH]. apply Ok_inj in EH. subst hs. exact HE.
  - rewrite (request_alone X (method_text (rq_method q)) (rq_uri q) (rq_version q) (read_back (fields (rq_headers q)))); auto.
    + cbn [answer]. unfold meant. f_equal. f_equal. f_equal. unfold method_named.
      destruct H1 as [E|(s & E & Hs)]; rewrite E; [reflexivity|].
      cbn [method_text]. destruct (list_eq_dec Byte.byte_eq_dec s (ascii "GET")); [contradiction|reflexivity].
    + exists [], (print_version_http (rq_version q)), crlf, (hs ++ crlf).
      split; [constructor|]. split; [exact H2|]. split; [exact H3|]. split; [exact H4|].
      split; [destruct H7 as [-> | ->]; constructor|]. split; [constructor|].
      split; [apply lines_read; assumption|]. reflexivity.
    + unfold read_back. rewrite map_length. exact H9.
Qed.
Lemma digit_not : forall a, 48 <= Byte.to_N a -> a <> CR /\ a <> LF.
Proof. intros a H. split; intros ->; vm_compute in H; apply H; reflexivity. Qed.
Lemma response_sent_head : forall X r text, sound_lib X -> response_sent X r text ->
  ends_first text /\ answer (try_response X text) = Some (inl r).
Proof.
  intros X r text HX H. destruct H as [v c why h status text H1 (ct & H2 & -> & H3) [H4 H5] HT].
  assert (HB : no_break (ct ++ SP :: why)).
  { rewrite Forall_forall in H3. inversion H2 as [a b d A1 A2 A3 A4 A5 A6]; subst.
    pose proof (digit_not a A4) as [? ?]. pose proof (digit_not b A5) as [? ?]. pose proof (digit_not d A6) as [? ?].
    split; intros HI; cbn [app] in HI; destruct HI as [HI|[HI|[HI|[HI|HI]]]]; try congruence;
      try (discriminate HI); apply H3 in HI as (_ & ? & ?); congruence. }
  split; [eapply legible_end; eassumption|].
  apply print_response_inv in HT as (hs & EH & ->).
  rewrite (response_alone X v c why (read_back (fields h))); auto.
  - exists [], (print_version_http v), ct, (SP :: why ++ crlf), (hs ++ crlf).
    split; [constructor|]. split; [destruct H1 as [-> | ->]; constructor|]. split; [exact H2|].
    split; [constructor; [exact H3|constructor]|]. split; [apply lines_read; assumption|].
    change (str " ") with [SP]. rewrite <- !app_assoc. cbn [app]. rewrite <- !app_assoc. reflexivity.
  - unfold read_back. rewrite map_length. exact H5.
Qed.
Lemma sent_series : forall A (try : bytes -> pres A) l texts,
  Forall2 (fun q t => ends_first t /\ answer (try t) = Some (inl q)) l texts ->
  series try (combine texts l) /\ map fst (combine texts l) = texts /\ map snd (combine texts l) = l.
Proof.
  intros A try l texts H. induction H as [|q t l texts H H2 (I1 & I2 & I3)]; [split; [constructor|auto]|].
  cbn [combine map fst snd]. rewrite I2, I3. split; [constructor; [exact H|exact I1]|auto].
Qed.
Lemma acarries_plain : forall s l, acarries s l -> undisturbed s /\ aev_bytes s = l.
Proof.
  intros s l H. induction H as [|b bs s l H [I1 <-]|s l H [I1 I2]].
  - split; [constructor|reflexivity].
  - split; [constructor; [exact I|exact I1]|reflexivity].
  - split; [constructor; [exact I|exact I1]|exact I2].
Qed.
Lemma there_and_back : forall A (try : bytes -> pres A) l ops w rs w' s,
  fw_out w = [] -> bm_data (fw_buf w) = [] -> http_ops ops w = (rs, w') -> bm_data (fw_buf w') = [] ->
  Forall2 (fun q t => ends_first t /\ answer (try t) = Some (inl q)) l (http_taken ops rs) ->
  acarries s (fw_out w') -> http_all try s = (l, HEnds).
Proof.
  intros A try l ops w rs w' s H1 H2 H3 H4 H5 H6. apply http_sink_order_proof in H3.
  rewrite H1, H2, H4, app_nil_r in H3. cbn [app] in H3.
  destruct (sent_series A try l _ H5) as (S1 & S2 & S3). apply acarries_plain in H6 as [U1 U2].
  rewrite H3, <- S2, <- (app_nil_r (concat _)) in U2.
  destruct (all_series A try _ s [] [] S1 U1 U2) as (l' & e & Q1 & _ & Q3). rewrite app_nil_r in Q1.
  destruct (Q3 HEnds not_end_nil closed_after) as [-> ->]. rewrite Q1, S3, app_nil_r. reflexivity.
Qed.
(** [C81] There: the requests a client's sink took, once flushed, are the requests a server
    reads, each with its method, target, version and fields, in order and no others, however
    the client's transport took them and the server's delivers them. *)
Lemma requests_there_proof : forall X qs ops w rs w' s, sound_lib X ->
  fw_out w = [] -> bm_data (fw_buf w) = [] -> http_ops ops w = (rs, w') -> bm_data (fw_buf w') = [] ->
  Forall2 (request_sent X) qs (http_taken ops rs) -> acarries s (fw_out w') ->
  http_requests X s = (qs, HEnds).
Proof.
  intros X qs ops w rs w' s HX H1 H2 H3 H4 H5 H6. eapply there_and_back; try eassumption.
  clear - H5 HX. induction H5; constructor; [apply request_sent_head; assumption|assumption].
Qed.

(*EX
Example requests_there_ex :
  let q := mk_req (OtherMethod (str "PUT")) (str "/b") Http11 [(str "Host", Raw [str "h" ++ [CR; LF] ++ str "x"])] in
  let text := str "PUT /b HTTP/1.1" ++ crlf ++ str "Host: h  x" ++ head_end in
  @request_line unit q = Ok text /\ sendable httparse_lib q /\
  meant q = mk_req (OtherMethod (str "PUT")) (str "/b") Http11 (from_raw [(str "Host", str "h  x")]) /\
  http_requests httparse_lib [AData "P"%byte (drop 1 text ++ take 5 text); AData "b"%byte (drop 6 text)]
  = ([meant q; meant q], HEnds).
Proof.
  split; [vm_compute; reflexivity|]. split; [|split; vm_compute; reflexivity].
  split; [right; eexists; split; [reflexivity|discriminate]|]. split; [discriminate|].
  split; [repeat constructor; discriminate|]. split; [repeat constructor; discriminate|].
  split; [split; [discriminate|]; right; left; eexists; reflexivity|].
  split; [split; cbn; intros HI; decompose [or] HI; try discriminate; contradiction|].
  split; [right; reflexivity|]. split; [|vm_compute; repeat constructor].
  apply Forall_cons; [|apply Forall_nil]. split; [discriminate|]. split; [repeat constructor; discriminate|].
  cbn [snd].
  apply Forall_cons; [right; right; right; vm_compute; split; discriminate|].
  apply Forall_cons; [right; left; reflexivity|]. apply Forall_cons; [right; right; left; reflexivity|].
  apply Forall_cons; [right; right; right; vm_compute; split; discriminate|apply Forall_nil].
Qed.
EX*)
(** [C81] And back: likewise the responses of a server. *)
Lemma responses_back_proof : forall X l ops w rs w' s, sound_lib X ->
  fw_out w = [] -> bm_data (fw_buf w) = [] -> http_ops ops w = (rs, w') -> bm_data (fw_buf w') = [] ->
  Forall2 (response_sent X) l (http_taken ops rs) -> acarries s (fw_out w') ->
  http_responses X s = (l, HEnds).
Proof.
  intros X qs ops w rs w' s HX H1 H2 H3 H4 H5 H6. eapply there_and_back; try eassumption.
  clear - H5 HX. induction H5; constructor; [apply response_sent_head; assumption|assumption].
Qed.

(*EX
Example responses_back_ex :
  let text := str "HTTP/1.1 404 Not Found" ++ crlf ++ str "A: b" ++ head_end in
  response_sent httparse_lib (mk_resp Http11 404 (str "Not Found") (from_raw [(str "A", str "b")])) text /\
  http_responses httparse_lib [AData "H"%byte (drop 1 text ++ text)]
  = ([mk_resp Http11 404 (str "Not Found") (from_raw [(str "A", str "b")]);
      mk_resp Http11 404 (str "Not Found") (from_raw [(str "A", str "b")])], HEnds).
Proof.
  split; [|vm_compute; reflexivity].
  apply (a_response_sent _ Http11 404 (str "Not Found") [(str "A", Raw [str "b"])] (str "404 Not Found"));
    [right; reflexivity| | |vm_compute; reflexivity].
  - exists (str "404"). split; [apply (a_code "4" "0" "4"); vm_compute; discriminate|].
    split; [reflexivity|]. repeat constructor; discriminate.
  - split; [|vm_compute; repeat constructor].
    apply Forall_cons; [|apply Forall_nil]. split; [discriminate|]. split; [repeat constructor; discriminate|].
    apply Forall_cons; [right; right; right; vm_compute; split; discriminate|apply Forall_nil].
Qed.
EX*)

(** ** What does depend on the chunks *)
(** [C81] For other bytes what is delivered does depend on the chunks: two empty lines too many
    in front of a request are skipped if they come on their own, and lose the request if they
    come with it. *)
Lemma http_chunks_refuted_proof : exists s1 s2, undisturbed s1 /\ undisturbed s2 /\
  aev_bytes s1 = aev_bytes s2 /\
  fst (http_requests httparse_lib s1) = [mk_req Get (str "/") Http11 []] /\
  http_requests httparse_lib s2 = ([], HIo (OtherKind 0)).
Proof.
  exists [AData CR [LF; CR; LF]; AData CR [LF; CR; LF]; AData "G" (str "ET / HTTP/1.1" ++ head_end)],
         [AData CR ([LF; CR; LF] ++ head_end ++ str "GET / HTTP/1.1" ++ head_end)].
  split; [repeat constructor|]. split; [repeat constructor|]. split; [reflexivity|]. split; vm_compute; reflexivity.
Qed.
(** [C81] A head with more than 100 fields is not reported but passed over in silence, and a
    whole request that came with it is held back until something else happens. *)
Lemma large_head_reported_refuted_proof : exists big s f, ends_first big /\
  try_request httparse_lib big = Fail PETooLarge /\ undisturbed s /\
  aev_bytes s = big ++ str "GET / HTTP/1.1" ++ head_end /\
  framed_poll (http_decode (try_request httparse_lib)) (s ++ [ANotReady]) (framed_new tt []) = (PNotReady, f, []) /\
  fr_buf f = str "GET / HTTP/1.1" ++ head_end /\
  http_requests httparse_lib s = ([mk_req Get (str "/") Http11 []], HEnds).
Proof.
  set (big := str "GET /big HTTP/1.1" ++ crlf ++ concat (repeat (str "a: b" ++ crlf) 101) ++ crlf).
  exists big, [AData "G" (drop 1 big ++ str "GET / HTTP/1.1" ++ head_end)],
    (mk_framed tt (str "GET / HTTP/1.1" ++ head_end) false false).
  split; [apply (proj1 (split_exact_proof big big [])); vm_compute; reflexivity|].
  split; [vm_compute; reflexivity|]. split; [repeat constructor|].
  repeat split; vm_compute; reflexivity.
Qed.
