(** The HTTP heads of the handshake in the byte stream: C42. *)
From Coq Require Import NArith ZArith String Bool List Lia.
From Coq Require Import ZifyBool ZifyNat ZifyN.
From Coq.Strings Require Import Byte.
From Verif.Model Require Import Base Io Header Mask Dataframe Utf8 Text Base64 WsKey Headers
  Handshake Message Receiver Codec Framed Http.
From Verif.Spec Require Import Fields HttpHead.
From Verif.Proofs Require Import BaseFacts HeaderFacts Machine TextFacts HttpFacts.
Import ListNotations.
Local Open Scope string_scope.
Local Open Scope list_scope.
Local Open Scope N_scope.

(** ** Splitting a buffer *)
Definition more (b : byte) (x : option (bytes * bytes)) : option (bytes * bytes) :=
  match x with Some (h, r) => Some (b :: h, r) | None => None end.
Lemma split_cons : forall b r,
  (exists rest, b :: r = head_end ++ rest /\ split_off_http (b :: r) = Some (head_end, rest)) \/
  ((forall rest, b :: r <> head_end ++ rest) /\
   split_off_http (b :: r) = more b (split_off_http r)).
Proof.
  intros b r. cbn [split_off_http]. destruct (beqb (take 4 (b :: r)) _) eqn:E.
  - left. apply beqb_iff in E. exists (drop 4 (b :: r)). rewrite E. split; [|reflexivity].
    change head_end with [x0d; x0a; x0d; x0a]. rewrite <- E, take_drop. reflexivity.
  - right. split; [|reflexivity]. intros rest H. rewrite H in E.
    rewrite (take_app_exact _ 4 head_end rest) in E by reflexivity. discriminate E.
Qed.
Lemma ends_first_itself : ends_first head_end.
Proof.
  split; [exists []; reflexivity|]. intros a b E. apply (f_equal (@length byte)) in E.
  rewrite !app_length in E. cbn [length head_end] in E. destruct b; [reflexivity|cbn [length] in E; lia].
Qed.
Lemma ends_first_cons : forall b h, (forall rest, b :: h <> head_end ++ rest) ->
  ends_first (b :: h) <-> ends_first h.
Proof.
  intros b h Hn. split.
  - intros [[p E] H]. split.
    + destruct p as [|x p]; [exfalso; apply (Hn []); rewrite E, app_nil_r; reflexivity|].
      injection E as _ ->. exists p. reflexivity.
    + intros a c ->. apply (H (b :: a)). reflexivity.
  - intros [[p ->] H]. split; [exists (b :: p); reflexivity|].
    intros [|x a] c E; [exfalso; apply (Hn c); exact E|]. injection E as _ E. apply (H a c E).
Qed.

Lemma ends_first_unique : forall h h' r r', ends_first h -> ends_first h' ->
  h ++ r = h' ++ r' -> h = h' /\ r = r'.
Proof.
  intros h h' r r' [[p Hp] H1] [[p' Hp'] H2] E.
  destruct (app_eq_app _ _ _ _ E) as (l & [[E1 E2]|[E1 E2]]).
  - assert (l = []) as ->. { apply (H1 p'). rewrite E1, Hp', <- app_assoc. reflexivity. }
    rewrite app_nil_r in E1. auto.
  - assert (l = []) as ->. { apply (H2 p). rewrite E1, Hp, <- app_assoc. reflexivity. }
    rewrite app_nil_r in E1. auto.
Qed.
Lemma ends_first_nil : ~ ends_first [].
Proof. intros [[p E] _]. destruct p; discriminate E. Qed.

(** [C42] [split_off_http] takes exactly the bytes up to and including the first CRLFCRLF. *)
Lemma split_exact_proof : forall src h r,
  split_off_http src = Some (h, r) <-> src = h ++ r /\ ends_first h.
Proof.
  intros src. induction src as [|b src IH]; intros h r.
  - split; [discriminate|]. intros [E H]. destruct h; [destruct (ends_first_nil H)|discriminate E].
  - destruct (split_cons b src) as [(rest & E & S)|(Hn & S)]; rewrite S.
    + split.
      * intros H. injection H as <- <-. split; [exact E|exact ends_first_itself].
      * intros [E2 H]. rewrite E2 in E.
        destruct (ends_first_unique _ _ _ _ H ends_first_itself E) as [-> ->]. reflexivity.
    + unfold more. split.
      * destruct (split_off_http src) as [[h' r']|]; [|discriminate]. intros H.
        injection H as <- <-. destruct (proj1 (IH h' r') eq_refl) as [-> H2].
        split; [reflexivity|]. apply ends_first_cons; [|exact H2].
        intros rest E. apply (Hn (rest ++ r')). rewrite app_assoc, <- E. reflexivity.
      * intros [E H]. destruct h as [|x h]; [destruct (ends_first_nil H)|].
        injection E as <- ->. apply ends_first_cons in H.
        { rewrite (proj2 (IH h r)); [reflexivity|]. split; [reflexivity|exact H]. }
        intros rest E. apply (Hn (rest ++ r)). rewrite app_assoc, <- E. reflexivity.
Qed.
(*EX Example split_exact_ex : split_off_http (str "GET / HTTP/1.1" ++ [x0d; x0a; x0d; x0a] ++ str "xyz")
  = Some (str "GET / HTTP/1.1" ++ [x0d; x0a; x0d; x0a], str "xyz").
Proof. reflexivity. Qed. EX*)
(** [C42] And it waits for more exactly as long as there is none. *)
Lemma split_waits_proof : forall src, split_off_http src = None <-> ~ has_end src.
Proof.
  induction src as [|b src IH].
  - split; [|reflexivity]. intros _ (a & c & E). destruct a; discriminate E.
  - destruct (split_cons b src) as [(rest & E & S)|(Hn & S)]; rewrite S.
    + split; [discriminate|]. intros H. destruct H. exists [], rest. exact E.
    + unfold more. destruct (split_off_http src) as [[h r]|].
      * split; [discriminate|]. intros H. exfalso.
        assert (X : ~ ~ has_end src) by (intros X; apply IH in X; discriminate X). apply X.
        intros (a & c & E). apply H. exists (b :: a), c. rewrite E. reflexivity.
      * split; [|reflexivity]. intros _ (a & c & E). destruct a as [|x a]; [exact (Hn c E)|].
        injection E as _ E. apply (proj1 IH eq_refl). exists a, c. exact E.
Qed.
(*EX Example split_waits_ex : split_off_http (str "GET / HTTP/1.1" ++ [x0d; x0a; x0d]) = None.
Proof. reflexivity. Qed. EX*)
(** [C42] What is split off does not depend on what follows: more bytes only make the rest
    longer. *)
Lemma split_extends_proof : forall src h r x,
  split_off_http src = Some (h, r) -> split_off_http (src ++ x) = Some (h, r ++ x).
Proof.
  intros src h r x H. apply split_exact_proof in H as [-> H]. apply split_exact_proof.
  rewrite <- app_assoc. auto.
Qed.

(*EX
Example split_extends_ex :
  split_off_http (str "a" ++ head_end ++ str "b") = Some (str "a" ++ head_end, str "b") /\
  split_off_http (str "a" ++ head_end ++ str "b" ++ head_end) = Some (str "a" ++ head_end, str "b" ++ head_end).
Proof. split; reflexivity. Qed.
EX*)


(** ** What the parser takes *)

(** [C42] A request is read exactly from the head of one: what the parser takes from the
    buffer is a request line, at most 100 fields and the empty line (possibly after empty
    lines), all of it and nothing behind it, and it yields the method, target, version and
    fields written there. *)
Lemma request_exact_proof : forall X i q rest, sound_lib X ->
  try_request X i = Done q rest <->
  exists head m t v fs, i = head ++ rest /\ request_head X m t v fs head /\
    (length fs <= 100)%nat /\ target_accepted X t /\
    q = mk_req (method_named m) t v (from_raw fs).
Proof. exact request_iff. Qed.
(*EX Example request_exact_ex :
  try_request httparse_lib (str "GET /chat HTTP/1.1" ++ [x0d; x0a] ++ str "Host: a" ++ [x0d; x0a; x0d; x0a; x81])
  = Done (mk_req Get (str "/chat") Http11 (from_raw [(str "Host", str "a")])) [x81].
Proof. reflexivity. Qed.
Example sound_lib_ex : sound_lib httparse_lib.
Proof. repeat split. Qed. EX*)
(** [C42] The same for a response. *)
Lemma response_exact_proof : forall X i q rest, sound_lib X ->
  try_response X i = Done q rest <->
  exists head v code reason fs, i = head ++ rest /\ response_head X v code reason fs head /\
    (length fs <= 100)%nat /\ q = mk_resp v code reason (from_raw fs).
Proof. exact response_iff. Qed.
(*EX Example response_exact_ex :
  try_response httparse_lib (str "HTTP/1.1 101 Switching Protocols" ++ [x0d; x0a] ++ str "Upgrade: websocket" ++ [x0d; x0a; x0d; x0a; x81])
  = Done (mk_resp Http11 101 (str "Switching Protocols") (from_raw [(str "Upgrade", str "websocket")])) [x81].
Proof. reflexivity. Qed. EX*)

Lemma request_alone : forall X m t v fs head, sound_lib X ->
  request_head X m t v fs head -> (length fs <= 100)%nat -> target_accepted X t ->
  try_request X head = Done (mk_req (method_named m) t v (from_raw fs)) [].
Proof.
  intros X m t v fs head HX H Hn Ht. apply request_iff; [exact HX|].
  exists head, m, t, v, fs. rewrite app_nil_r. auto 10.
Qed.
Lemma response_alone : forall X v c r fs head, sound_lib X ->
  response_head X v c r fs head -> (length fs <= 100)%nat ->
  try_response X head = Done (mk_resp v c r (from_raw fs)) [].
Proof.
  intros X v c r fs head HX H Hn. apply response_iff; [exact HX|].
  exists head, v, c, r, fs. rewrite app_nil_r. auto 10.
Qed.
(** [C42] Before the last byte of the head is there the parser only asks for more. *)
Lemma request_prefix_proof : forall X m t v fs c d, sound_lib X ->
  request_head X m t v fs (c ++ d) -> (length fs <= 100)%nat -> target_accepted X t ->
  d <> [] -> try_request X c = Partial.
Proof.
  intros X m t v fs c d HX H Hn Ht Hd.
  eapply stab_prefix; [apply stab_request|eapply request_alone; eauto|exact Hd].
Qed.

(*EX
(** All but the last byte. *)
Example request_prefix_ex :
  try_request httparse_lib (str "GET /chat HTTP/1.1" ++ [x0d; x0a] ++ str "Host: a" ++ [x0d; x0a; x0d]) = Partial.
Proof. reflexivity. Qed.
EX*)

(** [C42] *)
Lemma response_prefix_proof : forall X v code r fs c d, sound_lib X ->
  response_head X v code r fs (c ++ d) -> (length fs <= 100)%nat ->
  d <> [] -> try_response X c = Partial.
Proof.
  intros X v code r fs c d HX H Hn Hd.
  eapply stab_prefix; [apply stab_response|eapply response_alone; eauto|exact Hd].
Qed.

(*EX
Example response_prefix_ex :
  try_response httparse_lib (str "HTTP/1.1 101 Switching Pro") = Partial /\
  try_response httparse_lib (str "HTTP/1.1 101 Switching Protocols" ++ [x0d; x0a] ++ str "Upgrade: web") = Partial.
Proof. split; reflexivity. Qed.
EX*)


(** ** Asynchronous reading *)
Definition answer {A : Type} (x : pres A) : option (A + parse_error) :=
  match x with
  | Done a _ => Some (inl a)
  | Partial => None
  | Fail PETooLarge => None
  | Fail e => Some (inr e)
  end.
Lemma decode_head : forall A (try : bytes -> pres A) h r i, ends_first h ->
  answer (try h) = Some i -> http_decode try tt (h ++ r) = (Ok (Some i), tt, r).
Proof.
  intros A try h r i H Hi. unfold http_decode.
  rewrite (proj2 (split_exact_proof (h ++ r) h r)) by auto.
  destruct (try h) as [a x| |e]; cbn in Hi; try discriminate.
  - injection Hi as <-. reflexivity.
  - destruct e; try discriminate; injection Hi as <-; reflexivity.
Qed.
Lemma decode_wait : forall A (try : bytes -> pres A) src, ~ has_end src ->
  http_decode try tt src = (Ok None, tt, src).
Proof. intros A try src H. unfold http_decode. rewrite (proj2 (split_waits_proof src) H). reflexivity. Qed.
Lemma ends_first_before : forall c d, ends_first (c ++ d) -> d <> [] -> ~ has_end c.
Proof.
  intros c d [_ H] Hd (a & b & ->).
  assert (b ++ d = []) as E. { apply (H a). rewrite <- !app_assoc. reflexivity. }
  apply app_eq_nil in E as [_ E]. contradiction.
Qed.

Lemma fd_wait : forall A (try : bytes -> pres A) buf rd, ~ has_end buf ->
  framed_decode (http_decode try) (mk_framed tt buf rd false) = (None, mk_framed tt buf false false).
Proof.
  intros A try buf [|] H; unfold framed_decode; cbn [fr_readable fr_st fr_buf fr_eof];
    [rewrite decode_wait by exact H|]; reflexivity.
Qed.
Lemma fi_data : forall A (try : bytes -> pres A) n b bs s buf rd, ~ has_end buf ->
  first_item (http_decode try) (S n) (AData b bs :: s) (mk_framed tt buf rd false) =
  first_item (http_decode try) (S n) s (mk_framed tt (buf ++ b :: bs) true false).
Proof.
  intros A try n b bs s buf rd H. cbn [first_item framed_poll]. rewrite fd_wait by exact H.
  reflexivity.
Qed.
Lemma fi_wait : forall A (try : bytes -> pres A) n s buf rd, ~ has_end buf ->
  first_item (http_decode try) (S n) (ANotReady :: s) (mk_framed tt buf rd false) =
  first_item (http_decode try) n s (mk_framed tt buf false false).
Proof.
  intros A try n s buf rd H. cbn [first_item framed_poll]. rewrite fd_wait by exact H. reflexivity.
Qed.
Lemma fi_item : forall A (try : bytes -> pres A) n s h r i, ends_first h ->
  answer (try h) = Some i ->
  first_item (http_decode try) (S n) s (mk_framed tt (h ++ r) true false) =
  (PItem i, mk_framed tt r true false, s).
Proof.
  intros A try n s h r i H Hi. cbn [first_item].
  assert (E : framed_decode (http_decode try) (mk_framed tt (h ++ r) true false)
              = (Some (PItem i), mk_framed tt r true false)).
  { unfold framed_decode. cbn [fr_readable fr_st fr_buf fr_eof].
    rewrite (decode_head A try h r i H Hi). reflexivity. }
  destruct s; cbn [framed_poll]; rewrite E; reflexivity.
Qed.
Lemma aflows_nil_inv : forall s s', aflows s [] s' -> s = s'.
Proof. intros s s' H. inversion H; [reflexivity|contradiction]. Qed.

Lemma await_go : forall A (try : bytes -> pres A) s c s', aflows s c s' ->
  forall buf rd n h i, buf ++ c = h -> ends_first h -> answer (try h) = Some i -> c <> [] ->
  (length s < n)%nat ->
  exists rest s2, first_item (http_decode try) n s (mk_framed tt buf rd false)
    = (PItem i, mk_framed tt rest true false, s2) /\ s' = apush_back rest s2.
Proof.
  intros A try s c s' H. induction H as [s|b bs c s s' H IH|b bs x r s|c s s' Hc H IH];
    intros buf rd n h i Eh Hh Hi Hne Hn.
  - contradiction.
  - destruct n as [|n]; [cbn [length] in Hn; lia|].
    rewrite fi_data.
    2:{ apply (ends_first_before buf ((b :: bs) ++ c)); [rewrite Eh; exact Hh|discriminate]. }
    destruct c as [|c0 c].
    + apply aflows_nil_inv in H. subst s'. exists [], s. rewrite app_nil_r in Eh.
      split; [|reflexivity]. rewrite <- (app_nil_r (buf ++ b :: bs)), Eh.
      apply fi_item; assumption.
    + apply (IH _ _ _ h); auto; [|discriminate|cbn [length] in Hn; lia].
      rewrite <- app_assoc. exact Eh.
  - destruct n as [|n]; [cbn [length] in Hn; lia|].
    rewrite fi_data.
    2:{ apply (ends_first_before buf (b :: bs)); [rewrite Eh; exact Hh|discriminate]. }
    exists (x :: r), s. split; [|reflexivity].
    replace (buf ++ b :: bs ++ x :: r) with (h ++ x :: r) by (rewrite <- Eh, <- app_assoc; reflexivity).
    apply fi_item; assumption.
  - destruct n as [|n]; [cbn [length] in Hn; lia|].
    rewrite fi_wait.
    2:{ apply (ends_first_before buf c); [rewrite Eh; exact Hh|exact Hc]. }
    apply (IH _ _ _ h); auto. cbn [length] in Hn; lia.
Qed.
Lemma await_head_go : forall A (try : bytes -> pres A) s h s' i, aflows s h s' ->
  ends_first h -> answer (try h) = Some i ->
  exists rest s2, await_head try s = (PItem i, mk_framed tt rest true false, s2) /\
    s' = apush_back rest s2.
Proof.
  intros A try s h s' i H Hh Hi. unfold await_head. eapply (await_go A try s h s' H [] false); eauto.
  intros ->. exact (ends_first_nil Hh).
Qed.

(** [C42] The asynchronous server gets the request however the bytes of its head arrive: in
    any chunks, with any pauses; and what came with the last chunk is kept, in order: buffer
    and transport together are exactly the stream after the head. *)
Lemma async_request_read_proof : forall X m t v fs head s s', sound_lib X ->
  request_head X m t v fs head -> (length fs <= 100)%nat -> target_accepted X t ->
  ends_first head -> aflows s head s' ->
  exists rest s2, await_head (try_request X) s =
      (PItem (inl (mk_req (method_named m) t v (from_raw fs))), mk_framed tt rest true false, s2)
    /\ s' = apush_back rest s2.
Proof.
  intros X m t v fs head s s' HX H Hn Ht He Hs.
  apply (await_head_go _ _ s head s'); auto. rewrite (request_alone X m t v fs head) by assumption.
  reflexivity.
Qed.
(*EX Example async_request_read_ex :
  let head := str "GET / HTTP/1.1" ++ head_end in
  request_head httparse_lib (str "GET") (str "/") Http11 [] head /\ ends_first head /\
  aflows [AData "G"%byte (str "ET / HTT"); ANotReady; AData "P"%byte (str "/1.1" ++ head_end ++ [x81; x00]); ANotReady]
    head [AData x81 [x00]; ANotReady] /\
  await_head (try_request httparse_lib)
    [AData "G"%byte (str "ET / HTT"); ANotReady; AData "P"%byte (str "/1.1" ++ head_end ++ [x81; x00]); ANotReady]
  = (PItem (inl (mk_req Get (str "/") Http11 [])), mk_framed tt [x81; x00] true false, [ANotReady]).
Proof.
  split; [|split; [|split]].
  - exists [], (str "HTTP/1.1"), [CR; LF], [CR; LF].
    split; [constructor|]. split; [discriminate|].
    split; [repeat constructor; discriminate|]. split; [repeat constructor; discriminate|].
    split; [constructor|]. split; [constructor|]. split; [constructor; constructor|reflexivity].
  - apply (ThmHttp.split_exact_proof (str "GET / HTTP/1.1" ++ head_end) _ []). reflexivity.
  - apply (aflows_read "G" (str "ET / HTT")). apply aflows_wait; [discriminate|].
    apply (aflows_part "P" (str "/1.1" ++ head_end) x81 [x00]).
  - reflexivity.
Qed. EX*)
(** [C42] The same for the client and the response. *)
Lemma async_response_read_proof : forall X v code r fs head s s', sound_lib X ->
  response_head X v code r fs head -> (length fs <= 100)%nat ->
  ends_first head -> aflows s head s' ->
  exists rest s2, await_head (try_response X) s =
      (PItem (inl (mk_resp v code r (from_raw fs))), mk_framed tt rest true false, s2)
    /\ s' = apush_back rest s2.
Proof.
  intros X v code r fs head s s' HX H Hn He Hs.
  apply (await_head_go _ _ s head s'); auto. rewrite (response_alone X v code r fs head) by assumption.
  reflexivity.
Qed.

(*EX
Example async_response_read_ex :
  await_head (try_response httparse_lib)
    [AData "H"%byte (str "TTP/1.1 101 X"); ANotReady; AData x0d [x0a]; AData x0d [x0a; x89]; ANotReady]
  = (PItem (inl (mk_resp Http11 101 (str "X") [])), mk_framed tt [x89] true false, [ANotReady]).
Proof. reflexivity. Qed.
EX*)

(** [C42] A block the parser refuses (other than as too large) is reported, however it
    arrives. *)
Lemma async_request_refused_proof : forall X h e s s', ends_first h ->
  try_request X h = Fail e -> e <> PETooLarge -> aflows s h s' ->
  exists rest s2, await_head (try_request X) s =
      (PItem (inr e), mk_framed tt rest true false, s2) /\ s' = apush_back rest s2.
Proof.
  intros X h e s s' Hh He Hne Hs. apply (await_head_go _ _ s h s'); auto. rewrite He.
  destruct e; try reflexivity. congruence.
Qed.
(*EX Example async_request_refused_ex :
  try_request httparse_lib (str "GET / HTTP/2.0" ++ head_end) = Fail PEVersion.
Proof. reflexivity. Qed. EX*)

Lemma no_head_go : forall A (try : bytes -> pres A) s, undisturbed s ->
  forall buf rd n, ~ has_end (buf ++ aev_bytes s) -> (length s < n)%nat ->
  (rd = false \/ True) ->
  first_item (http_decode try) n s (mk_framed tt buf rd false)
  = (match buf ++ aev_bytes s with [] => PEnd | _ => PErr (IoError (OtherKind 0)) end,
     mk_framed tt (buf ++ aev_bytes s) true true, []).
Proof.
  intros A try s H. induction H as [|e s He Hs IH]; intros buf rd n Hb Hn _.
  - destruct n as [|n]; [cbn [length] in Hn; lia|]. cbn [aev_bytes] in *. rewrite app_nil_r in *.
    cbn [first_item framed_poll]. rewrite fd_wait by exact Hb. cbn [fr_eof fr_st fr_buf].
    unfold framed_decode. cbn [fr_readable fr_st fr_buf fr_eof]. rewrite decode_wait by exact Hb.
    destruct buf; reflexivity.
  - destruct n as [|n]; [cbn [length] in Hn; lia|]. cbn [length] in Hn.
    assert (Hb0 : ~ has_end buf).
    { intros (a & c & ->). apply Hb. exists a, (c ++ aev_bytes (e :: s)).
      rewrite <- !app_assoc. reflexivity. }
    destruct e as [b bs| |k]; [| |contradiction].
    + rewrite fi_data by exact Hb0. cbn [aev_bytes] in *.
      replace (buf ++ b :: bs ++ aev_bytes s) with ((buf ++ b :: bs) ++ aev_bytes s) in *
        by (rewrite <- app_assoc; reflexivity).
      apply IH; auto; lia.
    + rewrite fi_wait by exact Hb0. cbn [aev_bytes] in *. apply IH; auto; lia.
Qed.
(** [C42] A stream without CRLFCRLF never yields a request or response, only its end: nothing
    came, or the connection was closed inside a head. *)
Lemma async_no_head_proof : forall A (try : bytes -> pres A) s, undisturbed s ->
  ~ has_end (aev_bytes s) ->
  fst (fst (await_head try s)) =
    match aev_bytes s with [] => PEnd | _ => PErr (IoError (OtherKind 0)) end.
Proof.
  intros A try s H Hb. unfold await_head, framed_new.
  rewrite (no_head_go A try s H [] false) by (auto with arith). reflexivity.
Qed.
(*EX Example async_no_head_ex : undisturbed [AData "G"%byte (str "ET"); ANotReady] /\
  await_head (try_request httparse_lib) [AData "G"%byte (str "ET"); ANotReady]
  = (PErr (IoError (OtherKind 0)), mk_framed tt (str "GET") true true, []).
Proof. split; [repeat constructor|reflexivity]. Qed. EX*)

(** ** Blocking reading *)
Lemma spread_push_back : forall r s, spread (push_back r s) = map inl r ++ spread s.
Proof. intros [|b r] s; reflexivity. Qed.
Lemma map_inl_split : forall (c d : bytes) (t u : list (byte + rd_ev)),
  map inl c ++ t = map inl d ++ u ->
  (exists c', c = d ++ c' /\ u = map inl c' ++ t) \/
  (exists r, r <> [] /\ d = c ++ r /\ t = map inl r ++ u).
Proof.
  induction c as [|b c IH]; intros d t u E.
  - destruct d as [|x d]; [left; exists []; cbn in *; auto|].
    right. exists (x :: d). split; [discriminate|]. auto.
  - destruct d as [|x d]; [left; exists (b :: c); cbn in *; auto|].
    cbn [map app] in E. injection E as -> E. destruct (IH d t u E) as [(c' & -> & H)|(r & Hr & -> & H)].
    + left. exists c'. auto.
    + right. exists r. auto.
Qed.
Lemma rd_read_spread : forall n s, 0 < n ->
  match rd_read n s with
  | (Ok [], s') => stops (spread s) = Some UnexpectedEof
  | (Ok d, s') => spread s = map inl d ++ spread s' /\ (script_bytes s' < script_bytes s)%nat
  | (Err k, s') => stops (spread s) = Some k
  | _ => False
  end.
Proof.
  intros n s Hn. unfold rd_read. replace (n =? 0) with false by lia.
  destruct s as [|[b bs| | |k] s]; try reflexivity.
  destruct (take n (b :: bs)) as [|x d] eqn:E.
  - exfalso. apply (f_equal llen) in E. rewrite llen_take, llen_cons, llen_nil in E. lia.
  - rewrite <- E. split.
    + rewrite spread_push_back, app_assoc, <- map_app, take_drop. reflexivity.
    + rewrite !script_bytes_flat, flat_push_back. cbn [flat]. rewrite !app_length.
      apply (f_equal llen) in E. rewrite llen_take, llen_cons in E.
      pose proof (llen_drop _ n (b :: bs)) as HD. unfold llen in *. cbn [length] in *. lia.
Qed.

Lemma parse_pull : forall A (try : bytes -> pres A) room m c s t, (length c <= m)%nat ->
  forall buf fuel, spread s = map inl c ++ t ->
  (forall q d, buf ++ c = q ++ d -> d <> [] -> try q = Partial) ->
  (forall n, n < llen (buf ++ c) -> 0 < room n) ->
  (script_bytes s < fuel)%nat ->
  exists r s2 fuel2, parse_loop try room fuel buf s = parse_loop try room fuel2 (buf ++ c ++ r) s2
    /\ t = map inl r ++ spread s2 /\ (script_bytes s2 < fuel2)%nat.
Proof.
  intros A try room m. induction m as [|m IH]; intros c s t Hm buf fuel Hs Hp Hr Hf.
  - destruct c; [|cbn [length] in Hm; lia]. exists [], s, fuel. rewrite !app_nil_r. auto.
  - destruct c as [|x c]; [exists [], s, fuel; rewrite !app_nil_r; auto|].
    destruct fuel as [|fuel]; [lia|].
    assert (HP : try buf = Partial) by (apply (Hp buf (x :: c)); [reflexivity|discriminate]).
    cbn [parse_loop]. rewrite HP.
    assert (Hroom : 0 < room (llen buf)).
    { apply Hr. rewrite llen_app, llen_cons. lia. }
    pose proof (rd_read_spread _ s Hroom) as HD.
    destruct (rd_read (room (llen buf)) s) as [[[|d0 d]|k| |] s1].
    + rewrite Hs in HD. discriminate HD.
    + destruct HD as [HD HB]. remember (d0 :: d) as dd eqn:Edd.
      rewrite Hs in HD. destruct (map_inl_split _ _ _ _ HD) as [(c' & Ec & Hu)|(r & Hne & Ed & Ht)].
      * assert (HL : (length c' <= m)%nat).
        { apply (f_equal (@length byte)) in Ec. rewrite app_length, Edd in Ec. cbn [length] in *. lia. }
        destruct (IH c' s1 t HL (buf ++ dd) fuel Hu) as (r & s2 & fuel2 & E1 & E2 & E3).
        { intros q e Hq. apply Hp. rewrite Ec, app_assoc. exact Hq. }
        { intros n Hn2. apply Hr. rewrite Ec, app_assoc. exact Hn2. }
        { lia. }
        exists r, s2, fuel2. rewrite E1. split; [|auto].
        rewrite Ec, <- !app_assoc. reflexivity.
      * exists r, s1, fuel. split; [rewrite Ed; reflexivity|]. split; [exact Ht|lia].
    + rewrite Hs in HD. discriminate HD.
    + contradiction.
    + contradiction.
Qed.

Lemma parse_head : forall A (try : bytes -> pres A) room head a s t, stab try ->
  try head = Done a [] -> (forall n, n < llen head -> 0 < room n) -> first_come head t s ->
  exists rest s2, parse_loop try room (S (script_bytes s)) [] s = (Ok a, rest, s2) /\
    spread (push_back rest s2) = t.
Proof.
  intros A try room head a s t Hst Hd Hr Hs.
  destruct (parse_pull A try room (length head) head s t (le_n _) [] (S (script_bytes s)) Hs)
    as (r & s2 & fuel & E & Ht & Hf).
  - intros q d E Hne. cbn [app] in E. apply (stab_prefix _ _ q d a Hst); [rewrite <- E; exact Hd|exact Hne].
  - exact Hr.
  - lia.
  - exists r, s2. split; [|rewrite spread_push_back; auto]. rewrite E. cbn [app].
    destruct (stab_done _ _ _ _ _ Hst Hd) as (c & Ec & Hc). rewrite app_nil_r in Ec. subst c.
    destruct fuel; cbn [parse_loop]; rewrite Hc; reflexivity.
Qed.
Lemma parse_cut : forall A (try : bytes -> pres A) room c d a s t k, stab try ->
  try (c ++ d) = Done a [] -> d <> [] -> (forall n, n <= llen c -> 0 < room n) ->
  first_come c t s -> stops t = Some k -> llen c <> MAX_BUFFER_SIZE ->
  exists s2, parse_loop try room (S (script_bytes s)) [] s = (Err (PEIo k), c, s2).
Proof.
  intros A try room c d a s t k Hst Hd Hne Hr Hs Hk Hc.
  destruct (parse_pull A try room (length c) c s t (le_n _) [] (S (script_bytes s)) Hs)
    as (r & s2 & fuel & E & Ht & Hf).
  - intros q e E Hn2. cbn [app] in E. apply (stab_prefix _ _ q (e ++ d) a Hst).
    + rewrite app_assoc, <- E. exact Hd.
    + destruct e; [congruence|discriminate].
  - intros n Hn2. apply Hr. cbn [app] in Hn2. lia.
  - lia.
  - destruct r as [|x r]; [|subst t; discriminate Hk]. cbn [app map] in *. rewrite app_nil_r in E.
    rewrite E. destruct fuel as [|fuel]; [lia|]. cbn [parse_loop].
    rewrite (stab_prefix _ _ c d a Hst Hd Hne).
    pose proof (rd_read_spread (room (llen c)) s2 (Hr _ (N.le_refl _))) as HD. rewrite <- Ht in HD.
    destruct (rd_read (room (llen c)) s2) as [[[|d0 dd]|k'| |] s1].
    + replace (llen c =? MAX_BUFFER_SIZE) with false by lia. exists s1. rewrite HD in Hk. injection Hk as <-. reflexivity.
    + destruct HD as [HD _]. rewrite HD in Hk. discriminate Hk.
    + exists s1. rewrite HD in Hk. injection Hk as ->. reflexivity.
    + contradiction.
    + contradiction.
Qed.
Lemma parse_sound : forall A (try : bytes -> pres A) room fuel buf s, stab try ->
  (script_bytes s < fuel)%nat ->
  match parse_loop try room fuel buf s with
  | (Ok a, rest, s2) => exists head more, try head = Done a [] /\ buf ++ more = head ++ rest /\
      spread s = map inl more ++ spread s2
  | (Err e, rest, s2) => True
  | _ => False
  end.
Proof.
  intros A try room fuel. induction fuel as [|fuel IH]; intros buf s Hst Hf; [lia|].
  cbn [parse_loop]. destruct (try buf) as [a rest| |e] eqn:E.
  - destruct (stab_done _ _ _ _ _ Hst E) as (c & Ec & Hc). exists c, [].
    rewrite <- (app_nil_r c) at 1. rewrite Hc, app_nil_r. auto.
  - destruct (N.eqb_spec (room (llen buf)) 0) as [H0|H0].
    + rewrite H0. unfold rd_read. cbn. exact I.
    + assert (H1 : 0 < room (llen buf)) by lia. pose proof (rd_read_spread _ s H1) as HD.
      destruct (rd_read (room (llen buf)) s) as [[[|d0 d]|k| |] s1]; try exact I; try contradiction.
      destruct HD as [HD HB]. specialize (IH (buf ++ d0 :: d) s1 Hst ltac:(lia)).
      destruct (parse_loop try room fuel (buf ++ d0 :: d) s1) as [[[a|e| |] rest] s2]; auto.
      destruct IH as (head & mr & H2 & H3 & H4). exists head, ((d0 :: d) ++ mr).
      split; [exact H2|]. split; [rewrite app_assoc; exact H3|].
      rewrite HD, H4, map_app, app_assoc. reflexivity.
  - exact I.
Qed.

(** [C42] The blocking server gets the request however the bytes of its head are cut into
    reads, up to hyper's 409600 + 8192 bytes of buffer, and buffer and stream together show
    exactly what came after the head. *)
Lemma sync_request_read_proof : forall X m t v fs head after s, sound_lib X -> sound_room X ->
  request_head X m t v fs head -> (length fs <= 100)%nat -> target_accepted X t ->
  llen head <= 417792 -> first_come head after s ->
  exists rest s2, parse_request X s
      = (Ok (mk_req (method_named m) t v (from_raw fs)), rest, s2) /\
    spread (push_back rest s2) = after.
Proof.
  intros X m t v fs head after s HX [Hr _] H Hn Ht Hl Hs. unfold parse_request.
  apply (parse_head _ _ _ head); auto using stab_request, request_alone.
  intros n Hn2. apply Hr. unfold MAX_BUFFER_SIZE. lia.
Qed.
(** [C42] The same for the client and the response. *)
Lemma sync_response_read_proof : forall X v code r fs head after s, sound_lib X -> sound_room X ->
  response_head X v code r fs head -> (length fs <= 100)%nat ->
  llen head <= 417792 -> first_come head after s ->
  exists rest s2, parse_response X s = (Ok (mk_resp v code r (from_raw fs)), rest, s2) /\
    spread (push_back rest s2) = after.
Proof.
  intros X v code r fs head after s HX [Hr _] H Hn Hl Hs. unfold parse_response.
  apply (parse_head _ _ _ head); auto using stab_response, response_alone.
  intros n Hn2. apply Hr. unfold MAX_BUFFER_SIZE. lia.
Qed.
(*EX Example sync_read_ex :
  let head := str "GET / HTTP/1.1" ++ head_end in
  let s := [RData "G"%byte (str "ET / HTT"); RData "P"%byte (str "/1.1" ++ head_end ++ [x81; x00]); RErr WouldBlock] in
  first_come head [inl x81; inl x00; inr (RErr WouldBlock)] s /\
  parse_request httparse_lib s = (Ok (mk_req Get (str "/") Http11 []), [x81; x00], [RErr WouldBlock]).
Proof. split; vm_compute; reflexivity. Qed.
Example sound_room_ex : sound_room httparse_lib.
Proof. split; [|reflexivity]. intros n H. apply N.lt_add_lt_sub_l. rewrite N.add_0_r. exact H. Qed. EX*)
(** [C42] Conversely a request the blocking server gets was there: the stream began with the
    bytes of its head, and buffer and stream together show what came after. *)
Lemma sync_request_only_proof : forall X s q rest s2, sound_lib X ->
  parse_request X s = (Ok q, rest, s2) ->
  exists head m t v fs, first_come head (spread (push_back rest s2)) s /\
    request_head X m t v fs head /\ (length fs <= 100)%nat /\ target_accepted X t /\
    q = mk_req (method_named m) t v (from_raw fs).
Proof.
  intros X s q rest s2 HX H. unfold parse_request in H.
  pose proof (parse_sound _ (try_request X) (l_room X) (S (script_bytes s)) [] s (stab_request X) (le_n _)) as HS.
  rewrite H in HS. destruct HS as (head & mr & H1 & H2 & H3). cbn [app] in H2. subst mr.
  apply request_iff in H1 as (h' & m & t & v & fs & E & H4 & H5 & H6 & H7); [|exact HX].
  rewrite app_nil_r in E. subst h'. exists head, m, t, v, fs. split; [|auto].
  unfold first_come. rewrite H3, spread_push_back, map_app, app_assoc. reflexivity.
Qed.

(*EX
Example sync_request_only_ex :
  parse_request httparse_lib [RData "G"%byte (str "ET"); RData " "%byte (str "/ HTTP/1.1" ++ [x0a; x0a; x81]); RData x00 []]
  = (Ok (mk_req Get (str "/") Http11 []), [x81], [RData x00 []]).
Proof. reflexivity. Qed.
EX*)

(** [C42] *)
Lemma sync_response_only_proof : forall X s q rest s2, sound_lib X ->
  parse_response X s = (Ok q, rest, s2) ->
  exists head v code r fs, first_come head (spread (push_back rest s2)) s /\
    response_head X v code r fs head /\ (length fs <= 100)%nat /\
    q = mk_resp v code r (from_raw fs).
Proof.
  intros X s q rest s2 HX H. unfold parse_response in H.
  pose proof (parse_sound _ (try_response X) (l_room X) (S (script_bytes s)) [] s (stab_response X) (le_n _)) as HS.
  rewrite H in HS. destruct HS as (head & mr & H1 & H2 & H3). cbn [app] in H2. subst mr.
  apply response_iff in H1 as (h' & v & c & r & fs & E & H4 & H5 & H6); [|exact HX].
  rewrite app_nil_r in E. subst h'. exists head, v, c, r, fs. split; [|auto].
  unfold first_come. rewrite H3, spread_push_back, map_app, app_assoc. reflexivity.
Qed.

(*EX
Example sync_response_only_ex :
  parse_response httparse_lib [RData "H"%byte (str "TTP/1.1 404 Not Found" ++ head_end ++ str "no")]
  = (Ok (mk_resp Http11 404 (str "Not Found") []), str "no", []).
Proof. reflexivity. Qed.
EX*)

(** [C10] Reading a head ends with a head or an error, on every stream. *)
Lemma sync_head_total_proof : forall X s,
  (exists r, fst (fst (parse_request X s)) = Ok r) \/ (exists e, fst (fst (parse_request X s)) = Err e).
Proof.
  intros X s.
  pose proof (parse_sound _ (try_request X) (l_room X) (S (script_bytes s)) [] s (stab_request X) (le_n _)) as HS.
  fold (parse_request X s) in HS. destruct (parse_request X s) as [[[a|e| |] rest] s2]; cbn [fst]; eauto; contradiction.
Qed.

(*EX
Example sync_head_total_ex :
  fst (fst (parse_request httparse_lib [RData "G"%byte (str "ET / HTTP/2.0" ++ head_end)])) = Err PEVersion /\
  exists k, fst (fst (parse_request httparse_lib [])) = Err (PEIo k).
Proof. split; [reflexivity|]. eexists. reflexivity. Qed.
EX*)



(** [C42] A stream that ends, fails or is interrupted inside the head makes the handshake
    fail with that, with the bytes of the head that came left in the buffer. *)
Lemma sync_request_cut_proof : forall X m t v fs c d after k s, sound_lib X -> sound_room X ->
  request_head X m t v fs (c ++ d) -> (length fs <= 100)%nat -> target_accepted X t ->
  d <> [] -> llen c < 417792 -> first_come c after s -> stops after = Some k ->
  exists s2, parse_request X s = (Err (PEIo k), c, s2).
Proof.
  intros X m t v fs c d after k s HX [Hr _] H Hn Ht Hd Hl Hs Hk. unfold parse_request.
  eapply (parse_cut _ _ _ c d); eauto using stab_request.
  - eapply request_alone; eauto.
  - intros n Hn2. apply Hr. unfold MAX_BUFFER_SIZE. lia.
  - unfold MAX_BUFFER_SIZE. lia.
Qed.
(*EX Example sync_cut_ex :
  parse_request httparse_lib [RData "G"%byte (str "ET / HTT"); RIntr; RData "P"%byte (str "/1.1" ++ head_end)]
  = (Err (PEIo Interrupted), str "GET / HTT", [RData "P"%byte (str "/1.1" ++ head_end)]).
Proof. reflexivity. Qed. EX*)
(** [C42] *)
Lemma sync_response_cut_proof : forall X v code r fs c d after k s, sound_lib X -> sound_room X ->
  response_head X v code r fs (c ++ d) -> (length fs <= 100)%nat ->
  d <> [] -> llen c < 417792 -> first_come c after s -> stops after = Some k ->
  exists s2, parse_response X s = (Err (PEIo k), c, s2).
Proof.
  intros X v code r fs c d after k s HX [Hr _] H Hn Hd Hl Hs Hk. unfold parse_response.
  eapply (parse_cut _ _ _ c d); eauto using stab_response.
  - eapply response_alone; eauto.
  - intros n Hn2. apply Hr. unfold MAX_BUFFER_SIZE. lia.
  - unfold MAX_BUFFER_SIZE. lia.
Qed.

(*EX
Example sync_response_cut_ex :
  parse_response httparse_lib [RData "H"%byte (str "TTP/1.1 1"); RErr WouldBlock; RData "0"%byte (str "1")]
  = (Err (PEIo WouldBlock), str "HTTP/1.1 1", [RData "0"%byte (str "1")]).
Proof. reflexivity. Qed.
EX*)


(** ** Heads that get no answer *)
Lemma header_lines_many : forall X n fs t r, sound_lib X -> field_lines X fs t ->
  (n < length fs)%nat -> header_lines (l_name X) n (t ++ r) = Fail PETooLarge.
Proof.
  intros X n fs t r (_ & _ & Hcr & Hlf & Hc) H. revert n.
  induction H as [e He|f fs l t Hf Ht IH]; intros n Hn; [cbn [length] in Hn; lia|].
  destruct Hf as [nm v pad e Hn0 Hnm Hpad Hv Hs He].
  destruct nm as [|b nm]; [congruence|]. inversion_clear Hnm as [|? ? [Kb Kc] Hnm'].
  rewrite <- !app_assoc. cbn [app]. rewrite header_lines_other.
  - rewrite Kb. destruct n as [|n]; [reflexivity|]. rewrite <- ?app_assoc. cbn [app]. rewrite <- ?app_assoc.
    rewrite (proj2 (header_name_iff (l_name X) _ nm (pad ++ v ++ e ++ t ++ r)))
      by (split; [reflexivity|exact Hnm']).
    cbn [pbind]. rewrite skip_blanks_app by exact Hpad.
    replace (header_value (skip_blanks (v ++ e ++ t ++ r))) with (Done v (t ++ r)).
    2:{ symmetry. rewrite skip_blanks_same.
        - apply header_value_iff. exists e. split; [exact He|]. split; [exact Hv|reflexivity].
        - destruct v as [|v0 v]; [|apply starts_blank_app; exact Hs].
          cbn [app]. destruct He; intros [? [E|E]]; discriminate E. }
    cbn [pbind]. rewrite IH by (cbn [length] in Hn; lia). reflexivity.
  - intros ->. change (l_name X CR = true) in Kb. congruence.
  - intros ->. change (l_name X LF = true) in Kb. congruence.
Qed.
(** [C48] A request with more than 100 fields is too large for the parser. *)
Lemma request_too_many_proof : forall X m t v fs head rest, sound_lib X ->
  request_head X m t v fs head -> (100 < length fs)%nat ->
  try_request X (head ++ rest) = Fail PETooLarge.
Proof.
  intros X m t v fs head r HX (sk & vt & l & ls & Hsk & Hm0 & Hm & Ht & Hv & Hl & Hls & ->) Hn.
  destruct m as [|b m]; [congruence|].
  apply (pbind_at _ _ _ _ tt (b :: m ++ SP :: t ++ SP :: vt ++ l ++ ls ++ r)).
  { replace ((sk ++ (b :: m) ++ SP :: t ++ SP :: vt ++ l ++ ls) ++ r)
      with (sk ++ b :: m ++ SP :: t ++ SP :: vt ++ l ++ ls ++ r)
      by (rewrite <- !app_assoc; cbn [app]; rewrite <- !app_assoc; cbn [app]; rewrite <- !app_assoc; reflexivity).
    destruct HX as (H1 & H2 & _); inversion_clear Hm as [|? ? [Kb _] _].
    apply skip_empty_app; [exact Hsk| |]; intros ->; congruence. }
  apply (pbind_at _ _ _ _ (b :: m) (t ++ SP :: vt ++ l ++ ls ++ r)).
  { apply until_space_iff. split; [reflexivity|exact Hm]. }
  apply (pbind_at _ _ _ _ t (vt ++ l ++ ls ++ r)).
  { apply until_space_iff. split; [reflexivity|exact Ht]. }
  apply (pbind_at _ _ _ _ v (l ++ ls ++ r)).
  { apply version_iff. exists vt. split; [exact Hv|reflexivity]. }
  apply (pbind_at _ _ _ _ tt (ls ++ r)).
  { apply newline_iff. exists l. split; [exact Hl|reflexivity]. }
  rewrite (header_lines_many X MAX_HEADERS fs ls r HX Hls Hn). reflexivity.
Qed.
Lemma fi_drop_end : forall A (try : bytes -> pres A) n h, ends_first h ->
  answer (try h) = None ->
  first_item (http_decode try) (S n) [] (mk_framed tt h true false) = (PEnd, mk_framed tt [] true true, []).
Proof.
  intros A try n h H Ha. cbn [first_item framed_poll].
  assert (E : http_decode try tt h = (Ok None, tt, [])).
  { unfold http_decode. rewrite (proj2 (split_exact_proof h h [])) by (rewrite app_nil_r; auto).
    destruct (try h) as [a x| |e]; cbn in Ha; try discriminate; [reflexivity|].
    destruct e; try discriminate; reflexivity. }
  unfold framed_decode at 1. cbn [fr_readable fr_st fr_buf fr_eof]. rewrite E. reflexivity.
Qed.
Lemma drop_go : forall A (try : bytes -> pres A) s c s', aflows s c s' -> s' = [] ->
  forall buf rd n h, buf ++ c = h -> ends_first h -> answer (try h) = None -> c <> [] ->
  (length s < n)%nat ->
  first_item (http_decode try) n s (mk_framed tt buf rd false) = (PEnd, mk_framed tt [] true true, []).
Proof.
  intros A try s c s' H. induction H as [s|b bs c s s' H IH|b bs x r s|c s s' Hc H IH];
    intros Hs' buf rd n h Eh Hh Hi Hne Hn.
  - contradiction.
  - destruct n as [|n]; [cbn [length] in Hn; lia|].
    rewrite fi_data.
    2:{ apply (ends_first_before buf ((b :: bs) ++ c)); [rewrite Eh; exact Hh|discriminate]. }
    destruct c as [|c0 c].
    + apply aflows_nil_inv in H. subst s s'. rewrite app_nil_r in Eh. rewrite Eh.
      apply fi_drop_end; assumption.
    + apply (IH Hs' _ _ _ h); auto; [|discriminate|cbn [length] in Hn; lia].
      rewrite <- app_assoc. exact Eh.
  - discriminate Hs'.
  - destruct n as [|n]; [cbn [length] in Hn; lia|].
    rewrite fi_wait.
    2:{ apply (ends_first_before buf c); [rewrite Eh; exact Hh|exact Hc]. }
    apply (IH Hs' _ _ _ h); auto. cbn [length] in Hn; lia.
Qed.
(** [C48] The blocking server then reports the request as too large; the asynchronous one
    throws it away without a word: when the stream ends it looks as if nothing had come. *)
Lemma async_too_many_dropped_proof : forall X m t v fs head s, sound_lib X ->
  request_head X m t v fs head -> (100 < length fs)%nat -> ends_first head -> aflows s head [] ->
  await_head (try_request X) s = (PEnd, mk_framed tt [] true true, []).
Proof.
  intros X m t v fs head s HX H Hn Hh Hs. unfold await_head, framed_new.
  apply (drop_go _ _ s head [] Hs eq_refl [] false _ head); auto.
  - rewrite <- (app_nil_r head), (request_too_many_proof X m t v fs head [] HX H Hn). reflexivity.
  - intros ->. exact (ends_first_nil Hh).
Qed.
(*EX Definition many : list field := repeat (str "A", str "b") 101.
Definition many_text : bytes :=
  str "GET / HTTP/1.1" ++ [CR; LF] ++ concat (repeat (str "A:b" ++ [CR; LF]) 101) ++ [CR; LF].
Example too_many_ex :
  try_request httparse_lib many_text = Fail PETooLarge /\
  split_off_http many_text = Some (many_text, []) /\
  await_head (try_request httparse_lib) (match many_text with b :: bs => [AData b bs] | [] => [] end)
  = (PEnd, mk_framed tt [] true true, []).
Proof. vm_compute. auto. Qed. EX*)
(** [C48] So not every complete request gets an answer: after empty lines, which the blocking
    server skips, the asynchronous one leaves a request that came with them in its buffer
    until more bytes come, though it answers the same bytes cut differently. *)
Lemma async_answers_refuted_proof : exists X q b bs c cs,
  sound_lib X /\
  fst (fst (parse_request X [RData b (bs ++ c :: cs)])) = Ok q /\
  framed_poll (http_decode (try_request X)) [AData b bs; AData c cs; ANotReady] (framed_new tt [])
    = (PItem (inl q), mk_framed tt [] true false, [ANotReady]) /\
  framed_poll (http_decode (try_request X)) [AData b (bs ++ c :: cs); ANotReady] (framed_new tt [])
    = (PNotReady, mk_framed tt (c :: cs) false false, []).
Proof.
  exists httparse_lib, (mk_req Get (str "/") Http11 []), CR, [LF; CR; LF], "G"%byte,
    (str "ET / HTTP/1.1" ++ head_end).
  repeat split.
Qed.
(** [C48] And a request whose lines end with LF alone, which the blocking server answers, the
    asynchronous one never sees: it waits, and at the end reports a broken connection. *)
Lemma async_lf_refuted_proof : exists X q b bs,
  sound_lib X /\
  fst (fst (parse_request X [RData b bs])) = Ok q /\
  framed_poll (http_decode (try_request X)) [AData b bs; ANotReady] (framed_new tt [])
    = (PNotReady, mk_framed tt (b :: bs) false false, []) /\
  fst (fst (await_head (try_request X) [AData b bs; ANotReady])) = PErr (IoError (OtherKind 0)).
Proof.
  exists httparse_lib, (mk_req Get (str "/") Http11 []), "G"%byte,
    (str "ET / HTTP/1.1" ++ [LF; LF]).
  repeat split.
Qed.
(** [C49] An interrupted read, which everything after the handshake retries, makes the
    blocking handshake fail. *)
Lemma sync_interrupted_refuted_proof : exists X b bs c cs,
  sound_lib X /\ sound_room X /\
  (exists q, fst (fst (parse_request X [RData b bs; RData c cs])) = Ok q) /\
  fst (fst (parse_request X [RData b bs; RIntr; RData c cs])) = Err (PEIo Interrupted).
Proof.
  exists httparse_lib, "G"%byte, (str "ET / HTTP"), "/"%byte, (str "1.1" ++ head_end).
  split; [repeat split|]. split; [|split; [eexists|]; vm_compute; reflexivity].
  split; [|reflexivity]. intros n H. cbn [l_room httparse_lib]. lia.
Qed.
