(** The frame decoder of the asynchronous side in terms of [parse_frame]. *)
From Coq Require Import NArith ZArith String Bool List Lia.
From Coq Require Import ZifyBool ZifyNat ZifyN.
From Coq.Strings Require Import Byte.
From Verif.Model Require Import Base Io Header Mask Dataframe Utf8 Message Receiver Codec Framed.
From Verif.Proofs Require Import BaseFacts MaskFacts HeaderFacts FrameFacts.
Import ListNotations.
Local Open Scope string_scope.
Local Open Scope list_scope.
Local Open Scope N_scope.

Definition too_big : ws_error := ProtocolError "Exceeded maximum incoming DataFrame size".

Definition opt_res {A E : Type} (r : result A E) : result (option A) E :=
  rbind r (fun a => Ok (Some a)).

Lemma df_decode_eq : forall c src,
  df_decode c src =
  match read_header lst_exact src with
  | (Ok h, r) =>
      if dc_max c <? h_len h then (Err too_big, src)
      else if llen r <? h_len h then (Ok None, src)
      else (opt_res (read_dataframe_body h (take (h_len h) r) (dc_is_server c)),
            drop (h_len h) r)
  | (Err NoDataAvailable, _) => (Ok None, src)
  | (Err e, _) => (Err e, src)
  | (Panic, _) => (Panic, src)
  | (OutOfFuel, _) => (OutOfFuel, src)
  end.
Proof.
  intros c src. unfold df_decode.
  destruct (read_header_cursor src) as [H1 H2].
  destruct (read_header cur_exact (mk_cursor 0 src)) as [x cur] eqn:E.
  destruct (read_header lst_exact src) as [y r] eqn:E2. cbn [fst snd] in *. subst y.
  destruct x as [h|e| |]; auto.
  destruct H2 as [H2 H3]. unfold too_big.
  destruct (dc_max c <? h_len h); [reflexivity|].
  apply read_header_inv in E2. destruct E2 as (Es & _ & _).
  assert (Hpos : cur_pos cur = llen (header_bytes h)) by (rewrite Es, llen_app in H3; lia).
  assert (Ed : drop (cur_pos cur) src = r).
  { rewrite Es. apply drop_app_exact. exact Hpos. }
  rewrite Ed.
  destruct (N.ltb_spec (llen src) (h_len h + cur_pos cur)), (N.ltb_spec (llen r) (h_len h));
    try lia; auto.
  destruct (read_dataframe_body h (take (h_len h) r) (dc_is_server c)); reflexivity.
Qed.

Lemma decode_of_parse_ok : forall c src f r,
  parse_frame (dc_is_server c) (dc_max c) src = (Ok f, r) ->
  df_decode c src = (Ok (Some f), r).
Proof.
  intros c src f r H. rewrite df_decode_eq. unfold parse_frame in H.
  destruct (read_header lst_exact src) as [[h|e| |] r1]; cbn [sbind] in H; try discriminate.
  destruct (dc_max c <? h_len h); [discriminate|].
  destruct (llen r1 <? h_len h); [discriminate|].
  injection H as H <-. rewrite H. reflexivity.
Qed.

Lemma decode_some_parse : forall c src f r,
  df_decode c src = (Ok (Some f), r) ->
  parse_frame (dc_is_server c) (dc_max c) src = (Ok f, r).
Proof.
  intros c src f r H. rewrite df_decode_eq in H. unfold parse_frame.
  destruct (read_header lst_exact src) as [[h|e| |] r1]; cbn [sbind] in *; try discriminate.
  - destruct (dc_max c <? h_len h); [discriminate|].
    destruct (llen r1 <? h_len h); [discriminate|].
    injection H as H <-.
    destruct (read_dataframe_body h (take (h_len h) r1) (dc_is_server c)); try discriminate.
    injection H as ->. reflexivity.
  - destruct e; discriminate.
Qed.

Lemma decode_of_parse_nodata : forall c src r,
  parse_frame (dc_is_server c) (dc_max c) src = (Err NoDataAvailable, r) ->
  df_decode c src = (Ok None, src).
Proof.
  intros c src r H. rewrite df_decode_eq. unfold parse_frame in H.
  destruct (read_header lst_exact src) as [[h|e| |] r1] eqn:E; cbn [sbind] in H; try discriminate.
  - destruct (dc_max c <? h_len h); [discriminate|].
    destruct (llen r1 <? h_len h); [reflexivity|].
    apply read_header_inv in E. destruct E as (_ & (_ & Hop & _) & _).
    injection H as H _.
    destruct (read_body_total h (take (h_len h) r1) (dc_is_server c) Hop) as [[f Eb]|[s Eb]];
      rewrite Eb in H; discriminate.
  - injection H as -> _. reflexivity.
Qed.

Lemma decode_none_parse : forall c src r,
  df_decode c src = (Ok None, r) ->
  r = src /\ exists r', parse_frame (dc_is_server c) (dc_max c) src = (Err NoDataAvailable, r').
Proof.
  intros c src r H. rewrite df_decode_eq in H. unfold parse_frame.
  destruct (read_header lst_exact src) as [[h|e| |] r1]; cbn [sbind] in *; try discriminate.
  - destruct (dc_max c <? h_len h); [discriminate|].
    destruct (llen r1 <? h_len h); [injection H as <-; eauto|].
    injection H as H _.
    destruct (read_dataframe_body h (take (h_len h) r1) (dc_is_server c)); discriminate.
  - destruct e; try discriminate. injection H as <-. eauto.
Qed.

(** An error: either the header is refused and nothing is consumed, or the frame
    is masked the wrong way and it is consumed. *)
Inductive decode_error (c : df_codec) (src : bytes) : ws_error -> bytes -> Prop :=
| De_header : forall e r, e <> NoDataAvailable ->
    read_header lst_exact src = (Err e, r) -> decode_error c src e src
| De_big : forall h r, read_header lst_exact src = (Ok h, r) -> dc_max c < h_len h ->
    decode_error c src too_big src
| De_mask : forall h r s, read_header lst_exact src = (Ok h, r) ->
    h_len h <= dc_max c -> h_len h <= llen r ->
    read_dataframe_body h (take (h_len h) r) (dc_is_server c) = Err (DataFrameError s) ->
    decode_error c src (DataFrameError s) (drop (h_len h) r).

Lemma decode_err_inv : forall c src e r,
  df_decode c src = (Err e, r) -> decode_error c src e r.
Proof.
  intros c src e r H. rewrite df_decode_eq in H.
  destruct (read_header lst_exact src) as [[h|e1| |] r1] eqn:E; try discriminate.
  - destruct (N.ltb_spec (dc_max c) (h_len h)).
    + injection H as <- <-. eapply De_big; eauto.
    + destruct (N.ltb_spec (llen r1) (h_len h)); [discriminate|].
      pose proof E as E'. apply read_header_inv in E'. destruct E' as (_ & (_ & Hop & _) & _).
      injection H as H <-.
      destruct (read_body_total h (take (h_len h) r1) (dc_is_server c) Hop) as [[f Eb]|[s Eb]];
        rewrite Eb in H; [discriminate|]. injection H as <-. eapply De_mask; eauto.
  - destruct e1; try discriminate; injection H as <- <-;
      (eapply De_header; [|eauto]; discriminate).
Qed.

Lemma df_decode_total : forall c src,
  match fst (df_decode c src) with Panic => False | OutOfFuel => False | _ => True end.
Proof.
  intros c src. rewrite df_decode_eq. pose proof (read_header_total src) as H.
  destruct (read_header lst_exact src) as [[h|e| |] r1] eqn:E; cbn [fst] in *; try contradiction.
  - destruct (dc_max c <? h_len h); [exact I|]. destruct (llen r1 <? h_len h); [exact I|].
    apply read_header_inv in E. destruct E as (_ & (_ & Hop & _) & _). cbn [fst].
    destruct (read_body_total h (take (h_len h) r1) (dc_is_server c) Hop) as [[f ->]|[s ->]]; exact I.
  - destruct e; exact I.
Qed.

(** Everything except [None] is unaffected by further bytes. *)
Lemma df_decode_stable : forall c src x,
  match df_decode c src with
  | (Ok None, _) => True
  | (r, src') => df_decode c (src ++ x) = (r, src' ++ x)
  end.
Proof.
  intros c src x. rewrite (df_decode_eq c src).
  pose proof (stable_header src x) as HS.
  destruct (read_header lst_exact src) as [[h|e| |] r1] eqn:E.
  - rewrite (df_decode_eq c (src ++ x)), HS.
    destruct (dc_max c <? h_len h); [reflexivity|].
    destruct (N.ltb_spec (llen r1) (h_len h)) as [H|H]; [exact I|].
    assert (E2 : llen (r1 ++ x) <? h_len h = false) by (rewrite llen_app; lia).
    rewrite E2. rewrite take_app_le, drop_app_le by exact H.
    destruct (read_dataframe_body h (take (h_len h) r1) (dc_is_server c)); reflexivity.
  - destruct e; auto; rewrite df_decode_eq, HS; reflexivity.
  - rewrite df_decode_eq, HS; reflexivity.
  - rewrite df_decode_eq, HS; reflexivity.
Qed.

(** A successful decode takes exactly the encoding of the frame. *)
Lemma df_decode_some : forall c src f r,
  df_decode c src = (Ok (Some f), r) ->
  exists key, is_some key = dc_is_server c /\ src = enc f key ++ r /\ frame_ok f
              /\ llen (f_data f) <= dc_max c.
Proof. intros c src f r H. apply parse_inv. apply decode_some_parse. exact H. Qed.

Lemma df_decode_enc : forall c f key rest,
  frame_ok f -> llen (f_data f) <= dc_max c -> is_some key = dc_is_server c ->
  df_decode c (enc f key ++ rest) = (Ok (Some f), rest).
Proof.
  intros c f key rest Hf Hl Hk. apply decode_of_parse_ok. rewrite <- Hk.
  apply parse_enc; assumption.
Qed.

Lemma df_decode_length : forall c src f r,
  df_decode c src = (Ok (Some f), r) -> (length r + 2 <= length src)%nat.
Proof.
  intros c src f r H. apply df_decode_some in H. destruct H as (key & _ & -> & _).
  pose proof (enc_len_pos f key) as HP. rewrite app_length. unfold llen in HP. lia.
Qed.
