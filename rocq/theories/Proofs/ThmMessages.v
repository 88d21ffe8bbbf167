(** Messages: C10, C15-C20, C45, C46. *)
From Coq Require Import NArith ZArith String Bool List Lia.
From Coq Require Import ZifyBool ZifyNat ZifyN.
From Coq.Strings Require Import Byte.
From Verif.Model Require Import Base Io Header Mask Dataframe Utf8 Message Receiver Codec Framed.
From Verif.Spec Require Import RfcFrame FrameSpec Unicode Session Schedule Drive.
From Verif.Proofs Require Import BaseFacts MaskFacts HeaderFacts FrameFacts CodecFacts ScriptFacts
  Machine FramedFacts AsyncFacts Utf8Facts ThmFrames ThmStream SessionFacts RecvFacts MessageFacts.
Import ListNotations.
Local Open Scope string_scope.
Local Open Scope list_scope.
Local Open Scope N_scope.

Lemma capped_eq : forall n, N.min n u32_max = capped n.
Proof. intros n. unfold capped, u32_max. reflexivity. Qed.
Lemma capped_isize : forall n, capped n <= isize_max.
Proof. intros n. unfold capped, isize_max. lia. Qed.
Lemma capped_u32 : forall n, capped n <= u32_max.
Proof. intros n. unfold capped, u32_max. lia. Qed.

(** ** No panic *)

(** [C10] Receiving a message never panics and always returns, whatever state previous
    calls left, whatever the transport does and whatever bytes arrive. *)
Lemma recv_message_no_panic_proof : forall p masked max_df max_msg s,
  let '(x, _, _) := recv_message (mk_recv p masked (capped max_df) max_msg) s in
  (exists m, x = Ok m) \/ (exists e, x = Err e).
Proof.
  intros p masked max_df max_msg s.
  pose proof (recv_message_any (mk_recv p masked (capped max_df) max_msg) s (capped_isize _)) as H.
  destruct (recv_message _ s) as [[[m|e| |] r'] s']; try contradiction; eauto.
Qed.
(** [C10] Nor does the async message decoder, in any state, on any buffer. *)
Lemma decode_message_no_panic_proof : forall c src,
  let '(x, _, _) := mc_decode c src in
  (exists m, x = Ok m) \/ (exists e, x = Err e).
Proof.
  intros c src. pose proof (mc_decode_sound c src) as H.
  destruct (mc_decode c src) as [[[[m|]|e| |] c'] s']; try contradiction; eauto.
Qed.

(*EX
(** A close frame with one byte, behind an unfinished message. *)
Example decode_message_no_panic_ex :
  mc_decode (mk_mc [mk_df false no_rsv Text [xff]] (mk_dfc false 10) 10) [x88; x01; x03; x80]
  = (Err NoDataAvailable, mk_mc [mk_df false no_rsv Text [xff]] (mk_dfc false 10) 10, [x80]).
Proof. reflexivity. Qed.
EX*)

Lemma cdrain_end : forall s c src,
  snd (cdrain mc_decode s c src) = PEnd \/ exists e, snd (cdrain mc_decode s c src) = PErr e.
Proof.
  induction s as [|ev s IH]; intros c src; cbn [cdrain];
    destruct (drain mc_decode c src) as [[[l e] c'] src']; destruct e as [|e]; cbn [snd]; eauto.
  - destruct src'; cbn [snd]; eauto.
  - destruct ev as [b bs| |k]; cbn [snd]; eauto.
    + specialize (IH c' (src' ++ b :: bs)). destruct (cdrain mc_decode s c' (src' ++ b :: bs)).
      exact IH.
    + specialize (IH c' src'). destruct (cdrain mc_decode s c' src'). exact IH.
Qed.
(** [C10] The whole async stream of messages ends, cleanly or with an error, whatever the
    transport does. *)
Lemma message_stream_ends_proof : forall c buf s,
  snd (run_messages c buf s) = PEnd \/ exists e, snd (run_messages c buf s) = PErr e.
Proof. intros c buf s. rewrite run_messages_cdrain. apply cdrain_end. Qed.
(*EX (** A state in the middle of a message, a garbage stream that fails in between. *)
Example recv_message_no_panic_ex :
  fst (fst (recv_message (mk_recv [mk_df false no_rsv Text []] false (capped 10) 10)
         [RData x80 [x01]; RIntr; RErr WouldBlock; RData xff [xff]])) = Err (of_io WouldBlock).
Proof. reflexivity. Qed. EX*)

(** ** Machine lemmas for text *)
Lemma advance_none_buf : forall fs p, advance p fs = None -> snd (results p fs) = p ++ fs.
Proof.
  induction fs as [|f fs IH]; intros p H; cbn [advance results] in *.
  - rewrite app_nil_r. reflexivity.
  - destruct (step p f) as [[o|] b] eqn:E; [discriminate|]. rewrite IH by exact H.
    apply step_none in E as (-> & _). rewrite <- app_assoc. reflexivity.
Qed.
Lemma advance_typed : forall fs p m b fs', advance p fs = Some (Ok m, b, fs') -> typed m.
Proof.
  induction fs as [|f fs IH]; intros p m b fs' H; cbn [advance] in H; [discriminate|].
  destruct (step p f) as [[o|] b1] eqn:E; [|eapply IH; exact H].
  injection H as -> -> ->. apply step_some in E as [[_ [E|[E|[_ E]]]]|[_ E]]; try discriminate;
    symmetry in E.
  - apply (owned_from_payload [f]) in E as [_ E]. exact E.
  - apply owned_from_payload in E as [_ E]. exact E.
Qed.
Lemma results_typed : forall fs p os b, results p fs = (os, b) -> forall m, In (Ok m) os -> typed m.
Proof.
  induction fs as [|f fs IH]; intros p os b H m HI; cbn [results] in H.
  - injection H as <- <-. contradiction.
  - destruct (step p f) as [[o|] b1] eqn:E; [|eapply IH; eauto].
    destruct (results b1 fs) as [l b2] eqn:ER. injection H as <- <-.
    destruct HI as [->|HI]; [|eapply IH; eauto].
    apply (advance_typed [f] p m b1 []). cbn [advance]. rewrite E. reflexivity.
Qed.
Lemma text_result : forall ds d, ds <> [] ->
  owned_from_dataframes
    (map df_ops (open_frames true ds ++ [mk_df true (false, false, false) Continuation d]))
  = if utf8_valid (concat ds ++ d) then Ok (OText (concat ds ++ d)) else Err Utf8Error.
Proof.
  intros [|d0 ds] d H; [contradiction|]. cbn [open_frames app].
  set (g := mk_df false (false, false, false) Text d0).
  set (gs := map (mk_df false (false, false, false) Continuation) ds
             ++ [mk_df true (false, false, false) Continuation d]).
  assert (gather 0 [] (map df_ops (g :: gs)) = Ok (concat (d0 :: ds) ++ d)) as HG.
  { apply gather_first. split; [|split; [reflexivity|]].
    - unfold gs. cbn [map concat g f_data]. rewrite <- app_assoc. f_equal.
      rewrite map_app, concat_app, map_map. cbn [map concat f_data]. rewrite app_nil_r.
      f_equal. induction ds as [|x ds IH]; [reflexivity|]. cbn [map concat f_data].
      rewrite <- IH; [reflexivity|discriminate].
    - unfold gs. apply Forall_app. split; [|repeat constructor].
      apply Forall_forall. intros x Hx. apply in_map_iff in Hx as (y & <- & _). auto. }
  unfold owned_from_dataframes, from_dataframes.
  change (map df_ops (g :: gs)) with (df_ops g :: map df_ops gs) in *. cbv beta iota.
  rewrite HG. cbn [rbind]. change (opcode_new (df_opcode (df_ops g))) with (Some Text). cbv iota.
  destruct (utf8_valid (concat (d0 :: ds) ++ d)) eqn:EU; [|reflexivity].
  cbn [rbind to_owned msg_text m_opcode m_payload]. rewrite utf8_lossy_id by exact EU. reflexivity.
Qed.
Lemma results_controls : forall cs p, Forall (fun m => control_message m /\ typed m) cs ->
  results p (map whole_frame cs) = (map Ok cs, p).
Proof. intros cs p H. apply delivers_results, delivers_controls, H. Qed.
Lemma more_text_results : forall more ds, ds <> [] -> more <> [] ->
  Forall (fun m => control_message m /\ typed m) (concat (map fst more)) ->
  results (open_frames true ds) (more_frames more)
  = (map Ok (concat (map fst more)) ++
     [if utf8_valid (concat ds ++ concat (map snd more))
      then Ok (OText (concat ds ++ concat (map snd more))) else Err Utf8Error], []).
Proof.
  induction more as [|[cs d] more IH]; intros ds Hds Hm HC; [contradiction|].
  cbn [map fst snd concat] in *. apply Forall_app in HC as [HC1 HC2].
  cbn [more_frames]. rewrite (results_app _ _ _ _ _ (results_controls cs _ HC1)).
  destruct more as [|x more].
  - cbn [more_frames map concat results]. rewrite !app_nil_r.
    unfold step. cbn [f_opcode op_u8 f_finished].
    assert (is_nil (open_frames true ds) = false) as Hn by (destruct ds; [contradiction|reflexivity]).
    rewrite Hn. cbn [andb negb N.eqb N.leb N.compare]. rewrite text_result by exact Hds. reflexivity.
  - cbn [results]. unfold step at 1. cbn [f_opcode op_u8 f_finished].
    assert (is_nil (open_frames true ds) = false) as Hn by (destruct ds; [contradiction|reflexivity]).
    rewrite Hn. cbn [andb negb N.eqb N.leb N.compare].
    rewrite <- open_frames_app by exact Hds. rewrite IH; [|destruct ds; discriminate|discriminate|exact HC2].
    rewrite concat_app. cbn [concat]. rewrite app_nil_r, <- !app_assoc, map_app, <- app_assoc. reflexivity.
Qed.
Lemma text_item_results : forall c, cm_text c = true ->
  Forall (fun m => control_message m /\ typed m) (concat (map fst (cm_more c))) ->
  results [] (item_frames (IData c))
  = (map Ok (concat (map fst (cm_more c))) ++
     [if utf8_valid (cm_payload c) then Ok (OText (cm_payload c)) else Err Utf8Error], []).
Proof.
  intros [t d more] Ht HC. cbn [cm_text cm_first cm_more] in *. subst t. unfold cm_payload.
  cbn [item_frames cm_text cm_first cm_more]. destruct more as [|x more].
  - cbn [more_frames map concat app results]. rewrite app_nil_r. unfold step.
    cbn [f_opcode op_u8 f_finished is_nil negb andb N.eqb N.leb N.compare app map].
    unfold owned_from_dataframes, from_dataframes. cbn [map].
    assert (gather 0 [] (map df_ops [mk_df true (false, false, false) Text d]) = Ok d) as HG.
    { apply gather_first. cbn [map concat f_data f_reserved]. rewrite app_nil_r. auto. }
    cbn [map] in HG. rewrite HG. cbn [rbind].
    change (opcode_new (df_opcode (df_ops (mk_df true (false, false, false) Text d)))) with (Some Text).
    cbv iota. destruct (utf8_valid d) eqn:EU; [|reflexivity].
    cbn [rbind to_owned msg_text m_opcode m_payload]. rewrite utf8_lossy_id by exact EU. reflexivity.
  - cbn [results]. unfold step at 1.
    cbn [f_opcode op_u8 f_finished is_nil negb andb N.eqb N.leb N.compare app].
    change [mk_df false (false, false, false) Text d] with (open_frames true [d]).
    change (8 <=? 1) with false. change (1 <=? 1) with true. cbn [andb]. cbv beta iota.
    rewrite more_text_results; try discriminate; auto.
    cbn [concat]. rewrite app_nil_r. reflexivity.
Qed.
Lemma control_ok_weak : forall d l,
  Forall (fun m => control_ok m /\ size (payload_of m) <= d) l ->
  Forall (fun m => control_message m /\ typed m) l.
Proof. intros d l H. eapply Forall_impl; [|exact H]. intros m [(A & B & _) _]. auto. Qed.
Lemma cut_within : forall d lim c, cut_ok d lim c -> within lim [] (item_frames (IData c)).
Proof.
  intros d lim [t x more] (H1 & H2 & H3 & H4). cbn [item_frames cm_text cm_first cm_more] in *.
  apply control_ok_weak in H2. unfold open_fragments in *. cbn [cm_first cm_more] in *.
  destruct more as [|y more].
  - cbn [more_frames within]. unfold step. destruct t; cbn; exact I.
  - remember (y :: more) as mm eqn:Em. assert (mm <> []) as Hmm by (subst; discriminate).
    assert (map snd mm <> []) as Hms by (subst; discriminate).
    cbn [within]. unfold step. cbn [f_opcode f_finished].
    assert (removelast (x :: map snd mm) = x :: removelast (map snd mm)) as HRL
      by (destruct (map snd mm); [contradiction|reflexivity]).
    rewrite HRL in H3, H4.
    replace (match mm with [] => true | _ :: _ => false end) with false by (subst; reflexivity).
    assert (within lim (open_frames t [x]) (more_frames mm)) as HW.
    { apply more_within; auto; try discriminate; cbn [app]; unfold dcost; auto. }
    assert (x_cost : size x + 64 < lim).
    { cbn [fold_right] in H4. lia. }
    destruct t; cbn [op_u8 is_nil negb andb N.eqb N.leb N.compare app];
      (split; [reflexivity|]; split; [cbn [weight fold_right f_data]; unfold size, llen in *;
         unfold PER_DATAFRAME_OVERHEAD; lia|exact HW]).
Qed.
Lemma cut_fits : forall d lim c, d < 2 ^ 64 -> cut_ok d lim c -> fits d (item_frames (IData c)).
Proof.
  intros d lim [t x more] Hd (H1 & H2 & H3 & H4). cbn [item_frames cm_text cm_first cm_more] in *.
  inversion H1 as [|? ? A B]; subst. constructor.
  - apply data_frame_fits; auto. destruct t; reflexivity.
  - apply more_fits; auto.
Qed.
Lemma recv_n_complete : forall r s fs ws rest os, carries s (ws ++ rest) ->
  on_wire (r_mask r) fs ws -> fits (r_max_df r) fs -> r_max_df r <= u32_max ->
  within (r_max_msg r) (r_buffer r) fs -> results (r_buffer r) fs = (os, []) ->
  exists s', recv_n (length os) r s = (os, with_buffer r [], s') /\ carries s' rest.
Proof.
  intros r s fs ws rest os Hs How Hfit Hu Hwi HR. apply carries_iff in Hs as [Hc Hf].
  destruct (on_wire_ok _ _ _ _ How Hfit) as (l & L1 & L2 & L3).
  destruct (results_snd (S (length fs)) fs _ _ _ ltac:(lia) HR) as (b1 & fs2 & pre & R1 & R2 & R3 & R4).
  rewrite advance_none_buf in R4 by exact R2. apply app_eq_nil in R4 as [-> ->].
  destruct (recv_n_runs _ _ _ _ _ R1 l r s rest) as (s1 & l2 & E1 & E2 & _ & E4 & E5); auto.
  - subst ws. exact Hf.
  - exists s1. split; [exact E1|]. apply carries_iff. split; [exact E4|].
    symmetry in E2. apply map_eq_nil in E2. subst l2. exact E5.
Qed.
Lemma decode_n_complete : forall c fs ws rest os,
  on_wire (dc_is_server (mc_df c)) fs ws -> fits (dc_max (mc_df c)) fs ->
  within (mc_max_msg c) (mc_buffer c) fs -> results (mc_buffer c) fs = (os, []) ->
  decode_n mc_decode (length os) c (ws ++ rest) = (map some_owned os, mc_with_buffer c [], rest).
Proof.
  intros c fs ws rest os How Hfit Hwi HR.
  destruct (on_wire_ok _ _ _ _ How Hfit) as (l & L1 & L2 & L3).
  destruct (results_snd (S (length fs)) fs _ _ _ ltac:(lia) HR) as (b1 & fs2 & pre & R1 & R2 & R3 & R4).
  rewrite advance_none_buf in R4 by exact R2. apply app_eq_nil in R4 as [-> ->].
  destruct (mc_n_runs _ _ _ _ _ R1 l c rest) as (l2 & E1 & E2 & _); auto. subst ws.
  symmetry in E2. apply map_eq_nil in E2. subst l2. exact E1.
Qed.

(** ** Text *)

(** [C15] Blocking: a text message cut anywhere, with control messages between the
    fragments, is delivered with its payload if that is well-formed UTF-8, and answered by
    Utf8Error if it is not; either way the receiver is then ready for the next message. *)
Lemma text_iff_utf8_blocking_proof : forall masked max_df max_msg c ws s rest,
  cm_text c = true -> cut_ok (capped max_df) (capped max_msg) c ->
  on_wire masked (item_frames (IData c)) ws -> carries s (ws ++ rest) ->
  let controls := concat (map fst (cm_more c)) in
  let r := receiver_with_limits masked max_df max_msg in
  exists x s', recv_n (length controls + 1) r s = (map Ok controls ++ [x], r, s') /\
    carries s' rest /\
    (well_formed (octets (cm_payload c)) -> x = Ok (OText (cm_payload c))) /\
    (~ well_formed (octets (cm_payload c)) -> x = Err Utf8Error).
Proof.
  intros masked max_df max_msg c ws s rest Ht Hok How Hs controls r.
  pose proof (text_item_results c Ht) as HR. pose proof Hok as (_ & HC & _).
  specialize (HR (control_ok_weak _ _ HC)). fold controls in HR.
  set (x := if utf8_valid (cm_payload c) then Ok (OText (cm_payload c)) else Err Utf8Error) in *.
  destruct (recv_n_complete r s (item_frames (IData c)) ws rest (map Ok controls ++ [x])) as (s' & E1 & E2);
    auto.
  - apply (cut_fits (capped max_df) (capped max_msg)); auto. unfold capped. lia.
  - apply (capped_u32 max_df).
  - apply (cut_within (capped max_df)). exact Hok.
  - exists x, s'. rewrite app_length, map_length in E1. cbn [length] in E1. split; [exact E1|].
    split; [exact E2|]. unfold x. rewrite <- utf8_valid_iff.
    destruct (utf8_valid (cm_payload c)); split; intros; congruence.
Qed.

(*EX
(** A character of four bytes, cut in two, a pong in between; and one that ends too early. *)
Example text_iff_utf8_blocking_ex :
  fst (fst (recv_n 2 (receiver_with_limits false 100 1000)
    [RData x01 [x02; xf0; x9f]; RIntr; RData x8a [x00; x80; x02; x98]; RData x80 [xff]]))
  = [Ok (OPong []); Ok (OText [xf0; x9f; x98; x80])] /\
  fst (fst (recv_n 2 (receiver_with_limits false 100 1000)
    [RData x01 [x02; xf0; x9f]; RIntr; RData x8a [x00; x80; x02; x98]; RData x81 [xff]]))
  = [Ok (OPong []); Ok (OText [xf0; x9f; x98; x81])] /\
  fst (fst (recv_n 1 (receiver_with_limits false 100 1000) [RData x81 [x02; xf0; x9f; x81; x00]]))
  = [Err Utf8Error] /\
  ~ well_formed (octets [xf0; x9f]).
Proof.
  split; [reflexivity|]. split; [reflexivity|]. split; [reflexivity|].
  intros H. apply Utf8Facts.utf8_valid_iff in H. discriminate H.
Qed.
EX*)

(** [C15] The async decoder does the same. *)
Lemma text_iff_utf8_async_proof : forall ctx max_df max_msg c ws rest,
  cm_text c = true -> cut_ok (capped max_df) (capped max_msg) c ->
  on_wire (receives_masked ctx) (item_frames (IData c)) ws ->
  let controls := concat (map fst (cm_more c)) in
  let mc := msg_codec_with_limits ctx max_df max_msg in
  exists x, decode_n mc_decode (length controls + 1) mc (ws ++ rest)
            = (map (fun m => Ok (Some m)) controls ++ [x], mc, rest) /\
    (well_formed (octets (cm_payload c)) -> x = Ok (Some (OText (cm_payload c)))) /\
    (~ well_formed (octets (cm_payload c)) -> x = Err Utf8Error).
Proof.
  intros ctx max_df max_msg c ws rest Ht Hok How controls mc.
  pose proof (text_item_results c Ht) as HR. pose proof Hok as (_ & HC & _).
  specialize (HR (control_ok_weak _ _ HC)). fold controls in HR.
  set (x := if utf8_valid (cm_payload c) then Ok (OText (cm_payload c)) else Err Utf8Error) in *.
  pose proof (decode_n_complete mc (item_frames (IData c)) ws rest (map Ok controls ++ [x])) as E1.
  rewrite app_length, map_length, map_app, map_map in E1. cbn [length map] in E1.
  exists (some_owned x). split.
  - apply E1; auto.
    + apply (cut_fits (capped max_df) (capped max_msg)); auto. unfold capped. lia.
    + apply (cut_within (capped max_df)). exact Hok.
  - unfold x. rewrite <- utf8_valid_iff.
    destruct (utf8_valid (cm_payload c)); split; intros; cbn [some_owned rbind]; congruence.
Qed.
(*EX (** The euro sign, cut inside its three bytes, a ping in between; and the same with the
    last byte missing. *)
Example text_iff_utf8_ex :
  let c d := {| cm_text := true; cm_first := [xe2]; cm_more := [([OPing [x01]], d)] |} in
  cut_ok (capped 100) (capped 1000) (c [x82; xac]) /\
  well_formed (octets (cm_payload (c [x82; xac]))) /\
  fst (fst (decode_n mc_decode 2 (msg_codec_with_limits CtxClient 100 1000)
    [x01; x01; xe2; x89; x01; x01; x80; x02; x82; xac]))
  = [Ok (Some (OPing [x01])); Ok (Some (OText [xe2; x82; xac]))] /\
  fst (fst (decode_n mc_decode 2 (msg_codec_with_limits CtxClient 100 1000)
    [x01; x01; xe2; x89; x01; x01; x80; x01; x82])) = [Ok (Some (OPing [x01])); Err Utf8Error].
Proof.
  cbn zeta. facts.
Qed. EX*)

(** [C15] Whatever arrives and whatever happened before, no text or close reason that is
    not well-formed UTF-8 is ever delivered (blocking). *)
Lemma delivered_well_formed_blocking_proof : forall p masked max_df max_msg s m r' s',
  recv_message (mk_recv p masked (capped max_df) max_msg) s = (Ok m, r', s') -> typed m.
Proof.
  intros p masked max_df max_msg s m r' s' H.
  pose proof (recv_message_any (mk_recv p masked (capped max_df) max_msg) s (capped_isize _)) as HA.
  rewrite H in HA. destruct HA as (l & _ & _ & HA & _). eapply advance_typed, HA.
Qed.

(*EX
(** A state that holds half a character of a text, and its other half. *)
Example delivered_well_formed_blocking_ex :
  recv_message (mk_recv [mk_df false no_rsv Text [xc3]] false (capped 100) 100) [RData x80 [x01; xa9]]
  = (Ok (OText [xc3; xa9]), mk_recv [] false (capped 100) 100, []) /\ typed (OText [xc3; xa9]).
Proof. split; [reflexivity|]. facts. Qed.
EX*)

(** [C15] The same for the async decoder and the message stream. *)
Lemma delivered_well_formed_async_proof : forall c src m c' src',
  mc_decode c src = (Ok (Some m), c', src') -> typed m.
Proof.
  intros c src m c' src' H. pose proof (mc_decode_sound c src) as HA. rewrite H in HA.
  destruct HA as (l & _ & _ & HA & _). eapply advance_typed, HA.
Qed.

(*EX
(** A surrogate is no character. *)
Example delivered_well_formed_async_ex :
  mc_decode (msg_codec_with_limits CtxClient 100 100) [x81; x03; xed; xa0; x80; x89; x00]
  = (Err Utf8Error, msg_codec_with_limits CtxClient 100 100, [x89; x00]) /\
  mc_decode (msg_codec_with_limits CtxClient 100 100) [x81; x03; xed; x9f; xbf; x89; x00]
  = (Ok (Some (OText [xed; x9f; xbf])), msg_codec_with_limits CtxClient 100 100, [x89; x00]).
Proof. split; reflexivity. Qed.
EX*)

(** [C15] *)
Lemma delivered_well_formed_stream_proof : forall c buf s,
  Forall typed (fst (run_messages c buf s)).
Proof.
  intros c buf s. rewrite run_messages_cdrain.
  destruct (cdrain mc_decode s c buf) as [ms e] eqn:E.
  apply (cdrain_sound _ _ _ _ _ _ (Nat.lt_succ_diag_r _)) in E as (l & rest & b & _ & _ & E & _).
  cbn [fst]. apply Forall_forall. intros m Hm. eapply results_typed; [exact E|].
  apply in_map. exact Hm.
Qed.

(*EX
Example delivered_well_formed_stream_ex :
  run_messages (msg_codec_with_limits CtxClient 100 100) [x88; x04]
    [AData x03 [xe8]; ANotReady; AData xc3 [xa9; x81; x01; xc3; x89; x00]]
  = ([OClose (Some (mk_close 1000 [xc3; xa9]))], PErr Utf8Error).
Proof. reflexivity. Qed.
EX*)


(** ** Sessions *)
Lemma under_iff : forall max p fs, under (capped max) p fs <-> within (capped max) p fs.
Proof. intros. apply under_within. Qed.

(** [C17] Blocking: the frames of any legal sequence deliver exactly its messages, in
    order, at any transport schedule; then the receiver waits for more, holding exactly
    the fragments of an unfinished message. *)
Lemma legal_frames_received_blocking_proof : forall masked max_df max_msg fs ms p ws s,
  delivers [] fs ms p ->
  under (capped max_msg) [] fs -> fits (capped max_df) fs ->
  on_wire masked fs ws -> carries s ws ->
  exists r1 s1 r2 s2,
    recv_n (length ms) (receiver_with_limits masked max_df max_msg) s = (map Ok ms, r1, s1) /\
    recv_message r1 s1 = (Err NoDataAvailable, r2, s2) /\
    r_buffer r2 = p /\ carries s2 [].
Proof.
  intros masked max_df max_msg fs ms p ws s HD HU HF HW Hs. apply carries_iff in Hs as [Hc Hf].
  apply under_iff in HU. apply delivers_results in HD.
  destruct (on_wire_ok _ _ _ _ HW HF) as (l & L1 & L2 & L3).
  set (r := receiver_with_limits masked max_df max_msg).
  destruct (recv_n_exhaust fs l r s [] [] (map Ok ms) p) as (s1 & b1 & s2 & E1 & E2 & E3 & E4); auto.
  - rewrite app_nil_r. congruence.
  - apply (capped_u32 max_df).
  - rewrite map_length in E1. exists (with_buffer r b1), s1, (with_buffer r p), s2.
    repeat split; auto. apply carries_iff. split; auto.
Qed.

(*EX
(** A ping inside a text whose last fragment does not come. *)
Example legal_frames_received_ex :
  let a := mk_df false no_rsv Text (str "a") in
  let b := mk_df false no_rsv Continuation (str "b") in
  let fs := [a; whole_frame (OPing []); b] in
  delivers [] fs [OPing []] [a; b] /\ under (capped 1000) [] fs /\ fits (capped 10) fs /\
  exists r1 s1, recv_n 1 (receiver_with_limits false 10 1000) [RData x01 [x01; x61; x89; x00; x00]; RData x01 [x62]]
    = ([Ok (OPing [])], r1, s1) /\
  exists s2, recv_message r1 s1 = (Err NoDataAvailable, mk_recv [a; b] false (capped 10) 1000, s2).
Proof.
  cbv zeta. split; [|split; [|split]].
  - apply del_fragment; [reflexivity|reflexivity|split; [discriminate|reflexivity]|].
    apply del_control; [exact I|exact I|].
    apply del_fragment; [reflexivity|reflexivity|split; [discriminate|intros H; now destruct H]|]. constructor.
  - vm_compute. repeat split.
  - unfold fits. facts.
  - eexists _, _. split; [reflexivity|]. eexists. reflexivity.
Qed.
EX*)

Lemma run_messages_tail : forall c fs ms p ws tail s,
  mc_buffer c = [] -> delivers [] fs ms p ->
  within (mc_max_msg c) [] fs -> fits (dc_max (mc_df c)) fs ->
  on_wire (dc_is_server (mc_df c)) fs ws ->
  df_decode (mc_df c) tail = (Ok None, tail) ->
  acarries s (ws ++ tail) ->
  run_messages c [] s = (ms, match tail with [] => PEnd | _ => PErr remaining end).
Proof.
  intros c fs ms p ws tail s Hb HD HU HF HW Hq Hs. apply delivers_results in HD.
  destruct (on_wire_ok _ _ _ _ HW HF) as (l & L1 & L2 & L3).
  destruct (results_snd (S (length fs)) fs _ _ _ ltac:(lia) HD) as (b1 & fs2 & pre & R1 & R2 & R3 & R4).
  assert (run_messages c ([] ++ (ws ++ tail)) [] = (ms, match tail with [] => PEnd | _ => PErr remaining end)) as HE.
  { rewrite run_messages_cdrain. cbn [app]. rewrite L2.
    apply (cdrain_runs_tail _ _ _ _ _ R1); auto. }
  rewrite (run_messages_chunks c [] s _ Hs); [exact HE|]. rewrite HE. cbn [snd].
  destruct tail; discriminate.
Qed.
(** [C17] Async: the same, for the whole stream and any chunking. *)
Lemma legal_frames_received_async_proof : forall ctx max_df max_msg fs ms p ws s,
  delivers [] fs ms p ->
  under (capped max_msg) [] fs -> fits (capped max_df) fs ->
  on_wire (receives_masked ctx) fs ws -> acarries s ws ->
  run_messages (msg_codec_with_limits ctx max_df max_msg) [] s = (ms, PEnd).
Proof.
  intros ctx max_df max_msg fs ms p ws s HD HU HF HW Hs. apply under_iff in HU.
  set (c := msg_codec_with_limits ctx max_df max_msg).
  apply (run_messages_tail c fs ms p ws []); auto.
  rewrite app_nil_r. exact Hs.
Qed.

(*EX
Example legal_frames_received_async_ex :
  run_messages (msg_codec_with_limits CtxServer 10 1000) []
    [AData x01 [x81; x00; x00; x00; x00; x61]; AData x89 [x80]; ANotReady; AData x01 [x02; x03; x04; x80; x80];
     AData x01 [x02; x03; x04]]
  = ([OPing []; OText (str "a")], PEnd).
Proof. reflexivity. Qed.
EX*)

(** [C17] Blocking: a session of control messages and of data messages cut anywhere with
    control messages between the fragments is received as intended. *)
Lemma session_received_blocking_proof : forall masked max_df max_msg items ws s rest,
  Forall (item_ok (capped max_df) (capped max_msg)) items ->
  on_wire masked (concat (map item_frames items)) ws -> carries s (ws ++ rest) ->
  let ms := concat (map item_delivered items) in
  let r := receiver_with_limits masked max_df max_msg in
  exists s', recv_n (length ms) r s = (map Ok ms, r, s') /\ carries s' rest.
Proof.
  intros masked max_df max_msg items ws s rest HI HW Hs ms r.
  pose proof (delivers_results _ _ _ _ (session_delivers _ _ _ HI)) as HR. fold ms in HR.
  destruct (recv_n_complete r s _ ws rest (map Ok ms) Hs HW) as (s' & E1 & E2).
  - apply (session_fits _ (capped max_msg)); auto. unfold r, receiver_with_limits, capped.
    cbn [r_max_df]. unfold u32_max. lia.
  - apply (capped_u32 max_df).
  - apply (session_within (capped max_df)). exact HI.
  - exact HR.
  - exists s'. rewrite map_length in E1. auto.
Qed.
(** [C17] Async. *)
Lemma session_received_async_proof : forall ctx max_df max_msg items ws s,
  Forall (item_ok (capped max_df) (capped max_msg)) items ->
  on_wire (receives_masked ctx) (concat (map item_frames items)) ws -> acarries s ws ->
  run_messages (msg_codec_with_limits ctx max_df max_msg) [] s
  = (concat (map item_delivered items), PEnd).
Proof.
  intros ctx max_df max_msg items ws s HI HW Hs.
  set (c := msg_codec_with_limits ctx max_df max_msg).
  apply (run_messages_tail c _ _ _ ws [] s eq_refl (session_delivers _ _ _ HI)); auto.
  - apply (session_within (capped max_df)). exact HI.
  - apply (session_fits _ (capped max_msg)); auto. unfold c, msg_codec_with_limits.
    cbn [mc_df df_codec_with_limits dc_max]. unfold u32_max. lia.
  - rewrite app_nil_r. exact Hs.
Qed.
(*EX (** A ping, a text in three fragments with a pong and a close in between, a binary. *)
Example session_ex :
  let items := [IControl (OPing (str "p"));
    IData {| cm_text := true; cm_first := str "he";
             cm_more := [([OPong []], str "ll"); ([OClose (Some (mk_close 1000 (str "bye")))], str "o")] |};
    IData {| cm_text := false; cm_first := []; cm_more := [] |}] in
  Forall (item_ok (capped 100) (capped 1000)) items /\
  concat (map item_delivered items)
  = [OPing (str "p"); OPong []; OClose (Some (mk_close 1000 (str "bye"))); OText (str "hello"); OBinary []].
Proof.
  cbn zeta. facts.
Qed. EX*)

(** ** Messages end to end *)
Lemma owned_payload : forall m, typed m -> concat (df_writes (owned_ops m)) = payload_of m.
Proof.
  intros [d|d|[c|]|d|d] H; cbn [owned_ops df_writes concat payload_of]; rewrite ?app_nil_r; auto.
  destruct H as [H _]. rewrite be16_octets by exact H. reflexivity.
Qed.
Lemma owned_rfc : forall m key, typed m ->
  rfc_of (df_is_last (owned_ops m)) (df_reserved (owned_ops m)) (df_opcode (owned_ops m))
         (concat (df_writes (owned_ops m))) key = rfc_of_frame (whole_frame m) key.
Proof.
  intros m key H. rewrite owned_payload by exact H. unfold rfc_of_frame, whole_frame.
  cbn [f_finished f_reserved f_opcode f_data]. destruct m as [d|d|[c|]|d|d]; reflexivity.
Qed.
Lemma sendable_frame_ok : forall d m, d < 2 ^ 64 -> sendable d m -> frame_ok (whole_frame m).
Proof.
  intros d m Hd (H1 & H2 & H3). unfold size in *. split; cbn [whole_frame f_data f_opcode f_finished].
  - unfold llen. lia.
  - intros H8. split; [|reflexivity]. apply H3. destruct m as [x|x|[c|]|x|x]; cbn in *; auto; lia.
Qed.
Lemma sent_encs : forall (masked : bool) (l : list (owned * mkey)) w, Forall (fun p => typed (fst p)) l ->
  octets w = concat (map (fun p : owned * mkey =>
    rfc_encode (rfc_of_frame (whole_frame (fst p)) (if masked then Some (snd p) else None))) l) ->
  w = encs (map (fun p => (whole_frame (fst p), if masked then Some (snd p) else None)) l).
Proof.
  intros masked l w HT H. apply octets_inj. rewrite H. clear. induction l as [|p l IH]; [reflexivity|].
  cbn [map concat]. rewrite encs_cons, octets_app, <- IH. cbn [fst snd]. f_equal.
  rewrite <- enc_rfc. reflexivity.
Qed.
Definition masked_frames (masked : bool) (l : list (owned * mkey)) : list keyed :=
  map (fun p => (whole_frame (fst p), if masked then Some (snd p) else None)) l.
Lemma masked_frames_ok : forall masked d l, d < 2 ^ 64 -> Forall (fun p => sendable d (fst p)) l ->
  wire_ok masked d (masked_frames masked l).
Proof.
  intros masked d l Hd H. unfold masked_frames, wire_ok. apply Forall_map.
  eapply Forall_impl; [|exact H]. intros [m k] HS. cbn [fst snd] in *. split; [|split].
  - apply (sendable_frame_ok d); auto.
  - apply HS.
  - destruct masked; reflexivity.
Qed.
Lemma whole_results : forall ms d, Forall (sendable d) ms -> delivers [] (map whole_frame ms) ms [].
Proof.
  intros ms d H. induction H as [|m ms (H1 & H2 & H3) H IH]; [constructor|]. cbn [map].
  destruct m as [x|x|c|x|x].
  - apply del_message; auto. apply (frag_whole (OText x)). intros [].
  - apply del_message; auto. apply (frag_whole (OBinary x)). intros [].
  - apply del_control; auto; exact I.
  - apply del_control; auto; exact I.
  - apply del_control; auto; exact I.
Qed.
Lemma whole_within : forall lim ms, within lim [] (map whole_frame ms).
Proof.
  intros lim ms. induction ms as [|m ms IH]; [exact I|]. cbn [map within].
  unfold step. destruct m as [x|x|c|x|x]; cbn; exact IH.
Qed.

(** [C16] Messages sent by one side, all sends reporting Ok, over any transport behaviour,
    with any masking keys, arrive at a blocking receiver as the same messages in the same
    order, with nothing left over. *)
Lemma message_round_trip_blocking_proof : forall masked max_df max_msg (l : list (owned * mkey)) script s,
  Forall (fun p => sendable (capped max_df) (fst p)) l ->
  let '(rs, w) := send_all (mk_sender masked) (map (fun p => (owned_ops (fst p), snd p)) l)
                    (mk_w [] script) in
  Forall (fun r => r = Ok tt) rs ->
  carries s (w_out w) ->
  let r := receiver_with_limits masked max_df max_msg in
  exists s', recv_n (length l) r s = (map (fun p => Ok (fst p)) l, r, s') /\ carries s' [].
Proof.
  intros masked max_df max_msg l script s HL.
  pose proof (sends_in_order_proof (mk_sender masked) (map (fun p => (owned_ops (fst p), snd p)) l)
    (mk_w [] script)) as HS.
  destruct (send_all _ _ _) as [rs w]. intros Hrs Hs r. cbn [s_mask w_out octets map app] in HS.
  assert (capped max_df < 2 ^ 64) as Hcap by (unfold capped; lia).
  assert (Forall (fun p => typed (fst p)) l) as HT
    by (eapply Forall_impl; [|exact HL]; intros p Hp; apply Hp).
  assert (w_out w = encs (masked_frames masked l)) as HW.
  { apply sent_encs; auto. rewrite HS; auto.
    - rewrite map_map. f_equal. apply map_ext_in. intros p Hp. cbn [fst snd].
      f_equal. apply owned_rfc. rewrite Forall_forall in HT. auto.
    - apply Forall_map. apply Forall_forall. intros p _. cbn [fst].
      apply library_frames_honest_proof.
    - apply Forall_map. apply Forall_forall. intros p Hp. cbn [fst].
      rewrite Forall_forall in HT, HL. rewrite owned_payload by auto.
      destruct (HL p Hp) as (_ & H2 & _). unfold size in H2. lia. }
  assert (map (fun p => Ok (fst p)) l = map (@Ok owned ws_error) (map fst l)) as HM
    by (rewrite map_map; reflexivity).
  rewrite HM. clear HM.
  replace (length l) with (length (map (@Ok owned ws_error) (map fst l))) by (rewrite !map_length; reflexivity).
  assert (Forall (sendable (capped max_df)) (map fst l)) as HL' by (apply Forall_map; exact HL).
  apply (recv_n_complete r s (map whole_frame (map fst l)) (w_out w) []); auto.
  - rewrite app_nil_r. exact Hs.
  - rewrite HW. pose proof (encs_on_wire _ _ _ (masked_frames_ok masked _ l Hcap HL)) as HO.
    unfold masked_frames in HO at 1. rewrite map_map in HO. cbn [fst] in HO. rewrite map_map. exact HO.
  - pose proof (wire_ok_fits _ _ _ (masked_frames_ok masked _ l Hcap HL)) as HO.
    unfold masked_frames in HO. rewrite map_map in HO. cbn [fst] in HO. rewrite map_map. exact HO.
  - apply (capped_u32 max_df).
  - apply whole_within.
  - apply delivers_results. eapply whole_results, HL'.
Qed.
(** [C16] The same for an async receiver. *)
Lemma message_round_trip_async_proof : forall ctx max_df max_msg (l : list (owned * mkey)) script s,
  Forall (fun p => sendable (capped max_df) (fst p)) l ->
  let '(rs, w) := send_all (mk_sender (receives_masked ctx))
                    (map (fun p => (owned_ops (fst p), snd p)) l) (mk_w [] script) in
  Forall (fun r => r = Ok tt) rs ->
  acarries s (w_out w) ->
  run_messages (msg_codec_with_limits ctx max_df max_msg) [] s = (map fst l, PEnd).
Proof.
  intros ctx max_df max_msg l script s HL. set (masked := receives_masked ctx).
  pose proof (sends_in_order_proof (mk_sender masked) (map (fun p => (owned_ops (fst p), snd p)) l)
    (mk_w [] script)) as HS.
  destruct (send_all _ _ _) as [rs w]. intros Hrs Hs. cbn [s_mask w_out octets map app] in HS.
  assert (capped max_df < 2 ^ 64) as Hcap by (unfold capped; lia).
  assert (Forall (fun p => typed (fst p)) l) as HT
    by (eapply Forall_impl; [|exact HL]; intros p Hp; apply Hp).
  assert (w_out w = encs (masked_frames masked l)) as HW.
  { apply sent_encs; auto. rewrite HS; auto.
    - rewrite map_map. f_equal. apply map_ext_in. intros p Hp. cbn [fst snd].
      f_equal. apply owned_rfc. rewrite Forall_forall in HT. auto.
    - apply Forall_map. apply Forall_forall. intros p _. cbn [fst].
      apply library_frames_honest_proof.
    - apply Forall_map. apply Forall_forall. intros p Hp. cbn [fst].
      rewrite Forall_forall in HT, HL. rewrite owned_payload by auto.
      destruct (HL p Hp) as (_ & H2 & _). unfold size in H2. lia. }
  assert (Forall (sendable (capped max_df)) (map fst l)) as HL' by (apply Forall_map; exact HL).
  set (c := msg_codec_with_limits ctx max_df max_msg).
  apply (run_messages_tail c (map whole_frame (map fst l)) (map fst l) [] (w_out w) []); auto.
  - eapply whole_results, HL'.
  - apply whole_within.
  - pose proof (wire_ok_fits _ _ _ (masked_frames_ok masked _ l Hcap HL)) as HO.
    unfold masked_frames in HO. rewrite map_map in HO. cbn [fst] in HO. rewrite map_map. exact HO.
  - rewrite HW. pose proof (encs_on_wire _ _ _ (masked_frames_ok masked _ l Hcap HL)) as HO.
    unfold masked_frames in HO at 1. rewrite map_map in HO. cbn [fst] in HO. rewrite map_map. exact HO.
  - rewrite app_nil_r. exact Hs.
Qed.
(*EX Example message_round_trip_ex :
  let k := mk_key x11 x22 x33 x44 in
  let l := [(OText (str "hi"), k); (OClose (Some (mk_close 1001 [])), k); (OPing [x00; xff], k)] in
  let '(rs, w) := send_all (mk_sender true) (map (fun p => (owned_ops (fst p), snd p)) l)
                    (mk_w [] [WAccept 3; WIntr]) in
  Forall (fun p => sendable (capped 64) (fst p)) l /\ rs = [Ok tt; Ok tt; Ok tt] /\
  run_messages (msg_codec_with_limits CtxServer 64 64) []
    (map (fun b => AData b []) (w_out w)) = (map fst l, PEnd).
Proof.
  cbn zeta. destruct (send_all _ _ _) as [rs w] eqn:E. vm_compute in E. injection E as <- <-. facts.
Qed. EX*)

(** ** Only legal sequences *)

(** [C18] Whatever bytes arrive over whatever transport: as long as no call fails, the
    bytes consumed are the encodings of frames, legal and masked as this role requires, in
    a sequence that delivers exactly the messages returned. *)
Lemma received_only_legal_blocking_proof : forall masked max_df max_msg n s l ms r' s',
  contains s l ->
  recv_n n (receiver_with_limits masked max_df max_msg) s = (map Ok ms, r', s') ->
  exists fs ws rest, l = ws ++ rest /\ contains s' rest /\
    on_wire masked fs ws /\ fits (capped max_df) fs /\ delivers [] fs ms (r_buffer r').
Proof.
  intros masked max_df max_msg n s l ms r' s' Hl H. apply contains_iff in Hl. subst l.
  apply recv_n_sound in H as (l & L1 & L2 & L3 & L4); [|apply (capped_isize max_df)].
  exists (map fst l), (encs l), (flat s'). split; [exact L1|].
  split; [apply contains_iff; reflexivity|].
  pose proof L2 as LC. clear L2.
  unfold receiver_with_limits in LC. cbn [r_mask r_max_df] in LC. rewrite capped_eq in LC.
  split; [exact (encs_on_wire _ _ _ LC)|]. split; [exact (wire_ok_fits _ _ _ LC)|].
  apply results_delivers in L3; [apply L3|constructor|].
  apply Forall_map. eapply Forall_impl; [|exact LC]. intros [f k] [[_ H1] _] H8. apply H1, H8.
Qed.

(*EX
(** What comes after the last message taken is still there, legal or not. *)
Example received_only_legal_ex :
  recv_n 2 (receiver_with_limits false 100 1000) [RData x01 [x01; x61; x89; x00; x80]; RIntr; RData x01 [x62; xff; xff]]
  = (map Ok [OPing []; OText (str "ab")], receiver_with_limits false 100 1000, [RData xff [xff]]).
Proof. reflexivity. Qed.
EX*)

(** [C18] Async: the same for everything a message stream delivers. *)
Lemma received_only_legal_async_proof : forall ctx max_df max_msg buf s l ms e,
  acontains s l ->
  run_messages (msg_codec_with_limits ctx max_df max_msg) buf s = (ms, e) ->
  exists fs ws rest p, buf ++ l = ws ++ rest /\
    on_wire (receives_masked ctx) fs ws /\ fits (capped max_df) fs /\ delivers [] fs ms p /\
    (e = PEnd -> rest = []).
Proof.
  intros ctx max_df max_msg buf s l ms e Hl H. apply acontains_iff in Hl. subst l.
  rewrite run_messages_cdrain in H.
  apply (cdrain_sound _ _ _ _ _ _ (Nat.lt_succ_diag_r _)) in H as (l & rest & b & L1 & L2 & L3 & L4).
  exists (map fst l), (encs l), rest, b. split; [exact L1|].
  pose proof L2 as LC. clear L2.
  unfold msg_codec_with_limits, df_codec_with_limits in LC.
  cbn [mc_df dc_is_server dc_max] in LC. rewrite capped_eq in LC.
  change (match ctx with CtxServer => true | CtxClient => false end) with (receives_masked ctx) in LC.
  split; [exact (encs_on_wire _ _ _ LC)|]. split; [exact (wire_ok_fits _ _ _ LC)|]. split; [|exact L4].
  apply results_delivers in L3; [apply L3|constructor|].
  apply Forall_map. eapply Forall_impl; [|exact LC]. intros [f k] [[_ H1] _] H8. apply H1, H8.
Qed.

(*EX
(** A reserved opcode ends what is delivered. *)
Example received_only_legal_async_ex :
  run_messages (msg_codec_with_limits CtxClient 100 1000) [x89] [AData x00 [x83]; AErr WouldBlock; AData x00 [x89; x00]]
  = ([OPing []], PErr (IoError WouldBlock)) /\
  exists e, run_messages (msg_codec_with_limits CtxClient 100 1000) [x89] [AData x00 [x83]; AData x00 [x89; x00]]
  = ([OPing []], PErr (ProtocolError e)).
Proof. split; [reflexivity|]. eexists. reflexivity. Qed.
EX*)

(** [C18] Blocking, in any state: a frame that is illegal next is answered by a
    ProtocolError, and the bytes after it are still there. *)
Lemma illegal_frame_refused_blocking_proof : forall p masked max_df max_msg f key w s rest,
  illegal_next p f -> rfc_legal (rfc_of_frame f key) -> size (f_data f) <= capped max_df ->
  match key with Some _ => true | None => false end = masked ->
  octets w = rfc_encode (rfc_of_frame f key) -> carries s (w ++ rest) ->
  exists e p' s',
    recv_message (mk_recv p masked (capped max_df) max_msg) s
    = (Err (ProtocolError e), mk_recv p' masked (capped max_df) max_msg, s') /\
    (p' = p \/ p' = []) /\ carries s' rest.
Proof.
  intros p masked max_df max_msg f key w s rest HI HL Hd Hk Hw Hs.
  apply illegal_step in HI as (e & b & HS & Hb).
  set (r := mk_recv p masked (capped max_df) max_msg).
  destruct (recv_message_one r s _ f key w rest _ _ Hs eq_refl Hw HL Hk Hd (capped_u32 max_df) HS)
    as (s' & E1 & E2).
  exists e, b, s'. auto.
Qed.

(*EX
Example illegal_frame_refused_ex :
  recv_message (mk_recv [mk_df false no_rsv Text []] false (capped 100) 100) [RData x82 [x01; x00; x89; x00]]
  = (Err (ProtocolError "Unexpected data frame opcode"), mk_recv [mk_df false no_rsv Text []] false (capped 100) 100, [RData x89 [x00]]).
Proof. reflexivity. Qed.
EX*)

(** [C18] Async. *)
Lemma illegal_frame_refused_async_proof : forall p ctx max_df max_msg f key w rest,
  illegal_next p f -> rfc_legal (rfc_of_frame f key) -> size (f_data f) <= capped max_df ->
  match key with Some _ => true | None => false end = receives_masked ctx ->
  octets w = rfc_encode (rfc_of_frame f key) ->
  exists e p',
    mc_decode (mk_mc p (df_codec_with_limits ctx max_df) max_msg) (w ++ rest)
    = (Err (ProtocolError e), mk_mc p' (df_codec_with_limits ctx max_df) max_msg, rest) /\
    (p' = p \/ p' = []).
Proof.
  intros p ctx max_df max_msg f key w rest HI HL Hd Hk Hw.
  apply illegal_step in HI as (e & b & HS & Hb).
  set (c := mk_mc p (df_codec_with_limits ctx max_df) max_msg).
  exists e, b. split; [|exact Hb].
  apply (mc_decode_one c f key w rest _ b Hw HL Hk Hd HS).
Qed.
(*EX Example illegal_frame_ex :
  illegal_next [] (mk_df true no_rsv Continuation (str "x")) /\
  illegal_next [mk_df false no_rsv Text []] (mk_df true no_rsv Binary []) /\
  illegal_next [mk_df false (true, false, false) Text []] (mk_df true no_rsv Continuation []) /\
  illegal_next [] (mk_df true no_rsv Control3 []) /\
  illegal_next [] (mk_df true no_rsv NonControl1 []).
Proof.
  repeat split.
  - apply ill_continuation. reflexivity.
  - apply ill_interrupted; easy.
  - apply ill_data_rsv; try reflexivity. left. discriminate.
  - apply ill_control_opcode; easy.
  - eapply ill_data_opcode; try reflexivity; easy.
Qed. EX*)

(** ** Close *)
(** A close frame with the given payload. *)
Definition close_frame (d : bytes) : dataframe := mk_df true no_rsv Close d.
Lemma close_step : forall p d, step p (close_frame d) =
  (Some (match d with
         | [] => Ok (OClose None)
         | [_] => Err NoDataAvailable
         | a :: b :: reason =>
             if utf8_valid reason then Ok (OClose (Some (mk_close (256 * b2n a + b2n b) reason)))
             else Err Utf8Error
         end), p).
Proof.
  intros p d. unfold step. cbn [close_frame f_opcode op_u8 N.eqb andb].
  change (8 <=? 8) with true. cbv iota. fold (close_frame d).
  f_equal. f_equal. unfold owned_from_dataframes, from_dataframes.
  assert (gather 0 [] (map df_ops [close_frame d]) = Ok d) as HG.
  { apply gather_first. cbn [map concat close_frame f_data f_reserved]. rewrite app_nil_r.
    split; [reflexivity|]. split; [reflexivity|constructor]. }
  cbn [map] in HG. rewrite HG. cbn [rbind].
  change (opcode_new (df_opcode (df_ops (close_frame d)))) with (Some Close). cbv iota.
  destruct d as [|a [|b reason]]; try reflexivity.
  destruct (utf8_valid reason) eqn:EU; [|reflexivity].
  cbn [rbind to_owned msg_close_because m_opcode m_payload m_status].
  rewrite utf8_lossy_id by exact EU. unfold of_be. cbn [fold_left].
  do 4 f_equal. lia.
Qed.
(** [C19] Blocking, in any state: what a close frame is delivered as. *)
Lemma close_contents_blocking_proof : forall p masked max_df max_msg d key w s rest,
  size d <= 125 -> size d <= capped max_df ->
  match key with Some _ => true | None => false end = masked ->
  octets w = rfc_encode (rfc_of_frame (mk_df true no_rsv Close d) key) -> carries s (w ++ rest) ->
  let r := mk_recv p masked (capped max_df) max_msg in
  exists x s', recv_message r s = (x, r, s') /\ carries s' rest /\
    match d with
    | [] => x = Ok (OClose None)
    | [_] => x = Err NoDataAvailable
    | a :: b :: reason =>
        (well_formed (octets reason) ->
         x = Ok (OClose (Some (mk_close (256 * Byte.to_N a + Byte.to_N b) reason)))) /\
        (~ well_formed (octets reason) -> x = Err Utf8Error)
    end.
Proof.
  intros p masked max_df max_msg d key w s rest Hd1 Hd2 Hk Hw Hs r.
  assert (rfc_legal (rfc_of_frame (close_frame d) key)) as HL.
  { apply frame_ok_legal. unfold size in *. split; cbn [close_frame f_data f_opcode f_finished];
      unfold llen; [lia|]. intros _. split; [exact Hd1|reflexivity]. }
  destruct (recv_message_one r s _ (close_frame d) key w rest _ p Hs eq_refl Hw HL Hk Hd2
    (capped_u32 max_df) (close_step p d)) as (s' & E1 & E2).
  eexists _, s'. split; [exact E1|]. split; [exact E2|].
  destruct d as [|a [|b reason]]; try reflexivity. rewrite <- utf8_valid_iff.
  change Byte.to_N with b2n. destruct (utf8_valid reason); split; intros; congruence.
Qed.

(*EX
Example close_contents_blocking_ex :
  recv_message (receiver_with_limits false 100 100) [RData x88 [x04]; RData x0f [xa0; xc3; xa9; x81]]
  = (Ok (OClose (Some (mk_close 4000 [xc3; xa9]))), receiver_with_limits false 100 100, [RData x81 []]) /\
  recv_message (receiver_with_limits false 100 100) [RData x88 [x03]; RData x0f [xa0; xc3; xa9; x81]]
  = (Err Utf8Error, receiver_with_limits false 100 100, [RData xa9 [x81]]).
Proof. split; reflexivity. Qed.
EX*)

(** [C19] Async. *)
Lemma close_contents_async_proof : forall p ctx max_df max_msg d key w rest,
  size d <= 125 -> size d <= capped max_df ->
  match key with Some _ => true | None => false end = receives_masked ctx ->
  octets w = rfc_encode (rfc_of_frame (mk_df true no_rsv Close d) key) ->
  let c := mk_mc p (df_codec_with_limits ctx max_df) max_msg in
  exists x, mc_decode c (w ++ rest) = (x, c, rest) /\
    match d with
    | [] => x = Ok (Some (OClose None))
    | [_] => x = Err NoDataAvailable
    | a :: b :: reason =>
        (well_formed (octets reason) ->
         x = Ok (Some (OClose (Some (mk_close (256 * Byte.to_N a + Byte.to_N b) reason))))) /\
        (~ well_formed (octets reason) -> x = Err Utf8Error)
    end.
Proof.
  intros p ctx max_df max_msg d key w rest Hd1 Hd2 Hk Hw c.
  assert (rfc_legal (rfc_of_frame (close_frame d) key)) as HL.
  { apply frame_ok_legal. unfold size in *. split; cbn [close_frame f_data f_opcode f_finished];
      unfold llen; [lia|]. intros _. split; [exact Hd1|reflexivity]. }
  pose proof (mc_decode_one c (close_frame d) key w rest _ p Hw HL Hk Hd2 (close_step p d)) as E1.
  eexists. split; [exact E1|].
  destruct d as [|a [|b reason]]; try reflexivity. rewrite <- utf8_valid_iff.
  change Byte.to_N with b2n.
  destruct (utf8_valid reason); split; intros; cbn [some_owned rbind]; congruence.
Qed.
(*EX Example close_contents_ex :
  fst (fst (mc_decode (msg_codec_with_limits CtxClient 100 100) [x88; x05; x03; xe8; x62; x79; x65]))
  = Ok (Some (OClose (Some (mk_close 1000 (str "bye"))))) /\
  fst (fst (mc_decode (msg_codec_with_limits CtxClient 100 100) [x88; x01; x03])) = Err NoDataAvailable.
Proof. split; reflexivity. Qed. EX*)

(** ** Conversions *)

(** [C20] OwnedMessage to Message and back is the identity, and the Message serialises to
    the same bytes. *)
Lemma owned_message_owned_proof : forall m, typed m ->
  to_owned (of_owned m) = m /\
  forall key w, write_to (msg_ops (of_owned m)) key w = write_to (owned_ops m) key w.
Proof.
  intros m H. split.
  - destruct m as [d|d|[[st rs]|]|d|d]; cbn; auto.
    + rewrite utf8_lossy_id; auto. apply utf8_valid_iff, H.
    + rewrite utf8_lossy_id; auto. apply utf8_valid_iff, H.
  - intros key w. unfold write_to. assert (frame_bytes (msg_ops (of_owned m)) key
      = frame_bytes (owned_ops m) key) as ->; [|reflexivity].
    assert (df_size (msg_ops (of_owned m)) = df_size (owned_ops m)) as HZ.
    { destruct m as [d|d|[c|]|d|d]; try reflexivity; cbn [of_owned msg_ops df_size owned_ops];
        apply N.add_0_r. }
    unfold frame_bytes. rewrite HZ. destruct m as [d|d|[c|]|d|d]; reflexivity.
Qed.

(*EX
Example owned_message_owned_ex :
  typed (OClose (Some (mk_close 1001 (str "gone")))) /\
  of_owned (OClose (Some (mk_close 1001 (str "gone")))) = msg_close_because 1001 (str "gone").
Proof. split; [facts|reflexivity]. Qed.
EX*)

(** [C20] An OwnedMessage made from a String is the text message of that string, and one made from
    a vector of bytes the binary message of those bytes - also if they happen to be text; so they
    are sent as the constructors' messages are. *)
Lemma made_from_proof : forall s d, well_formed (octets s) ->
  owned_of_string s = to_owned (msg_text s) /\ owned_of_vec d = to_owned (msg_binary d) /\
  (forall key w, write_to (owned_ops (owned_of_string s)) key w = write_to (msg_ops (msg_text s)) key w) /\
  (forall key w, write_to (owned_ops (owned_of_vec d)) key w = write_to (msg_ops (msg_binary d)) key w) /\
  owned_of_vec s <> owned_of_string s.
Proof.
  intros s d H.
  assert (HT : typed (OText s)) by exact H.
  assert (HB : typed (OBinary d)) by exact I.
  destruct (owned_message_owned_proof _ HT) as [A1 A2]. destruct (owned_message_owned_proof _ HB) as [B1 B2].
  split; [symmetry; exact A1|]. split; [symmetry; exact B1|].
  split; [intros; symmetry; apply A2|]. split; [intros; symmetry; apply B2|]. discriminate.
Qed.
(*EX
Example made_from_ex :
  fst (write_to (owned_ops (owned_of_string (str "a"))) None (mk_w [] [])) = Ok tt /\
  w_out (snd (write_to (owned_ops (owned_of_string (str "a"))) None (mk_w [] []))) = [x81; x01; x61] /\
  w_out (snd (write_to (owned_ops (owned_of_vec (str "a"))) None (mk_w [] []))) = [x82; x01; x61].
Proof. repeat split. Qed.
EX*)

(** [C20] Message to OwnedMessage and back is the identity for what the constructors
    build; otherwise text and close reasons keep every well-formed prefix and become
    well-formed. *)
Lemma message_owned_message_proof : forall m, built m -> of_owned (to_owned m) = m.
Proof.
  intros [t st d] (H1 & H2 & H3). cbn [m_opcode m_status m_payload] in *.
  destruct t; cbn [to_owned m_opcode m_status m_payload of_owned];
    try (rewrite (H3 ltac:(discriminate)); reflexivity).
  - destruct (H1 eq_refl) as [-> HW]. rewrite utf8_lossy_id by (apply utf8_valid_iff, HW). reflexivity.
  - destruct (H2 eq_refl) as [(x & -> & HW)|[-> ->]]; [|reflexivity].
    cbn [of_owned c_status c_reason]. rewrite utf8_lossy_id by (apply utf8_valid_iff, HW). reflexivity.
Qed.

(*EX
Example message_owned_message_ex : built (msg_binary [xff; x00]) /\ to_owned (msg_binary [xff; x00]) = OBinary [xff; x00].
Proof. split; [|reflexivity]. repeat split; try discriminate; intros H; now destruct H. Qed.
EX*)

(** [C20] *)
Lemma lossy_conversion_proof : forall good bad,
  well_formed (octets good) ->
  exists tail, to_owned (msg_text (good ++ bad)) = OText (good ++ tail) /\
    (forall code, to_owned (msg_close_because code (good ++ bad))
                  = OClose (Some (mk_close code (good ++ tail)))) /\
    well_formed (octets tail) /\ (well_formed (octets bad) -> tail = bad).
Proof.
  intros good bad H. apply utf8_valid_iff in H. exists (utf8_lossy bad).
  cbn [to_owned msg_text msg_close_because m_opcode m_status m_payload].
  rewrite utf8_lossy_prefix by exact H. repeat split.
  - apply utf8_valid_iff, utf8_lossy_valid.
  - intros HB. apply utf8_lossy_id, utf8_valid_iff, HB.
Qed.
(*EX Example lossy_conversion_ex :
  to_owned (msg_text [x61; xff; x62]) = OText [x61; xef; xbf; xbd; x62] /\
  built (msg_close_because 1000 (str "ok")).
Proof.
  split; [reflexivity|]. split; [discriminate|]. split; [|intros H; now destruct H].
  intros _. left. exists 1000. facts.
Qed. EX*)

(** ** Ping and pong *)

(** [C45] [into_pong] succeeds exactly on pings; the message then serialises as the pong
    frame with the same payload; otherwise nothing changes. *)
Lemma into_pong_spec_proof : forall m,
  (m_opcode m = TPing ->
     exists m', into_pong m = (Ok tt, m') /\ m_payload m' = m_payload m /\ m_opcode m' = TPong /\
       (m_status m = None -> forall key w,
          write_to (msg_ops m') key w = write_to (owned_ops (OPong (m_payload m))) key w)) /\
  (m_opcode m <> TPing -> into_pong m = (Err tt, m)).
Proof.
  intros [t st d]. split; cbn [m_opcode m_payload m_status].
  - intros ->. exists (mk_msg TPong st d). split; [reflexivity|]. split; [reflexivity|].
    split; [reflexivity|]. intros ->. intros key w. unfold write_to.
    assert (frame_bytes (msg_ops (mk_msg TPong None d)) key = frame_bytes (owned_ops (OPong d)) key)
      as ->; [|reflexivity].
    assert (df_size (msg_ops (mk_msg TPong None d)) = df_size (owned_ops (OPong d))) as HZ
      by (cbn [msg_ops df_size owned_ops m_payload m_status]; apply N.add_0_r).
    unfold frame_bytes. rewrite HZ. reflexivity.
  - intros H. unfold into_pong. cbn [m_opcode]. destruct t; try contradiction; reflexivity.
Qed.
(*EX Example into_pong_ex : into_pong (msg_ping [x01; x02]) = (Ok tt, msg_pong [x01; x02]).
Proof. reflexivity. Qed. EX*)

(** [C46] The status code is written in front of the payload of a message of any type:
    a text message with a status code and the payload "ab" arrives as a longer text. *)
Lemma status_only_on_close_refuted_proof : exists m wire,
  m_opcode m = TText /\ write_to (msg_ops m) None (mk_w [] []) = (Ok tt, mk_w wire []) /\
  fst (run_messages (msg_codec_with_limits CtxClient 100 100) []
         (map (fun b => AData b []) wire)) = [OText (str "ABhi")] /\
  m_payload m = str "hi".
Proof.
  exists (mk_msg TText (Some 16706) (str "hi")), [x81; x04; x41; x42; x68; x69].
  vm_compute. auto.
Qed.
(** [C46] Exactly: the two octets of the code, most significant first, precede the payload,
    for every type of message. *)
Lemma status_precedes_payload_proof : forall t code d key out,
  code < 2 ^ 16 -> size d + 2 <= 125 ->
  exists wire, write_to (msg_ops (mk_msg t (Some code) d)) key (mk_w out [])
               = (Ok tt, mk_w (out ++ wire) []) /\
    octets wire = rfc_encode {| rf_fin := true; rf_rsv1 := false; rf_rsv2 := false;
      rf_rsv3 := false; rf_key := octet_key key;
      rf_opcode := match t with TText => 1 | TBinary => 2 | TClose => 8 | TPing => 9 | TPong => 10 end;
      rf_payload := [code / 256; code mod 256] ++ octets d |}.
Proof.
  intros t code d key out Hc Hd.
  set (m := mk_msg t (Some code) d).
  assert (concat (df_writes (msg_ops m)) = be16 code ++ d) as HP
    by (cbn [m msg_ops df_writes m_status m_payload concat]; rewrite app_nil_r; reflexivity).
  assert (octets (be16 code) = [code / 256; code mod 256]) as HB.
  { rewrite be16_octets by exact Hc. unfold octets. cbn [map].
    change Byte.to_N with b2n. rewrite !octet_b2n by lia. reflexivity. }
  destruct (emitted_layout_proof (msg_ops m) key out) as (wire & W1 & W2).
  - apply library_frames_honest_proof.
  - rewrite HP. unfold rfc_sendable, rfc_of, m. cbn [msg_ops df_reserved no_rsv df_opcode m_opcode
      rf_opcode rf_payload]. unfold octets. rewrite map_length, app_length.
    replace (length (be16 code)) with 2%nat by reflexivity. unfold size in Hd.
    split; [destruct t; cbn; lia|]. lia.
  - exists wire. split; [exact W1|]. rewrite W2, HP. f_equal. unfold rfc_of, m.
    cbn [msg_ops df_reserved no_rsv df_opcode m_opcode df_is_last].
    rewrite octets_app, HB. destruct t; reflexivity.
Qed.

(*EX
Example status_precedes_payload_ex :
  write_to (msg_ops (mk_msg TPing (Some 258) (str "x"))) None (mk_w [] [])
  = (Ok tt, mk_w [x89; x03; x01; x02; x78] []).
Proof. reflexivity. Qed.
EX*)

