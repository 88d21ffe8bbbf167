(** Fragments sent by an application: C17. *)
From Coq Require Import NArith ZArith String Bool List Lia.
From Coq Require Import ZifyBool ZifyNat ZifyN.
From Coq.Strings Require Import Byte.
From Verif.Model Require Import Base Io Header Mask Dataframe Utf8 Message Receiver Codec Framed.
From Verif.Spec Require Import RfcFrame FrameSpec Unicode Session Schedule Drive Parcels.
From Verif.Proofs Require Import BaseFacts MaskFacts HeaderFacts FrameFacts CodecFacts ScriptFacts
  Machine FramedFacts AsyncFacts Utf8Facts ThmFrames ThmStream SessionFacts RecvFacts MessageFacts ThmMessages ThmInterop ThmEcho.
Import ListNotations.
Local Open Scope string_scope.
Local Open Scope list_scope.
Local Open Scope N_scope.

Lemma parcel_rfc : forall x key, parcel_typed x ->
  rfc_of (df_is_last (parcel_ops x)) (df_reserved (parcel_ops x)) (df_opcode (parcel_ops x))
         (concat (df_writes (parcel_ops x))) key = rfc_of_frame (parcel_frame x) key.
Proof.
  intros [f|m] key H; [|apply owned_rfc; exact H]. cbn [parcel_ops parcel_frame df_ops df_writes df_is_last df_reserved df_opcode concat].
  rewrite app_nil_r. reflexivity.
Qed.
Lemma wire_from : forall masked (l : list (parcel * mkey)) ws,
  octets ws = concat (map (fun p => rfc_encode (rfc_of_frame (parcel_frame (fst p)) (if masked : bool then Some (snd p) else None))) l) ->
  on_wire masked (map (fun p => parcel_frame (fst p)) l) ws.
Proof.
  intros masked l. induction l as [|[x k] l IH]; intros ws H; cbn [map concat] in *.
  - destruct ws; [constructor|discriminate H].
  - cbn [fst snd] in *.
    pose proof (enc_rfc (parcel_frame x) (if masked then Some k else None)) as HE.
    set (w := enc (parcel_frame x) (if masked then Some k else None)) in *.
    assert (exists t, ws = w ++ t /\ octets t = concat (map (fun p => rfc_encode (rfc_of_frame (parcel_frame (fst p)) (if masked then Some (snd p) else None))) l)) as (t & -> & Ht).
    { exists (encs (map (fun p => (parcel_frame (fst p), if masked then Some (snd p) else None)) l)).
      assert (EC : octets (encs (map (fun p => (parcel_frame (fst p), if masked then Some (snd p) else None)) l)) =
                   concat (map (fun p => rfc_encode (rfc_of_frame (parcel_frame (fst p)) (if masked then Some (snd p) else None))) l)).
      { clear. induction l as [|p l IH]; [reflexivity|]. cbn [map concat]. rewrite encs_cons, octets_app, IH. cbn [fst snd].
        f_equal. apply enc_rfc. }
      split; [|exact EC]. apply octets_inj. rewrite octets_app, H, EC. f_equal. symmetry. exact HE. }
    apply (wire_cons masked _ (if masked then Some k else None)); [destruct masked; reflexivity|exact HE|].
    apply IH. exact Ht.
Qed.
Lemma parcels_wire : forall masked (l : list (parcel * mkey)) script rs w,
  Forall (fun p => parcel_typed (fst p)) l -> Forall (fun p => size (f_data (parcel_frame (fst p))) < 2 ^ 64) l ->
  send_all (mk_sender masked) (map (fun p => (parcel_ops (fst p), snd p)) l) (mk_w [] script) = (rs, w) ->
  Forall (fun r => r = Ok tt) rs ->
  on_wire masked (map (fun p => parcel_frame (fst p)) l) (w_out w).
Proof.
  intros masked l script rs w HT HL E Hrs. apply wire_from.
  pose proof (sends_in_order_proof (mk_sender masked) (map (fun p => (parcel_ops (fst p), snd p)) l) (mk_w [] script)) as HS.
  rewrite E in HS. cbn [s_mask w_out octets map app] in HS. rewrite HS; auto.
  - rewrite map_map. f_equal. apply map_ext_in. intros p Hp. cbn [fst snd]. f_equal. apply parcel_rfc.
    rewrite Forall_forall in HT. auto.
  - apply Forall_map. apply Forall_forall. intros [x k] _. cbn [fst].
    destruct x as [f|m]; cbn [parcel_ops]; apply library_frames_honest_proof.
  - apply Forall_map. apply Forall_forall. intros [x k] Hp. cbn [fst]. rewrite Forall_forall in HT, HL.
    pose proof (HT _ Hp) as H1. pose proof (HL _ Hp) as H2. cbn [fst] in *. destruct x as [f|m]; cbn [parcel_ops parcel_frame] in *.
    + cbn [df_ops df_writes concat]. rewrite app_nil_r. exact H2.
    + rewrite owned_payload by exact H1. exact H2.
Qed.
Lemma item_parcels : forall max_df max_msg items (l : list (parcel * mkey)),
  Forall (item_ok (capped max_df) max_msg) items ->
  map (fun p => parcel_frame (fst p)) l = concat (map item_frames items) ->
  Forall (fun p => size (f_data (parcel_frame (fst p))) < 2 ^ 64) l.
Proof.
  intros max_df max_msg items l HI E.
  assert (HF : fits (capped max_df) (map (fun p => parcel_frame (fst p)) l)).
  { rewrite E. apply (session_fits _ max_msg); auto. unfold capped. assert (4294967295 < 2 ^ 64) by reflexivity. lia. }
  unfold fits in HF. apply Forall_map in HF. eapply Forall_impl; [|exact HF]. intros p [_ H].
  unfold capped in H. assert (4294967295 < 2 ^ 64) by reflexivity. lia.
Qed.

(** [C17] An application cuts its messages into fragments and sends them with [send_dataframe], or
    [send_message] where a frame is a whole message, with control messages in between.  If all calls
    report Ok, a peer that receives messages gets what was meant, however the sender's stream takes the
    bytes and the receiver's gives them, and whatever the masking keys are. *)
Lemma fragments_arrive_proof : forall masked max_df max_msg items (l : list (parcel * mkey)) script s rest,
  Forall (item_ok (capped max_df) (capped max_msg)) items ->
  map (fun p => parcel_frame (fst p)) l = concat (map item_frames items) -> Forall (fun p => parcel_typed (fst p)) l ->
  let '(rs, w) := send_all (mk_sender masked) (map (fun p => (parcel_ops (fst p), snd p)) l) (mk_w [] script) in
  Forall (fun r => r = Ok tt) rs -> carries s (w_out w ++ rest) ->
  let ms := concat (map item_delivered items) in
  let r := receiver_with_limits masked max_df max_msg in
  exists s', recv_n (length ms) r s = (map Ok ms, r, s') /\ carries s' rest.
Proof.
  intros masked max_df max_msg items l script s rest HI HF HT. destruct (send_all _ _ _) as [rs w] eqn:E.
  intros Hrs Hs. apply (session_received_blocking_proof masked max_df max_msg items (w_out w) s rest HI); [|exact Hs].
  rewrite <- HF. apply (parcels_wire masked l script rs w HT); auto.
  apply (item_parcels max_df (capped max_msg) items); auto.
Qed.

(** [C17] The same for an asynchronous receiver. *)
Lemma fragments_arrive_async_proof : forall ctx max_df max_msg items (l : list (parcel * mkey)) script s,
  Forall (item_ok (capped max_df) (capped max_msg)) items ->
  map (fun p => parcel_frame (fst p)) l = concat (map item_frames items) -> Forall (fun p => parcel_typed (fst p)) l ->
  let '(rs, w) := send_all (mk_sender (receives_masked ctx)) (map (fun p => (parcel_ops (fst p), snd p)) l) (mk_w [] script) in
  Forall (fun r => r = Ok tt) rs -> acarries s (w_out w) ->
  run_messages (msg_codec_with_limits ctx max_df max_msg) [] s = (concat (map item_delivered items), PEnd).
Proof.
  intros ctx max_df max_msg items l script s HI HF HT. destruct (send_all _ _ _) as [rs w] eqn:E.
  intros Hrs Hs. apply (session_received_async_proof ctx max_df max_msg items (w_out w) s HI); [|exact Hs].
  rewrite <- HF. apply (parcels_wire (receives_masked ctx) l script rs w HT); auto.
  apply (item_parcels max_df (capped max_msg) items); auto.
Qed.
(*EX (** A text cut in the middle of a character, with a ping between its two fragments, then a whole
    binary; to a server that takes the bytes in two reads. *)
Example fragments_arrive_ex :
  let k := mk_key x11 x22 x33 x44 in
  let items := [IData {| cm_text := true; cm_first := [xc3]; cm_more := [([OPing [x01]], [xa9])] |};
                IData {| cm_text := false; cm_first := [x00; xff]; cm_more := [] |}] in
  let l := [(Framewise (mk_df false (false, false, false) Text [xc3]), k); (Whole (OPing [x01]), k);
            (Framewise (mk_df true (false, false, false) Continuation [xa9]), k); (Whole (OBinary [x00; xff]), k)] in
  Forall (item_ok (capped 100) (capped 100)) items /\
  map (fun p => parcel_frame (fst p)) l = concat (map item_frames items) /\ Forall (fun p => parcel_typed (fst p)) l /\
  concat (map item_delivered items) = [OPing [x01]; OText [xc3; xa9]; OBinary [x00; xff]] /\
  let '(rs, w) := send_all (mk_sender true) (map (fun p => (parcel_ops (fst p), snd p)) l) (mk_w [] [WAccept 4; WIntr]) in
  rs = [Ok tt; Ok tt; Ok tt; Ok tt] /\
  fst (fst (recv_n 3 (receiver_with_limits true 100 100) (push_back (firstn 9 (w_out w)) (RIntr :: push_back (skipn 9 (w_out w)) []))))
  = [Ok (OPing [x01]); Ok (OText [xc3; xa9]); Ok (OBinary [x00; xff])].
Proof.
  cbv zeta. split.
  { assert (T : typed (OText [xc3; xa9])) by (cbn [typed]; facts).
    assert (U : forall n m : N, (n ?= m) = Lt -> n < m) by (intros n m H; exact H).
    constructor; [|constructor; [|constructor]].
    - split; [exact T|]. split; [repeat constructor; discriminate|]. split.
      + constructor; [|constructor]. split; [split; [exact I|split; [exact I|discriminate]]|discriminate].
      + split; reflexivity.
    - split; [exact I|]. split; [repeat constructor; discriminate|]. split; [constructor|]. split; reflexivity. }
  split; [reflexivity|]. split; [repeat constructor|]. split; [reflexivity|]. split; vm_compute; reflexivity.
Qed. EX*)

Lemma parcel_sendable : forall x, parcel_typed x -> rfc_legal (rfc_of_frame (parcel_frame x) None) -> ops_sendable (parcel_ops x).
Proof.
  intros [f|m] HT HL; apply legal_frame_ok in HL as [_ H].
  - cbn [parcel_frame parcel_ops] in *. split; [cbn; destruct (f_opcode f); reflexivity|]. cbn [df_ops df_opcode df_size]. intros H8. apply H. exact H8.
  - cbn [parcel_frame parcel_ops parcel_typed] in *. apply owned_sendable; [exact HT|]. intros HC.
    cbn [whole_frame f_opcode f_data] in H. apply H. destruct m as [d|d|[c|]|d|d]; cbn in *; try contradiction; lia.
Qed.
Lemma parcels_ok : forall masked (l : list (parcel * mkey)) out script,
  Forall (fun p => parcel_typed (fst p)) l -> Forall (fun p => rfc_legal (rfc_of_frame (parcel_frame (fst p)) None)) l ->
  Forall (fun e => match e with WAccept _ | WIntr => True | _ => False end) script ->
  Forall (fun r => r = Ok tt) (fst (send_all (mk_sender masked) (map (fun p => (parcel_ops (fst p), snd p)) l) (mk_w out script))).
Proof.
  intros masked l. induction l as [|[x k] l IH]; intros out script HT HL HS; [constructor|].
  inversion HT as [|? ? T1 T2]; subst. inversion HL as [|? ? L1 L2]; subst. cbn [map send_all fst snd] in *.
  assert (HH : honest (parcel_ops x)) by (destruct x as [f|m]; cbn [parcel_ops]; apply library_frames_honest_proof).
  pose proof (frame_bytes_ok (parcel_ops x) (if masked then Some k else None) (parcel_sendable x T1 L1) (proj2 HH)) as HB.
  set (data := header_bytes _ ++ _) in HB.
  destruct (write_never_fails script out data HS) as (t' & EW & HS').
  assert (E : send_frame (mk_sender masked) (parcel_ops x) k (mk_w out script) = (Ok tt, mk_w (out ++ data) t')).
  { unfold send_frame, write_to. cbn [s_mask]. rewrite HB. unfold write_all. cbn [w_script w_out]. rewrite EW. reflexivity. }
  rewrite E. specialize (IH (out ++ data) t' T2 L2 HS').
  destruct (send_all _ _ (mk_w (out ++ data) t')) as [rs w2]. cbn [fst] in *. constructor; auto.
Qed.

(** [C17] On a stream that does not fail, all calls do report Ok. *)
Lemma fragments_sent_proof : forall masked max_df max_msg items (l : list (parcel * mkey)) script out,
  Forall (item_ok (capped max_df) (capped max_msg)) items ->
  map (fun p => parcel_frame (fst p)) l = concat (map item_frames items) -> Forall (fun p => parcel_typed (fst p)) l ->
  Forall (fun e => match e with WAccept _ | WIntr => True | _ => False end) script ->
  Forall (fun r => r = Ok tt) (fst (send_all (mk_sender masked) (map (fun p => (parcel_ops (fst p), snd p)) l) (mk_w out script))).
Proof.
  intros masked max_df max_msg items l script out HI HF HT HS. apply parcels_ok; auto.
  assert (HD : fits (capped max_df) (map (fun p => parcel_frame (fst p)) l)).
  { rewrite HF. apply (session_fits _ (capped max_msg)); auto. unfold capped. assert (4294967295 < 2 ^ 64) by reflexivity. lia. }
  unfold fits in HD. apply Forall_map in HD. eapply Forall_impl; [|exact HD]. intros p [H _]. exact H.
Qed.
