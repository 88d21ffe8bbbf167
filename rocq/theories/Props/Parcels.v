(** Fragments sent by an application: C17. *)
From Coq Require Import NArith ZArith String Bool List Lia.
From Coq.Strings Require Import Byte.
From Verif.Model Require Import Base Io Header Mask Dataframe Utf8 Message Receiver Codec Framed.
From Verif.Spec Require Import RfcFrame FrameSpec Unicode Session Schedule Drive Parcels.
From Verif.Proofs Require Import ExTac.
From Verif.Proofs Require ThmParcels.
Import ListNotations.
Local Open Scope string_scope.
Local Open Scope list_scope.
Local Open Scope N_scope.

(** [C17] An application cuts its messages into fragments and sends them with [send_dataframe], or
    [send_message] where a frame is a whole message, with control messages in between.  If all calls
    report Ok, a peer that receives messages gets what was meant, however the sender's stream takes the
    bytes and the receiver's gives them, and whatever the masking keys are. *)
Theorem fragments_arrive : forall masked max_df max_msg items (l : list (parcel * mkey)) script s rest,
  Forall (item_ok (capped max_df) (capped max_msg)) items ->
  map (fun p => parcel_frame (fst p)) l = concat (map item_frames items) -> Forall (fun p => parcel_typed (fst p)) l ->
  let '(rs, w) := send_all (mk_sender masked) (map (fun p => (parcel_ops (fst p), snd p)) l) (mk_w [] script) in
  Forall (fun r => r = Ok tt) rs -> carries s (w_out w ++ rest) ->
  let ms := concat (map item_delivered items) in
  let r := receiver_with_limits masked max_df max_msg in
  exists s', recv_n (length ms) r s = (map Ok ms, r, s') /\ carries s' rest.
Proof. exact ThmParcels.fragments_arrive_proof. Qed.
Print Assumptions fragments_arrive.

(** [C17] The same for an asynchronous receiver. *)
Theorem fragments_arrive_async : forall ctx max_df max_msg items (l : list (parcel * mkey)) script s,
  Forall (item_ok (capped max_df) (capped max_msg)) items ->
  map (fun p => parcel_frame (fst p)) l = concat (map item_frames items) -> Forall (fun p => parcel_typed (fst p)) l ->
  let '(rs, w) := send_all (mk_sender (receives_masked ctx)) (map (fun p => (parcel_ops (fst p), snd p)) l) (mk_w [] script) in
  Forall (fun r => r = Ok tt) rs -> acarries s (w_out w) ->
  run_messages (msg_codec_with_limits ctx max_df max_msg) [] s = (concat (map item_delivered items), PEnd).
Proof. exact ThmParcels.fragments_arrive_async_proof. Qed.
Print Assumptions fragments_arrive_async.

(** A text cut in the middle of a character, with a ping between its two fragments, then a whole
    binary; to a server that takes the bytes in two reads. *)
Example fragments_arrive_ex :
  let k := mk_key x11 x22 x33 x44 in
  let items := [IData {| cm_text := true; cm_first := [xc3]; cm_more := [([OPing [x01]], [xa9])] |};
                IData {| cm_text := false; cm_first := [x00; xff]; cm_more := [] |}] in
  let l := [(Framewise (mk_df false (false, false, false) Text [xc3]), k); (Whole (OPing [x01]), k);
            (Framewise (mk_df true (false, false, false) Continuation [xa9]), k); (Whole (OBinary [x00; xff]), k)] in
  Forall (item_ok (capped 100) (capped 100)) items /\
  map (fun p => parcel_frame (fst p)) l = concat (map item_frames items) /\ Forall (fun p => parcel_typed (fst p)) l /\
  concat (map item_delivered items) = [OPing [x01]; OText [xc3; xa9]; OBinary [x00; xff]] /\
  let '(rs, w) := send_all (mk_sender true) (map (fun p => (parcel_ops (fst p), snd p)) l) (mk_w [] [WAccept 4; WIntr]) in
  rs = [Ok tt; Ok tt; Ok tt; Ok tt] /\
  fst (fst (recv_n 3 (receiver_with_limits true 100 100) (push_back (firstn 9 (w_out w)) (RIntr :: push_back (skipn 9 (w_out w)) []))))
  = [Ok (OPing [x01]); Ok (OText [xc3; xa9]); Ok (OBinary [x00; xff])].
Proof.
  cbv zeta. split.
  { assert (T : typed (OText [xc3; xa9])) by (cbn [typed]; facts).
    assert (U : forall n m : N, (n ?= m) = Lt -> n < m) by (intros n m H; exact H).
    constructor; [|constructor; [|constructor]].
    - split; [exact T|]. split; [repeat constructor; discriminate|]. split.
      + constructor; [|constructor]. split; [split; [exact I|split; [exact I|discriminate]]|discriminate].
      + split; reflexivity.
    - split; [exact I|]. split; [repeat constructor; discriminate|]. split; [constructor|]. split; reflexivity. }
  split; [reflexivity|]. split; [repeat constructor|]. split; [reflexivity|]. split; vm_compute; reflexivity.
Qed.

(** [C17] On a stream that does not fail, all calls do report Ok. *)
Theorem fragments_sent : forall masked max_df max_msg items (l : list (parcel * mkey)) script out,
  Forall (item_ok (capped max_df) (capped max_msg)) items ->
  map (fun p => parcel_frame (fst p)) l = concat (map item_frames items) -> Forall (fun p => parcel_typed (fst p)) l ->
  Forall (fun e => match e with WAccept _ | WIntr => True | _ => False end) script ->
  Forall (fun r => r = Ok tt) (fst (send_all (mk_sender masked) (map (fun p => (parcel_ops (fst p), snd p)) l) (mk_w out script))).
Proof. exact ThmParcels.fragments_sent_proof. Qed.
Print Assumptions fragments_sent.
