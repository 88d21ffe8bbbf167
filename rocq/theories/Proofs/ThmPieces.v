(** Messages put together by hand: C06, C19. *)
From Coq Require Import NArith ZArith String Bool List Lia.
From Coq Require Import ZifyBool ZifyNat ZifyN.
From Coq.Strings Require Import Byte.
From Verif.Model Require Import Base Io Header Mask Dataframe Utf8 Message.
From Verif.Spec Require Import RfcFrame FrameSpec Unicode.
From Verif.Proofs Require Import BaseFacts Utf8Facts.
Import ListNotations.
Local Open Scope string_scope.
Local Open Scope list_scope.
Local Open Scope N_scope.

(** [C06] A message has the same size as a [Message] and as an [OwnedMessage]. *)
Lemma sizes_agree_proof : forall m masked, message_size (of_owned m) masked = owned_size m masked.
Proof.
  intros [d|d|[c|]|d|d] masked; unfold message_size, owned_size, frame_size; cbn; rewrite ?N.add_0_r; reflexivity.
Qed.
(*EX Example sizes_agree_ex : message_size (of_owned (OClose (Some (mk_close 1000 (str "bye"))))) true = 11.
Proof. reflexivity. Qed. EX*)

(** [C19] A close frame made by hand of [CloseData::into_bytes] is read as that close message, if its reason
    is UTF-8, and is an error otherwise. *)
Lemma close_by_hand_proof : forall c, c_status c < 65536 ->
  let x := from_dataframes [df_ops (df_new true Close (close_into_bytes c))] in
  (well_formed (octets (c_reason c)) -> x = Ok (of_owned (OClose (Some c)))) /\
  (~ well_formed (octets (c_reason c)) -> x = Err Utf8Error).
Proof.
  intros [n r] Hn x. cbn [c_status c_reason] in *.
  assert (E : x = if utf8_valid r then Ok (msg_close_because (of_be (be16 n)) r) else Err Utf8Error) by reflexivity.
  clearbody x. subst x. rewrite of_be_be16 by exact Hn.
  pose proof (utf8_valid_iff r) as H. destruct (utf8_valid r); split; intros G; try reflexivity.
  - exfalso. apply G, H. reflexivity.
  - apply H in G. discriminate G.
Qed.
(*EX Example close_by_hand_ex :
  close_into_bytes (mk_close 1000 (str "bye")) = [x03; xe8] ++ str "bye" /\
  from_dataframes [df_ops (df_new true Close [x03; xe8; xff])] = Err Utf8Error.
Proof. split; reflexivity. Qed. EX*)
