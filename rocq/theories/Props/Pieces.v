(** Messages put together by hand: C06, C19. *)
From Coq Require Import NArith ZArith String Bool List Lia.
From Coq.Strings Require Import Byte.
From Verif.Model Require Import Base Io Header Mask Dataframe Utf8 Message.
From Verif.Spec Require Import RfcFrame FrameSpec Unicode.
From Verif.Proofs Require Import ExTac.
From Verif.Proofs Require ThmPieces.
Import ListNotations.
Local Open Scope string_scope.
Local Open Scope list_scope.
Local Open Scope N_scope.

(** [C06] A message has the same size as a [Message] and as an [OwnedMessage]. *)
Theorem sizes_agree : forall m masked, message_size (of_owned m) masked = owned_size m masked.
Proof. exact ThmPieces.sizes_agree_proof. Qed.
Print Assumptions sizes_agree.

Example sizes_agree_ex : message_size (of_owned (OClose (Some (mk_close 1000 (str "bye"))))) true = 11.
Proof. reflexivity. Qed.

(** [C19] A close frame made by hand of [CloseData::into_bytes] is read as that close message, if its reason
    is UTF-8, and is an error otherwise. *)
Theorem close_by_hand : forall c, c_status c < 65536 ->
  let x := from_dataframes [df_ops (df_new true Close (close_into_bytes c))] in
  (well_formed (octets (c_reason c)) -> x = Ok (of_owned (OClose (Some c)))) /\
  (~ well_formed (octets (c_reason c)) -> x = Err Utf8Error).
Proof. exact ThmPieces.close_by_hand_proof. Qed.
Print Assumptions close_by_hand.

Example close_by_hand_ex :
  close_into_bytes (mk_close 1000 (str "bye")) = [x03; xe8] ++ str "bye" /\
  from_dataframes [df_ops (df_new true Close [x03; xe8; xff])] = Err Utf8Error.
Proof. split; reflexivity. Qed.
