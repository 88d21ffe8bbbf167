(** Frames and messages read from one client: C71. *)
From Coq Require Import NArith ZArith String Bool List Lia.
From Coq.Strings Require Import Byte.
From Verif.Model Require Import Base Io Header Mask Dataframe Headers Message Receiver Codec Connect.
From Verif.Spec Require Import RfcFrame FrameSpec Schedule Unicode Drive Session Wire Mixed.
From Verif.Proofs Require Import ExTac.
From Verif.Proofs Require ThmMixed.
Import ListNotations.
Local Open Scope string_scope.
Local Open Scope list_scope.
Local Open Scope N_scope.

(** [C71] A program that calls [recv_dataframe] and [recv_message] of one client in whatever
    order, over whatever transport: as long as no call fails, the bytes used are those of legal
    frames, masked as this role requires, and every frame was used by exactly one call, in
    order. *)
Theorem mixed_sound : forall buf s w h om im max_df max_msg qs gs c' l,
  contains s l ->
  client_asks qs (unchecked_with_limits buf s w h om im max_df max_msg) = (map Ok gs, c') ->
  map asked gs = qs /\
  exists fs ws rest, buf ++ l = ws ++ rest /\ contains (push_back (c_buf c') (c_in c')) rest /\
    on_wire im fs ws /\ fits (capped max_df) fs /\ reading [] gs fs (r_buffer (c_receiver c')).
Proof. exact ThmMixed.mixed_sound_proof. Qed.
Print Assumptions mixed_sound.

Definition mixed_client : client :=
  unchecked_with_limits [x89; x00] [RData x01 [x01; x61; x80]; RIntr; RData x01 [x62; x81; x01; x63]] (mk_w [] []) [] true false 100 1000.
(** A frame, a message of two frames, a frame. *)
Example mixed_sound_ex :
  fst (client_asks [AskFrame; AskMessage; AskFrame] mixed_client)
  = map Ok [GotFrame (mk_df true (false, false, false) Ping []); GotMessage (OText (str "ab"));
            GotFrame (mk_df true (false, false, false) Text (str "c"))].
Proof. reflexivity. Qed.

(** [C71] And the other way round: whichever way a program wants to use the frames that
    arrive, asking for it it gets exactly that, and reading stops right after the last frame
    used. *)
Theorem mixed_complete : forall buf s w h om im max_df max_msg gs fs p' ws rest,
  reading_under (capped max_msg) [] gs fs p' -> on_wire im fs ws -> fits (capped max_df) fs ->
  carries (push_back buf s) (ws ++ rest) -> gs <> [] ->
  exists s', client_asks (map asked gs) (unchecked_with_limits buf s w h om im max_df max_msg)
    = (map Ok gs, mk_client h (mk_sender om) (with_buffer (receiver_with_limits im max_df max_msg) p') [] s' w) /\
    carries s' rest.
Proof. exact ThmMixed.mixed_complete_proof. Qed.
Print Assumptions mixed_complete.

(** The hypotheses of [mixed_complete] for the conversation above. *)
Example mixed_complete_ex :
  reading_under (capped 1000) []
    [GotFrame (mk_df true (false, false, false) Ping []); GotMessage (OText (str "ab"))]
    [mk_df true (false, false, false) Ping []; mk_df false (false, false, false) Text (str "a");
     mk_df true (false, false, false) Continuation (str "b")] [].
Proof.
  constructor. apply (under_message _ [] [mk_df false (false, false, false) Text (str "a")]
                       [mk_df false (false, false, false) Text (str "a")]
                       (mk_df true (false, false, false) Continuation (str "b")) _ [] [] [] []).
  - apply del_fragment; [reflexivity..| |constructor]. split; intros; [discriminate|reflexivity].
  - apply (del_message _ _ [] (OText (str "ab")) [] []); [facts| |apply del_nil].
    apply (frag_many (OText (str "ab")) (str "a") _ (str "b")); [intros []|constructor|reflexivity].
  - cbn. facts.
  - constructor.
Qed.
