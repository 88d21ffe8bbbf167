(** Frames and messages read from one client: C71. *)
From Coq Require Import NArith ZArith String Bool List Lia.
From Coq Require Import ZifyBool ZifyNat ZifyN.
From Coq.Strings Require Import Byte.
From Verif.Model Require Import Base Io Header Mask Dataframe Headers Message Receiver Codec Connect.
From Verif.Spec Require Import RfcFrame FrameSpec Schedule Unicode Drive Session Wire Mixed.
From Verif.Proofs Require Import BaseFacts MaskFacts HeaderFacts FrameFacts CodecFacts ScriptFacts
  Machine Utf8Facts ThmFrames ThmStream SessionFacts RecvFacts MessageFacts ThmMessages ExTac.
Import ListNotations.
Local Open Scope string_scope.
Local Open Scope list_scope.
Local Open Scope N_scope.

Lemma results_1 : forall p f, results p [f] = match step p f with (Some o, b) => ([o], b) | (None, b) => ([], b) end.
Proof. intros p f. cbn [results]. destruct (step p f) as [[o|] b]; reflexivity. Qed.
Lemma advance_cut : forall fs p o b, advance p fs = Some (o, b, []) ->
  exists gs f p0, fs = gs ++ [f] /\ results p gs = ([], p0) /\ results p0 [f] = ([o], b).
Proof.
  induction fs as [|f fs IH]; intros p o b H; cbn [advance] in H; [discriminate|].
  destruct (step p f) as [[o1|] b1] eqn:E.
  - injection H as -> -> ->. exists [], f, p. split; [reflexivity|]. split; [reflexivity|].
    rewrite results_1, E. reflexivity.
  - apply IH in H as (gs & f0 & p0 & -> & H1 & H2). exists (f :: gs), f0, p0. split; [reflexivity|].
    split; [|exact H2]. cbn [results]. rewrite E. exact H1.
Qed.
Lemma advance_mend : forall gs p p0 f o b, results p gs = ([], p0) -> results p0 [f] = ([o], b) ->
  advance p (gs ++ [f]) = Some (o, b, []).
Proof.
  induction gs as [|g gs IH]; intros p p0 f o b H1 H2; cbn [results app advance] in *.
  - injection H1 as <-. destruct (step p f) as [[o1|] b1]; congruence.
  - destruct (step p g) as [[o1|] b1].
    + destruct (results b1 gs). discriminate.
    + eapply IH; eauto.
Qed.

Lemma push_back_nil : forall s, push_back [] s = s.
Proof. reflexivity. Qed.
Definition todo (c : client) : script := push_back (c_buf c) (c_in c).

Lemma wire_final : forall m d l, wire_ok m d l -> Forall ctl_final (map fst l).
Proof.
  intros m d l H. apply Forall_map. eapply Forall_impl; [|exact H]. intros [f k] [[_ G] _] H8. apply G, H8.
Qed.

Lemma asks_sound : forall qs c gs c', r_max_df (c_receiver c) <= isize_max -> pend_ok (r_buffer (c_receiver c)) ->
  client_asks qs c = (map Ok gs, c') ->
  map asked gs = qs /\
  exists l, flat (todo c) = encs l ++ flat (todo c') /\
    wire_ok (r_mask (c_receiver c)) (r_max_df (c_receiver c)) l /\
    reading (r_buffer (c_receiver c)) gs (map fst l) (r_buffer (c_receiver c')).
Proof.
  induction qs as [|q qs IH]; intros c gs c' Hm Hp H; cbn [client_asks] in H.
  - destruct gs; [|discriminate]. injection H as <-. split; [reflexivity|]. exists [].
    split; [reflexivity|]. split; constructor.
  - destruct q.
    + unfold client_recv_frame in H. fold (todo c) in H.
      destruct (recv_dataframe (c_receiver c) (todo c)) as [[f|e| |] s1] eqn:E;
        destruct (client_asks qs _) as [xs c2] eqn:EQ in H; destruct gs as [|g gs]; try discriminate.
      cbn [map] in H. injection H as <- -> ->.
      apply recv_dataframe_len in E as (key & E1 & E2 & E3 & E4 & _); [|exact Hm].
      apply IH in EQ as (Q1 & l & L1 & L2 & L3); [|exact Hm|exact Hp]. cbn [c_receiver] in L2, L3.
      unfold todo at 1 in L1. cbn [c_buf c_in] in L1. rewrite push_back_nil in L1.
      split; [cbn; congruence|]. exists ((f, key) :: l). rewrite encs_cons, <- app_assoc, <- L1. cbn [fst snd map].
      split; [exact E1|]. split; [|constructor; exact L3]. constructor; [|exact L2]. cbn [fst snd]. auto.
    + unfold client_recv in H. fold (todo c) in H.
      pose proof (recv_message_any (c_receiver c) (todo c) Hm) as HA.
      destruct (recv_message (c_receiver c) (todo c)) as [[[m|e| |] r1] s1] eqn:E;
        destruct (client_asks qs _) as [xs c2] eqn:EQ in H; destruct gs as [|g gs]; try discriminate.
      cbn [map] in H. injection H as <- -> ->.
      destruct HA as (l1 & A1 & A2 & A3 & A4).
      pose proof (wire_final _ _ _ A2) as HC.
      destruct (advance_cut _ _ _ _ A3) as (g1 & f & p0 & G1 & G2 & G3).
      rewrite G1 in HC. apply Forall_app in HC as [HC1 HC2].
      change (@nil (result owned ws_error)) with (map (@Ok owned ws_error) []) in G2.
      change [@Ok owned ws_error m] with (map (@Ok owned ws_error) [m]) in G3.
      apply results_delivers in G2 as [D1 P1]; auto. apply results_delivers in G3 as [D2 P2]; auto.
      apply IH in EQ as (Q1 & l & L1 & L2 & L3); cbn [c_receiver]; [|rewrite A4; exact Hm|exact P2].
      cbn [c_receiver] in L2, L3.
      unfold todo at 1 in L1. cbn [c_buf c_in] in L1. rewrite push_back_nil in L1.
      split; [cbn; congruence|]. exists (l1 ++ l). rewrite encs_app, <- app_assoc, <- L1.
      split; [exact A1|]. split.
      * apply Forall_app. split; [exact A2|]. rewrite A4 in L2. exact L2.
      * assert (map fst (l1 ++ l) = g1 ++ f :: map fst l) as ->.
        { etransitivity; [apply map_app|]. etransitivity; [exact (f_equal (fun z => z ++ map fst l) G1)|].
          rewrite <- app_assoc. reflexivity. }
        econstructor; eauto.
Qed.

(** [C71] A program that calls [recv_dataframe] and [recv_message] of one client in whatever
    order, over whatever transport: as long as no call fails, the bytes used are those of legal
    frames, masked as this role requires, and every frame was used by exactly one call, in
    order. *)
Lemma mixed_sound_proof : forall buf s w h om im max_df max_msg qs gs c' l,
  contains s l ->
  client_asks qs (unchecked_with_limits buf s w h om im max_df max_msg) = (map Ok gs, c') ->
  map asked gs = qs /\
  exists fs ws rest, buf ++ l = ws ++ rest /\ contains (push_back (c_buf c') (c_in c')) rest /\
    on_wire im fs ws /\ fits (capped max_df) fs /\ reading [] gs fs (r_buffer (c_receiver c')).
Proof.
  intros buf s w h om im max_df max_msg qs gs c' l Hl H. apply contains_iff in Hl. subst l.
  apply asks_sound in H as (H1 & l & L1 & L2 & L3); [|apply (capped_isize max_df)|constructor].
  split; [exact H1|]. exists (map fst l), (encs l), (flat (todo c')).
  unfold todo at 1 in L1. cbn [c_buf c_in unchecked_with_limits] in L1. rewrite flat_push_back in L1.
  split; [exact L1|]. split; [apply contains_iff; reflexivity|].
  unfold unchecked_with_limits, receiver_with_limits in L2. cbn [c_receiver r_mask r_max_df] in L2. rewrite capped_eq in L2.
  split; [exact (encs_on_wire _ _ _ L2)|]. split; [exact (wire_ok_fits _ _ _ L2)|]. exact L3.
Qed.

(*EX
Definition mixed_client : client :=
  unchecked_with_limits [x89; x00] [RData x01 [x01; x61; x80]; RIntr; RData x01 [x62; x81; x01; x63]] (mk_w [] []) [] true false 100 1000.
(** A frame, a message of two frames, a frame. *)
Example mixed_sound_ex :
  fst (client_asks [AskFrame; AskMessage; AskFrame] mixed_client)
  = map Ok [GotFrame (mk_df true (false, false, false) Ping []); GotMessage (OText (str "ab"));
            GotFrame (mk_df true (false, false, false) Text (str "c"))].
Proof. reflexivity. Qed.
EX*)

Lemma asks_complete : forall lim p gs fs p', reading_under lim p gs fs p' ->
  forall c l rest, r_buffer (c_receiver c) = p -> r_max_msg (c_receiver c) = lim ->
  map fst l = fs -> clean (todo c) -> flat (todo c) = encs l ++ rest ->
  wire_ok (r_mask (c_receiver c)) (r_max_df (c_receiver c)) l -> r_max_df (c_receiver c) <= u32_max ->
  exists s', client_asks (map asked gs) c =
    (map Ok gs, mk_client (c_headers c) (c_sender c) (with_buffer (c_receiver c) p') (match gs with [] => c_buf c | _ => [] end) s' (c_out c)) /\
    (let b := match gs with [] => c_buf c | _ => [] end in clean (push_back b s') /\ flat (push_back b s') = rest).
Proof.
  intros lim p gs fs p' H.
  induction H as [p|p f gs fs p' H IH|p fs1 p1 f m p2 gs fs p' D1 D2 HU H IH];
    intros c l rest Hb Hlim Hl Hc Hf Hw Hu.
  - destruct l; [|discriminate]. exists (c_in c). cbn [map client_asks]. subst p. rewrite with_buffer_same.
    split; [destruct c; reflexivity|]. split; [exact Hc|exact Hf].
  - destruct l as [|[f0 key] l]; [discriminate|]. cbn [map fst] in Hl. injection Hl as -> Hl.
    inversion Hw as [|? ? (W1 & W2 & W3) Hw']; subst. cbn [fst snd] in *.
    rewrite encs_cons, <- app_assoc in Hf. cbn [fst snd] in Hf.
    destruct (recv_dataframe_enc _ _ _ _ _ Hc Hf W1 W2 W3 Hu) as (s1 & E1 & E2 & E3).
    specialize (IH (mk_client (c_headers c) (c_sender c) (c_receiver c) [] s1 (c_out c)) l rest
                  eq_refl eq_refl eq_refl E2 E3 Hw' Hu).
    cbn [c_headers c_sender c_receiver c_buf c_out] in IH. destruct IH as (s' & I1 & I2).
    exists s'. cbn [map asked client_asks]. unfold client_recv_frame. fold (todo c). rewrite E1. cbn [fst snd].
    rewrite I1. split; [destruct gs; reflexivity|]. destruct gs; exact I2.
  - replace (fs1 ++ f :: fs) with ((fs1 ++ [f]) ++ fs) in Hl by (rewrite <- app_assoc; reflexivity).
    apply map_eq_app in Hl as (l1 & l2 & -> & Hl1 & Hl2).
    apply Forall_app in Hw as [Hw1 Hw2]. rewrite encs_app, <- app_assoc in Hf.
    apply delivers_results in D1, D2. cbn [map] in D1, D2.
    pose proof (advance_mend _ _ _ _ _ _ D1 D2) as HA. rewrite <- Hl1, <- Hb in HA.
    rewrite <- Hl1, <- Hb, <- Hlim in HU. apply under_within in HU.
    destruct (recv_message_advance l1 (c_receiver c) (todo c) (encs l2 ++ rest) _ _ _ Hc Hf Hw1 Hu HU HA)
      as (l' & s1 & E1 & E2 & _ & E4 & E5).
    symmetry in E2. apply map_eq_nil in E2. subst l'. cbn [app] in E5.
    change (encs []) with (@nil byte) in E5. cbn [app] in E5.
    specialize (IH (mk_client (c_headers c) (c_sender c) (with_buffer (c_receiver c) p2) [] s1 (c_out c)) l2 rest
                  eq_refl Hlim Hl2 E4 E5 Hw2 Hu).
    cbn [c_headers c_sender c_receiver c_buf c_out] in IH. destruct IH as (s' & I1 & I2).
    exists s'. cbn [map asked client_asks]. unfold client_recv. fold (todo c). rewrite E1. cbn [fst snd].
    rewrite I1. split; [destruct gs; reflexivity|]. destruct gs; exact I2.
Qed.

(** [C71] And the other way round: whichever way a program wants to use the frames that
    arrive, asking for it it gets exactly that, and reading stops right after the last frame
    used. *)
Lemma mixed_complete_proof : forall buf s w h om im max_df max_msg gs fs p' ws rest,
  reading_under (capped max_msg) [] gs fs p' -> on_wire im fs ws -> fits (capped max_df) fs ->
  carries (push_back buf s) (ws ++ rest) -> gs <> [] ->
  exists s', client_asks (map asked gs) (unchecked_with_limits buf s w h om im max_df max_msg)
    = (map Ok gs, mk_client h (mk_sender om) (with_buffer (receiver_with_limits im max_df max_msg) p') [] s' w) /\
    carries s' rest.
Proof.
  intros buf s w h om im max_df max_msg gs fs p' ws rest HR HW HF HC Hg. apply carries_iff in HC as [Hc Hf].
  destruct (on_wire_ok _ _ _ _ HW HF) as (l & L1 & -> & L3).
  rewrite <- capped_eq in HR, L3.
  destruct (asks_complete _ _ _ _ _ HR (unchecked_with_limits buf s w h om im max_df max_msg) l rest
              eq_refl eq_refl L1 Hc Hf L3 (capped_u32 max_df)) as (s' & E1 & E2).
  exists s'. destruct gs as [|g gs]; [contradiction|]. split; [exact E1|]. apply carries_iff. exact E2.
Qed.

(*EX
(** The hypotheses of [mixed_complete] for the conversation above. *)
Example mixed_complete_ex :
  reading_under (capped 1000) []
    [GotFrame (mk_df true (false, false, false) Ping []); GotMessage (OText (str "ab"))]
    [mk_df true (false, false, false) Ping []; mk_df false (false, false, false) Text (str "a");
     mk_df true (false, false, false) Continuation (str "b")] [].
Proof.
  constructor. apply (under_message _ [] [mk_df false (false, false, false) Text (str "a")]
                       [mk_df false (false, false, false) Text (str "a")]
                       (mk_df true (false, false, false) Continuation (str "b")) _ [] [] [] []).
  - apply del_fragment; [reflexivity..| |constructor]. split; intros; [discriminate|reflexivity].
  - apply (del_message _ _ [] (OText (str "ab")) [] []); [facts| |apply del_nil].
    apply (frag_many (OText (str "ab")) (str "a") _ (str "b")); [intros []|constructor|reflexivity].
  - cbn. facts.
  - constructor.
Qed.
EX*)

(** [C71, refuted] One would hope that every message returned is one the peer sent.  But a
    frame asked for while a message is half read (a control message came in between) is
    taken out of that message, and the rest is handed out as if it were whole. *)
Lemma mixed_whole_refuted_proof : exists items ws s qs gs c',
  Forall (item_ok (capped 1000) (capped 1000)) items /\
  on_wire false (concat (map item_frames items)) ws /\ carries s ws /\
  client_asks qs (unchecked_with_limits [] s (mk_w [] []) [] true false 1000 1000) = (map Ok gs, c') /\
  exists m, In (GotMessage m) gs /\ ~ In m (concat (map item_delivered items)).
Proof.
  set (items := [IData (Build_cut_message true (str "a") [([OPing []], str "b"); ([], str "c")])]).
  set (fs := concat (map item_frames items)).
  exists items, [x01; x01; x61; x89; x00; x00; x01; x62; x80; x01; x63],
    [RData x01 [x01; x61; x89; x00; x00; x01; x62; x80; x01; x63]],
    [AskMessage; AskFrame; AskMessage],
    [GotMessage (OPing []); GotFrame (mk_df false (false, false, false) Continuation (str "b"));
     GotMessage (OText (str "ac"))].
  eexists. split.
  { constructor; [|constructor]. repeat split; try (apply utf8_valid_iff; reflexivity); repeat constructor; cbn; try discriminate; try lia. }
  split.
  { unfold fs, items. cbn.
    apply (wire_cons false _ None [x01; x01; x61]); [reflexivity..|].
    apply (wire_cons false _ None [x89; x00]); [reflexivity..|].
    apply (wire_cons false _ None [x00; x01; x62]); [reflexivity..|].
    apply (wire_cons false _ None [x80; x01; x63]); [reflexivity..|]. constructor. }
  split. { exact (carries_data x01 _ [] [] carries_nil). }
  split; [vm_compute; reflexivity|].
  exists (OText (str "ac")). split; [cbn; tauto|]. cbn. intros [H|[H|[]]]; discriminate.
Qed.
