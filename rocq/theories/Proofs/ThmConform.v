(** Conformance with RFC 6455, sections 5 and 7: C91. *)
From Coq Require Import NArith ZArith String Bool List Lia.
From Coq Require Import ZifyBool ZifyNat ZifyN.
From Coq.Strings Require Import Byte.
From Verif.Model Require Import Base Io Header Mask Dataframe Utf8 Message Receiver Codec Framed.
From Verif.Spec Require Import RfcFrame FrameSpec Schedule Unicode Drive Session Sink Conform Saying.
From Verif.Proofs Require Import BaseFacts MaskFacts HeaderFacts FrameFacts CodecFacts ScriptFacts
  Machine FramedFacts AsyncFacts Utf8Facts ThmFrames ThmStream SessionFacts RecvFacts MessageFacts ExTac ThmMessages ThmFlow ThmAfter.
Import ListNotations.
Local Open Scope string_scope.
Local Open Scope list_scope.
Local Open Scope N_scope.

(** ** Progress of the frames kept *)
Definition clean (f : dataframe) : bool := match f_reserved f with (false, false, false) => true | _ => false end.
Definition starts (f : dataframe) : bool := match f_opcode f with Text | Binary => true | _ => false end.
Definition stands (p : list dataframe) : progress :=
  match p with
  | [] => Between
  | f :: r => if clean f && starts f && forallb clean r then Within (rfc_opcode (f_opcode f)) (octets (concat (map f_data p)))
              else Doomed
  end.
Definition chain (p : list dataframe) : Prop :=
  Forall (fun f => f_finished f = false) p /\
  match p with
  | [] => True
  | f :: r => f_opcode f <> Continuation /\ control_opcode (f_opcode f) = false /\ Forall (fun g => f_opcode g = Continuation) r
  end.
Lemma clean_bits : forall f, clean f = true <-> no_bits (bare f).
Proof.
  intros [fin [[[] []] []] o d]; unfold clean, no_bits, bare, rfc_of_frame, rfc_of; cbn; split; intros; auto;
    try discriminate; destruct H as (?&?&?); discriminate.
Qed.
Lemma bare_op : forall f, rf_opcode (bare f) = rfc_opcode (f_opcode f).
Proof. intros [fin [[r1 r2] r3] o d]. reflexivity. Qed.
Lemma bare_fin : forall f, rf_fin (bare f) = f_finished f.
Proof. intros [fin [[r1 r2] r3] o d]. reflexivity. Qed.
Lemma bare_data : forall f, rf_payload (bare f) = octets (f_data f).
Proof. intros [fin [[r1 r2] r3] o d]. reflexivity. Qed.

Lemma fragment_says : forall p f, chain p -> f_finished f = false -> control_opcode (f_opcode f) = false ->
  (p = [] <-> f_opcode f <> Continuation) ->
  chain (p ++ [f]) /\ frame_says lax (stands p) (bare f) [] (stands (p ++ [f])).
Proof.
  intros p f [HC1 HC2] Hf Ho Hp. destruct p as [|g r].
  - destruct Hp as [Hp _]. specialize (Hp eq_refl). cbn [app]. split.
    { split; [constructor; [exact Hf|constructor]|]. repeat split; auto. }
    cbn [stands forallb map concat]. rewrite app_nil_r. rewrite andb_true_r.
    destruct (clean f) eqn:EC; cbn [andb]; [destruct (starts f) eqn:ES|].
    + rewrite <- bare_op, <- bare_data. apply says_first.
      * apply clean_bits, EC.
      * rewrite bare_op. clear - ES. unfold starts in ES. destruct (f_opcode f); try discriminate ES; [left|right]; reflexivity.
      * rewrite bare_fin. exact Hf.
    + apply dooms_first; [reflexivity| |rewrite bare_fin; exact Hf|].
      * rewrite bare_op. clear - Ho Hp. destruct (f_opcode f); try discriminate Ho; cbn; try lia. contradiction.
      * rewrite bare_op. clear - ES Hp. unfold starts in ES. intros [_ H].
        destruct (f_opcode f); try discriminate ES; cbn in H; try lia. apply Hp. reflexivity.
    + apply dooms_first; [reflexivity| |rewrite bare_fin; exact Hf|].
      * rewrite bare_op. clear - Ho Hp. destruct (f_opcode f); try discriminate Ho; cbn; try lia. contradiction.
      * rewrite <- clean_bits, EC. intros [H _]. discriminate H.
  - assert (f_opcode f = Continuation) as EF.
    { destruct Hp as [_ Hp]. destruct (f_opcode f) eqn:E; try reflexivity; exfalso; (assert (g :: r = []) as X by (apply Hp; discriminate)); discriminate X. }
    destruct HC2 as (G1 & G2 & G3). split.
    { split; [apply Forall_app; split; [exact HC1|constructor; [exact Hf|constructor]]|]. cbn [app].
      split; [exact G1|]. split; [exact G2|]. apply Forall_app. split; [exact G3|]. constructor; [exact EF|constructor]. }
    assert (rf_opcode (bare f) = 0) as E0 by (rewrite bare_op, EF; reflexivity).
    cbn [stands app]. rewrite forallb_app. cbn [forallb]. rewrite andb_true_r.
    destruct (clean g && starts g) eqn:E1; cbn [andb].
    + destruct (forallb clean r) eqn:E2; cbn [andb].
      * destruct (clean f) eqn:E3.
        -- replace (octets (concat (map f_data (g :: r ++ [f])))) with (octets (concat (map f_data (g :: r))) ++ rf_payload (bare f)).
           ++ apply says_more; [apply clean_bits, E3|exact E0|rewrite bare_fin; exact Hf].
           ++ rewrite bare_data. change (g :: r ++ [f]) with ((g :: r) ++ [f]). rewrite map_app, concat_app, octets_app. cbn [map concat]. rewrite app_nil_r. reflexivity.
        -- apply dooms_more; [reflexivity|exact E0|rewrite bare_fin; exact Hf|]. rewrite <- clean_bits, E3. discriminate.
      * apply doomed_more; [reflexivity|exact E0|rewrite bare_fin; exact Hf].
    + apply doomed_more; [reflexivity|exact E0|rewrite bare_fin; exact Hf].
Qed.

Lemma continuations_inv : forall fs d, continuations fs d ->
  forallb clean fs = true /\ concat (map f_data fs) = d /\ Forall (fun f => f_opcode f = Continuation) fs /\
  exists a f, fs = a ++ [f] /\ f_finished f = true /\ Forall (fun f => f_finished f = false) a.
Proof.
  intros fs d H. induction H as [d|d fs ds H (I1 & I2 & I3 & a & f & I4 & I5 & I6)].
  - cbn. rewrite app_nil_r. repeat split; auto. exists [], (mk_df true (false,false,false) Continuation d). repeat split; auto.
  - cbn [forallb map concat clean f_reserved f_data]. rewrite I1, I2. repeat split; auto.
    exists (mk_df false (false, false, false) Continuation d :: a), f. subst fs. repeat split; auto.
Qed.
Lemma message_says : forall p f m, chain p -> typed m -> fragments m (p ++ [f]) ->
  frame_says lax (stands p) (bare f) [saying_of m] Between.
Proof.
  intros p f m HC Ht HF. remember (p ++ [f]) as l eqn:EL. destruct HF as [m Hm|m d fs ds Hm HK HP].
  - destruct p as [|g p]; [|destruct p; discriminate EL]. injection EL as <-. cbn [stands].
    unfold saying_of. replace (rfc_opcode (opcode_of m)) with (rf_opcode (bare (whole_frame m))) by reflexivity.
    replace (octets (payload_of m)) with (rf_payload (bare (whole_frame m))) by reflexivity.
    apply says_whole; [repeat split| |reflexivity|].
    + destruct m; cbn in *; auto; destruct (Hm I).
    + unfold message_data. cbn. destruct m; cbn in *; auto; discriminate.
  - destruct p as [|g r]; cbn [app] in EL.
    { injection EL as <- ->. inversion HK. }
    injection EL as <- ->. apply continuations_inv in HK as (K1 & K2 & K3 & a & f' & K4 & K5 & K6).
    apply app_inj_tail in K4 as [<- <-].
    rewrite forallb_app in K1. apply andb_true_iff in K1 as [K1 K1']. cbn [forallb] in K1'. rewrite andb_true_r in K1'.
    apply Forall_app in K3 as [K3 K3']. apply Forall_inv in K3'.
    cbn [stands]. rewrite K1.
    assert (starts (mk_df false (false, false, false) (opcode_of m) d) = true) as ES by (destruct m; cbn in *; auto; destruct (Hm I)).
    rewrite ES. cbn [clean f_reserved andb f_opcode].
    assert (octets (payload_of m) = octets (concat (map f_data (mk_df false (false, false, false) (opcode_of m) d :: r))) ++ rf_payload (bare f)) as EP.
    { rewrite bare_data, <- octets_app. f_equal. rewrite HP. cbn [map concat f_data]. rewrite <- app_assoc. f_equal.
      rewrite <- K2, map_app, concat_app. cbn [map concat]. rewrite app_nil_r. reflexivity. }
    unfold saying_of. rewrite EP. apply says_last.
    + apply clean_bits, K1'.
    + rewrite bare_op, K3'. reflexivity.
    + rewrite bare_fin. exact K5.
    + rewrite <- EP. unfold message_data. destruct m; cbn in *; auto; discriminate.
Qed.
Lemma octet_n : forall n, n < 256 -> Byte.to_N (octet n) = n.
Proof.
  intros n H. unfold octet. destruct (Byte.of_N n) eqn:E.
  - apply Byte.to_of_N. exact E.
  - apply Byte.of_N_None_iff in E. lia.
Qed.
Lemma close_code : forall c reason, c < 2 ^ 16 ->
  octets (octet (c / 256) :: octet (c mod 256) :: reason) = c / 256 :: c mod 256 :: octets reason.
Proof.
  intros c reason H. cbn [octets map]. rewrite !octet_n; [reflexivity|apply N.mod_lt; lia|].
  apply N.div_lt_upper_bound; [lia|]. change (256 * 256) with (2 ^ 16). exact H.
Qed.
Lemma control_says : forall m st, control_message m -> typed m -> st <> Ended ->
  frame_says lax st (bare (whole_frame m)) [saying_of m] st.
Proof.
  intros m st Hc Ht Hs. destruct m as [s|s|c|s|s]; try destruct Hc.
  - unfold saying_of. change (rfc_opcode (opcode_of (OClose c))) with 8.
    change (octets (payload_of (OClose c))) with (rf_payload (bare (whole_frame (OClose c)))).
    change st with (if talk_on lax then st else Ended) at 2. apply says_close; [exact Hs|repeat split|reflexivity|].
    destruct c as [[st0 rs]|]; [|constructor]. destruct Ht as [Ht1 Ht2]. cbn [c_status c_reason] in Ht1, Ht2.
    change (close_data lax (octets (octet (st0 / 256) :: octet (st0 mod 256) :: rs))). pose proof (close_code st0 rs Ht1) as EC.
    rewrite EC. constructor; [left; reflexivity|exact Ht2].
  - change (saying_of (OPing s)) with (rf_opcode (bare (whole_frame (OPing s))), rf_payload (bare (whole_frame (OPing s)))).
    apply says_ping; [exact Hs|repeat split|left; reflexivity].
  - change (saying_of (OPong s)) with (rf_opcode (bare (whole_frame (OPong s))), rf_payload (bare (whole_frame (OPong s)))).
    apply says_ping; [exact Hs|repeat split|right; reflexivity].
Qed.
Lemma stands_goes_on : forall p, stands p <> Ended.
Proof. intros [|f r]; cbn [stands]; [discriminate|]. destruct (clean f && starts f && forallb clean r); discriminate. Qed.

Lemma delivers_conforms : forall p fs ms p', delivers p fs ms p' -> chain p -> Forall (fun f => rfc_legal (bare f)) fs ->
  chain p' /\ conforms lax (stands p) (map bare fs) (map saying_of ms) (stands p').
Proof.
  intros p fs ms p' H. induction H as [p|p m fs ms p' Hc Ht H IH|p f fs ms p' H1 H2 H3 H IH|p f fs m ms p' Ht Hf H IH]; intros HC HL.
  - split; [exact HC|constructor].
  - destruct (IH HC (Forall_inv_tail HL)) as [I1 I2]. split; [exact I1|]. cbn [map].
    change (saying_of m :: map saying_of ms) with ([saying_of m] ++ map saying_of ms).
    econstructor; [exact (Forall_inv HL)| |exact I2]. apply control_says; auto. apply stands_goes_on.
  - destruct (fragment_says p f HC H1 H2 H3) as [F1 F2].
    destruct (IH F1 (Forall_inv_tail HL)) as [I1 I2]. split; [exact I1|]. cbn [map].
    change (map saying_of ms) with ([] ++ map saying_of ms). econstructor; [exact (Forall_inv HL)|exact F2|exact I2].
  - assert (chain []) as HC0 by (split; [constructor|exact I]).
    destruct (IH HC0 (Forall_inv_tail HL)) as [I1 I2]. split; [exact I1|]. cbn [map].
    change (saying_of m :: map saying_of ms) with ([saying_of m] ++ map saying_of ms).
    econstructor; [exact (Forall_inv HL)|apply message_says; eauto|exact I2].
Qed.

(** ** The other way *)
Lemma bare_clean : forall f, no_bits (bare f) -> f = mk_df (f_finished f) (false, false, false) (f_opcode f) (f_data f).
Proof. intros [fin [[r1 r2] r3] o d] (H1 & H2 & H3). cbn in *. subst. reflexivity. Qed.
Lemma op_inj : forall o o', rfc_opcode o = rfc_opcode o' -> o = o'.
Proof. intros [] [] H; try reflexivity; discriminate H. Qed.
Lemma octet_back : forall b, octet (Byte.to_N b) = b.
Proof. intros b. unfold octet. rewrite Byte.of_to_N. reflexivity. Qed.
Lemma byte_bound : forall b, Byte.to_N b < 256.
Proof. intros b. pose proof (Byte.to_N_bounded b). lia. Qed.

Ltac progress_det :=
  repeat match goal with
  | H : ?a = ?b |- _ => first [discriminate H | injection H; clear H; intros]
  end; subst; try congruence; try lia; try tauto.
Lemma fragment_det : forall st f o1 s1 o2 s2, rf_fin f = false -> rf_opcode f < 8 ->
  frame_says lax st f o1 s1 -> frame_says lax st f o2 s2 -> o1 = o2 /\ s1 = s2.
Proof.
  intros st f o1 s1 o2 s2 Hf Ho H1 H2.
  destruct H1; inversion H2; subst; try (split; reflexivity); try congruence; try lia;
    exfalso; try tauto;
    repeat match goal with
    | H : ~ (no_bits ?f /\ rf_opcode ?f <= 2), H1 : no_bits ?f |- _ => apply H; split; [exact H1|lia]
    end.
Qed.

Lemma close_back : forall d, close_data lax (octets d) ->
  exists c, payload_of (OClose c) = d /\ typed (OClose c).
Proof.
  intros d H. inversion H as [E|a b reason _ HW E].
  - destruct d; [|discriminate E]. exists None. split; [reflexivity|exact I].
  - destruct d as [|x [|y d]]; try discriminate E. injection E as E1 E2 E3.
    pose proof (byte_bound x) as BX. pose proof (byte_bound y) as BY.
    exists (Some (mk_close (256 * Byte.to_N x + Byte.to_N y) d)). cbn [payload_of c_status c_reason]. split.
    + rewrite (N.mul_comm 256), N.div_add_l by lia. rewrite N.div_small by lia. rewrite N.add_0_r.
      rewrite N.add_comm, N.mod_add by lia. rewrite N.mod_small by lia. rewrite !octet_back. reflexivity.
    + cbn [typed c_status c_reason]. subst reason. split; [change (2 ^ 16) with 65536; lia|exact HW].
Qed.
Lemma continuations_make : forall r f, Forall (fun g => f_finished g = false) r -> Forall (fun g => f_opcode g = Continuation) r ->
  forallb clean r = true -> f_finished f = true -> f_opcode f = Continuation -> clean f = true ->
  continuations (r ++ [f]) (concat (map f_data (r ++ [f]))).
Proof.
  intros r f H1 H2 H3 F1 F2 F3. induction r as [|g r IH].
  - apply clean_bits in F3. apply bare_clean in F3. rewrite F1, F2 in F3. cbn [app map concat]. rewrite app_nil_r.
    rewrite F3 at 1. constructor.
  - cbn [forallb] in H3. apply andb_true_iff in H3 as [G3 H3]. apply clean_bits, bare_clean in G3.
    rewrite (Forall_inv H1), (Forall_inv H2) in G3. cbn [app map concat]. rewrite G3 at 1. constructor.
    apply IH; [exact (Forall_inv_tail H1)|exact (Forall_inv_tail H2)|exact H3].
Qed.

Lemma conforms_delivers : forall fs p out st, chain p -> conforms lax (stands p) (map bare fs) out st ->
  exists ms p', delivers p fs ms p' /\ map saying_of ms = out /\ stands p' = st /\ chain p'.
Proof.
  induction fs as [|f fs IH]; intros p out st HC H; cbn [map] in H.
  { inversion H; subst. exists [], p. repeat split; auto; try constructor; apply HC. }
  inversion H as [|st0 f0 out0 st1 fs0 outs st2 HL HS HR]; subst.
  assert (rf_opcode (bare f) < 8 -> rf_fin (bare f) = false -> out0 = [] -> 
          exists ms p', delivers p (f :: fs) ms p' /\ map saying_of ms = out0 ++ outs /\ stands p' = st /\ chain p') as FRAG.
  { intros Ho Hf ->. 
    assert (control_opcode (f_opcode f) = false) as Hc by (rewrite bare_op in Ho; clear - Ho; destruct (f_opcode f); cbn in *; try reflexivity; lia).
    assert (p = [] <-> f_opcode f <> Continuation) as Hp.
    { destruct p as [|g r]; split; intros X; try reflexivity; try discriminate X.
      - intros E. assert (rf_opcode (bare f) = 0) as E0 by (rewrite bare_op, E; reflexivity).
        cbn [stands] in HS. inversion HS; subst; lia.
      - exfalso. assert (rf_opcode (bare f) <> 0) as N0 by (rewrite bare_op; intros E; apply X; apply op_inj; exact E).
        cbn [stands] in HS. destruct (clean g && starts g && forallb clean r); inversion HS; subst; try lia. }
    rewrite bare_fin in Hf.
    destruct (fragment_says p f HC Hf Hc Hp) as [C1 S1].
    destruct (fragment_det _ _ _ _ _ _ (eq_trans (bare_fin f) Hf) Ho HS S1) as [_ ->].
    destruct (IH _ _ _ C1 HR) as (ms & p' & D & E & S & C). exists ms, p'. split; [|auto].
    apply del_fragment; auto. }
  assert (forall m, control_message m -> typed m -> f = whole_frame m -> out0 = [saying_of m] -> st1 = stands p ->
          exists ms p', delivers p (f :: fs) ms p' /\ map saying_of ms = out0 ++ outs /\ stands p' = st /\ chain p') as CTL.
  { intros m Hm Ht -> -> ->. destruct (IH _ _ _ HC HR) as (ms & p' & D & E & S & C). exists (m :: ms), p'.
    split; [apply del_control; auto|]. split; [cbn [map app]; f_equal; exact E|auto]. }
  assert (forall m, typed m -> fragments m (p ++ [f]) -> out0 = [saying_of m] -> st1 = Between ->
          exists ms p', delivers p (f :: fs) ms p' /\ map saying_of ms = out0 ++ outs /\ stands p' = st /\ chain p') as MSG.
  { intros m Ht HF -> ->. assert (chain []) as HC0 by (split; [constructor|exact I]).
    destruct (IH [] _ _ HC0 HR) as (ms & p' & D & E & S & C). exists (m :: ms), p'.
    split; [apply del_message; auto|]. split; [cbn [map app]; f_equal; exact E|auto]. }
  remember (stands p) as sp eqn:ESP. remember (bare f) as bf eqn:EBF.
  destruct HS as [st0 bf Hs Hb Ho|st0 bf Hs Hb Ho Hd|bf Hb Ho Hf Hd|bf Hb Ho Hf|op data bf Hb Ho Hf|op data bf Hb Ho Hf Hd|bf Hl Ho Hf Hb|op data bf Hl Ho Hf Hb|bf Hl Ho Hf]; subst bf.
  - pose proof (bare_clean _ Hb) as EF. assert (f_finished f = true) as Ef by (rewrite <- bare_fin; apply HL; lia).
    rewrite Ef in EF. rewrite bare_op, bare_data in *. destruct Ho as [Ho|Ho].
    + assert (f_opcode f = Ping) as Eo by (apply op_inj; exact Ho). rewrite Eo in EF.
      apply (CTL (OPing (f_data f))); [exact I|exact I|exact EF|rewrite Eo; reflexivity|reflexivity].
    + assert (f_opcode f = Pong) as Eo by (apply op_inj; exact Ho). rewrite Eo in EF.
      apply (CTL (OPong (f_data f))); [exact I|exact I|exact EF|rewrite Eo; reflexivity|reflexivity].
  - pose proof (bare_clean _ Hb) as EF. assert (f_finished f = true) as Ef by (rewrite <- bare_fin; apply HL; lia).
    rewrite Ef in EF. rewrite bare_op, bare_data in *.
    assert (f_opcode f = Close) as Eo by (apply op_inj; exact Ho). rewrite Eo in EF.
    destruct (close_back _ Hd) as (c & E1 & E2).
    apply (CTL (OClose c)); [exact I|exact E2| |unfold saying_of; rewrite E1; reflexivity|reflexivity].
    rewrite EF. unfold whole_frame. rewrite E1. reflexivity.
  - assert (p = []) as -> by (destruct p as [|g r]; [reflexivity|cbn [stands] in ESP; destruct (clean g && starts g && forallb clean r); discriminate ESP]).
    pose proof (bare_clean _ Hb) as EF. rewrite bare_fin in Hf. rewrite Hf in EF. rewrite bare_op, bare_data in *. destruct Ho as [Ho|Ho].
    + assert (f_opcode f = Text) as Eo by (apply op_inj; exact Ho). rewrite Eo in EF.
      apply (MSG (OText (f_data f))); [apply Hd; exact Ho| |rewrite Eo; reflexivity|reflexivity].
      cbn [app]. rewrite EF. apply (frag_whole (OText (f_data f))). exact (fun x => x).
    + assert (f_opcode f = Binary) as Eo by (apply op_inj; exact Ho). rewrite Eo in EF.
      apply (MSG (OBinary (f_data f))); [exact I| |rewrite Eo; reflexivity|reflexivity].
      cbn [app]. rewrite EF. apply (frag_whole (OBinary (f_data f))). exact (fun x => x).
  - apply FRAG; auto; lia.
  - apply FRAG; auto; lia.
  - destruct p as [|g r]; [discriminate ESP|]. cbn [stands] in ESP.
    destruct (clean g && starts g && forallb clean r) eqn:EC; [|discriminate ESP]. injection ESP as -> ->.
    apply andb_true_iff in EC as [EC EC3]. apply andb_true_iff in EC as [EC1 EC2].
    destruct HC as [HC1 (HC2 & HC3 & HC4)].
    assert (f_opcode f = Continuation) as Eo by (apply op_inj; rewrite <- bare_op; exact Ho).
    assert (continuations (r ++ [f]) (concat (map f_data (r ++ [f])))) as HK.
    { apply continuations_make; auto; [exact (Forall_inv_tail HC1)|rewrite <- bare_fin; exact Hf|apply clean_bits, Hb]. }
    pose proof (proj1 (clean_bits g) EC1) as Gb. apply bare_clean in Gb. rewrite (Forall_inv HC1) in Gb.
    rewrite bare_data, <- octets_app in Hd, MSG |- *.
    assert ((f_data g ++ concat (map f_data r)) ++ f_data f = f_data g ++ concat (map f_data (r ++ [f]))) as ED.
    { rewrite <- app_assoc. f_equal. rewrite map_app, concat_app. cbn [map concat]. rewrite app_nil_r. reflexivity. }
    rewrite ED in Hd, MSG |- *. unfold starts in EC2. destruct (f_opcode g) eqn:EG; try discriminate EC2.
    + apply (MSG (OText (f_data g ++ concat (map f_data (r ++ [f]))))); [apply Hd; reflexivity| |reflexivity|reflexivity].
      cbn [app]. rewrite Gb. eapply (frag_many (OText _)); [exact (fun x => x)|exact HK|reflexivity].
    + apply (MSG (OBinary (f_data g ++ concat (map f_data (r ++ [f]))))); [exact I| |reflexivity|reflexivity].
      cbn [app]. rewrite Gb. eapply (frag_many (OBinary _)); [exact (fun x => x)|exact HK|reflexivity].
  - apply FRAG; auto; lia.
  - apply FRAG; auto; lia.
  - apply FRAG; auto; lia.
Qed.

(** ** Rules left out *)
Lemma lax_close : forall R d, close_data R d -> close_data lax d.
Proof. intros R d H. destruct H; constructor; auto. Qed.
Lemma lax_frame : forall R st f out st1, frame_says R st f out st1 ->
  exists st2, frame_says lax st f out st2 /\ (st1 <> Ended -> st2 = st1).
Proof.
  intros R st f out st1 H.
  destruct H; try (eexists; split; [constructor; auto; fail|reflexivity]).
  exists st. split; [|destruct (talk_on R); [auto|intros X; destruct (X eq_refl)]].
  apply (says_close lax); auto. eapply lax_close; eauto.
Qed.
Lemma ended_says : forall R f out st, frame_says R Ended f out st -> False.
Proof. intros R f out st H. inversion H; subst; congruence. Qed.
Lemma lax_conforms : forall R st fs out st1, conforms R st fs out st1 ->
  exists st2, conforms lax st fs out st2 /\ (st1 <> Ended -> st2 = st1).
Proof.
  intros R st fs out st1 H. induction H as [st|st f out st1 fs outs st2 HL HS H (s3 & I1 & I2)].
  - exists st. split; [constructor|auto].
  - destruct (lax_frame _ _ _ _ _ HS) as (s1 & F1 & F2).
    assert (st1 = Ended \/ st1 <> Ended) as [E|E] by (destruct st1; auto; right; discriminate).
    + subst st1. inversion H; subst; [|exfalso; eapply ended_says; eauto].
      exists s1. split; [econstructor; [exact HL|exact F1|constructor]|]. congruence.
    + rewrite (F2 E) in F1. exists s3. split; [econstructor; eauto|exact I2].
Qed.
Lemma doomed_stays : forall fs out st, conforms lax Doomed fs out st -> st = Doomed.
Proof.
  induction fs as [|f fs IH]; intros out st H; inversion H as [|? ? ? ? ? ? ? HL HS HR]; subst; [reflexivity|].
  inversion HS; subst; try (eapply IH; eassumption).
Qed.
Lemma early_conforms : forall st fs out st1, conforms lax st fs out st1 -> st1 <> Doomed -> conforms lax_sender st fs out st1.
Proof.
  intros st fs out st1 H. induction H as [st|st f out st1 fs outs st2 HL HS H IH]; intros HD; [constructor|].
  specialize (IH HD). econstructor; [exact HL| |exact IH].
  destruct HS; try (constructor; auto; fail); try (exfalso; apply HD; eapply doomed_stays; eassumption).
  apply (says_close lax_sender); auto. match goal with X : close_data lax _ |- _ => destruct X; constructor; auto end.
Qed.

Lemma legal_small : forall f, size (f_data f) <= 125 -> f_finished f = true \/ control_opcode (f_opcode f) = false -> rfc_legal (bare f).
Proof.
  intros f Hs Hf. unfold rfc_legal, rfc_sendable. rewrite bare_op, bare_fin, bare_data. unfold octets. rewrite map_length.
  unfold size in Hs. split; [split; [destruct (f_opcode f); reflexivity|split; [assert (125 < 2 ^ 64) by reflexivity; lia|intros _; exact Hs]]|].
  intros H8. destruct Hf as [Hf|Hf]; [exact Hf|]. destruct (f_opcode f); cbn in *; try discriminate Hf; lia.
Qed.

(** ** Receiving *)
Lemma fits_legal : forall lim fs, fits lim fs -> Forall (fun f => rfc_legal (bare f)) fs.
Proof. intros lim fs H. eapply Forall_impl; [|exact H]. intros f Hf. apply Hf. Qed.
Lemma chain_nil : chain [].
Proof. split; [constructor|exact I]. Qed.
Lemma stands_nil : forall p, p = [] <-> stands p = Between.
Proof.
  intros [|f r]; cbn [stands]; split; auto; try discriminate.
  destruct (clean f && starts f && forallb clean r); discriminate.
Qed.

(** [C91] What a blocking receiver accepts conforms to the rules of RFC 6455 but three, and says
    what the receiver returns.  The three: it does not look at the code of a close frame, it goes
    on after one, and it looks at the reserved bits and the opcode of a fragment only when the
    message is complete.  So if it is not within a message, only the first two are left out. *)
Lemma received_conforms_blocking_proof : forall masked max_df max_msg n s l ms r' s',
  contains s l ->
  recv_n n (receiver_with_limits masked max_df max_msg) s = (map Ok ms, r', s') ->
  exists fs ws rest st, l = ws ++ rest /\ contains s' rest /\ on_wire masked fs ws /\
    conforms lax Between (map bare fs) (map saying_of ms) st /\
    (r_buffer r' = [] <-> st = Between) /\
    (st <> Doomed -> conforms lax_sender Between (map bare fs) (map saying_of ms) st).
Proof.
  intros masked max_df max_msg n s l ms r' s' Hc HR.
  destruct (received_only_legal_blocking_proof masked max_df max_msg n s l ms r' s' Hc HR) as (fs & ws & rest & E1 & E2 & E3 & E4 & E5).
  destruct (delivers_conforms _ _ _ _ E5 chain_nil (fits_legal _ _ E4)) as [C1 C2]. cbn [stands] in C2.
  exists fs, ws, rest, (stands (r_buffer r')). split; [exact E1|]. split; [exact E2|]. split; [exact E3|]. split; [exact C2|].
  split; [apply stands_nil|]. intros HD. exact (early_conforms _ _ _ _ C2 HD).
Qed.
(*EX
(** A text in two fragments with a ping between, and a close with the code 999. *)
Example received_conforms_ex :
  let l := [x01; x01; x61; x89; x00; x80; x01; x62; x88; x02; x03; xe7] in
  recv_n 3 (receiver_with_limits false 1000 1000) (push_back l [])
  = (map Ok [OPing []; OText (str "ab"); OClose (Some (mk_close 999 []))], receiver_with_limits false 1000 1000, []).
Proof. vm_compute. reflexivity. Qed. EX*)
(** [C91] And what an asynchronous one does. *)
Lemma received_conforms_async_proof : forall ctx max_df max_msg buf s l ms e,
  acontains s l ->
  run_messages (msg_codec_with_limits ctx max_df max_msg) buf s = (ms, e) ->
  exists fs ws rest st, buf ++ l = ws ++ rest /\ on_wire (receives_masked ctx) fs ws /\
    conforms lax Between (map bare fs) (map saying_of ms) st /\ (e = PEnd -> rest = []) /\
    (st <> Doomed -> conforms lax_sender Between (map bare fs) (map saying_of ms) st).
Proof.
  intros ctx max_df max_msg buf s l ms e Hc HR.
  destruct (received_only_legal_async_proof ctx max_df max_msg buf s l ms e Hc HR) as (fs & ws & rest & p & E1 & E2 & E3 & E4 & E5).
  destruct (delivers_conforms _ _ _ _ E4 chain_nil (fits_legal _ _ E3)) as [C1 C2]. cbn [stands] in C2.
  exists fs, ws, rest, (stands p). split; [exact E1|]. split; [exact E2|]. split; [exact C2|]. split; [exact E5|].
  intros HD. exact (early_conforms _ _ _ _ C2 HD).
Qed.

(*EX
(** The same bytes in two chunks. *)
Example received_conforms_async_ex :
  run_messages (msg_codec_with_limits CtxClient 1000 1000) [] [AData x01 [x01; x61; x89; x00]; ANotReady; AData x80 [x01; x62; x88; x02; x03; xe7]]
  = ([OPing []; OText (str "ab"); OClose (Some (mk_close 999 []))], PEnd).
Proof. vm_compute. reflexivity. Qed. EX*)

(** [C91] Conversely, whatever a peer says that keeps to RFC 6455, or to any choice of the rules,
    is received, as long as the limits are kept: every message, in order. *)
Lemma conforming_received_blocking_proof : forall R masked max_df max_msg fs out st ws s,
  conforms R Between (map bare fs) out st ->
  under (capped max_msg) [] fs -> Forall (fun f => size (f_data f) <= capped max_df) fs ->
  on_wire masked fs ws -> carries s ws ->
  exists ms r1 s1 r2 s2, map saying_of ms = out /\
    recv_n (length ms) (receiver_with_limits masked max_df max_msg) s = (map Ok ms, r1, s1) /\
    recv_message r1 s1 = (Err NoDataAvailable, r2, s2) /\ carries s2 [].
Proof.
  intros R masked max_df max_msg fs out st ws s HC HU HS HW Hs.
  assert (fits (capped max_df) fs) as HF.
  { clear - HC HS. revert HC. generalize Between as st0. revert out. induction HS as [|f fs Hf HS IH]; intros out st0 H; [constructor|].
    cbn [map] in H. inversion H as [|? ? ? ? ? ? ? HL H1 HR]; subst. constructor; [split; [exact HL|exact Hf]|]. eapply IH, HR. }
  destruct (lax_conforms _ _ _ _ _ HC) as (st2 & HC2 & _).
  destruct (conforms_delivers fs [] _ _ chain_nil HC2) as (ms & p & D & E & _).
  destruct (legal_frames_received_blocking_proof masked max_df max_msg fs ms p ws s D HU HF HW Hs) as (r1 & s1 & r2 & s2 & A & B & _ & C).
  exists ms, r1, s1, r2, s2. auto.
Qed.
(*EX
(** The same with the code 1000. *)
Example conforming_received_ex :
  let fs := [mk_df false (false, false, false) Text (str "a"); whole_frame (OPing []);
             mk_df true (false, false, false) Continuation (str "b"); whole_frame (OClose (Some (mk_close 1000 [])))] in
  conforms rfc6455 Between (map bare fs) [(9, []); (1, [0x61; 0x62]); (8, [3; 232])] Ended /\
  under (capped 1000) [] fs /\ Forall (fun f => size (f_data f) <= capped 1000) fs.
Proof.
  cbn zeta. split; [|split].
  - apply (says_on rfc6455 Between _ [] (Within 1 [0x61]) _ [(9, []); (1, [0x61; 0x62]); (8, [3; 232])]);
      [apply ThmConform.legal_small; [vm_compute; discriminate|auto]|apply (says_first rfc6455 (bare (mk_df false (false, false, false) Text (str "a")))); [repeat split|left; reflexivity|reflexivity]|].
    apply (says_on rfc6455 (Within 1 [0x61]) _ [(9, [])] (Within 1 [0x61]) _ [(1, [0x61; 0x62]); (8, [3; 232])]);
      [apply ThmConform.legal_small; [vm_compute; discriminate|auto]|apply (says_ping rfc6455 (Within 1 [0x61]) (bare (whole_frame (OPing [])))); [discriminate|repeat split|left; reflexivity]|].
    apply (says_on rfc6455 (Within 1 [0x61]) _ [(1, [0x61; 0x62])] Between _ [(8, [3; 232])]);
      [apply ThmConform.legal_small; [vm_compute; discriminate|auto]|apply (says_last rfc6455 1 [0x61] (bare (mk_df true (false, false, false) Continuation (str "b")))); [repeat split|reflexivity|reflexivity|intros _]|].
    { change (well_formed (octets (str "ab"))). apply ExTac.good_text. vm_compute. reflexivity. }
    apply (says_on rfc6455 Between _ [(8, [3; 232])] Ended _ []);
      [apply ThmConform.legal_small; [vm_compute; discriminate|auto]|apply (says_close rfc6455 Between (bare (whole_frame (OClose (Some (mk_close 1000 [])))))); [discriminate|repeat split|reflexivity|]|constructor].
    change (close_data rfc6455 [3; 232]). apply (code_and_reason rfc6455 3 232 []); [right; left; vm_compute; split; discriminate|].
    change (well_formed (octets (str ""))). apply ExTac.good_text. vm_compute. reflexivity.
  - vm_compute. repeat split; auto.
  - repeat constructor; vm_compute; discriminate.
Qed. EX*)
(** [C91] By the asynchronous receiver too. *)
Lemma conforming_received_async_proof : forall R ctx max_df max_msg fs out st ws s,
  conforms R Between (map bare fs) out st ->
  under (capped max_msg) [] fs -> Forall (fun f => size (f_data f) <= capped max_df) fs ->
  on_wire (receives_masked ctx) fs ws -> acarries s ws ->
  exists ms, map saying_of ms = out /\
    run_messages (msg_codec_with_limits ctx max_df max_msg) [] s = (ms, PEnd).
Proof.
  intros R ctx max_df max_msg fs out st ws s HC HU HS HW Hs.
  assert (fits (capped max_df) fs) as HF.
  { clear - HC HS. revert HC. generalize Between as st0. revert out. induction HS as [|f fs Hf HS IH]; intros out st0 H; [constructor|].
    cbn [map] in H. inversion H as [|? ? ? ? ? ? ? HL H1 HR]; subst. constructor; [split; [exact HL|exact Hf]|]. eapply IH, HR. }
  destruct (lax_conforms _ _ _ _ _ HC) as (st2 & HC2 & _).
  destruct (conforms_delivers fs [] _ _ chain_nil HC2) as (ms & p & D & E & _).
  exists ms. split; [exact E|]. eapply legal_frames_received_async_proof; eauto.
Qed.

(** ** Sending *)
Lemma whole_legal : forall m lim, lim <= 2 ^ 34 -> sendable lim m -> rfc_legal (bare (whole_frame m)).
Proof.
  intros m lim HL (Ht & Hs & Hc). split; [|reflexivity]. unfold rfc_sendable. rewrite bare_op, bare_data.
  unfold octets. rewrite map_length. cbn [whole_frame f_opcode f_data]. unfold size in *. split; [destruct m; reflexivity|].
  split; [assert (2 ^ 34 < 2 ^ 64) by reflexivity; lia|]. intros H8. apply Hc. destruct m; cbn in *; auto; lia.
Qed.
Lemma whole_conforms : forall ms, Forall (sendable (2 ^ 34)) ms ->
  conforms lax_sender Between (map (fun m => bare (whole_frame m)) ms) (map saying_of ms) Between.
Proof.
  intros ms H. rewrite <- map_map.
  assert (conforms lax Between (map bare (map whole_frame ms)) (map saying_of ms) Between) as HL.
  { pose proof (whole_results ms (2 ^ 34) H) as HD.
    apply (delivers_conforms _ _ _ _ HD chain_nil). apply Forall_map. eapply Forall_impl; [|exact H].
    intros m Hm. eapply whole_legal; [|exact Hm]. lia. }
  apply early_conforms; [exact HL|discriminate].
Qed.
Lemma whole_says : forall R m, typed m -> (any_code R = true \/ proper_close m) ->
  frame_says R Between (bare (whole_frame m)) [saying_of m]
    (match m with OClose _ => if talk_on R then Between else Ended | _ => Between end).
Proof.
  intros R m Ht Hp. destruct m as [s|s|c|s|s].
  - apply (says_whole R (bare (whole_frame (OText s)))); [repeat split|left; reflexivity|reflexivity|intros _; exact Ht].
  - apply (says_whole R (bare (whole_frame (OBinary s)))); [repeat split|right; reflexivity|reflexivity|intros X; discriminate X].
  - apply (says_close R Between (bare (whole_frame (OClose c)))); [discriminate|repeat split|reflexivity|].
    destruct c as [[st0 rs]|]; [|constructor]. destruct Ht as [Ht1 Ht2]. cbn [c_status c_reason] in Ht1, Ht2.
    change (close_data R (octets (octet (st0 / 256) :: octet (st0 mod 256) :: rs))). rewrite (close_code st0 rs Ht1).
    constructor; [|exact Ht2]. destruct Hp as [Hp|Hp]; [left; exact Hp|right]. cbn [proper_close c_status] in Hp.
    rewrite <- N.div_mod by lia. exact Hp.
  - apply (says_ping R Between (bare (whole_frame (OPing s)))); [discriminate|repeat split|left; reflexivity].
  - apply (says_ping R Between (bare (whole_frame (OPong s)))); [discriminate|repeat split|right; reflexivity].
Qed.
Lemma close_proper : forall c, typed (OClose c) -> close_data rfc6455 (octets (payload_of (OClose c))) -> proper_close (OClose c).
Proof.
  intros [[st0 rs]|] Ht H; [|exact I]. destruct Ht as [Ht1 Ht2]. cbn [c_status c_reason] in Ht1, Ht2.
  change (close_data rfc6455 (octets (octet (st0 / 256) :: octet (st0 mod 256) :: rs))) in H. rewrite (close_code st0 rs Ht1) in H.
  inversion H as [|a b reason [X|X] HW]; subst; [discriminate X|]. cbn [proper_close c_status]. rewrite <- N.div_mod in X by lia. exact X.
Qed.
Lemma strict_iff : forall ms, Forall (sendable (2 ^ 34)) ms ->
  ((exists out st, conforms rfc6455 Between (map (fun m => bare (whole_frame m)) ms) out st)
   <-> Forall proper_close ms /\ ends_closing ms).
Proof.
  intros ms H. induction H as [|m ms Hm H IH].
  - split; [|intros _; exists [], Between; constructor]. intros _. split; [constructor|]. intros [|x a] c b X; discriminate X.
  - pose proof (whole_legal m (2 ^ 34) ltac:(lia) Hm) as HL. destruct Hm as (Ht & Hs & Hc). split.
    + intros (out & st & X). cbn [map] in X. inversion X as [|st0 f out0 st1 fs outs st2 _ HS HR]; subst.
      destruct m as [s|s|c|s|s];
        try (assert (st1 = Between) as -> by (inversion HS; subst; try reflexivity; try discriminate;
               repeat match goal with H : _ \/ _ |- _ => destruct H end; discriminate);
             destruct (proj1 IH (ex_intro _ _ (ex_intro _ _ HR))) as [I1 I2];
             split; [constructor; [exact I|exact I1]|];
             intros [|x a] c b E; [discriminate E|injection E as _ E; exact (I2 _ _ _ E)]).
      assert (close_data rfc6455 (octets (payload_of (OClose c))) /\ st1 = Ended) as [HD ->].
      { inversion HS; subst; try (repeat match goal with H : _ \/ _ |- _ => destruct H end; discriminate). split; [assumption|reflexivity]. }
      assert (ms = []) as -> by (destruct ms; [reflexivity|cbn [map] in HR; inversion HR; subst; exfalso; eapply ended_says; eassumption]).
      split; [constructor; [apply close_proper; auto|constructor]|].
      intros [|x a] c0 b E; [injection E as _ <-; reflexivity|injection E as _ E; destruct a; discriminate E].
    + intros [HP HE]. pose proof (whole_says rfc6455 m Ht (or_intror (Forall_inv HP))) as HS.
      destruct m as [s|s|c|s|s];
        try (destruct (proj2 IH) as (out & st & HR); [split; [exact (Forall_inv_tail HP)|
               intros a c b E; eapply (HE (_ :: a) c b); rewrite E; reflexivity]|];
             eexists; eexists; cbn [map]; econstructor; [exact HL|exact HS|exact HR]).
      assert (ms = []) as -> by exact (HE [] _ ms eq_refl).
      eexists. eexists. cbn [map]. econstructor; [exact HL|exact HS|constructor].
Qed.

(** [C91] Messages sent by a blocking client or server: the frames keep to all of RFC 6455 but
    the first two rules, and to all of it exactly if the application gives close messages
    only codes fit to be sent, and sends nothing after one. *)
Lemma sent_conforms_blocking_proof : forall s (l : list (owned * mkey)) script,
  Forall (fun p => sendable (2 ^ 32) (fst p)) l ->
  let '(rs, w) := send_all s (map (fun p => (owned_ops (fst p), snd p)) l) (mk_w [] script) in
  Forall (fun r => r = Ok tt) rs ->
  let fs := map (fun p => bare (whole_frame (fst p))) l in
  octets (w_out w) = concat (map (fun p => rfc_encode (rfc_of_frame (whole_frame (fst p)) (if s_mask s then Some (snd p) else None))) l) /\
  conforms lax_sender Between fs (map (fun p => saying_of (fst p)) l) Between /\
  ((exists out st, conforms rfc6455 Between fs out st) <-> Forall proper_close (map fst l) /\ ends_closing (map fst l)).
Proof.
  intros s l script HL.
  pose proof (sends_in_order_proof s (map (fun p => (owned_ops (fst p), snd p)) l) (mk_w [] script)) as HS.
  destruct (send_all _ _ _) as [rs w]. intros Hrs fs. cbn [w_out octets map app] in HS.
  assert (Forall (fun p => typed (fst p)) l) as HT by (eapply Forall_impl; [|exact HL]; intros p Hp; apply Hp).
  assert (Forall (sendable (2 ^ 34)) (map fst l)) as HM.
  { apply Forall_map. eapply Forall_impl; [|exact HL]. intros p (H1 & H2 & H3). split; [exact H1|]. split; [|exact H3].
    assert (2 ^ 32 <= 2 ^ 34) by discriminate. lia. }
  split; [|split].
  - rewrite HS; auto.
    + rewrite map_map. f_equal. apply map_ext_in. intros p Hp. cbn [fst snd].
      f_equal. apply owned_rfc. rewrite Forall_forall in HT. auto.
    + apply Forall_map. apply Forall_forall. intros p _. cbn [fst]. apply library_frames_honest_proof.
    + apply Forall_map. apply Forall_forall. intros p Hp. cbn [fst].
      rewrite Forall_forall in HT, HL. rewrite owned_payload by auto.
      destruct (HL p Hp) as (_ & H2 & _). unfold size in H2. assert (2 ^ 32 < 2 ^ 64) by reflexivity. lia.
  - pose proof (whole_conforms _ HM) as HW. rewrite !map_map in HW. exact HW.
  - pose proof (strict_iff _ HM) as HI. rewrite map_map in HI. exact HI.
Qed.
(*EX
(** A text and a close with the code 1000, all sent. *)
Example sent_conforms_ex : let k := mk_key x01 x02 x03 x04 in
  let l := [(OText (str "a"), k); (OClose (Some (mk_close 1000 (str "bye"))), k)] in
  Forall (fun p => sendable (2 ^ 32) (fst p)) l /\ Forall proper_close (map fst l) /\ ends_closing (map fst l) /\
  Forall (fun r => r = Ok tt) (fst (send_all (mk_sender true) (map (fun p => (owned_ops (fst p), snd p)) l) (mk_w [] []))).
Proof.
  split; [facts|]. split; [constructor; [exact I|constructor; [left; vm_compute; split; discriminate|constructor]]|]. split.
  - intros [|x [|y [|z a]]] c b E; cbn in E; try discriminate E; injection E; intros; subst; auto; try discriminate.
  - vm_compute. repeat constructor.
Qed. EX*)

(** [C91] The same for messages accepted by an asynchronous sink, of what is written and what is
    still buffered. *)
Lemma sent_conforms_async_proof : forall is_server (l : list (owned * mkey)) ops ws fs,
  Forall (fun p => sendable (2 ^ 34) (fst p)) l ->
  Forall (fun d => exists m, d = owned_ops m /\ size (payload_of m) < 2 ^ 63 /\ typed m) (offered ops) ->
  let '(rs, w) := sink_run is_server ops (mk_fw (mk_bm [] 0) [] ws fs) in
  accepted ops rs = map (fun p => (owned_ops (fst p), snd p)) l ->
  let fs := map (fun p => bare (whole_frame (fst p))) l in
  octets (fw_out w ++ bm_data (fw_buf w))
  = concat (map (fun p => rfc_encode (rfc_of_frame (whole_frame (fst p)) (if is_server then None else Some (snd p)))) l) /\
  conforms lax_sender Between fs (map (fun p => saying_of (fst p)) l) Between /\
  ((exists out st, conforms rfc6455 Between fs out st) <-> Forall proper_close (map fst l) /\ ends_closing (map fst l)).
Proof.
  intros is_server l ops ws fs HL HO.
  pose proof (sink_order_proof is_server ops (mk_fw (mk_bm [] 0) [] ws fs)) as HS.
  destruct (sink_run _ ops _) as [rs w]. intros HA fs'.
  assert (Forall (sendable (2 ^ 34)) (map fst l)) as HM by (apply Forall_map; exact HL).
  split; [|split].
  - rewrite HS.
    + cbn [fw_out fw_buf bm_data app octets map]. rewrite HA, map_map. f_equal. apply map_ext_in.
      intros p Hp. cbn [fst snd]. f_equal. rewrite Forall_forall in HL. rewrite owned_rfc by apply (HL p Hp).
      destruct is_server; reflexivity.
    + eapply Forall_impl; [|exact HO]. intros d (m & -> & Hm & Ht).
      split; [apply library_frames_honest_proof|]. rewrite owned_payload by exact Ht. unfold size in Hm. lia.
  - pose proof (whole_conforms _ HM) as HW. rewrite !map_map in HW. exact HW.
  - pose proof (strict_iff _ HM) as HI. rewrite map_map in HI. exact HI.
Qed.

(*EX
(** A close with a code of the application, over a transport that takes one byte at a time. *)
Example sent_conforms_async_ex : let k := mk_key x01 x02 x03 x04 in
  let m := OClose (Some (mk_close 4000 [])) in
  let '(rs, w) := sink_run true [Send (owned_ops m) k 0; Flush] (mk_fw (mk_bm [] 0) [] [AwAccept 0; AwNotReady] []) in
  accepted [Send (owned_ops m) k 0; Flush] rs = [(owned_ops m, k)] /\ fw_out w ++ bm_data (fw_buf w) = [x88; x02; x0f; xa0].
Proof. vm_compute. split; reflexivity. Qed. EX*)

(** [C91] Refuted that the library by itself keeps to RFC 6455 when sending: a close message with
    a code that must not be sent is sent ... *)
Lemma sends_only_conforming_refuted_proof : exists m k w, sendable (2 ^ 32) m /\
  send_all (mk_sender true) [(owned_ops m, k)] (mk_w [] []) = ([Ok tt], w) /\
  ~ exists out st, conforms rfc6455 Between [bare (whole_frame m)] out st.
Proof.
  exists (OClose (Some (mk_close 1005 []))), (mk_key x01 x02 x03 x04). eexists.
  assert (sendable (2 ^ 32) (OClose (Some (mk_close 1005 [])))) as HS.
  { facts. }
  split; [exact HS|]. split; [vm_compute; reflexivity|].
  assert (Forall (sendable (2 ^ 34)) [OClose (Some (mk_close 1005 []))]) as HM.
  { constructor; [|constructor]. destruct HS as (H1 & H2 & H3). split; [exact H1|]. split; [vm_compute; discriminate|exact H3]. }
  pose proof (strict_iff _ HM) as HI. cbn [map] in HI. rewrite HI. intros [HP _]. apply Forall_inv in HP.
  cbn [proper_close c_status] in HP. unfold fit_code in HP. lia.
Qed.

(** [C91] ... and that it refuses at once what does not: it goes on reading, and returns a ping,
    after the first fragment of a message had a reserved bit set, and after a close. *)
Lemma refuses_at_once_refuted_proof : exists fs ws s ms r' s',
  on_wire true fs ws /\ carries s ws /\ recv_n 2 (receiver_new true) s = (map Ok ms, r', s') /\
  ms = [OClose (Some (mk_close 0 [])); OPing []] /\
  (forall st out st', ~ conforms rfc6455 st (map bare fs) out st') /\
  forall out st', ~ conforms lax_sender Between (map bare fs) out st'.
Proof.
  set (a := mk_df true (false, false, false) Close [x00; x00]).
  set (b := mk_df false (true, false, false) Text (str "a")).
  set (c := mk_df true (false, false, false) Ping []).
  exists [a; b; c], [x88; x82; x00; x00; x00; x00; x00; x00; x41 ; x81; x00; x00; x00; x00; x61; x89; x80; x00; x00; x00; x00].
  eexists (push_back [x88; x82; x00; x00; x00; x00; x00; x00; x41 ; x81; x00; x00; x00; x00; x61; x89; x80; x00; x00; x00; x00] []), [OClose (Some (mk_close 0 [])); OPing []], _, _.
  split; [|split; [|split; [|split; [|split]]]].
  - change [x88; x82; x00; x00; x00; x00; x00; x00; x41; x81; x00; x00; x00; x00; x61; x89; x80; x00; x00; x00; x00]
      with ([x88; x82; x00; x00; x00; x00; x00; x00] ++ [x41; x81; x00; x00; x00; x00; x61] ++ [x89; x80; x00; x00; x00; x00] ++ []).
    repeat (eapply (wire_cons true _ (Some (mk_key x00 x00 x00 x00))); [reflexivity|vm_compute; reflexivity|]). constructor.
  - cbn [push_back]. rewrite <- (app_nil_r [x88; x82; x00; x00; x00; x00; x00; x00; x41; x81; x00; x00; x00; x00; x61; x89; x80; x00; x00; x00; x00]).
    constructor. constructor.
  - vm_compute. reflexivity.
  - reflexivity.
  - intros st out st' H. cbn [map] in H. inversion H as [|? ? ? ? ? ? ? HL HS HR]; subst.
    inversion HS; subst; try (repeat match goal with H : _ \/ _ |- _ => destruct H end; discriminate).
    inversion HR as [|? ? ? ? ? ? ? HL' HS' HR']; subst. eapply ended_says; eassumption.
  - intros out st' H. cbn [map] in H. inversion H as [|? ? ? ? ? ? ? HL HS HR]; subst.
    assert (st1 = Between) as -> by (inversion HS; subst; try reflexivity; try (repeat match goal with H : _ \/ _ |- _ => destruct H end; discriminate)).
    inversion HR as [|? ? ? ? ? ? ? HL' HS' HR']; subst.
    inversion HS'; subst; try (repeat match goal with H : _ \/ _ |- _ => destruct H end; discriminate);
      repeat match goal with H : no_bits _ |- _ => destruct H as (? & ? & ?); discriminate end.
Qed.
