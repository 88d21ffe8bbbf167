(** Errors in the middle, end of stream, the sink: C09, C25, C27-C30. *)
From Coq Require Import NArith ZArith String Bool List Lia.
From Coq Require Import ZifyBool ZifyNat ZifyN.
From Coq.Strings Require Import Byte.
From Verif.Model Require Import Base Io Header Mask Dataframe Utf8 Message Receiver Codec Framed.
From Verif.Spec Require Import RfcFrame FrameSpec Unicode Session Schedule Drive Sink.
From Verif.Proofs Require Import BaseFacts MaskFacts HeaderFacts FrameFacts CodecFacts ScriptFacts
  Machine FramedFacts AsyncFacts Utf8Facts ThmFrames ThmStream SessionFacts RecvFacts MessageFacts
  ThmMessages.
Import ListNotations.
Local Open Scope string_scope.
Local Open Scope list_scope.
Local Open Scope N_scope.

(** ** A read error in the middle *)
Section Cut.
  Variable k : io_kind.
  Variable tail : script.
  Definition crel (s : script) (l : bytes) : Prop :=
    exists s1, s = s1 ++ RErr k :: tail /\ clean s1 /\ flat s1 = l.
  Definition csim {A : Type} (x : result A ws_error * script) (y : result A ws_error * bytes) : Prop :=
    match fst y with
    | Err NoDataAvailable => x = (Err (of_io k), tail)
    | _ => fst x = fst y /\ crel (snd x) (snd y)
    end.
  Lemma csim_bind : forall A B (x : result A ws_error * script) y
    (f : A -> script -> result B ws_error * script) (g : A -> bytes -> result B ws_error * bytes),
    csim x y -> (forall a s l, crel s l -> csim (f a s) (g a l)) -> csim (sbind x f) (sbind y g).
  Proof.
    intros A B [x s] [y l] f g H Hf. unfold csim in H. cbn [fst snd] in H.
    destruct y as [a|e| |]; cbn [sbind].
    - destruct H as [-> H]. cbn [sbind]. apply Hf, H.
    - destruct e; try (destruct H as [H1 H]; cbn [fst] in H1; subst x; cbn [sbind]; unfold csim; cbn [fst snd]; split; auto; fail).
      injection H as -> ->. reflexivity.
    - destruct H as [-> H]. split; auto.
    - destruct H as [-> H]. split; auto.
  Qed.
  Lemma csim_ret : forall A (x : result A ws_error) s l, x <> Err NoDataAvailable -> crel s l -> csim (x, s) (x, l).
  Proof. intros A [a|e| |] s l H HC; try (split; auto; fail). destruct e; try (split; auto; fail). congruence. Qed.
  Lemma cut_exact : forall s1 n, clean s1 ->
    if n <=? llen (flat s1)
    then exists s1', rd_exact n (s1 ++ RErr k :: tail) = (Ok (take n (flat s1)), s1' ++ RErr k :: tail)
           /\ clean s1' /\ flat s1' = drop n (flat s1)
    else rd_exact n (s1 ++ RErr k :: tail) = (Err k, tail).
  Proof.
    induction s1 as [|e s1 IH]; intros n Hc.
    - cbn [flat app]. change (llen []) with 0. destruct (N.leb_spec n 0).
      + assert (n = 0) as -> by lia. exists []. repeat split. constructor.
      + cbn [rd_exact]. destruct (N.eqb_spec n 0); [lia|reflexivity].
    - inversion Hc as [|? ? Hce Hcs]; subst. cbn [app rd_exact].
      destruct (N.eqb_spec n 0) as [->|Hn].
      { destruct (N.leb_spec 0 (llen (flat (e :: s1)))); [|lia]. exists (e :: s1). rewrite take_0, drop_0. repeat split; auto. }
      destruct e as [b bs| | |k']; try contradiction.
      + cbn [flat]. specialize (IH (n - llen (b :: bs)) Hcs).
        remember (b :: bs) as d eqn:Ed.
        rewrite llen_app. destruct (N.leb_spec n (llen d)) as [Hle|Hgt].
        * destruct (N.leb_spec n (llen d + llen (flat s1))); [|lia].
          exists (push_back (drop n d) s1). rewrite take_app_le, drop_app_le by exact Hle.
          split; [|split].
          -- destruct (drop n d); reflexivity.
          -- destruct (drop n d); [exact Hcs|constructor; [exact I|exact Hcs]].
          -- rewrite flat_push_back. reflexivity.
        * destruct (N.leb_spec (n - llen d) (llen (flat s1))) as [H1|H1].
          -- destruct (N.leb_spec n (llen d + llen (flat s1))); [|lia].
             destruct IH as (s1' & E & C & F). exists s1'. rewrite E. repeat split; auto.
             ++ rewrite take_app, (take_all _ n d) by lia. rewrite Ed. reflexivity.
             ++ rewrite drop_app, (drop_all _ n d) by lia. exact F.
          -- destruct (N.leb_spec n (llen d + llen (flat s1))); [lia|]. rewrite IH. reflexivity.
      + cbn [flat]. apply IH, Hcs.
  Qed.
  Lemma cut_take : forall s1 n, clean s1 ->
    if n <=? llen (flat s1)
    then exists s1', rd_take_to_end n (s1 ++ RErr k :: tail) = (Ok (take n (flat s1)), s1' ++ RErr k :: tail)
           /\ clean s1' /\ flat s1' = drop n (flat s1)
    else rd_take_to_end n (s1 ++ RErr k :: tail) = (Err k, tail).
  Proof.
    induction s1 as [|e s1 IH]; intros n Hc.
    - cbn [flat app]. change (llen []) with 0. destruct (N.leb_spec n 0).
      + assert (n = 0) as -> by lia. exists []. repeat split. constructor.
      + cbn [rd_take_to_end]. destruct (N.eqb_spec n 0); [lia|reflexivity].
    - inversion Hc as [|? ? Hce Hcs]; subst. cbn [app rd_take_to_end].
      destruct (N.eqb_spec n 0) as [->|Hn].
      { destruct (N.leb_spec 0 (llen (flat (e :: s1)))); [|lia]. exists (e :: s1). rewrite take_0, drop_0. repeat split; auto. }
      destruct e as [b bs| | |k']; try contradiction.
      + cbn [flat]. specialize (IH (n - llen (b :: bs)) Hcs).
        remember (b :: bs) as d eqn:Ed.
        rewrite llen_app. destruct (N.leb_spec n (llen d)) as [Hle|Hgt].
        * destruct (N.leb_spec n (llen d + llen (flat s1))); [|lia].
          exists (push_back (drop n d) s1). rewrite take_app_le, drop_app_le by exact Hle.
          split; [|split].
          -- destruct (drop n d); reflexivity.
          -- destruct (drop n d); [exact Hcs|constructor; [exact I|exact Hcs]].
          -- rewrite flat_push_back. reflexivity.
        * destruct (N.leb_spec (n - llen d) (llen (flat s1))) as [H1|H1].
          -- destruct (N.leb_spec n (llen d + llen (flat s1))); [|lia].
             destruct IH as (s1' & E & C & F). exists s1'. rewrite E. repeat split; auto.
             ++ rewrite take_app, (take_all _ n d) by lia. rewrite Ed. reflexivity.
             ++ rewrite drop_app, (drop_all _ n d) by lia. exact F.
          -- destruct (N.leb_spec n (llen d + llen (flat s1))); [lia|]. rewrite IH. reflexivity.
      + cbn [flat]. apply IH, Hcs.
  Qed.
  Lemma read_uint_csim : forall n s l, crel s l -> csim (read_uint rd_exact n s) (read_uint lst_exact n l).
  Proof.
    intros n s l (s1 & -> & Hc & Hf). pose proof (cut_exact s1 n Hc) as H. rewrite Hf in H.
    unfold read_uint, lst_exact. destruct (n <=? llen l).
    - destruct H as (s1' & -> & C & F). unfold csim. cbn [fst snd]. split; [reflexivity|].
      exists s1'. auto.
    - rewrite H. reflexivity.
  Qed.
  Lemma read_header_csim : forall s l, crel s l -> csim (read_header rd_exact s) (read_header lst_exact l).
  Proof.
    intros r1 r2 H. unfold read_header.
    apply csim_bind; [apply read_uint_csim; exact H|]. clear r1 r2 H; intros b0 r1 r2 H.
    apply csim_bind; [apply read_uint_csim; exact H|]. clear r1 r2 H; intros b1 r1 r2 H.
    apply csim_bind.
    { unfold read_len.
      destruct (N.land b1 127 <=? 125); [apply csim_ret; [discriminate|exact H]|].
      destruct (N.land b1 127 =? 126);
        [|destruct (N.land b1 127 =? 127); [|apply csim_ret; [discriminate|exact H]]].
      all: apply csim_bind; [apply read_uint_csim; exact H|];
        intros a ra rb Hab; match goal with |- context [if ?c then _ else _] => destruct c end;
        apply csim_ret; [discriminate|exact Hab|discriminate|exact Hab]. }
    clear r1 r2 H; intros len r1 r2 H.
    destruct (_ && _); [apply csim_ret; [discriminate|exact H]|].
    destruct (_ && _); [apply csim_ret; [discriminate|exact H]|].
    apply csim_bind.
    { unfold read_mask. destruct (_ =? _); [|apply csim_ret; [discriminate|exact H]].
      apply csim_bind; [apply read_uint_csim; exact H|]. clear r1 r2 H; intros k0 r1 r2 H.
      apply csim_bind; [apply read_uint_csim; exact H|]. clear r1 r2 H; intros k1 r1 r2 H.
      apply csim_bind; [apply read_uint_csim; exact H|]. clear r1 r2 H; intros k2 r1 r2 H.
      apply csim_bind; [apply read_uint_csim; exact H|]. clear r1 r2 H; intros k3 r1 r2 H.
      apply csim_ret; [discriminate|exact H]. }
    clear r1 r2 H; intros m r1 r2 H. apply csim_ret; [discriminate|exact H].
  Qed.
  Lemma read_limit_cut : forall m limit s1, clean s1 -> limit <= isize_max ->
    fst (parse_frame m limit (flat s1)) = Err NoDataAvailable ->
    read_dataframe_with_limit m limit (s1 ++ RErr k :: tail) = (Err (of_io k), tail).
  Proof.
    intros m limit s1 Hc Hl HP. unfold read_dataframe_with_limit, parse_frame in *.
    assert (crel (s1 ++ RErr k :: tail) (flat s1)) as HR by (exists s1; auto).
    apply read_header_csim in HR. unfold csim in HR.
    destruct (read_header lst_exact (flat s1)) as [[h|e| |] r] eqn:E; cbn [sbind fst] in HP; try discriminate.
    - cbn [fst snd] in HR.
      destruct (read_header rd_exact (s1 ++ RErr k :: tail)) as [x s']. cbn [fst snd] in HR.
      destruct HR as [-> (s1' & -> & C & F)]. cbn [sbind].
      destruct (N.ltb_spec limit (h_len h)); [discriminate|].
      destruct (N.ltb_spec (llen r) (h_len h)) as [Hlt|Hge].
      + unfold read_payload. destruct (N.ltb_spec isize_max (h_len h)); [lia|].
        pose proof (cut_take s1' (h_len h) C) as HT. rewrite F in HT.
        destruct (N.leb_spec (h_len h) (llen r)); [lia|]. rewrite HT. reflexivity.
      + exfalso. pose proof (read_header_inv _ _ _ E) as (_ & (_ & Hop & _) & _).
        destruct (read_body_total h (take (h_len h) r) m Hop) as [[g Hg]|[x Hg]];
          rewrite Hg in HP; discriminate.
    - cbn [fst snd] in HR. injection HP as ->. rewrite HR. reflexivity.
  Qed.
End Cut.

(** [C25] Exactly what a read error (WouldBlock, time-out, ...) does to the blocking
    receiver: the call returns the error, its state is unchanged, and whatever part of the
    frame had arrived is gone: the next call starts with the bytes after the error. *)
Lemma read_error_drops_partial_frame_proof : forall p masked max_df max_msg f key w1 w2 s1 k s2,
  rfc_legal (rfc_of_frame f key) -> size (f_data f) <= capped max_df ->
  octets (w1 ++ w2) = rfc_encode (rfc_of_frame f key) -> w2 <> [] ->
  carries s1 w1 -> k <> Interrupted ->
  let r := mk_recv p masked (capped max_df) max_msg in
  recv_message r (s1 ++ RErr k :: s2) = (Err (of_io k), r, s2).
Proof.
  intros p masked max_df max_msg f key w1 w2 s1 k s2 HL Hd Hw Hw2 Hs _ r.
  destruct (truncated_frame_proof f key w1 w2 HL Hw Hw2) as [HT _].
  pose proof (HT s1 (capped max_df) masked Hs Hd (capped_isize _)) as HP.
  apply carries_iff in Hs as [Hc Hf].
  pose proof (read_with_limit_script masked (capped max_df) s1 Hc (capped_isize _)) as [E1 _].
  rewrite E1 in HP.
  pose proof (read_limit_cut k s2 masked (capped max_df) s1 Hc (capped_isize _) HP) as HR.
  rewrite recv_message_eq by apply capped_isize.
  destruct (r_buffer r) as [|b0 bt] eqn:EB.
  - unfold recv_dataframe. cbn [r r_mask r_max_df]. rewrite HR. reflexivity.
  - rewrite rmsg_step by (rewrite EB; discriminate). unfold recv_dataframe.
    cbn [r r_mask r_max_df]. rewrite HR. reflexivity.
Qed.
(*EX (** A header and half of the payload, then WouldBlock. *)
Example read_error_ex :
  let f := mk_df true no_rsv Text (str "hello") in
  rfc_legal (rfc_of_frame f None) /\
  octets ([x81; x05; x68; x65] ++ str "llo") = rfc_encode (rfc_of_frame f None) /\
  carries [RData x81 [x05]; RData x68 [x65]] [x81; x05; x68; x65].
Proof.
  split; [vm_compute; intuition congruence|]. split; [reflexivity|].
  apply (carries_data x81 [x05] _ [x68; x65]). apply (carries_data x68 [x65] _ []). constructor.
Qed. EX*)
(** [C25] Refuted: retrying after WouldBlock does not yield the frame; here the payload is
    taken for a frame instead and a message nobody sent is delivered. *)
Lemma retry_after_read_error_refuted_proof : exists s1 s2 w m m',
  carries (s1 ++ s2) w /\
  fst (fst (recv_message (receiver_with_limits false 100 100) (s1 ++ s2))) = Ok m /\
  fst (fst (recv_n 2 (receiver_with_limits false 100 100) (s1 ++ RErr WouldBlock :: s2)))
  = [Err (IoError WouldBlock); Ok m'] /\ m <> m'.
Proof.
  exists [RData x82 [x03]], [RData x81 [x01; x61]], [x82; x03; x81; x01; x61],
    (OBinary [x81; x01; x61]), (OText [x61]).
  split; [|repeat split; discriminate].
  apply (carries_data x82 [x03] _ [x81; x01; x61]). apply (carries_data x81 [x01; x61] _ []). constructor.
Qed.

(** ** A refused header *)

(** [C27] Async frames: an error either leaves the buffer as it is and is returned by every
    later call, whatever arrives, or a whole frame masked the wrong way was dropped. *)
Lemma refused_header_sticks_proof : forall c src e src',
  df_decode c src = (Err e, src') ->
  (src' = src /\ forall more, df_decode c (src ++ more) = (Err e, src ++ more)) \/
  (exists f key w, src = w ++ src' /\ octets w = rfc_encode (rfc_of_frame f key) /\
     match key with Some _ => true | None => false end <> dc_is_server c /\
     e = DataFrameError (if dc_is_server c then "Expected masked data frame"
                         else "Expected unmasked data frame")).
Proof.
  intros c src e src' H. pose proof (df_decode_stable c src) as HS. rewrite H in HS.
  apply decode_err_inv in H. destruct H as [e r He E|h r E Hb|h r x E H1 H2 H3].
  - left. auto.
  - left. auto.
  - right. pose proof (read_header_inv _ _ _ E) as (Es & (Hh & Hop & Hrest) & _).
    set (c' := mk_dfc (negb (dc_is_server c)) (dc_max c)).
    assert (df_decode c' src = (opt_res (read_dataframe_body h (take (h_len h) r) (negb (dc_is_server c))),
      drop (h_len h) r)) as HD.
    { rewrite df_decode_eq, E. cbn [c' dc_max dc_is_server].
      destruct (N.ltb_spec (dc_max c) (h_len h)); [lia|].
      destruct (N.ltb_spec (llen r) (h_len h)); [lia|]. reflexivity. }
    unfold read_dataframe_body in H3, HD.
    destruct (opcode_new (h_opcode h)) as [op|] eqn:EO; [|discriminate].
    destruct (h_mask h) as [k|] eqn:EM; destruct (dc_is_server c) eqn:ES; cbn [negb] in *; try discriminate;
      cbn [opt_res rbind] in HD; apply df_decode_some in HD as (key & K1 & K2 & K3 & K4);
      cbn [c' dc_is_server] in K1; eexists _, key, _; (split; [exact K2|]);
      (split; [apply enc_rfc|]); destruct key; cbn [is_some] in K1; try discriminate;
      (split; [discriminate|congruence]).
Qed.

(*EX
(** A length that is not the shortest; and a frame that is not masked for a server. *)
Example refused_header_sticks_ex :
  df_decode (mk_dfc false 100) [x82; x7e; x00; x05; x81] = (Err (DataFrameError "Invalid data frame length"), [x82; x7e; x00; x05; x81]) /\
  df_decode (mk_dfc true 100) [x81; x01; x61; x89; x80] = (Err (DataFrameError "Expected masked data frame"), [x89; x80]).
Proof. split; reflexivity. Qed.
EX*)

Lemma mcl_err_src : forall n src c cur e c' src', (length src < n)%nat ->
  mcl c cur src = (Err e, c', src') ->
  (exists src1, df_decode (mc_df c) src1 = (Err e, src') /\ mc_df c' = mc_df c) \/
  (exists f b s, step b f = (Some (Err e), s)) \/ e = e_count \/ e = e_size.
Proof.
  induction n as [|n IH]; intros src c cur e c' src' Hn H; [lia|]. rewrite mcl_eq in H.
  destruct (df_decode (mc_df c) src) as [[[f|]|e1| |] src1] eqn:E; try discriminate.
  - pose proof (df_decode_length _ _ _ _ E) as HL.
    destruct (step (mc_buffer c) f) as [[o|] b] eqn:ES.
    + destruct o as [m|e1| |]; cbn [some_owned rbind] in H; try discriminate.
      injection H as <- <- <-. right. left. exists f, (mc_buffer c), b. exact ES.
    + destruct (over _); [injection H as <- <- <-; auto|].
      destruct (_ <? _); [injection H as <- <- <-; auto|].
      apply IH in H; [|lia]. exact H.
  - injection H as <- <- <-. left. exists src. auto.
Qed.
Lemma step_err_not_header : forall p f e b, step p f = (Some (Err e), b) ->
  e <> DataFrameError "Invalid data frame length" /\
  e <> DataFrameError "Control frame length too long" /\
  e <> ProtocolError "Illegal fragmented control frame" /\
  e <> ProtocolError "Exceeded maximum incoming DataFrame size".
Proof.
  intros p f e b H.
  assert (forall fs, owned_from_dataframes fs = Err e ->
    e = Utf8Error \/ e = NoDataAvailable \/ (exists x, e = ProtocolError x /\
      (x = "No dataframes provided" \/ x = "Unexpected non-continuation data frame" \/
       x = "Unsupported reserved bits received" \/ x = "Unsupported opcode received"))) as HO.
  { intros fs HF. unfold owned_from_dataframes, from_dataframes in HF.
    destruct fs as [|g gs]; [injection HF as <-; eauto 10|].
    destruct (gather 0 [] (g :: gs)) as [d|e1| |] eqn:EG; cbn [rbind] in HF; try discriminate.
    - destruct (opcode_new (df_opcode g)) as [[]|]; cbn [rbind] in HF; try discriminate;
        try (injection HF as <-; eauto 10; fail).
      + destruct (utf8_valid d); cbn [rbind] in HF; [discriminate|injection HF as <-; auto].
      + destruct d as [|x [|y rest]]; cbn [rbind] in HF; try discriminate; try (injection HF as <-; auto).
        destruct (utf8_valid rest); cbn [rbind] in HF; [discriminate|injection HF as <-; auto].
    - injection HF as <-. clear -EG. revert EG. generalize 0. generalize (@nil byte).
      induction (g :: gs) as [|x xs IH]; intros d i EG; cbn [gather] in EG; [discriminate|].
      destruct ((0 <? i) && negb (df_opcode x =? op_u8 Continuation)); [injection EG as <-; eauto 10|].
      destruct (df_reserved x) as [[[] []] []]; try (injection EG as <-; eauto 10; fail). eapply IH, EG. }
  assert (e = e_cont \/ e = e_data \/ exists fs, owned_from_dataframes fs = Err e) as HE.
  { unfold step in H. destruct ((op_u8 (f_opcode f) =? 0) && is_nil p); [injection H as <- <-; auto|].
    destruct (8 <=? op_u8 (f_opcode f)); [injection H as H <-; eauto|].
    destruct (_ && _); [injection H as <- <-; auto|].
    destruct (f_finished f); [injection H as H <-; eauto|discriminate]. }
  destruct HE as [->|[->|[fs HF]]]; try (repeat split; discriminate).
  apply HO in HF as [->|[->|(x & -> & [->|[->|[->| ->]]])]]; repeat split; discriminate.
Qed.
(** [C27] Async messages: after a refused header every later call fails the same way and
    nothing more is taken from the buffer, whatever arrives. *)
Lemma refused_header_sticks_message_proof : forall c src e c' src',
  mc_decode c src = (Err e, c', src') ->
  e = DataFrameError "Invalid data frame length" \/
  e = DataFrameError "Control frame length too long" \/
  e = ProtocolError "Illegal fragmented control frame" \/
  e = ProtocolError "Exceeded maximum incoming DataFrame size" ->
  forall n more, decode_n mc_decode n c' (src' ++ more) = (repeat (Err e) n, c', src' ++ more).
Proof.
  intros c src e c' src' H He n more. rewrite mc_decode_mcl in H.
  apply (mcl_err_src _ _ _ _ _ _ _ (Nat.lt_succ_diag_r _)) in H
    as [(src1 & H & HC)|[(f & b & s & H)|[H|H]]].
  - pose proof (refused_header_sticks_proof _ _ _ _ H) as [[-> HS]|(f & key & w & _ & _ & _ & H4)].
    + induction n as [|n IH]; [reflexivity|]. cbn [decode_n repeat].
      rewrite mc_decode_mcl, mcl_eq, HC, HS. rewrite IH. reflexivity.
    + exfalso. subst e. destruct (dc_is_server (mc_df c));
        destruct He as [He|[He|[He|He]]]; discriminate.
  - exfalso. apply step_err_not_header in H. tauto.
  - exfalso. subst e. destruct He as [He|[He|[He|He]]]; discriminate.
  - exfalso. subst e. destruct He as [He|[He|[He|He]]]; discriminate.
Qed.
(*EX Example refused_header_ex :
  mc_decode (msg_codec_with_limits CtxClient 100 100) [x89; x7e; x00; x7e; x81; x00]
  = (Err (DataFrameError "Control frame length too long"), msg_codec_with_limits CtxClient 100 100,
     [x89; x7e; x00; x7e; x81; x00]).
Proof. reflexivity. Qed. EX*)
(** [C27] The blocking receiver goes on after the refused header: whatever follows it,
    which is the refused frame's payload, is parsed as frames. *)
Lemma refused_header_payload_parsed_proof : forall p max_df max_msg s rest,
  carries s ([x89; x7e; x00; x7e] ++ rest) ->
  let r := mk_recv p false (capped max_df) max_msg in
  exists s', recv_message r s = (Err (DataFrameError "Control frame length too long"), r, s') /\
    carries s' rest.
Proof.
  intros p max_df max_msg s rest Hs r. apply carries_iff in Hs as [Hc Hf].
  pose proof (read_with_limit_script false (capped max_df) s Hc (capped_isize _)) as [E1 E2].
  rewrite Hf in E1, E2.
  assert (parse_frame false (capped max_df) ([x89; x7e; x00; x7e] ++ rest)
    = (Err (DataFrameError "Control frame length too long"), rest)) as HP.
  { assert (read_header lst_exact ([x89; x7e; x00; x7e] ++ rest)
      = (Err (DataFrameError "Control frame length too long"), rest)) as HH.
    { pose proof (stable_header [x89; x7e; x00; x7e] rest) as HS.
      change (read_header lst_exact [x89; x7e; x00; x7e]) with
        (@Err dfheader ws_error (DataFrameError "Control frame length too long"), @nil byte) in HS.
      exact HS. }
    unfold parse_frame. rewrite HH. reflexivity. }
  rewrite HP in E1, E2. cbn [fst snd] in *.
  rewrite recv_message_eq by apply capped_isize. unfold recv_dataframe.
  exists (snd (read_dataframe_with_limit false (capped max_df) s)).
  split; [|apply carries_iff; exact E2].
  destruct (r_buffer r) as [|b0 bt] eqn:EB.
  - cbn [r r_mask r_max_df]. destruct (read_dataframe_with_limit false (capped max_df) s) as [x s'].
    cbn [fst snd] in *. subst x. reflexivity.
  - rewrite rmsg_step by (rewrite EB; discriminate). unfold recv_dataframe.
    cbn [r r_mask r_max_df]. destruct (read_dataframe_with_limit false (capped max_df) s) as [x s'].
    cbn [fst snd] in *. subst x. reflexivity.
Qed.

(*EX
Example refused_header_payload_parsed_ex :
  recv_message (receiver_with_limits false 100 100) [RData x89 [x7e; x00; x7e]; RData x81 [x00]]
  = (Err (DataFrameError "Control frame length too long"), receiver_with_limits false 100 100, [RData x81 [x00]]).
Proof. reflexivity. Qed.
EX*)

(** [C27] Refuted for the blocking receiver: a message hidden in the payload of a refused
    frame is delivered by the next call. *)
Lemma refused_header_sticks_blocking_refuted_proof : exists s,
  fst (fst (recv_n 2 (receiver_with_limits false 1000 1000) s))
  = [Err (DataFrameError "Control frame length too long"); Ok (OText (str "hi"))].
Proof. exists [RData x89 [x7e; x00; x7e; x81; x02; x68; x69]]. reflexivity. Qed.

(** ** Masked the wrong way *)

(** [C09] A frame masked when it must not be, or not masked when it must be, is refused with
    a DataFrameError and never delivered (blocking). *)
Lemma wrong_mask_refused_blocking_proof : forall p masked max_df max_msg f key w s rest,
  rfc_legal (rfc_of_frame f key) -> size (f_data f) <= capped max_df ->
  match key with Some _ => true | None => false end <> masked ->
  octets w = rfc_encode (rfc_of_frame f key) -> carries s (w ++ rest) ->
  let r := mk_recv p masked (capped max_df) max_msg in
  exists s', recv_message r s
    = (Err (DataFrameError (if masked then "Expected masked data frame"
                            else "Expected unmasked data frame")), r, s') /\ carries s' rest.
Proof.
  intros p masked max_df max_msg f key w s rest HL Hd Hk Hw Hs r.
  apply legal_frame_ok in HL. apply octets_eq_enc in Hw. subst w.
  apply carries_iff in Hs as [Hc Hf].
  pose proof (read_with_limit_script masked (capped max_df) s Hc (capped_isize _)) as [E1 E2].
  rewrite Hf in E1, E2.
  pose proof (parse_enc f key (capped max_df) rest HL Hd) as HP.
  assert (parse_frame masked (capped max_df) (enc f key ++ rest)
    = (Err (DataFrameError (if masked then "Expected masked data frame"
                            else "Expected unmasked data frame")), rest)) as HM.
  { unfold parse_frame in *.
    pose proof (read_header_total (enc f key ++ rest)) as HT.
    destruct (read_header lst_exact (enc f key ++ rest)) as [[h|e| |] r1] eqn:E; cbn [sbind] in *; try discriminate.
    destruct (capped max_df <? h_len h); [discriminate|].
    destruct (llen r1 <? h_len h); [discriminate|]. injection HP as HB HR. rewrite HR.
    f_equal. unfold read_dataframe_body in *. destruct (opcode_new (h_opcode h)); [|discriminate].
    destruct (h_mask h), key, masked; cbn [negb is_some] in *; try discriminate; try congruence;
      try reflexivity. }
  rewrite HM in E1, E2. cbn [fst snd] in *.
  rewrite recv_message_eq by apply capped_isize. unfold recv_dataframe.
  exists (snd (read_dataframe_with_limit masked (capped max_df) s)).
  split; [|apply carries_iff; exact E2].
  destruct (r_buffer r) as [|b0 bt] eqn:EB.
  - cbn [r r_mask r_max_df]. destruct (read_dataframe_with_limit masked (capped max_df) s) as [x s'].
    cbn [fst snd] in *. subst x. reflexivity.
  - rewrite rmsg_step by (rewrite EB; discriminate). unfold recv_dataframe.
    cbn [r r_mask r_max_df]. destruct (read_dataframe_with_limit masked (capped max_df) s) as [x s'].
    cbn [fst snd] in *. subst x. reflexivity.
Qed.
Lemma df_decode_wrong_mask : forall c f key rest,
  frame_ok f -> llen (f_data f) <= dc_max c -> is_some key <> dc_is_server c ->
  df_decode c (enc f key ++ rest)
  = (Err (DataFrameError (if dc_is_server c then "Expected masked data frame"
                          else "Expected unmasked data frame")), rest).
Proof.
  intros c f key rest HL Hd Hk.
  pose proof (df_decode_enc (mk_dfc (is_some key) (dc_max c)) f key rest HL Hd eq_refl) as HP.
  rewrite df_decode_eq in HP. rewrite df_decode_eq. cbn [dc_max dc_is_server] in HP.
  destruct (read_header lst_exact (enc f key ++ rest)) as [[h|e| |] r1]; try discriminate HP.
  2: { destruct e; discriminate HP. }
  destruct (dc_max c <? h_len h); [discriminate HP|].
  destruct (llen r1 <? h_len h); [discriminate HP|]. injection HP as HB HR. rewrite HR.
  f_equal. unfold read_dataframe_body in *. destruct (opcode_new (h_opcode h)); [|discriminate].
  destruct (h_mask h), key, (dc_is_server c); cbn [negb is_some] in *; try discriminate; try congruence;
      try reflexivity.
Qed.
(** [C09] Async. *)
Lemma wrong_mask_refused_async_proof : forall p ctx max_df max_msg f key w rest,
  rfc_legal (rfc_of_frame f key) -> size (f_data f) <= capped max_df ->
  match key with Some _ => true | None => false end <> receives_masked ctx ->
  octets w = rfc_encode (rfc_of_frame f key) ->
  let c := mk_mc p (df_codec_with_limits ctx max_df) max_msg in
  mc_decode c (w ++ rest)
  = (Err (DataFrameError (if receives_masked ctx then "Expected masked data frame"
                          else "Expected unmasked data frame")), c, rest).
Proof.
  intros p ctx max_df max_msg f key w rest HL Hd Hk Hw c.
  apply legal_frame_ok in HL. apply octets_eq_enc in Hw. subst w.
  assert (dc_max (mc_df c) = capped max_df) as HD by apply capped_eq.
  assert (dc_is_server (mc_df c) = receives_masked ctx) as HS by reflexivity.
  rewrite mc_decode_mcl, mcl_eq, df_decode_wrong_mask; [rewrite HS; reflexivity|exact HL| |].
  - rewrite HD. exact Hd.
  - rewrite HS. destruct key; exact Hk.
Qed.
(*EX Example wrong_mask_ex :
  fst (fst (recv_n 2 (receiver_with_limits true 100 100) [RData x81 [x01; x61; x89; x80; x01; x02; x03; x04]]))
  = [Err (DataFrameError "Expected masked data frame"); Ok (OPing [])].
Proof. reflexivity. Qed. EX*)

(** ** End of the stream *)

(** [C28] A stream that ends inside a frame delivers the messages before it and ends with
    an error. *)
Lemma closed_inside_frame_proof : forall ctx max_df max_msg fs ms p ws f key w1 w2 s,
  delivers [] fs ms p ->
  under (capped max_msg) [] fs -> fits (capped max_df) fs ->
  on_wire (receives_masked ctx) fs ws ->
  rfc_legal (rfc_of_frame f key) -> size (f_data f) <= capped max_df ->
  octets (w1 ++ w2) = rfc_encode (rfc_of_frame f key) -> w1 <> [] -> w2 <> [] ->
  acarries s (ws ++ w1) ->
  run_messages (msg_codec_with_limits ctx max_df max_msg) [] s
  = (ms, PErr (IoError (OtherKind 0))).
Proof.
  intros ctx max_df max_msg fs ms p ws f key w1 w2 s HD HU HF HW HL Hd Ho H1 H2 Hs.
  apply under_iff in HU.
  destruct (truncated_frame_proof f key w1 w2 HL Ho H2) as [_ HT].
  set (c := msg_codec_with_limits ctx max_df max_msg).
  assert (dc_max (mc_df c) = capped max_df) as ED by apply capped_eq.
  assert (mc_max_msg c = capped max_msg) as EM by apply capped_eq.
  assert (mc_df c = mk_dfc (dc_is_server (mc_df c)) (dc_max (mc_df c))) as EC by reflexivity.
  rewrite <- EM in HU. rewrite <- ED in HF, Hd.
  assert (df_decode (mc_df c) w1 = (Ok None, w1)) as HN by (rewrite EC; apply HT; exact Hd).
  rewrite (run_messages_tail c fs ms p ws w1 s eq_refl HD HU HF HW HN Hs).
  destruct w1; [contradiction|reflexivity].
Qed.

(*EX
(** A ping, then a text frame of which one payload byte is missing. *)
Example closed_inside_frame_ex :
  let f := mk_df true no_rsv Text (str "ab") in
  delivers [] [whole_frame (OPing [])] [OPing []] [] /\
  octets ([x81; x02; x61] ++ [x62]) = rfc_encode (rfc_of_frame f None) /\
  run_messages (msg_codec_with_limits CtxClient 100 1000) [] [AData x89 [x00; x81]; ANotReady; AData x02 [x61]]
  = ([OPing []], PErr (IoError (OtherKind 0))).
Proof.
  cbv zeta. split; [|split; reflexivity]. apply del_control; [exact I|exact I|constructor].
Qed.
EX*)

(** [C28] A stream that ends at a frame boundary ends cleanly, even if a message is
    unfinished: its fragments are dropped silently. *)
Lemma closed_between_frames_proof : forall ctx max_df max_msg fs ms p ws s,
  delivers [] fs ms p ->
  under (capped max_msg) [] fs -> fits (capped max_df) fs ->
  on_wire (receives_masked ctx) fs ws -> acarries s ws ->
  run_messages (msg_codec_with_limits ctx max_df max_msg) [] s = (ms, PEnd).
Proof. exact legal_frames_received_async_proof. Qed.
(*EX (** Two fragments of a text whose last fragment never comes. *)
Example closed_between_frames_ex :
  run_messages (msg_codec_with_limits CtxClient 100 1000) []
    (at_once [x89; x00; x01; x01; x61; x00; x01; x62]) = ([OPing []], PEnd).
Proof. reflexivity. Qed. EX*)
(** [C28] The stream ends cleanly only if all the bytes received were whole frames. *)
Lemma clean_end_means_whole_frames_proof : forall ctx max_df max_msg s l ms,
  acontains s l ->
  run_messages (msg_codec_with_limits ctx max_df max_msg) [] s = (ms, PEnd) ->
  exists fs p, on_wire (receives_masked ctx) fs l /\ fits (capped max_df) fs /\ delivers [] fs ms p.
Proof.
  intros ctx max_df max_msg s l ms Hs H.
  destruct (received_only_legal_async_proof ctx max_df max_msg [] s l ms PEnd Hs H)
    as (fs & ws & rest & p & E1 & E2 & E3 & E4 & E5).
  rewrite (E5 eq_refl), app_nil_r in E1. cbn [app] in E1. subst ws. eauto.
Qed.

(*EX
Example clean_end_ex :
  run_messages (msg_codec_with_limits CtxClient 100 1000) [] [AData x89 [x00; x01]; ANotReady; AData x00 [x80; x01; x61]]
  = ([OPing []; OText (str "a")], PEnd).
Proof. reflexivity. Qed.
EX*)


(** ** Encoding *)
Lemma encode_good : forall is_server d k extra dst,
  honest d -> ops_sendable d ->
  exists wire dst', codec_encode is_server d k extra dst = (Ok tt, dst') /\
    bm_data dst' = bm_data dst ++ wire /\
    frame_bytes d (if is_server then None else Some k) = Ok wire.
Proof.
  intros is_server d k extra dst HH HO. pose proof HH as [Hs He]. unfold codec_encode.
  replace (if negb is_server then Some k else None) with (if is_server then None else Some k)
    by (destruct is_server; reflexivity).
  set (key := if is_server then None else Some k).
  pose proof (frame_bytes_ok d key HO He) as HB. rewrite HB.
  match type of HB with _ = Ok ?w => set (wire := w) in * end.
  assert (llen wire = frame_size d (negb is_server)) as HZ.
  { pose proof (predicted_size_proof d key [] wire HH) as HP.
    rewrite (write_to_good _ _ _ _ HB) in HP. specialize (HP eq_refl). cbn [length] in HP.
    unfold llen. rewrite HP. unfold key. destruct is_server; reflexivity. }
  set (dst1 := if remaining_mut dst <? frame_size d (negb is_server)
               then bm_reserve (frame_size d (negb is_server)) extra dst else dst).
  assert (frame_size d (negb is_server) <= remaining_mut dst1 /\ bm_data dst1 = bm_data dst) as [H1 H2].
  { unfold dst1. destruct (N.ltb_spec (remaining_mut dst) (frame_size d (negb is_server))) as [H|H];
      [|split; [lia|reflexivity]].
    unfold bm_reserve. destruct (N.leb_spec (frame_size d (negb is_server)) (remaining_mut dst)); [lia|].
    unfold remaining_mut. cbn [bm_cap bm_data]. split; [lia|reflexivity]. }
  unfold bm_write_all. rewrite HZ. rewrite N.min_r by exact H1. rewrite N.eqb_refl.
  exists wire. eexists. split; [reflexivity|]. cbn [bm_data]. rewrite H2.
  split; [|reflexivity]. f_equal. rewrite <- HZ. apply take_all. lia.
Qed.
Lemma encode_bad : forall is_server d k extra dst,
  honest d -> ~ ops_sendable d ->
  exists e dst', codec_encode is_server d k extra dst = (Err e, dst') /\ bm_data dst' = bm_data dst.
Proof.
  intros is_server d k extra dst HH HO.
  destruct (encode_refused_proof is_server d k extra dst) as (m & E1 & E2).
  - apply HH.
  - unfold ops_sendable in HO. lia.
  - destruct (codec_encode is_server d k extra dst) as [x y]. cbn [fst snd] in *. subst x. eauto.
Qed.
Lemma sendable_ops : forall d key, honest d ->
  rfc_sendable (rfc_of (df_is_last d) (df_reserved d) (df_opcode d) (concat (df_writes d)) key) ->
  ops_sendable d.
Proof.
  intros d key [Hs He] HS. unfold rfc_sendable, rfc_of in HS.
  destruct (df_reserved d) as [[r1 r2] r3]. cbn [rf_opcode rf_payload] in HS.
  unfold octets in HS. rewrite map_length in HS. unfold ops_sendable. rewrite Hs. lia.
Qed.
Lemma frame_bytes_rfc : forall d key wire, honest d -> ops_sendable d ->
  N.of_nat (length (concat (df_writes d))) < 2 ^ 64 ->
  frame_bytes d key = Ok wire ->
  octets wire = rfc_encode (rfc_of (df_is_last d) (df_reserved d) (df_opcode d) (concat (df_writes d)) key).
Proof.
  intros d key wire HH HO HL HB.
  destruct (emitted_layout_proof d key [] HH) as (w & W1 & W2).
  - unfold rfc_sendable, rfc_of. destruct HH as [Hs He]. unfold ops_sendable in HO. rewrite Hs in HO.
    destruct (df_reserved d) as [[r1 r2] r3]. cbn [rf_opcode rf_payload].
    unfold octets. rewrite map_length. lia.
  - rewrite (write_to_good _ _ _ _ HB) in W1. cbn [app] in W1. injection W1 as <-. exact W2.
Qed.
(** [C30] Encoding a frame or message appends exactly its RFC encoding to the buffer,
    masked iff this is a client, whatever the buffer holds and however little room it has. *)
Lemma encode_appends_proof : forall (is_server : bool) d k extra dst,
  honest d ->
  let frame := rfc_of (df_is_last d) (df_reserved d) (df_opcode d) (concat (df_writes d))
                      (if is_server then None else Some k) in
  rfc_sendable frame ->
  exists wire dst', codec_encode is_server d k extra dst = (Ok tt, dst') /\
    bm_data dst' = bm_data dst ++ wire /\ octets wire = rfc_encode frame.
Proof.
  intros is_server d k extra dst HH frame HS.
  pose proof (sendable_ops _ _ HH HS) as HO.
  destruct (encode_good is_server d k extra dst HH HO) as (wire & dst' & E1 & E2 & E3).
  exists wire, dst'. split; [exact E1|]. split; [exact E2|].
  apply (frame_bytes_rfc d _ wire HH HO); [|exact E3].
  unfold frame, rfc_sendable, rfc_of in HS. destruct (df_reserved d) as [[r1 r2] r3].
  cbn [rf_payload] in HS. unfold octets in HS. rewrite map_length in HS. lia.
Qed.
(*EX Example encode_ex :
  codec_encode true (owned_ops (OText (str "hi"))) (mk_key x01 x02 x03 x04) 0 (mk_bm [x88; x00] 2)
  = (Ok tt, mk_bm [x88; x00; x81; x02; x68; x69] 6).
Proof. reflexivity. Qed. EX*)

(** ** The sink *)
Lemma flush_go_spec : forall ws data out r data' out' ws',
  flush_go ws data out = (r, data', out', ws') ->
  out' ++ data' = out ++ data /\ (r = None -> data' = []) /\ r <> Some SReady /\
  (length ws' <= length ws)%nat /\ (r <> None -> (length ws' < length ws)%nat).
Proof.
  induction ws as [|w ws IH]; intros data out r data' out' ws' H; cbn [flush_go] in H;
    (destruct data as [|b bs]; [injection H as <- <- <- <-; repeat split; auto; try discriminate; congruence|]).
  - injection H as <- <- <- <-. rewrite app_nil_r. repeat split; auto; try discriminate; congruence.
  - destruct w as [n| | |k].
    + remember (b :: bs) as d eqn:Ed. apply IH in H as (H1 & H2 & H3 & H4 & H5).
      rewrite <- app_assoc, take_drop in H1. cbn [length]. repeat split; auto.
      intros Hr. specialize (H5 Hr). lia.
    + injection H as <- <- <- <-. cbn [length]. repeat split; try discriminate; lia.
    + injection H as <- <- <- <-. cbn [length]. repeat split; try discriminate; lia.
    + injection H as <- <- <- <-. cbn [length]. repeat split; try discriminate; lia.
Qed.
Lemma poll_complete_spec : forall w r w', poll_complete w = (r, w') ->
  fw_out w' ++ bm_data (fw_buf w') = fw_out w ++ bm_data (fw_buf w) /\
  (r = SReady -> bm_data (fw_buf w') = []) /\
  (length (fw_ws w') + length (fw_fs w') <= length (fw_ws w) + length (fw_fs w))%nat /\
  (r <> SReady -> (length (fw_ws w') + length (fw_fs w') < length (fw_ws w) + length (fw_fs w))%nat).
Proof.
  intros w r w' H. unfold poll_complete in H.
  destruct (flush_go (fw_ws w) (bm_data (fw_buf w)) (fw_out w)) as [[[o data] out] ws] eqn:E.
  apply flush_go_spec in E as (E1 & E2 & E3 & E4 & E5). destruct o as [e|].
  - injection H as <- <-. cbn [fw_out fw_buf bm_data fw_ws fw_fs].
    specialize (E5 ltac:(discriminate)). repeat split; auto; try lia. intros ->. congruence.
  - specialize (E2 eq_refl). subst data.
    destruct (fw_fs w) as [|[| |k] fs]; injection H as <- <-; cbn [fw_out fw_buf bm_data fw_ws fw_fs length];
      repeat split; auto; try lia; try congruence.
Qed.
Definition wires (is_server : bool) (l : list (dataframe_ops * mkey)) : list N :=
  concat (map (fun p : dataframe_ops * mkey =>
    rfc_encode (rfc_of (df_is_last (fst p)) (df_reserved (fst p)) (df_opcode (fst p))
      (concat (df_writes (fst p))) (if is_server then None else Some (snd p)))) l).
Lemma start_send_spec : forall is_server d k extra w r w', honest d ->
  N.of_nat (length (concat (df_writes d))) < 2 ^ 64 ->
  start_send is_server d k extra w = (r, w') ->
  octets (fw_out w' ++ bm_data (fw_buf w'))
  = octets (fw_out w ++ bm_data (fw_buf w)) ++
    match r with SReady => wires is_server [(d, k)] | _ => [] end.
Proof.
  intros is_server d k extra w r w' HH HL H.
  assert (forall w r w',
    match codec_encode is_server d k extra (fw_buf w) with
    | (Ok _, b) => (SReady, mk_fw b (fw_out w) (fw_ws w) (fw_fs w))
    | (Err e, b) => (SErr e, mk_fw b (fw_out w) (fw_ws w) (fw_fs w))
    | (_, b) => (SErr (OtherError "panic"), mk_fw b (fw_out w) (fw_ws w) (fw_fs w))
    end = (r, w') ->
    octets (fw_out w' ++ bm_data (fw_buf w'))
    = octets (fw_out w ++ bm_data (fw_buf w)) ++
      match r with SReady => wires is_server [(d, k)] | _ => [] end) as HE.
  { clear w r w' H. intros w r w' H. destruct (ops_sendable_dec d) as [HO|HO].
    - destruct (encode_good is_server d k extra (fw_buf w) HH HO) as (wire & dst' & E1 & E2 & E3).
      rewrite E1 in H. injection H as <- <-. cbn [fw_out fw_buf]. rewrite E2, app_assoc, octets_app.
      f_equal. rewrite (frame_bytes_rfc d _ wire HH HO HL E3). unfold wires. cbn [map concat fst snd].
      rewrite app_nil_r. reflexivity.
    - destruct (encode_bad is_server d k extra (fw_buf w) HH HO) as (e & dst' & E1 & E2).
      rewrite E1 in H. injection H as <- <-. cbn [fw_out fw_buf]. rewrite E2, app_nil_r. reflexivity. }
  unfold start_send in H. destruct (BACKPRESSURE <=? llen (bm_data (fw_buf w))); [|apply HE, H].
  destruct (poll_complete w) as [r1 w1] eqn:EP. apply poll_complete_spec in EP as (P1 & _).
  rewrite <- P1. destruct r1 as [| |e].
  - destruct (BACKPRESSURE <=? llen (bm_data (fw_buf w1))); [|apply HE, H].
    injection H as <- <-. rewrite app_nil_r. reflexivity.
  - destruct (BACKPRESSURE <=? llen (bm_data (fw_buf w1))); [|apply HE, H].
    injection H as <- <-. rewrite app_nil_r. reflexivity.
  - injection H as <- <-. rewrite app_nil_r. reflexivity.
Qed.
(** [C29] Whatever the task does and however the transport behaves: the bytes written plus the
    bytes buffered are always those from before plus the encodings of the frames accepted,
    in order, each masked iff this is a client. *)
Lemma sink_order_proof : forall (is_server : bool) ops w,
  Forall (fun d => honest d /\ N.of_nat (length (concat (df_writes d))) < 2 ^ 64) (offered ops) ->
  let '(rs, w') := sink_run is_server ops w in
  octets (fw_out w' ++ bm_data (fw_buf w'))
  = octets (fw_out w ++ bm_data (fw_buf w)) ++
    concat (map (fun p : dataframe_ops * mkey =>
      rfc_encode (rfc_of (df_is_last (fst p)) (df_reserved (fst p)) (df_opcode (fst p))
        (concat (df_writes (fst p))) (if is_server then None else Some (snd p)))) (accepted ops rs)).
Proof.
  intros is_server ops. fold (wires is_server).
  assert (forall l, concat (map (fun p : dataframe_ops * mkey =>
      rfc_encode (rfc_of (df_is_last (fst p)) (df_reserved (fst p)) (df_opcode (fst p))
        (concat (df_writes (fst p))) (if is_server then None else Some (snd p)))) l) = wires is_server l) as HW
    by reflexivity.
  induction ops as [|op ops IH]; intros w HO; cbn [sink_run].
  - cbn [accepted map concat]. rewrite app_nil_r. reflexivity.
  - destruct op as [d k extra|]; cbn [offered] in HO.
    + inversion HO as [|? ? [H1 H2] H3]; subst.
      destruct (start_send is_server d k extra w) as [r w1] eqn:E.
      apply start_send_spec in E; auto. specialize (IH w1 H3).
      destruct (sink_run is_server ops w1) as [rs w2]. rewrite IH, E, !HW. rewrite <- app_assoc. f_equal.
      destruct r; cbn [accepted app]; try reflexivity.
      unfold wires. cbn [map concat]. rewrite app_nil_r. reflexivity.
    + destruct (poll_complete w) as [r w1] eqn:E. apply poll_complete_spec in E as (E & _).
      specialize (IH w1 HO). destruct (sink_run is_server ops w1) as [rs w2]. rewrite IH, E.
      cbn [accepted]. destruct r; reflexivity.
Qed.
(** [C29] A flush that reports ready leaves nothing buffered. *)
Lemma flush_completes_proof : forall w w',
  poll_complete w = (SReady, w') ->
  bm_data (fw_buf w') = [] /\ fw_out w' = fw_out w ++ bm_data (fw_buf w).
Proof.
  intros w w' H. apply poll_complete_spec in H as (H1 & H2 & _). specialize (H2 eq_refl).
  rewrite H2, app_nil_r in H1. auto.
Qed.
(** [C29] If the transport gets stuck or fails only finitely often, polling again and again
    ends with a completed flush. *)
Lemma flush_terminates_proof : forall is_server w,
  exists n rs w', sink_run is_server (repeat Flush n) w = (rs ++ [SReady], w') /\
    (n <= length (fw_ws w) + length (fw_fs w) + 1)%nat /\
    bm_data (fw_buf w') = [] /\ fw_out w' = fw_out w ++ bm_data (fw_buf w).
Proof.
  intros is_server w.
  assert (forall m w, (length (fw_ws w) + length (fw_fs w) < m)%nat ->
    exists n rs w', sink_run is_server (repeat Flush n) w = (rs ++ [SReady], w') /\
    (n <= m)%nat /\
    bm_data (fw_buf w') = [] /\ fw_out w' = fw_out w ++ bm_data (fw_buf w)) as HG.
  { clear w. induction m as [|m IH]; intros w Hm; [lia|].
    destruct (poll_complete w) as [r w1] eqn:E. pose proof (poll_complete_spec _ _ _ E) as (E1 & E2 & E3 & E4).
    destruct r as [| |e].
    - exists 1%nat, [], w1. cbn [repeat sink_run app]. rewrite E. split; [reflexivity|].
      split; [lia|]. apply flush_completes_proof, E.
    - specialize (E4 ltac:(discriminate)). destruct (IH w1 ltac:(lia)) as (n & rs & w' & I1 & I2 & I3 & I4).
      exists (S n), (SNotReady :: rs), w'. cbn [repeat sink_run app]. rewrite E, I1.
      repeat split; auto; [lia|]. rewrite I4. exact E1.
    - specialize (E4 ltac:(discriminate)). destruct (IH w1 ltac:(lia)) as (n & rs & w' & I1 & I2 & I3 & I4).
      exists (S n), (SErr e :: rs), w'. cbn [repeat sink_run app]. rewrite E, I1.
      repeat split; auto; [lia|]. rewrite I4. exact E1. }
  destruct (HG (S (length (fw_ws w) + length (fw_fs w))) w ltac:(lia)) as (n & rs & w' & I1 & I2 & I3).
  exists n, rs, w'. split; [exact I1|]. split; [lia|exact I3].
Qed.
(*EX (** A client whose transport takes one byte, is busy, then takes the rest. *)
Example sink_ex :
  let w := mk_fw (mk_bm [] 0) [] [AwAccept 0; AwNotReady] [] in
  let '(rs, w') := sink_run true [Send (owned_ops (OText (str "a"))) (mk_key x00 x00 x00 x00) 0; Flush;
                                  Send (owned_ops (OPing [])) (mk_key x00 x00 x00 x00) 0; Flush] w in
  rs = [SReady; SNotReady; SReady; SReady] /\
  fw_out w' = [x81; x01; x61; x89; x00] /\ bm_data (fw_buf w') = [].
Proof. vm_compute. auto. Qed. EX*)
(** [C16] Messages sent through the async sink, once flushed, arrive as they were sent. *)
Lemma message_round_trip_sink_proof :
  forall ctx max_df max_msg (l : list (owned * mkey)) ops ws fs s,
  Forall (fun p => sendable (capped max_df) (fst p)) l ->
  Forall (fun d => exists m, d = owned_ops m /\ size (payload_of m) < 2 ^ 63 /\ typed m) (offered ops) ->
  let '(rs, w) := sink_run (negb (receives_masked ctx)) ops (mk_fw (mk_bm [] 0) [] ws fs) in
  accepted ops rs = map (fun p => (owned_ops (fst p), snd p)) l ->
  bm_data (fw_buf w) = [] ->
  acarries s (fw_out w) ->
  run_messages (msg_codec_with_limits ctx max_df max_msg) [] s = (map fst l, PEnd).
Proof.
  intros ctx max_df max_msg l ops ws fs s HL HO.
  pose proof (sink_order_proof (negb (receives_masked ctx)) ops (mk_fw (mk_bm [] 0) [] ws fs)) as HS.
  destruct (sink_run _ ops _) as [rs w]. intros HA HB Hs.
  assert (Forall (fun p => typed (fst p)) l) as HT
    by (eapply Forall_impl; [|exact HL]; intros p Hp; apply Hp).
  assert (capped max_df < 2 ^ 64) as Hcap by (unfold capped; lia).
  assert (fw_out w = encs (masked_frames (receives_masked ctx) l)) as HW.
  { apply sent_encs; auto. rewrite HB, app_nil_r in HS. rewrite HS.
    - cbn [fw_out fw_buf bm_data app octets map]. rewrite HA, map_map. f_equal. apply map_ext_in.
      intros p Hp. cbn [fst snd]. f_equal. rewrite Forall_forall in HT.
      rewrite owned_rfc by auto. destruct (receives_masked ctx); reflexivity.
    - eapply Forall_impl; [|exact HO]. intros d (m & -> & Hm & Ht).
      split; [apply library_frames_honest_proof|]. rewrite owned_payload by exact Ht.
      unfold size in Hm. lia. }
  assert (Forall (sendable (capped max_df)) (map fst l)) as HL' by (apply Forall_map; exact HL).
  set (c := msg_codec_with_limits ctx max_df max_msg).
  assert (dc_max (mc_df c) = capped max_df) as ED by apply capped_eq.
  apply (run_messages_tail c (map whole_frame (map fst l)) (map fst l) [] (fw_out w) []); auto.
  - eapply whole_results, HL'.
  - apply whole_within.
  - pose proof (wire_ok_fits _ _ _ (masked_frames_ok (receives_masked ctx) _ l Hcap HL)) as HF.
    unfold masked_frames in HF. rewrite map_map in HF. cbn [fst] in HF. rewrite map_map, ED. exact HF.
  - rewrite HW. pose proof (encs_on_wire _ _ _ (masked_frames_ok (receives_masked ctx) _ l Hcap HL)) as HF.
    unfold masked_frames in HF at 1. rewrite map_map in HF. cbn [fst] in HF. rewrite map_map. exact HF.
  - rewrite app_nil_r. exact Hs.
Qed.

(*EX
(** Sent by a client to a server, over a transport that takes one byte at a time. *)
Example message_round_trip_sink_ex :
  let k := mk_key x01 x02 x03 x04 in
  let ops := [Send (owned_ops (OText (str "hi"))) k 0; Send (owned_ops (OClose None)) k 0; Flush; Flush] in
  let '(rs, w) := sink_run (negb (receives_masked CtxServer)) ops (mk_fw (mk_bm [] 0) [] [AwAccept 0; AwNotReady] []) in
  accepted ops rs = [(owned_ops (OText (str "hi")), k); (owned_ops (OClose None), k)] /\
  bm_data (fw_buf w) = [] /\
  run_messages (msg_codec_with_limits CtxServer 100 100) [] (at_once (fw_out w)) = ([OText (str "hi"); OClose None], PEnd).
Proof. vm_compute. auto. Qed.
EX*)

