(** How much there is to do: C89. *)
From Coq Require Import NArith ZArith String Bool List Lia.
From Coq Require Import ZifyBool ZifyNat ZifyN.
From Coq.Strings Require Import Byte.
From Verif.Model Require Import Base Io Header Mask Dataframe Utf8 Message Receiver Codec Framed Headers Handshake Http Work.
From Verif.Spec Require Import RfcFrame FrameSpec Unicode Session Schedule Drive HttpHead Sides Accepting Working.
From Verif.Proofs Require Import BaseFacts MaskFacts HeaderFacts FrameFacts CodecFacts ScriptFacts
  Machine FramedFacts AsyncFacts Utf8Facts ThmFrames ThmStream SessionFacts RecvFacts MessageFacts ThmMessages HttpFacts ThmHttp ThmSame ThmAccepting ExTac.
Import ListNotations.
Local Open Scope string_scope.
Local Open Scope list_scope.
Local Open Scope N_scope.

Lemma sum_cons : forall x l, sum (x :: l) = x + sum l.
Proof. reflexivity. Qed.
Lemma sum_app : forall a b, sum (a ++ b) = sum a + sum b.
Proof. induction a as [|x a IH]; intros b; [reflexivity|]. cbn [app]. rewrite !sum_cons, IH. lia. Qed.

Ltac crack := cbv beta iota in *; repeat split; try reflexivity; try lia.
Section G.
  Variables St Item : Type.
  Variable decode : St -> bytes -> result (option Item) ws_error * St * bytes.
  Hypothesis shrinks : forall st b, (length (snd (decode st b)) <= length b)%nat.

  Definition took (call : St * bytes) : N := llen (snd call) - llen (snd (decode (fst call) (snd call))).
  Definition got (call : St * bytes) : list Item :=
    match fst (fst (decode (fst call) (snd call))) with Ok (Some i) => [i] | _ => [] end.

  Definition pot (f : framed St) (s : list aev) : N :=
    (if fr_readable f then 1 else 0) + reads s + (if fr_eof f then 0 else 1).
  Definition held (f : framed St) (s : list aev) : N := llen (fr_buf f) + llen (aev_bytes s).

  Lemma took_1 : forall f, sum (map took (decode_calls f)) + llen (fr_buf (snd (framed_decode decode f))) <= llen (fr_buf f).
  Proof using shrinks. 
    intros f. unfold decode_calls, framed_decode. destruct (fr_readable f); cbn [map sum fold_right snd]; [|lia].
    pose proof (shrinks (fr_st f) (fr_buf f)) as HS. unfold took, llen. cbn [fst snd].
    destruct (decode (fr_st f) (fr_buf f)) as [[r st'] b']. cbn [snd] in HS.
    destruct r as [[i|]|e| |]; cbn [snd fr_buf]; try lia. destruct (fr_eof f); [destruct b'; cbn [snd fr_buf]; lia|]. cbn [snd fr_buf]. lia.
  Qed.
  Lemma decode_shape : forall f, match framed_decode decode f with
    | (Some (PItem i), f') => fr_readable f = true /\ fr_readable f' = true /\ fr_eof f' = fr_eof f /\ concat (map got (decode_calls f)) = [i]
    | (Some _, _) => fr_readable f = true /\ concat (map got (decode_calls f)) = []
    | (None, f') => fr_readable f' = false /\ fr_eof f' = (if fr_readable f then false else fr_eof f) /\ (fr_readable f = true -> fr_eof f = false)
                    /\ concat (map got (decode_calls f)) = []
    end.
  Proof using. clear shrinks.
    intros f. unfold framed_decode, decode_calls, got. destruct (fr_readable f) eqn:ER; [|repeat split; auto; discriminate].
    cbn [map concat fst snd]. destruct (decode (fr_st f) (fr_buf f)) as [[r st'] b']. cbn [fst].
    destruct r as [[i|]|e| |]; cbn [fr_readable fr_eof]; rewrite ?app_nil_r; auto.
    destruct (fr_eof f); [destruct b'; auto|]. repeat split; auto.
  Qed.

  Definition after_poll (f : framed St) (s : list aev) : Prop :=
    let calls := poll_calls decode s f in
    match framed_poll decode s f with
    | (PItem i, f', s') => sum (map took calls) + held f' s' <= held f s /\ llen calls + pot f' s' <= pot f s + 1 /\ concat (map got calls) = [i]
    | (PNotReady, f', s') => sum (map took calls) + held f' s' <= held f s /\ llen calls + pot f' s' <= pot f s /\ concat (map got calls) = []
    | _ => sum (map took calls) <= held f s /\ llen calls <= pot f s /\ concat (map got calls) = []
    end.
  Lemma poll_counts : forall s f, after_poll f s.
  Proof using shrinks. 
    assert (HC : forall f : framed St, llen (decode_calls f) = if fr_readable f then 1 else 0) by (intros f; unfold decode_calls; destruct (fr_readable f); reflexivity).
    induction s as [|ev s IH]; intros f; unfold after_poll; cbn [poll_calls framed_poll];
      pose proof (decode_shape f) as HS; pose proof (took_1 f) as HT; pose proof (HC f) as HL;
      destruct (framed_decode decode f) as [[r|] f'] eqn:EF; cbn [snd] in HT.
    - rewrite app_nil_r. destruct r as [i| | |e| |]; unfold held, pot in *.
      + destruct HS as (H1 & H2 & H3 & H4). rewrite H1 in *. rewrite H2, H3, H4, HL. crack.
      + destruct HS as (H1 & H2). rewrite H1 in *. rewrite H2, HL. crack.
      + exfalso. unfold framed_decode in EF. destruct (fr_readable f); [|discriminate].
        destruct (decode (fr_st f) (fr_buf f)) as [[r st'] b']. destruct r as [[i|]|e| |]; try discriminate.
        destruct (fr_eof f); [destruct b'|]; discriminate.
      + destruct HS as (H1 & H2). rewrite H1 in *. rewrite H2, HL. crack.
      + destruct HS as (H1 & H2). rewrite H1 in *. rewrite H2, HL. crack.
      + destruct HS as (H1 & H2). rewrite H1 in *. rewrite H2, HL. crack.
    - destruct HS as (H1 & H2 & H3 & H4). destruct (fr_eof f') eqn:EE.
      { rewrite app_nil_r. unfold held, pot. rewrite H4, HL. destruct (fr_readable f); crack. }
      assert (fr_eof f = false) as EF0 by (destruct (fr_readable f); auto).
      set (g := mk_framed (fr_st f') (fr_buf f') true true) in *.
      pose proof (decode_shape g) as HS2. pose proof (took_1 g) as HT2. pose proof (HC g) as HL2.
      rewrite map_app, sum_app, llen_app, map_app, concat_app, H4. cbn [app]. rewrite HL, HL2. change (fr_readable g) with true in *. change (fr_buf g) with (fr_buf f') in *.
      unfold pot, held. rewrite EF0. cbn [reads aev_bytes]. rewrite llen_nil. cbv iota.
      destruct (framed_decode decode g) as [[r|] f3] eqn:EG; cbn [snd] in HT2.
      + destruct r as [i| | |e| |].
        * destruct HS2 as (_ & K2 & K3 & K4). rewrite K2, K3, K4. change (fr_eof g) with true. cbv iota. cbn [aev_bytes reads]. rewrite ?llen_nil. destruct (fr_readable f); crack.
        * destruct HS2 as (_ & K2). rewrite K2. destruct (fr_readable f); crack.
        * exfalso. unfold framed_decode in EG. change (fr_readable g) with true in EG.
          destruct (decode (fr_st g) (fr_buf g)) as [[r st'] b']. destruct r as [[i|]|e| |]; try discriminate.
          change (fr_eof g) with true in EG. destruct b'; discriminate.
        * destruct HS2 as (_ & K2). rewrite K2. destruct (fr_readable f); crack.
        * destruct HS2 as (_ & K2). rewrite K2. destruct (fr_readable f); crack.
        * destruct HS2 as (_ & K2). rewrite K2. destruct (fr_readable f); crack.
      + destruct HS2 as (_ & _ & HH & _). exfalso. specialize (HH eq_refl). discriminate.
    - rewrite app_nil_r. destruct r as [i| | |e| |]; unfold held, pot in *.
      + destruct HS as (H1 & H2 & H3 & H4). rewrite H1 in *. rewrite H2, H3, H4, HL. crack.
      + destruct HS as (H1 & H2). rewrite H1 in *. rewrite H2, HL. crack.
      + exfalso. unfold framed_decode in EF. destruct (fr_readable f); [|discriminate].
        destruct (decode (fr_st f) (fr_buf f)) as [[r st'] b']. destruct r as [[i|]|e| |]; try discriminate.
        destruct (fr_eof f); [destruct b'|]; discriminate.
      + destruct HS as (H1 & H2). rewrite H1 in *. rewrite H2, HL. crack.
      + destruct HS as (H1 & H2). rewrite H1 in *. rewrite H2, HL. crack.
      + destruct HS as (H1 & H2). rewrite H1 in *. rewrite H2, HL. crack.
    - destruct HS as (H1 & H2 & H3 & H4). destruct (fr_eof f') eqn:EE.
      { rewrite app_nil_r. unfold held, pot. rewrite H4, HL. destruct (fr_readable f); crack. }
      assert (fr_eof f = false) as EF0 by (destruct (fr_readable f); auto).
      destruct ev as [b bs| |k].
      + specialize (IH (mk_framed (fr_st f') (fr_buf f' ++ b :: bs) true false)). unfold after_poll in IH.
        rewrite map_app, sum_app, llen_app, map_app, concat_app, H4, HL. cbn [app].
        assert (held (mk_framed (fr_st f') (fr_buf f' ++ b :: bs) true false) s = llen (fr_buf f') + llen (aev_bytes (AData b bs :: s))) as HH.
        { unfold held. cbn [fr_buf aev_bytes]. change (b :: bs ++ aev_bytes s) with ((b :: bs) ++ aev_bytes s). rewrite !llen_app. lia. }
        assert (pot (mk_framed (fr_st f') (fr_buf f' ++ b :: bs) true false) s = 2 + reads s) as HP by (unfold pot; cbn [fr_readable fr_eof]; lia).
        assert (pot f (AData b bs :: s) = (if fr_readable f then 1 else 0) + 2 + reads s) as HP2 by (unfold pot; rewrite EF0; cbn [reads]; lia).
        assert (held f (AData b bs :: s) = llen (fr_buf f) + llen (aev_bytes (AData b bs :: s))) as HH2 by reflexivity.
        rewrite HH, HP in IH. rewrite HP2, HH2.
        destruct (framed_poll decode s _) as [[[i| | |e| |] f2] s2]; destruct IH as (I1 & I2 & I3); rewrite I3; repeat split; lia.
      + rewrite app_nil_r, H4, HL. unfold held, pot. rewrite H1, EE, EF0. cbn [aev_bytes reads]. destruct (fr_readable f); crack.
      + rewrite app_nil_r, H4, HL. unfold held, pot. rewrite EF0. cbn [aev_bytes reads]. destruct (fr_readable f); crack.
  Qed.
  Lemma run_counts : forall fuel s f, let calls := run_calls decode fuel s f in
    sum (map took calls) <= held f s /\
    llen calls <= pot f s + llen (fst (framed_run decode fuel s f)) /\
    concat (map got calls) = fst (framed_run decode fuel s f).
  Proof using shrinks. 
    induction fuel as [|fuel IH]; intros s f; cbn [run_calls framed_run]; [cbn; repeat split; lia|].
    pose proof (poll_counts s f) as HP. unfold after_poll in HP.
    destruct (framed_poll decode s f) as [[r f'] s']. rewrite map_app, sum_app, llen_app, map_app, concat_app.
    destruct r as [i| | |e| |]; try (destruct HP as (P1 & P2 & P3); rewrite P3; cbn [map concat sum fold_right fst app]; rewrite llen_nil; repeat split; lia).
    - destruct HP as (P1 & P2 & P3). specialize (IH s' f'). cbv zeta in IH. destruct IH as (I1 & I2 & I3).
      destruct (framed_run decode fuel s' f') as [l e]. cbn [fst] in *. rewrite P3, I3. rewrite llen_cons. cbn [app]. repeat split; lia.
    - destruct HP as (P1 & P2 & P3). specialize (IH s' f'). cbv zeta in IH. destruct IH as (I1 & I2 & I3).
      rewrite P3, I3. cbn [app]. repeat split; lia.
  Qed.
  Lemma first_counts : forall fuel s f, llen (first_calls decode fuel s f) <= pot f s + 1.
  Proof using shrinks.
    induction fuel as [|fuel IH]; intros s f; cbn [first_calls]; [rewrite llen_nil; lia|].
    pose proof (poll_counts s f) as HP. unfold after_poll in HP.
    destruct (framed_poll decode s f) as [[r f'] s']. rewrite llen_app.
    destruct r as [i| | |e| |]; destruct HP as (P1 & P2 & P3); rewrite ?llen_nil; try lia.
    specialize (IH s' f'). lia.
  Qed.
End G.
Section H.
  Variables St Item : Type.
  Variable decode : St -> bytes -> result (option Item) ws_error * St * bytes.
  Variable J : St -> bytes -> bytes -> Prop.
  Hypothesis J_ok : forall st b o st' b' rem, J st b rem -> decode st b = (Ok o, st', b') -> J st' b' rem.
  Hypothesis J_more : forall st b x rem, J st b (x ++ rem) -> J st (b ++ x) rem.
  Definition jgood (call : St * bytes) : Prop := exists rem, J (fst call) (snd call) rem.

  Lemma poll_inv : forall s f, J (fr_st f) (fr_buf f) (aev_bytes s) ->
    Forall jgood (poll_calls decode s f) /\
    match framed_poll decode s f with
    | (PItem _, f', s') | (PNotReady, f', s') => J (fr_st f') (fr_buf f') (aev_bytes s')
    | _ => True
    end.
  Proof using J_ok J_more.
    assert (HD : forall f rem, J (fr_st f) (fr_buf f) rem -> Forall jgood (decode_calls f) /\
      match framed_decode decode f with
      | (Some (PItem _), f') | (None, f') => J (fr_st f') (fr_buf f') rem
      | (Some PNotReady, _) => False
      | _ => True
      end).
    { intros f rem HJ. unfold decode_calls, framed_decode. destruct (fr_readable f).
      - split; [constructor; [exists rem; exact HJ|constructor]|].
        destruct (decode (fr_st f) (fr_buf f)) as [[r st'] b'] eqn:E.
        destruct r as [[i|]|e| |]; auto.
        + cbn [fr_st fr_buf]. eapply J_ok; eauto.
        + destruct (fr_eof f); [destruct b'; exact I|]. cbn [fr_st fr_buf]. eapply J_ok; eauto.
      - split; [constructor|exact HJ]. }
    induction s as [|ev s IH]; intros f HJ; destruct (HD f _ HJ) as [H1 H2]; cbn [poll_calls framed_poll];
      destruct (framed_decode decode f) as [[r|] f'].
    - rewrite app_nil_r. split; [exact H1|]. destruct r; auto; contradiction.
    - destruct (fr_eof f'); [rewrite app_nil_r; auto|].
      destruct (HD (mk_framed (fr_st f') (fr_buf f') true true) [] H2) as [H3 H4]. split; [apply Forall_app; auto|].
      destruct (framed_decode decode _) as [[r|] f3]; [|exact I]. destruct r; auto; contradiction.
    - rewrite app_nil_r. split; [exact H1|]. destruct r; auto; contradiction.
    - destruct (fr_eof f'); [rewrite app_nil_r; auto|]. destruct ev as [b bs| |k].
      + destruct (IH (mk_framed (fr_st f') (fr_buf f' ++ b :: bs) true false)) as [H3 H4].
        { cbn [fr_st fr_buf]. apply J_more. exact H2. }
        split; [apply Forall_app; auto|exact H4].
      + rewrite app_nil_r. split; [exact H1|exact H2].
      + rewrite app_nil_r. auto.
  Qed.
  Lemma run_inv : forall fuel s f, J (fr_st f) (fr_buf f) (aev_bytes s) -> Forall jgood (run_calls decode fuel s f).
  Proof using J_ok J_more.
    induction fuel as [|fuel IH]; intros s f HJ; cbn [run_calls]; [constructor|].
    destruct (poll_inv s f HJ) as [H1 H2]. apply Forall_app. split; [exact H1|].
    destruct (framed_poll decode s f) as [[r f'] s']. destruct r; auto; constructor.
  Qed.
  Lemma first_inv : forall fuel s f, J (fr_st f) (fr_buf f) (aev_bytes s) -> Forall jgood (first_calls decode fuel s f).
  Proof using J_ok J_more.
    induction fuel as [|fuel IH]; intros s f HJ; cbn [first_calls]; [constructor|].
    destruct (poll_inv s f HJ) as [H1 H2]. apply Forall_app. split; [exact H1|].
    destruct (framed_poll decode s f) as [[r f'] s']. destruct r; auto; constructor.
  Qed.
End H.
Arguments run_counts {St Item}.
Arguments took {St Item}.
Arguments got {St Item}.
Arguments run_inv {St Item}.
Arguments first_inv {St Item}.
Arguments first_counts {St Item}.

Lemma df_shrinks : forall c src, (length (snd (df_decode c src)) <= length src)%nat.
Proof.
  intros c src. rewrite df_decode_eq. destruct (read_header lst_exact src) as [x r] eqn:E.
  destruct x as [h|e| |]; cbn [snd]; try lia; [|destruct e; cbn [snd]; lia].
  destruct (dc_max c <? h_len h); cbn [snd]; [lia|]. destruct (llen r <? h_len h); cbn [snd]; [lia|].
  apply read_header_inv in E as (-> & _ & _). pose proof (llen_drop _ (h_len h) r) as HD. unfold llen in *. rewrite app_length. lia.
Qed.
Lemma mcl_shrinks : forall n c cur src, (length src < n)%nat -> (length (snd (mcl c cur src)) <= length src)%nat.
Proof.
  induction n as [|n IH]; intros c cur src Hn; [lia|]. rewrite mcl_eq.
  pose proof (df_shrinks (mc_df c) src) as HS.
  destruct (df_decode (mc_df c) src) as [[[f|]|e| |] src'] eqn:E; cbn [snd] in *; try lia.
  pose proof (df_decode_length _ _ _ _ E) as HL.
  destruct (step (mc_buffer c) f) as [[o|] b]; cbn [snd]; [lia|].
  destruct (over (llen b)); cbn [snd]; [lia|]. destruct (_ <? _); cbn [snd]; [lia|].
  specialize (IH (mc_with_buffer c b) (cur + (llen (f_data f) + PER_DATAFRAME_OVERHEAD)) src' ltac:(lia)). lia.
Qed.
Lemma mc_shrinks : forall c src, (length (snd (mc_decode c src)) <= length src)%nat.
Proof. intros c src. rewrite mc_decode_mcl. apply (mcl_shrinks (S (length src))). lia. Qed.

(** ** The asynchronous side *)

(** [C89] What is counted are the calls behind a stream of messages: every message comes out of
    one of them.  There is one for every time the transport has something, one more for every message,
    and two. *)
Lemma calls_deliver_proof : forall c buf s, let calls := message_calls c buf s in
  fst (run_messages c buf s)
  = concat (map (fun call => match mc_decode (fst call) (snd call) with (Ok (Some m), _, _) => [m] | _ => [] end) calls) /\
  llen calls <= reads s + llen (fst (run_messages c buf s)) + 2.
Proof.
  intros c buf s. cbv zeta. unfold message_calls, run_messages.
  destruct (run_counts mc_decode mc_shrinks (length buf + length (aev_bytes s) + length s + 2) s (framed_new c buf)) as (_ & H2 & H3).
  split.
  - rewrite <- H3. f_equal. apply map_ext. intros [c1 b1]. unfold got. cbn [fst snd].
    destruct (mc_decode c1 b1) as [[x c2] b2]. reflexivity.
  - assert (pot msg_codec (framed_new c buf) s <= reads s + 2) as HP by (unfold pot, framed_new; cbn [fr_readable fr_eof]; destruct buf; cbv iota; lia).
    lia.
Qed.
(*EX
(** Two empty fragments and a Ping, in three reads. *)
Definition three_reads : list aev :=
  [AData x02 [x80; x00; x00; x00; x00; x00; x80]; ANotReady; AData x00 [x00; x00; x00; x89; x80; x00; x00; x00]; AData x00 []].
Example calls_deliver_ex : fst (run_messages (msg_codec_new CtxServer) [] three_reads) = [OPing []] /\ reads three_reads = 3 /\
  map (fun call => (llen (mc_buffer (fst call)), llen (snd call))) (message_calls (msg_codec_new CtxServer) [] three_reads)
  = [(0, 8); (1, 11); (2, 6); (2, 0); (2, 0)].
Proof. repeat split; vm_compute; reflexivity. Qed.
EX*)

Lemma work_split : forall l B, Forall (fun call : msg_codec * bytes => llen (mc_buffer (fst call)) <= B) l ->
  sum (map decode_work l) <= (B + 14) * llen l + sum (map (took mc_decode) l).
Proof.
  induction 1 as [|[c b] l H1 Hl IH]; [cbn; lia|]. cbn [map]. rewrite !sum_cons, llen_cons.
  unfold decode_work at 1, took at 1. cbn [fst snd] in *. destruct (mc_decode c b) as [[x c2] b2]. cbn [snd]. nia.
Qed.
Lemma stream_split : forall c buf s B, Forall (fun call => llen (mc_buffer (fst call)) <= B) (message_calls c buf s) ->
  stream_work c buf s <= (B + 14) * llen (message_calls c buf s) + llen buf + llen (aev_bytes s).
Proof.
  intros c buf s B H. apply work_split in H.
  destruct (run_counts mc_decode mc_shrinks (length buf + length (aev_bytes s) + length s + 2) s (framed_new c buf)) as (H1 & _ & _).
  unfold held, framed_new in H1. cbn [fr_buf] in H1. unfold stream_work, message_calls, framed_new in *. lia.
Qed.

(** [C89] Whatever arrives, a byte and a call cost no more than a constant; but that is a large one, because
    up to 1048575 fragments may be waiting for the rest of their message at every call. *)
Lemma stream_work_bound_proof : forall ctx max_df max_msg buf s l, acontains s l ->
  let c := msg_codec_with_limits ctx max_df max_msg in
  stream_work c buf s <= 1048589 * llen (message_calls c buf s) + size (buf ++ l).
Proof.
  intros ctx max_df max_msg buf s l Hl c. apply acontains_iff in Hl. subst l.
  assert (size (buf ++ aev_bytes s) = llen buf + llen (aev_bytes s)) as -> by (apply llen_app).
  enough (Forall (fun call => llen (mc_buffer (fst call)) <= 1048575) (message_calls c buf s)) as HF.
  { apply stream_split in HF. lia. }
  set (J := fun (c' : msg_codec) (b rem : bytes) => llen (mc_buffer c') < MAX_DATAFRAMES_IN_ONE_MESSAGE /\ data_total (mc_buffer c') <= mc_max_msg c').
  eapply Forall_impl; [|apply (run_inv mc_decode J)].
  - intros [c1 b1] [rem [H1 H2]]. cbn [fst snd] in *. unfold MAX_DATAFRAMES_IN_ONE_MESSAGE in H1. lia.
  - intros c1 b1 o c2 b2 rem [H1 H2] E. pose proof (mcl_bound (S (length b1)) b1 c1 (data_total (mc_buffer c1)) ltac:(lia) ltac:(lia) H2 H1) as HB.
    rewrite <- mc_decode_mcl, E in HB. cbn [abound_post] in HB. destruct HB as (B1 & B2 & _).
    pose proof (mc_decode_sound c1 b1) as HS. rewrite E in HS.
    assert (c2 = mc_with_buffer c1 (mc_buffer c2)) as HC by (destruct o; destruct HS as (? & _ & _ & _ & HS); exact HS).
    split; [exact B2|]. rewrite HC. cbn [mc_with_buffer mc_max_msg mc_buffer]. exact B1.
  - intros c1 b1 x rem H. exact H.
  - split; [reflexivity|]. unfold framed_new. cbn [fr_st c msg_codec_with_limits mc_buffer data_total fold_left]. lia.
Qed.
(*EX
Example stream_work_bound_ex : acontains three_reads (aev_bytes three_reads) /\
  stream_work (msg_codec_new CtxServer) [] three_reads = (0 + 1 + 2 + 2 + 2) + 5 * 14 + 18.
Proof.
  split; [|vm_compute; reflexivity]. unfold three_reads. cbn [aev_bytes].
  apply (acontains_data x02 [x80; x00; x00; x00; x00; x00; x80]). apply acontains_not_ready.
  apply (acontains_data x00 [x00; x00; x00; x89; x80; x00; x00; x00]). apply (acontains_data x00 [] _ []). constructor.
Qed.
EX*)

Lemma calls_consumed : forall ctx max_df max_msg buf s,
  let c := msg_codec_with_limits ctx max_df max_msg in
  Forall (fun call : msg_codec * bytes => exists (k : list keyed) ms rest, buf ++ aev_bytes s = encs k ++ rest /\
    wire_ok (receives_masked ctx) (capped max_df) k /\ results [] (map fst k) = (map Ok ms, mc_buffer (fst call)))
    (message_calls c buf s).
Proof.
  intros ctx max_df max_msg buf s c.
  set (J := fun (c' : msg_codec) (b rem : bytes) => exists (k : list keyed) ms, buf ++ aev_bytes s = encs k ++ b ++ rem /\
    wire_ok (receives_masked ctx) (capped max_df) k /\ results [] (map fst k) = (map Ok ms, mc_buffer c') /\
    c' = mc_with_buffer c (mc_buffer c')).
  eapply Forall_impl; [|apply (run_inv mc_decode J)].
  - intros [c1 b1] (rem & k & ms & K1 & K2 & K3 & K4). cbn [fst snd] in *.
    exists k, ms, (b1 ++ rem). auto.
  - intros c1 b1 o c2 b2 rem (k & ms & K1 & K2 & K3 & K4) E.
    pose proof (mc_decode_sound c1 b1) as HS. rewrite E in HS.
    assert (dc_is_server (mc_df c1) = receives_masked ctx /\ dc_max (mc_df c1) = capped max_df) as [D1 D2].
    { rewrite K4. cbn [mc_with_buffer mc_df c msg_codec_with_limits df_codec_with_limits dc_is_server dc_max].
      split; [reflexivity|apply capped_eq]. }
    destruct o as [m|]; destruct HS as (k2 & S1 & S2 & S3 & S4); rewrite D1, D2 in S2.
    + exists (k ++ k2), (ms ++ [m]). rewrite encs_app, K1, S1, <- !app_assoc. split; [reflexivity|].
      split; [apply Forall_app; auto|]. split.
      * rewrite !map_app. pose proof (advance_app_results _ _ _ _ [] S3) as Q. cbn [results app] in Q. rewrite app_nil_r in Q.
        pose proof (results_app _ _ _ _ (map fst k2) K3) as R. rewrite Q in R. cbn [map app] in R. exact R.
      * rewrite S4, K4. reflexivity.
    + exists (k ++ k2), ms. rewrite encs_app, K1, S1, <- !app_assoc. split; [reflexivity|].
      split; [apply Forall_app; auto|]. split.
      * rewrite !map_app. pose proof (results_app _ _ _ _ (map fst k2) K3) as R. rewrite S3 in R. rewrite app_nil_r in R. exact R.
      * rewrite S4, K4. reflexivity.
  - intros c1 b1 x rem (k & ms & K1 & K2 & K3 & K4). exists k, ms. rewrite <- app_assoc. auto.
  - exists [], []. unfold framed_new. cbn [fr_st fr_buf encs map concat app results]. repeat split. constructor.
Qed.

Lemma delivers_length : forall p fs ms p', delivers p fs ms p' -> (length p' <= length p + length fs)%nat.
Proof. induction 1; rewrite ?app_length in *; cbn [length] in *; lia. Qed.
(** Every fragment has two bytes. *)
Lemma piles_size : forall m l, piles_up_to (size l / 2) m l.
Proof.
  intros m l fs ws rest ms p -> HW HD. apply delivers_length in HD. cbn [length] in HD.
  apply on_wire_encs in HW as (k & <- & -> & _). apply N.div_le_lower_bound; [lia|].
  assert (2 * N.of_nat (length k) <= size (encs k)) as HK.
  { clear. induction k as [|[f key] k IH]; [cbn; lia|]. rewrite encs_cons. cbn [fst snd length]. pose proof (enc_len_pos f key) as HP.
    unfold size, llen in *. rewrite app_length. lia. }
  unfold size in *. rewrite app_length. rewrite map_length in HD. unfold keyed in *. lia.
Qed.
(** [C89] The constant is small where the peer does not pile up fragments: with no more than
    [most] of them waiting at any time, a call costs [most] and 14, and a byte 1. *)
Lemma stream_work_piles_proof : forall ctx max_df max_msg buf s l most, acontains s l ->
  piles_up_to most (receives_masked ctx) (buf ++ l) ->
  let c := msg_codec_with_limits ctx max_df max_msg in
  stream_work c buf s <= (most + 14) * llen (message_calls c buf s) + size (buf ++ l).
Proof.
  intros ctx max_df max_msg buf s l most Hl HP c. apply acontains_iff in Hl. subst l.
  assert (size (buf ++ aev_bytes s) = llen buf + llen (aev_bytes s)) as -> by (apply llen_app).
  enough (Forall (fun call => llen (mc_buffer (fst call)) <= most) (message_calls c buf s)) as HF.
  { apply stream_split in HF. lia. }
  eapply Forall_impl; [|apply calls_consumed].
  intros call (k & ms & rest & K1 & K2 & K3).
  apply (HP (map fst k) (encs k) rest ms); [exact K1|exact (encs_on_wire _ _ _ K2)|].
  apply results_delivers in K3; [apply K3|constructor|].
  apply Forall_map. eapply Forall_impl; [|exact K2]. intros [f key] [[_ H1] _] H8. apply H1, H8.
Qed.
(*EX
Example stream_work_piles_ex : piles_up_to 9 true (aev_bytes three_reads) /\
  (stream_work (msg_codec_new CtxServer) [] three_reads <=? (9 + 14) * llen (message_calls (msg_codec_new CtxServer) [] three_reads) + 18) = true.
Proof. split; [exact (ThmWork.piles_size true (aev_bytes three_reads))|vm_compute; reflexivity]. Qed.
EX*)

Lemma encs_prefix : forall m d l k rest, wire_ok m d l -> wire_ok m d k -> encs l = encs k ++ rest ->
  exists l', map fst l = map fst k ++ l'.
Proof.
  intros m d l k. revert l. induction k as [|[f key] k IH]; intros l rest Hl Hk E; [exists (map fst l); reflexivity|].
  rewrite encs_cons in E. cbn [fst snd] in E. inversion Hk as [|? ? (K1 & K2 & K3) Hk2]; subst. cbn [fst snd] in *.
  destruct l as [|[g key2] l].
  - exfalso. apply (f_equal (@length byte)) in E. rewrite <- app_assoc, app_length in E. pose proof (enc_len_pos f key) as HP. unfold llen in HP. cbn in E. lia.
  - rewrite encs_cons in E. cbn [fst snd] in E. inversion Hl as [|? ? (L1 & L2 & L3) Hl2]; subst. cbn [fst snd] in *.
    pose proof (df_decode_enc (mk_dfc (is_some key) d) f key (encs k ++ rest) K1 K2 eq_refl) as D1.
    pose proof (df_decode_enc (mk_dfc (is_some key) d) g key2 (encs l) L1 L2 L3) as D2.
    rewrite app_assoc, <- E, D2 in D1. injection D1 as -> D1.
    destruct (IH l rest Hl2 Hk2 D1) as [l' HL]. exists l'. cbn [map fst app]. rewrite HL. reflexivity.
Qed.
Lemma whole_results : forall fs, Forall (fun f => f_finished f = true) fs -> forall ms p, results [] fs = (ms, p) -> p = [].
Proof.
  induction 1 as [|f fs Hf HF IH]; intros ms p H; cbn [results] in H; [injection H as _ <-; reflexivity|].
  assert (exists o, step [] f = (Some o, [])) as [o E].
  { unfold step. rewrite Hf. cbn [is_nil negb]. rewrite andb_false_r.
    destruct ((op_u8 (f_opcode f) =? 0) && true); [eexists; reflexivity|].
    destruct (8 <=? op_u8 (f_opcode f)); eexists; reflexivity. }
  rewrite E in H. destruct (results [] fs) as [ms' p'] eqn:ER. injection H as _ <-. apply (IH ms'). reflexivity.
Qed.
(** [C89] So a peer that does not fragment its messages causes work in proportion to what it sends and how
    often something comes of it. *)
Lemma stream_work_whole_proof : forall ctx max_df max_msg fs l s, on_wire (receives_masked ctx) fs l ->
  fits (capped max_df) fs -> Forall (fun f => f_finished f = true) fs -> acontains s l ->
  let c := msg_codec_with_limits ctx max_df max_msg in
  stream_work c [] s <= 14 * llen (message_calls c [] s) + size l.
Proof.
  intros ctx max_df max_msg fs l s HW HF HT Hl c. apply acontains_iff in Hl. subst l.
  destruct (on_wire_ok _ _ _ _ HW HF) as (l & L1 & L2 & L3).
  assert (Forall (fun call => llen (mc_buffer (fst call)) <= 0) (message_calls c [] s)) as HK.
  { eapply Forall_impl; [|apply calls_consumed].
    intros call (k & ms & rest & K1 & K2 & K3). cbn [app] in K1.
    destruct (encs_prefix _ _ l k rest L3 K2) as [l' HL]; [rewrite <- L2; exact K1|].
    rewrite <- L1, HL in HT. apply Forall_app in HT as [HT _]. apply (whole_results _ HT) in K3. rewrite K3. rewrite llen_nil. lia. }
  apply stream_split in HK. rewrite llen_nil in HK. change (size (aev_bytes s)) with (llen (aev_bytes s)). lia.
Qed.
(*EX
(** An empty text, byte by byte. *)
Definition six_reads : list aev := [AData x81 []; AData x80 []; AData x00 []; AData x00 []; AData x00 []; AData x00 []].
Example stream_work_whole_ex : on_wire true [whole_frame (OText [])] (aev_bytes six_reads) /\
  stream_work (msg_codec_new CtxServer) [] six_reads = 14 * llen (message_calls (msg_codec_new CtxServer) [] six_reads) + 6 /\
  llen (message_calls (msg_codec_new CtxServer) [] six_reads) = 8.
Proof.
  split; [|split; vm_compute; reflexivity].
  apply (wire_cons true (whole_frame (OText [])) (Some (mk_key x00 x00 x00 x00)) [x81; x80; x00; x00; x00; x00] [] []); [reflexivity..|constructor].
Qed.
EX*)

(** *** A peer that piles up empty fragments *)
Definition frag (first : bool) : dataframe := mk_df false (false, false, false) (if first then Binary else Continuation) [].
Definition zero_key : mkey := mk_key x00 x00 x00 x00.
Definition frag_wire (first : bool) : bytes := [if first then x02 else x00; x80; x00; x00; x00; x00].
Lemma frag_enc : forall b, enc (frag b) (Some zero_key) = frag_wire b.
Proof. intros []; reflexivity. Qed.
Lemma frag_ok : forall b, frame_ok (frag b).
Proof. intros []; (split; [reflexivity|]); intros H; exfalso; vm_compute in H; apply H; reflexivity. Qed.
Definition blank (p : list dataframe) : Prop := Forall (fun f => f_data f = []) p.
Lemma blank_total : forall p, blank p -> data_total p = 0.
Proof. induction 1 as [|f p Hf Hp IH]; [reflexivity|]. change (f :: p) with ([f] ++ p). rewrite data_total_app, data_total_1, Hf, IH. reflexivity. Qed.
Lemma blank_weight : forall p, blank p -> weight p = 64 * llen p.
Proof. induction 1 as [|f p Hf Hp IH]; [reflexivity|]. rewrite llen_cons. cbn [weight fold_right]. fold (weight p). rewrite IH, Hf. change PER_DATAFRAME_OVERHEAD with 64. rewrite llen_nil. lia. Qed.
Lemma step_frag : forall p, step p (frag (is_nil p)) = (None, p ++ [frag (is_nil p)]).
Proof. intros [|f p]; reflexivity. Qed.
Lemma blank_snoc : forall p b, blank p -> blank (p ++ [frag b]).
Proof. intros p b H. apply Forall_app. split; [exact H|]. constructor; [destruct b; reflexivity|constructor]. Qed.

Definition srv (p : list dataframe) : msg_codec := mc_with_buffer (msg_codec_new CtxServer) p.
Lemma mc_frag : forall p, blank p -> llen p + 1 < 1048576 ->
  mc_decode (srv p) (frag_wire (is_nil p)) = (Ok None, srv (p ++ [frag (is_nil p)]), []).
Proof.
  intros p Hp Hl. rewrite mc_decode_mcl, mcl_eq.
  assert (df_decode (mc_df (srv p)) (frag_wire (is_nil p)) = (Ok (Some (frag (is_nil p))), [])) as -> by (destruct p; reflexivity).
  change (mc_buffer (srv p)) with p. rewrite step_frag.
  assert (llen (p ++ [frag (is_nil p)]) = llen p + 1) as HL by (rewrite llen_app; reflexivity).
  unfold over. rewrite HL. destruct (N.leb_spec MAX_DATAFRAMES_IN_ONE_MESSAGE (llen p + 1)) as [H|H]; [unfold MAX_DATAFRAMES_IN_ONE_MESSAGE in H; lia|].
  rewrite blank_total by exact Hp.
  assert ((mc_max_msg (srv p) <? 0 + (llen (f_data (frag (is_nil p))) + PER_DATAFRAME_OVERHEAD)) = false) as -> by (destruct p; reflexivity).
  rewrite mcl_eq. reflexivity.
Qed.
Definition frag_chunk (b : bool) : aev := AData (if b then x02 else x00) [x80; x00; x00; x00; x00].

Lemma drip_calls : forall k p, blank p -> llen p + N.of_nat k + 1 < 1048576 ->
  (N.of_nat k + 1) * (2 * llen p + N.of_nat k)
  <= 2 * sum (map decode_work (poll_calls mc_decode (repeat (frag_chunk false) k) (mk_framed (srv p) (frag_wire (is_nil p)) true false))).
Proof.
  induction k as [|k IH]; intros p Hp Hl; cbn [repeat poll_calls]; unfold decode_calls, framed_decode; cbn [fr_readable fr_st fr_buf fr_eof];
    rewrite mc_frag by (auto; lia); cbn [fr_readable fr_st fr_buf fr_eof frag_chunk app map]; rewrite sum_cons; unfold decode_work at 1; rewrite mc_frag by (auto; lia);
    change (mc_buffer (srv p)) with p.
  - nia.
  - assert (llen (p ++ [frag (is_nil p)]) = llen p + 1) as HL by (rewrite llen_app; reflexivity).
    specialize (IH (p ++ [frag (is_nil p)]) (blank_snoc _ _ Hp)). rewrite HL in IH. specialize (IH ltac:(lia)).
    assert (is_nil (p ++ [frag (is_nil p)]) = false) as HN by (destruct p; reflexivity). rewrite HN in IH.
    change (frag_wire false) with [x00; x80; x00; x00; x00; x00] in IH.
    set (t := sum _) in *. fold t. nia.
Qed.
Lemma empty_wire : forall n, on_wire true (repeat (frag false) n) (concat (repeat (frag_wire false) n)).
Proof.
  induction n as [|n IH]; [constructor|]. cbn [repeat concat]. apply wire_cons with (Some zero_key); [reflexivity| |exact IH].
  rewrite octets_b2n, <- frag_enc. apply enc_rfc.
Qed.
Lemma empty_delivers : forall n p, p <> [] -> delivers p (repeat (frag false) n) [] (p ++ repeat (frag false) n).
Proof.
  induction n as [|n IH]; intros p Hp; cbn [repeat]; [rewrite app_nil_r; constructor|].
  apply del_fragment; [reflexivity|reflexivity|split; [intros H; contradiction|intros H; exfalso; apply H; reflexivity]|].
  change (p ++ frag false :: repeat (frag false) n) with (p ++ [frag false] ++ repeat (frag false) n). rewrite app_assoc. apply IH. destruct p; discriminate.
Qed.
Lemma empty_carried : forall n, acarries (repeat (frag_chunk false) n) (concat (repeat (frag_wire false) n)).
Proof. induction n as [|n IH]; [constructor|]. cbn [repeat concat]. apply (acarries_data x00 [x80; x00; x00; x00; x00]). exact IH. Qed.
Lemma empty_size : forall n, size (concat (repeat (frag_wire false) n)) = 6 * N.of_nat n.
Proof. induction n as [|n IH]; [reflexivity|]. cbn [repeat concat]. unfold size in *. rewrite app_length. change (length (frag_wire false)) with 6%nat. lia. Qed.

(** [C89] But with the built-in limits a peer that sends an unfinished message in [n] empty
    fragments of six bytes, one at a time, makes the server add up [n * (n - 1) / 2] lengths: for the six
    megabytes of the longest such message more than 500 000 000 000. *)
Lemma stream_work_proportional_refuted_proof : forall n, N.of_nat n < 1048576 -> exists s l,
  on_wire true (empty_fragments n) l /\ delivers [] (empty_fragments n) [] (empty_fragments n) /\
  acarries s l /\ size l = 6 * N.of_nat n /\
  N.of_nat n * (N.of_nat n - 1) <= 2 * stream_work (msg_codec_new CtxServer) [] s.
Proof.
  intros [|n] Hn.
  { exists [], []. split; [constructor|]. split; [constructor|]. split; [constructor|]. split; [reflexivity|lia]. }
  exists (frag_chunk true :: repeat (frag_chunk false) n), (frag_wire true ++ concat (repeat (frag_wire false) n)).
  cbn [empty_fragments]. change (mk_df false (false, false, false) Binary []) with (frag true). change (mk_df false (false, false, false) Continuation []) with (frag false).
  split; [apply wire_cons with (Some zero_key); [reflexivity|rewrite octets_b2n, <- frag_enc; apply enc_rfc|apply empty_wire]|].
  split; [apply del_fragment; [reflexivity|reflexivity|split; [discriminate|reflexivity]|apply empty_delivers; discriminate]|].
  split; [apply (acarries_data x02 [x80; x00; x00; x00; x00]), empty_carried|].
  split; [unfold size in *; rewrite app_length; pose proof (empty_size n) as HE; unfold size in HE; change (length (frag_wire true)) with 6%nat; lia|].
  unfold stream_work, message_calls. replace (length (@nil byte) + _ + _ + 2)%nat with (S (length (aev_bytes (frag_chunk true :: repeat (frag_chunk false) n)) + length (frag_chunk true :: repeat (frag_chunk false) n) + 1))%nat by (cbn [length]; lia).
  cbn [run_calls]. rewrite map_app, sum_app.
  cbn [poll_calls]. unfold framed_new at 1 2. unfold decode_calls at 1, framed_decode at 1. cbn [fr_readable fr_st fr_buf fr_eof frag_chunk app].
  pose proof (drip_calls n [] ltac:(constructor) ltac:(rewrite llen_nil; lia)) as HD. rewrite llen_nil in HD. change (is_nil (@nil dataframe)) with true in HD.
  change (frag_wire true) with [x02; x80; x00; x00; x00; x00] in HD. change (srv []) with (msg_codec_new CtxServer) in HD. nia.
Qed.
(*EX
(** Forty fragments. *)
Example stream_work_proportional_ex :
  stream_work (msg_codec_new CtxServer) [] (AData x02 [x80; x00; x00; x00; x00] :: repeat (AData x00 [x80; x00; x00; x00; x00]) 39)
  = 40 * 39 / 2 + 40 + 41 * 14 + 240.
Proof. vm_compute. reflexivity. Qed.
EX*)

(** ** The blocking side *)
Lemma recv_n_length : forall n r s, length (fst (fst (recv_n n r s))) = n.
Proof.
  induction n as [|n IH]; intros r s; [reflexivity|]. cbn [recv_n]. destruct (recv_message r s) as [[x r1] s1].
  specialize (IH r1 s1). destruct (recv_n n r1 s1) as [[xs r2] s2]. cbn [fst length] in *. lia.
Qed.
Lemma receive_bounded : forall n r s, r_max_df r <= isize_max ->
  data_total (r_buffer r) <= N.max (r_max_df r) (r_max_msg r) -> llen (r_buffer r) < MAX_DATAFRAMES_IN_ONE_MESSAGE ->
  Forall (fun o => exists m, o = Ok m) (removelast (fst (fst (recv_n n r s)))) ->
  receive_work n r s <= 1048575 * N.of_nat n + N.of_nat (script_bytes s).
Proof.
  induction n as [|n IH]; intros r s Hm Hd Hl HO; cbn [receive_work]; [lia|]. cbn [recv_n] in HO.
  unfold recv_work. pose proof (recv_message_bound r s (N.max (r_max_df r) (r_max_msg r)) Hm ltac:(lia) ltac:(lia) Hd Hl) as HB.
  pose proof (recv_message_any r s Hm) as HA.
  destruct (recv_message r s) as [[x r1] s1]. specialize (IH r1 s1). pose proof (recv_n_length n r1 s1) as HN.
  change MAX_DATAFRAMES_IN_ONE_MESSAGE with 1048576 in *.
  destruct (recv_n n r1 s1) as [[xs r2] s2] eqn:E. cbn [fst] in *.
  destruct n as [|n].
  { cbn [receive_work]. lia. }
  destruct xs as [|x2 xs]; [discriminate|]. change (removelast (x :: x2 :: xs)) with (x :: removelast (x2 :: xs)) in HO.
  inversion HO as [|? ? [m ->] HO2]; subst. cbn [msg_post bound_post] in *.
  destruct HA as (k & A1 & A2 & A3 & A4). destruct HB as (B1 & B2 & _). rewrite A4 in IH. cbn [with_buffer r_max_df r_max_msg r_buffer] in IH.
  rewrite <- A4 in IH. specialize (IH Hm B1 B2 HO2).
  assert (N.of_nat (script_bytes s1) <= N.of_nat (script_bytes s)) by (rewrite !script_bytes_flat, A1, app_length; lia).
  lia.
Qed.

(** [C89] The blocking receiver, called [n] times, none but the last of them in vain. *)
Lemma receive_work_bound_proof : forall masked max_df max_msg n s l os r' s', contains s l ->
  let r := receiver_with_limits masked max_df max_msg in
  recv_n n r s = (os, r', s') -> Forall (fun o => exists m, o = Ok m) (removelast os) ->
  receive_work n r s <= 1048575 * N.of_nat n + size l.
Proof.
  intros masked max_df max_msg n s l os r' s' Hl r H HO. apply contains_iff in Hl. subst l.
  replace (size (flat s)) with (N.of_nat (script_bytes s)) by (rewrite script_bytes_flat; reflexivity).
  apply receive_bounded.
  - unfold r, receiver_with_limits. cbn [r_max_df]. rewrite capped_eq. apply capped_isize.
  - cbn. lia.
  - reflexivity.
  - rewrite H. exact HO.
Qed.
(*EX
Example receive_work_bound_ex :
  let s := [RData x02 [x80; x00; x00; x00; x00; x89; x80]; RIntr; RData x00 [x00; x00; x00; x81]] in
  fst (fst (recv_n 2 (receiver_new true) s)) = [Ok (OPing []); Err NoDataAvailable] /\
  receive_work 2 (receiver_new true) s = 1 + 13.
Proof. split; vm_compute; reflexivity. Qed.
EX*)

Definition ping_frame : dataframe := whole_frame (OPing []).
Lemma ping_step : forall p, step p ping_frame = (Some (Ok (OPing [])), p).
Proof. intros p. unfold step. cbn. rewrite ?andb_false_r. reflexivity. Qed.
Lemma pings_within : forall k p lim, blank p -> p <> [] -> llen p + N.of_nat k < 1048576 -> 64 * (llen p + N.of_nat k) < lim ->
  within lim p (with_pings (repeat (frag false) k)).
Proof.
  induction k as [|k IH]; intros p lim Hp Hn Hl Hw; [exact I|]. unfold with_pings. cbn [repeat map concat app within]. fold (with_pings (repeat (frag false) k)).
  pose proof (step_frag p) as HS. assert (is_nil p = false) as HN by (destruct p; [contradiction|reflexivity]). rewrite HN in HS. rewrite HS.
  fold ping_frame. rewrite ping_step.
  assert (llen (p ++ [frag false]) = llen p + 1) as HL by (rewrite llen_app; reflexivity).
  rewrite HL, blank_weight, HL by (apply blank_snoc, Hp). change MAX_DATAFRAMES_IN_ONE_MESSAGE with 1048576.
  split; [lia|]. split; [lia|]. apply IH; [apply blank_snoc, Hp|destruct p; discriminate|lia|lia].
Qed.
Lemma pings_received : forall k p l s, blank p -> llen p + N.of_nat k < 1048576 -> clean s -> flat s = encs l ->
  wire_ok true 104857600 l -> map fst l = match k with O => [] | S k' => frag (is_nil p) :: ping_frame :: with_pings (repeat (frag false) k') end ->
  let r := with_buffer (receiver_new true) p in
  fst (fst (recv_n k r s)) = repeat (Ok (OPing [])) k /\ N.of_nat k * (2 * llen p + N.of_nat k - 1) <= 2 * receive_work k r s.
Proof.
  induction k as [|k IH]; intros p l s Hp Hl Hc Hf Hw Hm r; [cbn; split; [reflexivity|lia]|].
  assert (llen (p ++ [frag (is_nil p)]) = llen p + 1) as HL by (rewrite llen_app; reflexivity).
  destruct (recv_message_advance l r s [] (Ok (OPing [])) (p ++ [frag (is_nil p)]) (with_pings (repeat (frag false) k))) as (l' & s' & E & E1 & (pre & E2) & E3 & E4).
  - exact Hc.
  - rewrite app_nil_r. exact Hf.
  - exact Hw.
  - cbn [r with_buffer r_max_df]. vm_compute. discriminate.
  - rewrite Hm. cbn [r with_buffer r_buffer within]. rewrite step_frag, ping_step, HL, blank_weight, HL by (apply blank_snoc, Hp).
    change MAX_DATAFRAMES_IN_ONE_MESSAGE with 1048576. replace (r_max_msg r) with 209715200 by reflexivity.
    split; [lia|]. split; [lia|]. apply pings_within; [apply blank_snoc, Hp|destruct p; discriminate|lia|lia].
  - rewrite Hm. cbn [r with_buffer r_buffer advance]. rewrite step_frag, ping_step. reflexivity.
  - rewrite app_nil_r in E4. change (with_buffer r (p ++ [frag (is_nil p)])) with (with_buffer (receiver_new true) (p ++ [frag (is_nil p)])) in E.
    cbn [recv_n receive_work]. unfold recv_work. rewrite E. change (r_buffer r) with p.
    destruct (IH (p ++ [frag (is_nil p)]) l' s') as [I1 I2].
    + apply blank_snoc, Hp.
    + lia.
    + exact E3.
    + exact E4.
    + subst l. apply wire_ok_app_r in Hw. exact Hw.
    + rewrite <- E1. destruct k as [|k]; [reflexivity|].
      assert (is_nil (p ++ [frag (is_nil p)]) = false) as -> by (destruct p; reflexivity). reflexivity.
    + rewrite HL in I2. destruct (recv_n k (with_buffer (receiver_new true) (p ++ [frag (is_nil p)])) s') as [[xs r2] s2]. cbn [fst] in *.
      split; [rewrite I1; reflexivity|].
      set (t := receive_work k _ s') in *. fold t. nia.
Qed.
Definition pinged (b : bool) (k : nat) : list keyed :=
  (frag b, Some zero_key) :: (ping_frame, Some zero_key) :: concat (repeat [(frag false, Some zero_key); (ping_frame, Some zero_key)] k).
Lemma pinged_fst : forall b k, map fst (pinged b k) = frag b :: ping_frame :: with_pings (repeat (frag false) k).
Proof.
  intros b k. unfold pinged. cbn [map fst]. do 2 f_equal. unfold with_pings. induction k as [|k IH]; [reflexivity|].
  cbn [repeat concat map app fst]. rewrite IH. reflexivity.
Qed.
Lemma pinged_wire : forall b k, wire_ok true 104857600 (pinged b k).
Proof.
  assert (forall b, frame_ok (frag b) /\ llen (f_data (frag b)) <= 104857600 /\ is_some (Some zero_key) = true) as HF
    by (intros b; split; [apply frag_ok|split; [destruct b; vm_compute; discriminate|reflexivity]]).
  assert (frame_ok ping_frame /\ llen (f_data ping_frame) <= 104857600 /\ is_some (Some zero_key) = true) as HP.
  { split; [split; [reflexivity|intros _; split; [vm_compute; discriminate|reflexivity]]|split; [vm_compute; discriminate|reflexivity]]. }
  intros b k. constructor; [apply HF|]. constructor; [apply HP|]. induction k as [|k IH]; [constructor|].
  cbn [repeat concat app]. constructor; [apply HF|]. constructor; [apply HP|exact IH].
Qed.
Lemma pinged_size : forall b k, size (encs (pinged b k)) = 12 * (N.of_nat k + 1).
Proof.
  intros b k. unfold pinged. rewrite !encs_cons. cbn [fst snd]. rewrite frag_enc. unfold size. rewrite !app_length.
  assert (length (encs (concat (repeat [(frag false, Some zero_key); (ping_frame, Some zero_key)] k))) = 12 * k)%nat as ->.
  { induction k as [|k IH]; [reflexivity|]. cbn [repeat concat]. rewrite encs_app, app_length, IH. 
    change (length (encs [(frag false, Some zero_key); (ping_frame, Some zero_key)])) with 12%nat. lia. }
  change (length (enc ping_frame (Some zero_key))) with 6%nat. change (length (frag_wire b)) with 6%nat. lia.
Qed.

(** [C89] A peer that sends an empty ping after each of [n] empty fragments, twelve bytes for both, makes the
    blocking server do the same, however the bytes arrive. *)
Lemma receive_work_proportional_refuted_proof : forall n, N.of_nat n < 1048576 -> exists l,
  on_wire true (with_pings (empty_fragments n)) l /\ size l = 12 * N.of_nat n /\
  forall s, carries s l -> let r := receiver_new true in
    fst (fst (recv_n n r s)) = repeat (Ok (OPing [])) n /\
    N.of_nat n * (N.of_nat n - 1) <= 2 * receive_work n r s.
Proof.
  intros [|n] Hn.
  { exists []. split; [constructor|]. split; [reflexivity|]. intros s Hs. cbn. split; [reflexivity|lia]. }
  exists (encs (pinged true n)). split.
  - pose proof (encs_on_wire _ _ _ (pinged_wire true n)) as H. rewrite pinged_fst in H. exact H.
  - split; [rewrite pinged_size; lia|]. intros s Hs r. apply carries_iff in Hs as [Hc Hf].
    destruct (pings_received (S n) [] (pinged true n) s ltac:(constructor) ltac:(rewrite llen_nil; lia) Hc Hf (pinged_wire true n) (pinged_fst true n)) as [H1 H2].
    rewrite llen_nil in H2. change (with_buffer (receiver_new true) []) with r in *. split; [exact H1|]. lia.
Qed.
(*EX
(** Forty fragments and Pings, in one piece. *)
Example receive_work_proportional_ex :
  let w := concat ([x02; x80; x00; x00; x00; x00; x89; x80; x00; x00; x00; x00] :: repeat [x00; x80; x00; x00; x00; x00; x89; x80; x00; x00; x00; x00] 39) in
  receive_work 40 (receiver_new true) [RData x02 (List.tl w)] = 40 * 39 / 2 + 480.
Proof. vm_compute. reflexivity. Qed.
EX*)

(** ** Handshakes *)
Lemma attempts_bounded : forall A (try : bytes -> pres A) room, (forall n, n <= 417792 -> n + room n <= 417792) ->
  forall fuel buf s, llen buf <= 417792 ->
  2 * sum (map llen (attempts try room fuel buf s)) + llen buf * llen buf <= 417792 * 417793 + llen buf.
Proof.
  intros A try room Hr. induction fuel as [|fuel IH]; intros buf s HB; cbn [attempts map]; rewrite sum_cons;
    assert (llen buf * (llen buf + 1) <= 417792 * 417793) as HQ by (apply N.mul_le_mono; lia).
  - destruct (try buf) as [a x| |e]; cbn [map sum fold_right]; lia.
  - destruct (try buf) as [a x| |e]; cbn [map sum fold_right]; try lia.
    destruct (rd_read (room (llen buf)) s) as [[[|b d]|k| |] s1] eqn:ER; cbn [map]; try (cbn [sum fold_right]; lia).
    apply read_step in ER as [HL _]. specialize (Hr _ HB).
    specialize (IH (buf ++ b :: d) s1). rewrite llen_app in IH. specialize (IH ltac:(lia)).
    set (W := sum (map llen (attempts try room fuel (buf ++ b :: d) s1))) in *. rewrite llen_cons in *.
    set (x := llen buf) in *. set (y := llen d) in *. clearbody W x y. nia.
Qed.

(** [C89] A request is read anew with every read, but never in more than 417792 bytes. *)
Lemma request_work_bound_proof : forall X s, capped_room X -> 2 * request_work X s <= 417792 * 417793.
Proof.
  intros X s HX. pose proof (attempts_bounded _ (try_request X) (l_room X) HX (S (script_bytes s)) [] s) as H.
  rewrite llen_nil in H. unfold request_work. specialize (H ltac:(lia)). lia.
Qed.
(*EX
Example request_work_bound_ex : capped_room httparse_lib /\
  request_work httparse_lib [RData "G"%byte (str "ET /"); RData " "%byte (str "HTTP/1.1" ++ [x0d; x0a]); RData x0d [x0a]] = 0 + 5 + 16 + 18.
Proof. split; [intros n H; cbn [l_room httparse_lib]; unfold MAX_BUFFER_SIZE; Lia.lia|vm_compute; reflexivity]. Qed.
EX*)

Lemma unfinished_partial : forall X a d, sound_lib X -> unfinished X (a ++ d) -> try_request X a = Partial.
Proof.
  intros X a d HX (e & m & t & v & fs & He & Hh & Hn & Ht).
  pose proof (request_alone X m t v fs _ HX Hh Hn Ht) as HD. rewrite <- app_assoc in HD.
  pose proof (stab_request X a) as HS. destruct (try_request X a) as [q r| |x] eqn:E; [|reflexivity|].
  - destruct HS as (c & -> & HS). rewrite <- app_assoc in HD. rewrite HS in HD. injection HD as _ HD.
    apply app_eq_nil in HD as [_ HD]. apply app_eq_nil in HD as [_ HD]. contradiction.
  - rewrite HS in HD. discriminate HD.
Qed.
Definition dripping (text : bytes) : script := map (fun b => RData b []) text.
Lemma dripping_bytes : forall text, script_bytes (dripping text) = length text.
Proof. intros text. unfold dripping. induction text as [|b t IH]; [reflexivity|]. cbn [map script_bytes length]. rewrite IH. reflexivity. Qed.
Lemma attempts_drip : forall X d fuel a, sound_lib X -> sound_room X -> unfinished X (a ++ d) ->
  llen (a ++ d) <= 417792 -> (length d < fuel)%nat ->
  2 * sum (map llen (attempts (try_request X) (l_room X) fuel a (dripping d))) + llen a * llen a = llen (a ++ d) * (llen (a ++ d) + 1) + llen a.
Proof.
  intros X d. induction d as [|b d IH]; intros fuel a HX HR HU HL Hf; (destruct fuel as [|fuel]; [cbn in Hf; lia|]);
    cbn [attempts map]; rewrite sum_cons, (unfinished_partial X a _ HX HU).
  - cbn [dripping map]. unfold rd_read. rewrite app_nil_r in *.
    destruct (l_room X (llen a) =? 0); cbn [map sum fold_right]; lia.
  - assert (HA : a ++ b :: d = (a ++ [b]) ++ d) by (rewrite <- app_assoc; reflexivity).
    assert (llen (a ++ b :: d) = llen a + 1 + llen d) as HL2 by (rewrite llen_app, llen_cons; lia).
    pose proof (proj1 HR (llen a) ltac:(unfold MAX_BUFFER_SIZE; lia)) as HP.
    assert (rd_read (l_room X (llen a)) (dripping (b :: d)) = (Ok [b], dripping d)) as ->.
    { cbn [dripping map]. unfold rd_read. destruct (N.eqb_spec (l_room X (llen a)) 0); [lia|].
      rewrite take_all, drop_all by (rewrite llen_cons, llen_nil; lia). reflexivity. }
    rewrite HA in *. specialize (IH fuel (a ++ [b]) HX HR HU HL ltac:(cbn in Hf; lia)).
    assert (llen (a ++ [b]) = llen a + 1) as HL3 by (rewrite llen_app; reflexivity). rewrite HL3 in IH.
    set (W := sum (map llen (attempts (try_request X) (l_room X) fuel (a ++ [b]) (dripping d)))) in *.
    fold W. lia.
Qed.

(** [C89] A caller that sends a request byte by byte makes the blocking server read [n (n + 1) / 2]. *)
Lemma request_work_drip_proof : forall X text, sound_lib X -> sound_room X -> unfinished X text -> size text <= 417792 ->
  2 * request_work X (map (fun b => RData b []) text) = size text * (size text + 1).
Proof.
  intros X text HX HR HU HL. unfold request_work. fold (dripping text). rewrite dripping_bytes.
  pose proof (attempts_drip X text (S (length text)) [] HX HR HU HL ltac:(lia)) as H. cbn [app] in H. rewrite llen_nil in H.
  change (size text) with (llen text). lia.
Qed.
(*EX
Example request_work_drip_ex : unfinished httparse_lib (firstn 50 good_request) /\
  request_work httparse_lib (map (fun b => RData b []) (firstn 50 good_request)) = 50 * 51 / 2.
Proof. split; [exact ThmAccepting.half_unfinished|vm_compute; reflexivity]. Qed.
EX*)

Lemma http_shrinks : forall A (try : bytes -> pres A) st b, (length (snd (http_decode try st b)) <= length b)%nat.
Proof.
  intros A try st b. unfold http_decode. destruct (split_off_http b) as [[h r]|] eqn:E; cbn [snd]; [|lia].
  assert (length r <= length b)%nat by (apply split_exact_proof in E as [-> _]; rewrite app_length; lia).
  destruct (try h) as [a x| |[]]; cbn [snd]; exact H.
Qed.
(** [C89] The asynchronous server looks at all that has come, with every read. *)
Lemma async_request_work_bound_proof : forall X s, async_request_work X s <= (reads s + 2) * size (aev_bytes s).
Proof.
  intros X s. unfold async_request_work.
  set (calls := first_calls (http_decode (try_request X)) (S (length s)) s (framed_new tt [])).
  assert (llen calls <= reads s + 2) as HC.
  { pose proof (first_counts (http_decode (try_request X)) (http_shrinks _ _) (S (length s)) s (framed_new tt [])) as H. fold calls in H.
    replace (pot unit (framed_new tt []) s) with (0 + reads s + 1) in H by reflexivity. lia. }
  assert (Forall (fun call : unit * bytes => llen (snd call) <= size (aev_bytes s)) calls) as HF.
  { pose proof (first_inv (http_decode (try_request X)) (fun _ b rem => llen b + llen rem <= size (aev_bytes s))) as HI.
    eapply Forall_impl; [|apply HI].
    - intros call [rem Hr]. lia.
    - intros st b o st' b' rem Hr H. pose proof (http_shrinks _ (try_request X) st b) as HS. rewrite H in HS. cbn [snd] in HS. unfold llen in *. lia.
    - intros st b x rem Hr. rewrite llen_app in *. lia.
    - cbn. unfold size, llen. lia. }
  assert (sum (map (fun call : unit * bytes => llen (snd call)) calls) <= llen calls * size (aev_bytes s)) as HS.
  { clearbody calls. clear HC. induction HF as [|c l Hc Hl IH]; [cbn; lia|]. cbn [map]. rewrite sum_cons, llen_cons. lia. }
  nia.
Qed.
(*EX
Example async_request_work_bound_ex :
  async_request_work httparse_lib [AData "G"%byte (str "ET /"); ANotReady; AData " "%byte (str "HTTP/1.1" ++ [x0d; x0a]); AData x0d [x0a]] = 5 + 16 + 18.
Proof. vm_compute. reflexivity. Qed.
EX*)
Lemma async_drip : forall X (text : bytes) n (buf : bytes) (rd : bool) s, ~ has_end (buf ++ text) ->
  llen text * (2 * llen buf + llen text + 1) + (if rd then 2 * llen buf else 0) <= 2 * sum (map (fun call : unit * bytes => llen (snd call))
    (first_calls (http_decode (try_request X)) (S n) (map (fun b => AData b []) text ++ s) (mk_framed tt buf rd false))).
Proof.
  intros X. induction text as [|b text IH]; intros n buf rd s HE.
  - cbn [map app first_calls]. rewrite map_app, sum_app. destruct s as [|ev s]; cbn [poll_calls]; rewrite !map_app, !sum_app; rewrite llen_nil;
      unfold decode_calls at 1; cbn [fr_readable fr_st fr_buf]; destruct rd; cbn [map snd]; rewrite ?sum_cons; lia.
  - assert (HA : buf ++ b :: text = (buf ++ [b]) ++ text) by (rewrite <- app_assoc; reflexivity).
    assert (~ has_end buf) as HB by (intros (x & y & ->); apply HE; exists x, (y ++ b :: text); rewrite <- !app_assoc; reflexivity).
    rewrite HA in HE. specialize (IH n (buf ++ [b]) true s HE).
    assert (llen (buf ++ [b]) = llen buf + 1) as HL3 by (rewrite llen_app; reflexivity). rewrite HL3 in IH.
    cbn [map app first_calls] in *. cbn [poll_calls framed_poll]. rewrite fd_wait by exact HB. cbn [fr_eof fr_st fr_buf].
    rewrite <- app_assoc, map_app, sum_app. rewrite llen_cons.
    match type of IH with _ <= 2 * ?w => set (W := w) in *; change w with W end.
    unfold decode_calls at 1. cbn [fr_readable fr_st fr_buf]. destruct rd; cbn [map snd]; rewrite ?sum_cons; cbn [sum fold_right]; lia.
Qed.
(** [C89] So that here, too, one that sends byte by byte costs about half of the square. *)
Lemma async_request_work_drip_proof : forall X (text : bytes) s, ~ has_end text ->
  size text * (size text + 1) <= 2 * async_request_work X (map (fun b => AData b []) text ++ s).
Proof.
  intros X text s HE. unfold async_request_work.
  pose proof (async_drip X text (length (map (fun b => AData b []) text ++ s)) [] false s HE) as H.
  rewrite llen_nil in H. unfold framed_new. change (size text) with (llen text). lia.
Qed.
(*EX
Example async_request_work_drip_ex : split_off_http (firstn 50 good_request) = None /\
  async_request_work httparse_lib (map (fun b => AData b []) (firstn 50 good_request) ++ [ANotReady; AErr UnexpectedEof]) = 50 * 51 / 2.
Proof. split; vm_compute; reflexivity. Qed.
EX*)
(** [C89] And here there is no end to it: no factor bounds the work by what has come. *)
Lemma async_request_work_refuted_proof : forall X k, exists s, k * size (aev_bytes s) < async_request_work X s.
Proof.
  intros X k. set (text := repeat "a"%byte (N.to_nat (2 * k + 1))).
  assert (size text = 2 * k + 1) as HL by (unfold size, text; rewrite repeat_length; lia).
  exists (map (fun b => AData b []) text ++ []).
  assert (aev_bytes (map (fun b => AData b []) text ++ []) = text) as ->.
  { clearbody text. clear. induction text as [|b t IH]; [reflexivity|]. cbn [map app aev_bytes]. rewrite IH. reflexivity. }
  pose proof (async_request_work_drip_proof X text []) as H. rewrite HL in *.
  assert (~ has_end text) as HE.
  { intros (x & y & E). assert (In CR text) as HI by (rewrite E; apply in_or_app; right; left; reflexivity).
    apply repeat_spec in HI. discriminate HI. }
  specialize (H HE). lia.
Qed.
(*EX
Example async_request_work_refuted_ex : 3 * 7 < async_request_work httparse_lib (map (fun b => AData b []) (repeat "a"%byte 7)).
Proof. vm_compute. reflexivity. Qed.
EX*)
