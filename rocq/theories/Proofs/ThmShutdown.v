(** Shutting down a blocking connection, or one direction of it: C76. *)
From Coq Require Import NArith ZArith String Bool List Lia.
From Coq Require Import ZifyBool ZifyNat ZifyN.
From Coq.Strings Require Import Byte.
From Verif.Model Require Import Base Io Header Mask Dataframe Utf8 Text Headers
  Message Receiver Codec Connect Accepting Shutdown.
From Verif.Spec Require Import RfcFrame FrameSpec Schedule Unicode Drive Session Connection Shutting.
From Verif.Proofs Require Import BaseFacts MaskFacts HeaderFacts FrameFacts CodecFacts ScriptFacts
  Machine Utf8Facts ThmFrames ThmStream SessionFacts RecvFacts MessageFacts
  TextFacts ExTac ThmMessages ThmAfter ThmTalk.
Import ListNotations.
Local Open Scope string_scope.
Local Open Scope list_scope.
Local Open Scope N_scope.

(** ** Waiting instead of ending *)
Definition stop : script := [RErr forever].
Lemma push_back_app : forall b s t, push_back b s ++ t = push_back b (s ++ t).
Proof. intros [|x b] s t; reflexivity. Qed.

Lemma exact_tail : forall s n, clean s ->
  (exists l t, rd_exact n s = (Ok l, t) /\ clean t /\ rd_exact n (s ++ stop) = (Ok l, t ++ stop)) \/
  (rd_exact n s = (Err UnexpectedEof, []) /\ rd_exact n (s ++ stop) = (Err forever, [])).
Proof.
  induction s as [|ev s IH]; intros n Hc; cbn [rd_exact app stop]; destruct (N.eqb_spec n 0).
  - left. exists [], []. auto.
  - right. auto.
  - left. exists [], (ev :: s). auto.
  - inversion Hc as [|? ? He Hs]; subst. clear Hc. rename Hs into Hc. destruct ev as [b bs| | |k]; try contradiction.
    + destruct (N.leb_spec n (llen (b :: bs))).
      * left. do 2 eexists. split; [reflexivity|]. split; [apply clean_push_back; exact Hc|]. rewrite push_back_app. reflexivity.
      * destruct (IH (n - llen (b :: bs)) Hc) as [(l & t & E1 & E2 & E3)|[E1 E2]].
        -- left. rewrite E1, E3. eauto.
        -- right. rewrite E1, E2. auto.
    + destruct (IH n Hc) as [(l & t & E1 & E2 & E3)|[E1 E2]]; [left; rewrite E1, E3; eauto|right; rewrite E1, E2; auto].
Qed.
Lemma take_tail : forall s n, clean s ->
  (exists l t, rd_take_to_end n s = (Ok l, t) /\ llen l = n /\ clean t /\ rd_take_to_end n (s ++ stop) = (Ok l, t ++ stop)) \/
  (exists l, rd_take_to_end n s = (Ok l, []) /\ llen l < n /\ rd_take_to_end n (s ++ stop) = (Err forever, [])).
Proof.
  induction s as [|ev s IH]; intros n Hc; cbn [rd_take_to_end app stop]; destruct (N.eqb_spec n 0).
  - left. exists [], []. subst. auto.
  - right. exists []. split; [reflexivity|]. split; [|reflexivity]. change (0 < n). lia.
  - left. exists [], (ev :: s). subst. auto.
  - inversion Hc as [|? ? He Hs]; subst. clear Hc. rename Hs into Hc. destruct ev as [b bs| | |k]; try contradiction.
    + destruct (N.leb_spec n (llen (b :: bs))).
      * left. do 2 eexists. split; [reflexivity|]. split; [rewrite llen_take; lia|].
        split; [apply clean_push_back; exact Hc|]. rewrite push_back_app. reflexivity.
      * destruct (IH (n - llen (b :: bs)) Hc) as [(l & t & E1 & E2 & E3 & E4)|(l & E1 & E2 & E3)].
        -- left. rewrite E1, E4. do 2 eexists. split; [reflexivity|]. split; [change (llen ((b :: bs) ++ l) = n); rewrite llen_app; lia|]. auto.
        -- right. rewrite E1, E3. eexists. split; [reflexivity|]. split; [change (llen ((b :: bs) ++ l) < n); rewrite llen_app; lia|reflexivity].
    + destruct (IH n Hc) as [(l & t & E1 & E2 & E3 & E4)|(l & E1 & E2 & E3)]; [left; rewrite E1, E4; eauto 6|right; rewrite E1, E3; eauto].
Qed.

(** [x] on the clean script [s] and [y] on [s ++ stop]: the same, or the end here and a wait
    there. *)
Definition tails {A : Type} (x y : result A ws_error * script) : Prop :=
  (exists r t, x = (r, t) /\ y = (r, t ++ stop) /\ clean t /\ forall k, r <> Err (IoError k) \/ k <> forever) \/
  (x = (Err NoDataAvailable, []) /\ y = (Err (IoError forever), [])).
Lemma tails_bind : forall (A B : Type) (x y : result A ws_error * script) (f : A -> script -> result B ws_error * script),
  tails x y -> (forall a t, clean t -> tails (f a t) (f a (t ++ stop))) -> tails (sbind x f) (sbind y f).
Proof.
  intros A B x y f [(r & t & -> & -> & HC & HK)|[-> ->]] H.
  - destruct r as [a|e| |]; cbn [sbind].
    + apply H. exact HC.
    + left. exists (Err e), t. split; [reflexivity|]. split; [reflexivity|]. split; [exact HC|].
      intros k. destruct (HK k) as [H1|H1]; [left; intros E; apply H1; congruence|right; exact H1].
    + left. exists Panic, t. repeat split; auto. intros k. left. discriminate.
    + left. exists OutOfFuel, t. repeat split; auto. intros k. left. discriminate.
  - right. auto.
Qed.
Lemma tails_same : forall (A : Type) (r : result A ws_error) t, clean t -> (forall k, r <> Err (IoError k) \/ k <> forever) ->
  tails (r, t) (r, t ++ stop).
Proof. intros A r t H1 H2. left. eauto 6. Qed.
Ltac same := apply tails_same; [assumption|intros; left; discriminate].
Lemma uint_tails : forall n s, clean s -> tails (read_uint rd_exact n s) (read_uint rd_exact n (s ++ stop)).
Proof.
  intros n s H. unfold read_uint. destruct (exact_tail s n H) as [(l & t & E1 & E2 & E3)|[E1 E2]].
  - rewrite E1, E3. same.
  - rewrite E1, E2. right. auto.
Qed.
Lemma len_tails : forall l s, clean s -> tails (read_len rd_exact l s) (read_len rd_exact l (s ++ stop)).
Proof.
  intros l s H. unfold read_len. destruct (l <=? 125); [same|].
  destruct (l =? 126); [|destruct (l =? 127); [|same]];
    (apply tails_bind; [apply uint_tails; exact H|]; intros a t HT; destruct (a <=? _); same).
Qed.
Lemma mask_tails : forall b s, clean s -> tails (read_mask rd_exact b s) (read_mask rd_exact b (s ++ stop)).
Proof.
  intros b s H. unfold read_mask. destruct (N.land b 128 =? 128); [|same].
  do 4 (apply tails_bind; [apply uint_tails; assumption|]; clear s H; intros ? s H). same.
Qed.
Lemma header_tails : forall s, clean s -> tails (read_header rd_exact s) (read_header rd_exact (s ++ stop)).
Proof.
  intros s H. unfold read_header.
  do 2 (apply tails_bind; [apply uint_tails; assumption|]; clear s H; intros ? s H). cbv zeta.
  apply tails_bind; [apply len_tails; assumption|]. clear s H. intros ? s H.
  destruct (_ && _); [same|]. destruct (_ && _); [same|].
  apply tails_bind; [apply mask_tails; assumption|]. clear s H. intros ? s H. same.
Qed.
Lemma body_errors : forall h b m k, read_dataframe_body h b m <> Err (IoError k).
Proof. intros h b m k. unfold read_dataframe_body. destruct (opcode_new _), (h_mask h), m; discriminate. Qed.
Lemma frame_tails : forall r s, clean s -> tails (recv_dataframe r s) (recv_dataframe r (s ++ stop)).
Proof.
  intros r s H. unfold recv_dataframe, read_dataframe_with_limit.
  apply tails_bind; [apply header_tails; exact H|]. clear s H. intros h s H.
  destruct (r_max_df r <? h_len h).
  { apply tails_same; [exact H|]. intros k. destruct k; try (left; discriminate); right; discriminate. }
  unfold read_payload. destruct (isize_max <? h_len h); [same|].
  destruct (take_tail s (h_len h) H) as [(l & t & E1 & E2 & E3 & E4)|(l & E1 & E2 & E3)].
  - rewrite E1, E4. destruct (N.ltb_spec (llen l) (h_len h)); [lia|]. apply tails_same; [exact E3|].
    intros k. left. apply body_errors.
  - rewrite E1, E3. destruct (N.ltb_spec (llen l) (h_len h)); [|lia]. right. auto.
Qed.

Definition mtails {A : Type} (x y : result A ws_error * receiver * script) : Prop :=
  (exists r rc t, x = (r, rc, t) /\ y = (r, rc, t ++ stop) /\ clean t /\ forall k, r <> Err (IoError k) \/ k <> forever) \/
  (exists rc, x = (Err NoDataAvailable, rc, []) /\ y = (Err (IoError forever), rc, [])).
Lemma mtails_same : forall (A : Type) (r : result A ws_error) rc t, clean t ->
  (forall k, r <> Err (IoError k) \/ k <> forever) -> mtails (r, rc, t) (r, rc, t ++ stop).
Proof. intros A r rc t H1 H2. left. eauto 7. Qed.
Ltac msame := apply mtails_same; [assumption|intros; left; discriminate].
Lemma loop_tails : forall fuel r cur s, clean s -> mtails (recv_loop fuel r cur s) (recv_loop fuel r cur (s ++ stop)).
Proof.
  induction fuel as [|fuel IH]; intros r cur s H; cbn [recv_loop]; [msame|].
  destruct (frame_tails r s H) as [(x & t & -> & -> & HC & HK)|[-> ->]]; [|right; eauto].
  destruct x as [f|e| |]; [| |msame|msame].
  - destruct (_ =? 0).
    + destruct (f_finished f); [msame|]. cbv zeta.
      destruct (MAX_DATAFRAMES_IN_ONE_MESSAGE <=? _); [msame|].
      destruct (r_max_msg _ <=? _); [msame|]. apply IH. exact HC.
    + destruct (_ && _); msame.
  - apply mtails_same; [exact HC|]. intros k. destruct (HK k) as [H1|H1]; [left; intros E; apply H1; congruence|right; exact H1].
Qed.
Lemma bytes_stop : forall s, script_bytes (s ++ stop) = script_bytes s.
Proof. induction s as [|[b bs| | |k] s IH]; cbn [app script_bytes stop]; auto; lia. Qed.
Lemma gather_errors : forall fs i acc k, gather i acc fs <> Err (IoError k).
Proof.
  induction fs as [|f fs IH]; intros i acc k; cbn [gather]; [discriminate|].
  destruct (_ && _); [discriminate|]. destruct (df_reserved f) as [[[] []] []]; try discriminate. apply IH.
Qed.
Lemma owned_errors : forall l k, owned_from_dataframes l <> Err (IoError k).
Proof.
  intros l k. unfold owned_from_dataframes, from_dataframes. destruct l as [|f fs]; [discriminate|]. cbv zeta.
  pose proof (gather_errors (f :: fs) 0 []) as HG. destruct (gather 0 [] (f :: fs)) as [d|e| |]; cbn [rbind]; try discriminate.
  - destruct (opcode_new (df_opcode f)) as [[]|]; try discriminate; cbn [rbind].
    + destruct (utf8_valid d); discriminate.
    + destruct d as [|a [|b d]]; try discriminate. destruct (utf8_valid d); discriminate.
  - intros E. apply (HG k). congruence.
Qed.
Lemma frames_tails : forall r s, clean s -> mtails (recv_message_dataframes r s) (recv_message_dataframes r (s ++ stop)).
Proof.
  intros r s H. unfold recv_message_dataframes. rewrite bytes_stop. cbv zeta.
  destruct (r_buffer r) as [|g gs]; [|apply loop_tails; exact H].
  destruct (frame_tails r s H) as [(x & t & -> & -> & HC & HK)|[-> ->]]; [|right; eauto].
  destruct x as [f|e| |]; [| |msame|msame].
  - rewrite bytes_stop.
    destruct (f_opcode f); (destruct (f_finished f); [msame|try msame; apply loop_tails; exact HC]).
  - apply mtails_same; [exact HC|]. intros k. destruct (HK k) as [H1|H1]; [left; intros E; apply H1; congruence|right; exact H1].
Qed.

Lemma message_tails : forall r s, clean s -> mtails (recv_message r s) (recv_message r (s ++ stop)).
Proof.
  intros r s H. unfold recv_message.
  destruct (frames_tails r s H) as [(x & rc & t & -> & -> & HC & HK)|(rc & -> & ->)]; [|right; eauto].
  destruct x as [f|e| |]; [| |msame|msame].
  - apply mtails_same; [exact HC|]. intros k. left. apply owned_errors.
  - apply mtails_same; [exact HC|]. intros k. destruct (HK k) as [H1|H1]; [left; intros E; apply H1; congruence|right; exact H1].
Qed.

(** ** One receive *)
Lemma forever_yes : is_forever forever = true.
Proof. reflexivity. Qed.
Lemma forever_only : forall k, is_forever k = true -> k = forever.
Proof. intros []; cbn [is_forever]; try discriminate. intros H. apply N.eqb_eq in H. subst. reflexivity. Qed.
Definition open_in (k : socket) : bool := negb (so_fin k || so_read_shut k).
Lemma in_eq : forall buf k, push_back buf (tcp_in k)
  = push_back buf (push_back (so_queue k) []) ++ (if open_in k then stop else []).
Proof.
  intros buf k. unfold tcp_in, open_in. destruct (so_fin k || so_read_shut k); cbn [negb].
  - rewrite app_nil_r. reflexivity.
  - rewrite !push_back_app. reflexivity.
Qed.
Lemma in_clean : forall buf q, clean (push_back buf (push_back q [])).
Proof. intros buf q. do 2 apply clean_push_back. constructor. Qed.

Lemma hand_stop : forall t, at_hand (t ++ stop) = at_hand t.
Proof. induction t as [|[b bs| | |k] t IH]; cbn [at_hand app stop]; rewrite ?IH; reflexivity. Qed.
Lemma recv_cases : forall rc buf c,
  let k := cn_socket c in
  let s0 := push_back buf (push_back (so_queue k) []) in
  (exists r rc' t, recv_message rc s0 = (r, rc', t) /\ clean t /\
     conn_recv rc buf c = (Got r, mk_conn (Some (rc', [])) (cn_writer c) (tcp_left t k))) \/
  (exists rc', recv_message rc s0 = (Err NoDataAvailable, rc', []) /\
     recv_message rc (s0 ++ stop) = (Err (IoError forever), rc', []) /\
     conn_recv rc buf c = if open_in k then (Waits, c)
       else (Got (Err NoDataAvailable), mk_conn (Some (rc', [])) (cn_writer c) (tcp_left [] k))).
Proof.
  intros rc buf c k s0. unfold conn_recv. fold k. rewrite (in_eq buf k). fold s0.
  destruct (message_tails rc s0 (in_clean _ _)) as [(r & rc' & t & E1 & E2 & HC & HK)|(rc' & E1 & E2)].
  - left. exists r, rc', t. split; [exact E1|]. split; [exact HC|].
    assert (recv_message rc (s0 ++ (if open_in k then stop else []))
            = (r, rc', t ++ (if open_in k then stop else []))) as ->
      by (destruct (open_in k); [exact E2|rewrite !app_nil_r; exact E1]).
    assert (tcp_left (t ++ (if open_in k then stop else [])) k = tcp_left t k) as ->.
    { unfold tcp_left. destruct (open_in k); rewrite ?hand_stop, ?app_nil_r; reflexivity. }
    destruct r as [m|[] | |]; try reflexivity.
    destruct (is_forever k0) eqn:EF; [|reflexivity]. apply forever_only in EF. subst k0.
    destruct (HK forever); congruence.
  - right. exists rc'. split; [exact E1|]. split; [exact E2|]. destruct (open_in k).
    + rewrite E2. reflexivity.
    + rewrite app_nil_r, E1. reflexivity.
Qed.
Lemma recv_ended : forall rc buf c c1 o, open_in (cn_socket c) = false -> conn_recv rc buf c = (o, c1) -> o <> Waits.
Proof.
  intros rc buf c c1 o HO H. destruct (recv_cases rc buf c) as [(r & rc' & t & _ & _ & E)|(rc' & _ & _ & E)];
    rewrite E in H; [|rewrite HO in H]; injection H as <- _; discriminate.
Qed.

(** ** Receiving on a connection that is shut down *)
Lemma step_keeps : forall e c o c1, conn_step e c = (o, c1) ->
  (so_fin (cn_socket c) = true -> so_fin (cn_socket c1) = true) /\
  (so_read_shut (cn_socket c) = true -> so_read_shut (cn_socket c1) = true) /\
  (so_write_shut (cn_socket c) = true -> so_write_shut (cn_socket c1) = true).
Proof.
  intros e c o c1 H. destruct e; cbn [conn_step] in H.
  - destruct (cn_reader c) as [[rc buf]|]; [|injection H as <- <-; auto].
    destruct (recv_cases rc buf c) as [(r & rc' & t & _ & _ & E)|(rc' & _ & _ & E)]; rewrite E in H.
    + injection H as <- <-. auto.
    + destruct (open_in (cn_socket c)); injection H as <- <-; auto.
  - destruct (cn_writer c) as [sd|]; [|injection H as <- <-; auto]. unfold conn_send in H.
    destruct (send_message _ _ _ _) as [r w]. injection H as <- <-. cbn [cn_socket with_socket]. unfold tcp_written.
    destruct (so_write_shut (cn_socket c)) eqn:E; cbn; auto.
  - unfold conn_shut in H. destruct (cn_reader c); injection H as <- <-; cbn; auto.
  - unfold conn_shut in H. destruct (cn_reader c); injection H as <- <-; cbn; auto.
  - unfold conn_shut in H. destruct (cn_writer c); injection H as <- <-; cbn; auto.
  - unfold conn_shut in H. destruct (cn_writer c); injection H as <- <-; cbn; auto.
  - injection H as <- <-; auto.
  - injection H as <- <-; auto.
  - injection H as <- <-; cbn; auto.
  - injection H as <- <-; cbn; auto.
Qed.
Lemma ended_stays_in : forall e c o c1, conn_step e c = (o, c1) -> open_in (cn_socket c) = false -> open_in (cn_socket c1) = false.
Proof.
  intros e c o c1 H HO. apply step_keeps in H as (H1 & H2 & _). unfold open_in in *.
  apply negb_false_iff, orb_prop in HO. apply negb_false_iff, orb_true_intro. tauto.
Qed.
Lemma shut_step : forall e c c1, stops_reading e \/ e = ArriveEnd -> conn_step e c = (Nothing, c1) -> open_in (cn_socket c1) = false.
Proof.
  intros e c c1 H HS. unfold open_in. apply negb_false_iff, orb_true_intro.
  destruct H as [[->|[->| ->]]| ->]; cbn [conn_step] in HS; unfold conn_shut in HS.
  - destruct (cn_reader c); [|discriminate]. injection HS as <-. right. reflexivity.
  - destruct (cn_reader c); [|discriminate]. injection HS as <-. right. reflexivity.
  - destruct (cn_writer c); [|discriminate]. injection HS as <-. right. reflexivity.
  - injection HS as <-. left. reflexivity.
Qed.
Lemma no_waits : forall es c os c1, open_in (cn_socket c) = false -> conn_run es c = (os, c1) -> ~ In Waits os.
Proof.
  induction es as [|e es IH]; intros c os c1 HO H; cbn [conn_run] in H.
  - injection H as <- <-. intros [].
  - destruct (conn_step e c) as [o c2] eqn:E. destruct (conn_run es c2) as [os2 c3] eqn:E2. injection H as <- <-.
    intros [->|HI].
    + destruct e; cbn [conn_step] in E; unfold conn_shut in E; try discriminate.
      * destruct (cn_reader c) as [[rc buf]|]; [|discriminate]. eapply recv_ended; eauto.
      * destruct (cn_writer c) as [sd|]; [|discriminate]. unfold conn_send in E. destruct (send_message _ _ _ _). discriminate.
      * destruct (cn_reader c); discriminate.
      * destruct (cn_reader c); discriminate.
      * destruct (cn_writer c); discriminate.
      * destruct (cn_writer c); discriminate.
    + eapply IH; [|exact E2|exact HI]. eapply ended_stays_in; eauto.
Qed.
(** [C76] Once reading was shut down, by the receiving half or for both directions by either
    half, no receive waits any more, whatever happens and however often one is called. *)
Lemma shut_returns_proof : forall e c c1 es os c2,
  stops_reading e -> conn_step e c = (Nothing, c1) -> conn_run es c1 = (os, c2) -> ~ In Waits os.
Proof. intros e c c1 es os c2 HE HS HR. eapply no_waits; [|exact HR]. eapply shut_step; [left; exact HE|exact HS]. Qed.
(*EX
(** A message and a half have arrived.  After the shutdown the message is received and then,
    however often one asks, [NoDataAvailable]; without it the second receive would wait. *)
Example shut_returns_ex :
  let c := conn_new (receiver_new false) [] (mk_sender true) [x81; x01; x61; x81; x02; x62] (mk_w [] []) in
  let c1 := snd (conn_step ReaderShutdown c) in
  stops_reading ReaderShutdown /\ conn_step ReaderShutdown c = (Nothing, c1) /\
  fst (conn_run [DoRecv; DoRecv; DoRecv] c) = [Got (Ok (OText [x61])); Waits; Waits] /\
  fst (conn_run [DoRecv; DoRecv; DoRecv] c1)
  = [Got (Ok (OText [x61])); Got (Err NoDataAvailable); Got (Err NoDataAvailable)].
Proof. split; [left; reflexivity|]. split; [reflexivity|]. split; vm_compute; reflexivity. Qed.
EX*)

Definition wt (c : conn) : Prop := exists rc buf rc', cn_reader c = Some (rc, buf) /\
  let s0 := push_back buf (push_back (so_queue (cn_socket c)) []) in
  recv_message rc s0 = (Err NoDataAvailable, rc', []) /\ recv_message rc (s0 ++ stop) = (Err (IoError forever), rc', []).
Lemma waits_wt : forall c c1, conn_step DoRecv c = (Waits, c1) -> c1 = c /\ wt c /\ open_in (cn_socket c) = true.
Proof.
  intros c c1 H. cbn [conn_step] in H. destruct (cn_reader c) as [[rc buf]|] eqn:ER; [|discriminate].
  destruct (recv_cases rc buf c) as [(r & rc' & t & _ & _ & E)|(rc' & E1 & E2 & E)]; rewrite E in H; [discriminate|].
  destruct (open_in (cn_socket c)); [|discriminate]. injection H as <-. split; [reflexivity|]. split; [|reflexivity].
  exists rc, buf, rc'. split; [exact ER|]. split; assumption.
Qed.
Lemma stop_message : forall r s, clean s -> flat s = [] -> recv_message r (s ++ stop) = (Err (IoError forever), r, []).
Proof.
  intros r s HC HF. assert (forall n, 0 < n -> rd_exact n (s ++ stop) = (Err forever, [])) as HE.
  { intros n Hn. induction s as [|ev s IH]; cbn [app stop rd_exact]; (destruct (N.eqb_spec n 0); [lia|]); [reflexivity|].
    inversion HC as [|? ? He Hs]; subst. destruct ev as [b bs| | |k]; try contradiction; [discriminate HF|].
    apply IH; assumption. }
  assert (recv_dataframe r (s ++ stop) = (Err (IoError forever), [])) as HD.
  { unfold recv_dataframe, read_dataframe_with_limit, read_header, read_uint. rewrite HE by lia. reflexivity. }
  unfold recv_message, recv_message_dataframes. cbn [recv_loop]. rewrite HD. destruct (r_buffer r); reflexivity.
Qed.
Lemma wt_step : forall c, wt c -> exists c1,
  conn_step DoRecv c = (if open_in (cn_socket c) then Waits else Got (Err NoDataAvailable), c1) /\ wt c1 /\
  cn_writer c1 = cn_writer c /\
  so_fin (cn_socket c1) = so_fin (cn_socket c) /\ so_read_shut (cn_socket c1) = so_read_shut (cn_socket c) /\
  so_write_shut (cn_socket c1) = so_write_shut (cn_socket c) /\ so_out (cn_socket c1) = so_out (cn_socket c).
Proof.
  intros c (rc & buf & rc' & ER & E1 & E2). cbn [conn_step]. rewrite ER. unfold conn_recv. rewrite in_eq.
  destruct (open_in (cn_socket c)).
  - rewrite E2. cbn [is_forever forever]. exists c. split; [reflexivity|]. split; [exists rc, buf, rc'; auto|]. auto 10.
  - rewrite app_nil_r, E1. eexists. split; [reflexivity|]. split; [|cbn; auto 10].
    exists rc', [], rc'. split; [reflexivity|]. cbn [push_back cn_socket tcp_left so_queue at_hand]. split.
    + apply empty_message. constructor.
    + apply (stop_message rc' []); [constructor|reflexivity].
Qed.
Lemma shut_wt : forall e c c1, stops_reading e \/ e = ArriveEnd -> conn_step e c = (Nothing, c1) -> wt c -> wt c1.
Proof.
  intros e c c1 H HS (rc & buf & rc' & ER & E). exists rc, buf, rc'.
  destruct H as [[->|[->| ->]]| ->]; cbn [conn_step] in HS; unfold conn_shut in HS.
  - rewrite ER in HS. injection HS as <-. split; [exact ER|exact E].
  - rewrite ER in HS. injection HS as <-. split; [exact ER|exact E].
  - destruct (cn_writer c); [|discriminate]. injection HS as <-. split; [exact ER|exact E].
  - injection HS as <-. split; [exact ER|exact E].
Qed.
(** [C76] A receive that is waiting when reading is shut down (in another thread, by the other
    half) or when the peer ends the stream returns [NoDataAvailable]. *)
Lemma shut_wakes_proof : forall c c0 e c1, conn_step DoRecv c = (Waits, c0) ->
  c0 = c /\
  (stops_reading e \/ e = ArriveEnd -> conn_step e c = (Nothing, c1) ->
   exists c2, conn_step DoRecv c1 = (Got (Err NoDataAvailable), c2)).
Proof.
  intros c c0 e c1 H. apply waits_wt in H as (H1 & H2 & H3). split; [exact H1|]. intros HE HS.
  pose proof (shut_step e c c1 HE HS) as HO. apply shut_wt in HS; auto. apply wt_step in HS as (c2 & E & _).
  rewrite HO in E. eauto.
Qed.
(*EX
(** The receiving half waits; the sending half shuts everything down. *)
Example shut_wakes_ex :
  let c := conn_new (receiver_new false) [] (mk_sender true) [x81; x02] (mk_w [] []) in
  let c1 := snd (conn_step WriterShutdownAll c) in
  conn_step DoRecv c = (Waits, c) /\ conn_step WriterShutdownAll c = (Nothing, c1) /\
  fst (conn_step DoRecv c1) = Got (Err NoDataAvailable).
Proof. split; [vm_compute; reflexivity|]. split; vm_compute; reflexivity. Qed.
EX*)

(** What receiving depends on. *)
Definition same_in (c d : conn) : Prop :=
  cn_reader c = cn_reader d /\ so_queue (cn_socket c) = so_queue (cn_socket d) /\
  so_fin (cn_socket c) = so_fin (cn_socket d) /\ so_read_shut (cn_socket c) = so_read_shut (cn_socket d).
Lemma recv_same : forall rc buf c d, same_in c d -> let '(o, c1) := conn_recv rc buf c in
  exists d1, conn_recv rc buf d = (o, d1) /\ same_in c1 d1 /\ cn_writer c1 = cn_writer c /\ cn_writer d1 = cn_writer d.
Proof.
  intros rc buf c d HS. pose proof HS as (H1 & H2 & H3 & H4). unfold conn_recv.
  assert (tcp_in (cn_socket c) = tcp_in (cn_socket d)) as <- by (unfold tcp_in; rewrite H2, H3, H4; reflexivity).
  assert (forall rc' s, same_in (mk_conn (Some (rc', [])) (cn_writer c) (tcp_left s (cn_socket c)))
                                (mk_conn (Some (rc', [])) (cn_writer d) (tcp_left s (cn_socket d)))) as HX
    by (intros; split; cbn; auto).
  destruct (recv_message rc _) as [[r rc'] s]. destruct r as [m|[] | |];
    try (eexists; split; [reflexivity|]; split; [apply HX|auto]).
  destruct (is_forever k); eexists; (split; [reflexivity|]); (split; [exact HS || apply HX|auto]).
Qed.
(** [C76] And it waits until then: as long as nothing arrives and nobody shuts reading down,
    whatever else is done with the connection, it does not return. *)
Lemma waits_on_proof : forall c c0 es os c1, conn_step DoRecv c = (Waits, c0) ->
  Forall (fun e => ~ stops_reading e /\ ~ brings e /\ e <> DropReader) es -> conn_run es c = (os, c1) ->
  fst (conn_step DoRecv c1) = Waits.
Proof.
  intros c c0 es os c1 H. apply waits_wt in H as (_ & HW & HO). revert c os HW HO.
  induction es as [|e es IH]; intros c os HW HO HF H; cbn [conn_run] in H.
  - injection H as <- <-. apply wt_step in HW as (c2 & E & _). rewrite E, HO. reflexivity.
  - inversion HF as [|? ? (F1 & F2 & F3) HF']; subst.
    destruct (conn_step e c) as [o c2] eqn:E. destruct (conn_run es c2) as [os2 c3] eqn:E2. injection H as <- <-.
    assert (same_in c c2 -> wt c2 /\ open_in (cn_socket c2) = true) as HS.
    { intros (S1 & S2 & S3 & S4). split.
      - destruct HW as (rc & buf & rc' & ER & EW). exists rc, buf, rc'. rewrite <- S1, <- S2. auto.
      - unfold open_in in *. rewrite <- S3, <- S4. exact HO. }
    assert (wt c2 /\ open_in (cn_socket c2) = true) as [K1 K2]; [|eapply IH; eauto].
    destruct e; cbn [conn_step] in E; unfold conn_shut in E.
    + apply wt_step in HW as (c4 & E4 & W1 & W2 & W3 & W4 & _). cbn [conn_step] in E4. rewrite E in E4.
      injection E4 as _ <-. split; [exact W1|]. unfold open_in in *. rewrite W3, W4. exact HO.
    + apply HS. destruct (cn_writer c) as [sd|]; [|injection E as <- <-; repeat split].
      unfold conn_send in E. destruct (send_message _ _ _ _) as [r w]. injection E as <- <-.
      cbn [with_socket]. unfold tcp_written. destruct (so_write_shut (cn_socket c)); repeat split.
    + exfalso. apply F1. left. reflexivity.
    + exfalso. apply F1. right. left. reflexivity.
    + apply HS. destruct (cn_writer c); injection E as <- <-; repeat split.
    + exfalso. apply F1. right. right. reflexivity.
    + congruence.
    + apply HS. injection E as <- <-. repeat split.
    + apply HS. injection E as <- <-. destruct bs as [|b bs]; [|exfalso; apply F2; discriminate].
      split; [reflexivity|]. cbn. split; [|auto]. destruct (so_fin (cn_socket c)); rewrite app_nil_r; reflexivity.
    + exfalso. apply F2. exact I.
Qed.
(*EX
(** Messages sent, writing shut down, the other half dropped: none of it ends the wait. *)
Example waits_on_ex :
  let c := conn_new (receiver_new false) [x81] (mk_sender true) [] (mk_w [] []) in
  let k := mk_key x01 x02 x03 x04 in
  fst (conn_step DoRecv c) = Waits /\
  fst (conn_run [DoSend (OPing []) k; WriterShutdown; DropWriter; DoRecv] c) = [Wrote (Ok tt); Nothing; Nothing; Waits].
Proof. split; vm_compute; reflexivity. Qed.
EX*)

(** The connection [c], and [d] on which reading was shut down. *)
Definition shut_sim (c d : conn) : Prop :=
  cn_writer c = cn_writer d /\ so_write_shut (cn_socket c) = so_write_shut (cn_socket d) /\
  so_out (cn_socket c) = so_out (cn_socket d) /\ so_read_shut (cn_socket d) = true /\
  ((cn_reader c = cn_reader d /\ (cn_reader c <> None -> so_queue (cn_socket c) = so_queue (cn_socket d))) \/ (wt c /\ wt d)).
Lemma send_same : forall sd m k c d, so_write_shut (cn_socket c) = so_write_shut (cn_socket d) ->
  so_out (cn_socket c) = so_out (cn_socket d) ->
  fst (conn_send sd m k c) = fst (conn_send sd m k d) /\
  so_out (cn_socket (snd (conn_send sd m k c))) = so_out (cn_socket (snd (conn_send sd m k d))).
Proof.
  intros sd m k c d H1 H2. unfold conn_send, tcp_out, tcp_written. rewrite H1, H2.
  destruct (send_message _ _ _ _) as [r w]. destruct (so_write_shut (cn_socket d)); cbn; auto.
Qed.
Lemma send_rest : forall sd m k c, let c1 := snd (conn_send sd m k c) in
  (exists r, fst (conn_send sd m k c) = Wrote r) /\
  cn_reader c1 = cn_reader c /\ cn_writer c1 = cn_writer c /\ so_queue (cn_socket c1) = so_queue (cn_socket c) /\
  so_fin (cn_socket c1) = so_fin (cn_socket c) /\ so_read_shut (cn_socket c1) = so_read_shut (cn_socket c) /\
  so_write_shut (cn_socket c1) = so_write_shut (cn_socket c).
Proof.
  intros sd m k c. unfold conn_send, tcp_written. destruct (send_message _ _ _ _) as [r w].
  destruct (so_write_shut (cn_socket c)) eqn:E; cbn; rewrite ?E; eauto 10.
Qed.
Lemma wt_move : forall c c1, wt c -> cn_reader c1 = cn_reader c -> so_queue (cn_socket c1) = so_queue (cn_socket c) -> wt c1.
Proof. intros c c1 (rc & buf & rc' & ER & EW) H1 H2. exists rc, buf, rc'. rewrite H1, H2. auto. Qed.
Lemma wt_reader : forall c, wt c -> exists x, cn_reader c = Some x.
Proof. intros c (rc & buf & rc' & ER & _). eauto. Qed.

Lemma sim_step : forall e c d, ~ brings e -> shut_sim c d ->
  fst (conn_step e d) = not_waiting (fst (conn_step e c)) /\ shut_sim (snd (conn_step e c)) (snd (conn_step e d)).
Proof.
  intros e c d HB (S1 & S2 & S3 & S4 & S5).
  assert (open_in (cn_socket d) = false) as HO by (unfold open_in; rewrite S4, orb_true_r; reflexivity).
  assert (forall (A : Type) (h1 h2 : option A) how, (forall x, h1 = Some x -> exists y, h2 = Some y) -> (h1 = None -> h2 = None) ->
    fst (conn_shut h2 how d) = not_waiting (fst (conn_shut h1 how c)) /\
    shut_sim (snd (conn_shut h1 how c)) (snd (conn_shut h2 how d))) as HSH.
  { intros A h1 h2 how H1 H2. destruct h1 as [x|].
    - destruct (H1 x eq_refl) as [y ->]. cbn [conn_shut fst snd not_waiting]. split; [reflexivity|].
      split; [exact S1|]. cbn [with_socket cn_socket tcp_shutdown so_write_shut so_out so_read_shut].
      split; [destruct how; auto|]. split; [exact S3|]. split; [destruct how; auto|].
      destruct S5 as [[R1 R2]|[W1 W2]]; [left; split; assumption|]. right.
      split; [apply (wt_move c)|apply (wt_move d)]; (assumption || reflexivity).
    - rewrite (H2 eq_refl). cbn [conn_shut fst snd not_waiting]. split; [reflexivity|]. split; auto. }
  assert (forall x, cn_reader c = Some x -> exists y, cn_reader d = Some y) as HR1.
  { intros x Hx. destruct S5 as [[R1 R2]|[W1 W2]]; [rewrite <- R1; eauto|apply wt_reader; exact W2]. }
  assert (cn_reader c = None -> cn_reader d = None) as HR2.
  { intros Hx. destruct S5 as [[R1 R2]|[W1 W2]]; [rewrite <- R1; exact Hx|]. apply wt_reader in W1 as [x W1]. congruence. }
  assert (forall x, cn_writer c = Some x -> exists y, cn_writer d = Some y) as HW1 by (intros x Hx; rewrite <- S1; eauto).
  assert (cn_writer c = None -> cn_writer d = None) as HW2 by congruence.
  destruct e; cbn [conn_step].
  - destruct S5 as [[R1 R2]|[W1 W2]].
    + rewrite <- R1. destruct (cn_reader c) as [[rc buf]|] eqn:ER.
      * assert (so_queue (cn_socket c) = so_queue (cn_socket d)) as R3 by (apply R2; discriminate). clear R2. rename R3 into R2.
        destruct (recv_cases rc buf c) as [(r & rc' & t & E1 & E2 & E)|(rc' & E1 & E2 & E)];
        destruct (recv_cases rc buf d) as [(r' & rc2 & t' & F1 & F2 & F)|(rc2 & F1 & F2 & F)];
          rewrite <- R2 in F1; rewrite ?E, ?F, ?HO.
        -- assert (r' = r /\ rc2 = rc' /\ t' = t) as (-> & -> & ->) by (rewrite E1 in F1; injection F1; auto).
           cbn [fst snd not_waiting]. split; [reflexivity|]. split; [exact S1|]. cbn. auto 10.
        -- assert (r = Err NoDataAvailable /\ rc2 = rc' /\ t = []) as (-> & -> & ->) by (rewrite E1 in F1; injection F1; auto).
           cbn [fst snd not_waiting]. split; [reflexivity|]. split; [exact S1|]. cbn. auto 10.
        -- assert (r' = Err NoDataAvailable /\ rc2 = rc' /\ t' = []) as (-> & -> & ->) by (rewrite E1 in F1; injection F1; auto).
           assert (wt c) as WC by (exists rc, buf, rc'; auto).
           assert (wt d) as WD by (exists rc, buf, rc'; rewrite <- R1, <- R2; auto).
           pose proof (wt_step d WD) as (d1 & D & WD1 & _). rewrite HO in D. cbn [conn_step] in D. rewrite <- R1, F in D.
           assert (wt (snd (if open_in (cn_socket c) then (Waits, c)
              else (Got (Err NoDataAvailable), mk_conn (Some (rc', [])) (cn_writer c) (tcp_left [] (cn_socket c)))))) as WC1.
           { pose proof (wt_step c WC) as (c1 & C & WC1 & _). cbn [conn_step] in C. rewrite ER, E in C. rewrite C. exact WC1. }
           destruct (open_in (cn_socket c)); cbn [fst snd not_waiting] in *; (split; [reflexivity|]); (split; [exact S1|]); cbn [cn_socket tcp_left so_write_shut so_out so_read_shut];
             (split; [exact S2|]); (split; [exact S3|]); (split; [exact S4|]); right;
             (split; [exact WC1|]); injection D as <-; exact WD1.
        -- assert (rc2 = rc') as -> by (rewrite E1 in F1; injection F1; auto).
           assert (wt c) as WC by (exists rc, buf, rc'; auto).
           assert (wt d) as WD by (exists rc, buf, rc'; rewrite <- R1, <- R2; auto).
           pose proof (wt_step d WD) as (d1 & D & WD1 & _). rewrite HO in D. cbn [conn_step] in D. rewrite <- R1, F, HO in D.
           assert (wt (snd (if open_in (cn_socket c) then (Waits, c)
              else (Got (Err NoDataAvailable), mk_conn (Some (rc', [])) (cn_writer c) (tcp_left [] (cn_socket c)))))) as WC1.
           { pose proof (wt_step c WC) as (c1 & C & WC1 & _). cbn [conn_step] in C. rewrite ER, E in C. rewrite C. exact WC1. }
           destruct (open_in (cn_socket c)); cbn [fst snd not_waiting] in *; (split; [reflexivity|]); (split; [exact S1|]); cbn [cn_socket tcp_left so_write_shut so_out so_read_shut];
             (split; [exact S2|]); (split; [exact S3|]); (split; [exact S4|]); right;
             (split; [exact WC1|]); injection D as <-; exact WD1.
      * cbn [fst snd not_waiting]. split; [reflexivity|]. repeat split; auto. left. rewrite ER. auto.
    + pose proof (wt_step c W1) as (c1 & C & WC1 & C2 & C3 & C4 & C5 & C6).
      pose proof (wt_step d W2) as (d1 & D & WD1 & D2 & D3 & D4 & D5 & D6). rewrite HO in D.
      cbn [conn_step] in C, D. rewrite C, D. cbn [fst snd]. split; [destruct (open_in (cn_socket c)); reflexivity|].
      split; [congruence|]. split; [congruence|]. split; [congruence|]. split; [congruence|]. auto.
  - rewrite <- S1. destruct (cn_writer c) as [sd|] eqn:EW.
    + destruct (send_same sd m k c d S2 S3) as [E1 E2].
      destruct (send_rest sd m k c) as ((r & C0) & C1 & C2 & C3 & C4 & C5 & C6).
      destruct (send_rest sd m k d) as (_ & D1 & D2 & D3 & D4 & D5 & D6).
      split; [rewrite <- E1, C0; reflexivity|]. split; [congruence|]. split; [congruence|]. split; [exact E2|]. split; [congruence|].
      destruct S5 as [[R1 R2]|[W1 W2]]; [left; split; [congruence|]; rewrite C1, C3, D3; exact R2|]. right. split; [apply (wt_move c)|apply (wt_move d)]; (assumption || reflexivity).
    + cbn [fst snd not_waiting]. split; [reflexivity|]. repeat split; auto. congruence.
  - apply HSH; auto.
  - apply HSH; auto.
  - apply HSH; auto.
  - apply HSH; auto.
  - cbn [fst snd not_waiting]. split; [reflexivity|]. split; [exact S1|]. cbn [cn_socket cn_reader]. repeat (split; [assumption|]).
    left. split; [reflexivity|]. congruence.
  - cbn [fst snd not_waiting]. split; [reflexivity|]. split; [reflexivity|]. cbn [cn_socket cn_reader]. repeat (split; [assumption|]).
    destruct S5 as [[R1 R2]|[W1 W2]]; [left; split; auto|]. right. split; [apply (wt_move c)|apply (wt_move d)]; (assumption || reflexivity).
  - destruct bs as [|b bs]; [|exfalso; apply HB; discriminate]. cbn [fst snd not_waiting]. split; [reflexivity|].
    split; [exact S1|]. cbn [with_socket cn_socket so_write_shut so_out so_read_shut]. repeat (split; [assumption|]).
    assert (forall (b : bool) (q : bytes), q ++ (if b then [] else []) = q) as HQ by (intros [] q; apply app_nil_r).
    destruct S5 as [[R1 R2]|[W1 W2]]; [left; split; [exact R1|]; cbn; rewrite !HQ; exact R2|].
    right. split; [apply (wt_move c)|apply (wt_move d)]; try assumption; try reflexivity; cbn; apply HQ.
  - exfalso. apply HB. exact I.
Qed.
(** [C76] Shutting the receiving half down changes nothing but that: what was there to be
    received is still received, sending gives what it would have given, and every receive that
    would have waited gives [NoDataAvailable]. *)
Lemma shut_only_wakes_proof : forall c c1 es, conn_step ReaderShutdown c = (Nothing, c1) ->
  Forall (fun e => ~ brings e) es ->
  fst (conn_run es c1) = map not_waiting (fst (conn_run es c)).
Proof.
  intros c c1 es H HF. assert (shut_sim c c1) as HS.
  { cbn [conn_step] in H. unfold conn_shut in H. destruct (cn_reader c) eqn:E; [|discriminate]. injection H as <-.
    repeat split. left. rewrite E. split; auto. }
  clear H. revert c c1 HS. induction HF as [|e es HB HF IH]; intros c d HS; cbn [conn_run]; [reflexivity|].
  destruct (sim_step e c d HB HS) as [H1 H2]. destruct (conn_step e c) as [o c2], (conn_step e d) as [o' d2].
  cbn [fst snd] in *. specialize (IH c2 d2 H2). destruct (conn_run es c2), (conn_run es d2). cbn [fst map] in *. congruence.
Qed.
(*EX
Example shut_only_wakes_ex :
  let c := conn_new (receiver_new false) [] (mk_sender false) [x89; x00; x81; x01] (mk_w [] []) in
  let k := mk_key x00 x00 x00 x00 in
  let es := [DoRecv; DoSend (OPong []) k; DoRecv; WriterShutdown; DoRecv] in
  fst (conn_run es (snd (conn_step ReaderShutdown c)))
  = [Got (Ok (OPing [])); Wrote (Ok tt); Got (Err NoDataAvailable); Nothing; Got (Err NoDataAvailable)] /\
  fst (conn_run es c) = [Got (Ok (OPing [])); Wrote (Ok tt); Waits; Nothing; Waits].
Proof. split; vm_compute; reflexivity. Qed.
EX*)

(** ** The two directions *)
(** What sending depends on. *)
Definition same_out (c d : conn) : Prop :=
  cn_writer c = cn_writer d /\ half_gone (cn_reader c) = half_gone (cn_reader d) /\
  so_write_shut (cn_socket c) = so_write_shut (cn_socket d) /\ so_out (cn_socket c) = so_out (cn_socket d).
Lemma recv_out : forall rc buf c, let c1 := snd (conn_recv rc buf c) in
  of_sending (fst (conn_recv rc buf c)) = false /\ cn_writer c1 = cn_writer c /\
  (cn_reader c = Some (rc, buf) -> half_gone (cn_reader c1) = false) /\
  so_write_shut (cn_socket c1) = so_write_shut (cn_socket c) /\ so_out (cn_socket c1) = so_out (cn_socket c).
Proof.
  intros rc buf c. destruct (recv_cases rc buf c) as [(r & rc' & t & _ & _ & E)|(rc' & _ & _ & E)]; rewrite E.
  - cbn. auto 10.
  - destruct (open_in (cn_socket c)); cbn; repeat (split; auto). intros ->. reflexivity.
Qed.
Ltac gone H := match type of H with half_gone ?a = half_gone ?b => destruct a as [[? ?]|] eqn:?, b as [[? ?]|] eqn:?; try discriminate H end.
Lemma out_step : forall e c d, same_out c d ->
  filter of_sending [fst (conn_step e c)] = filter of_sending [fst (conn_step e d)] /\
  same_out (snd (conn_step e c)) (snd (conn_step e d)).
Proof.
  intros e c d HS. pose proof HS as (S1 & S2 & S3 & S4).
  assert (forall (A B : Type) (h1 : option A) (h2 : option B) how, half_gone h1 = half_gone h2 ->
    filter of_sending [fst (conn_shut h1 how c)] = filter of_sending [fst (conn_shut h2 how d)] /\
    same_out (snd (conn_shut h1 how c)) (snd (conn_shut h2 how d))) as HSH.
  { intros A B h1 h2 how H. destruct h1, h2; try discriminate; cbn [conn_shut fst snd]; (split; [reflexivity|]); [|exact HS].
    split; [exact S1|]. split; [exact S2|]. cbn. split; [|exact S4]. destruct how; auto. }
  destruct e; cbn [conn_step].
  - gone S2; [|split; [reflexivity|exact HS]].
    pose proof (recv_out r b c) as (C1 & C2 & C3 & C4 & C5). pose proof (recv_out r0 b0 d) as (D1 & D2 & D3 & D4 & D5).
    cbn [filter]. rewrite C1, D1. split; [reflexivity|]. split; [congruence|]. rewrite C3, D3 by assumption.
    split; [reflexivity|]. split; congruence.
  - rewrite <- S1. destruct (cn_writer c) as [sd|] eqn:EW; [|split; [reflexivity|exact HS]].
    destruct (send_same sd m k c d S3 S4) as [E1 E2].
    destruct (send_rest sd m k c) as (_ & C1 & C2 & C3 & C4 & C5 & C6).
    destruct (send_rest sd m k d) as (_ & D1 & D2 & D3 & D4 & D5 & D6).
    rewrite E1. split; [reflexivity|]. split; [congruence|]. split; [congruence|]. split; congruence.
  - apply HSH. exact S2.
  - apply HSH. exact S2.
  - apply HSH. rewrite S1. reflexivity.
  - apply HSH. rewrite S1. reflexivity.
  - split; [reflexivity|]. split; [exact S1|]. cbn. auto.
  - split; [reflexivity|]. split; [reflexivity|]. cbn. auto.
  - split; [reflexivity|]. split; [exact S1|]. cbn. auto.
  - split; [reflexivity|]. split; [exact S1|]. cbn. auto.
Qed.
Lemma filter_cons : forall (A : Type) (f : A -> bool) x l, filter f (x :: l) = filter f [x] ++ filter f l.
Proof. intros A f x l. cbn [filter]. destruct (f x); reflexivity. Qed.
Lemma out_run : forall es c d, same_out c d ->
  filter of_sending (fst (conn_run es c)) = filter of_sending (fst (conn_run es d)) /\
  same_out (snd (conn_run es c)) (snd (conn_run es d)).
Proof.
  induction es as [|e es IH]; intros c d HS; cbn [conn_run]; [auto|].
  destruct (out_step e c d HS) as [H1 H2]. destruct (conn_step e c) as [o c2], (conn_step e d) as [o' d2].
  cbn [fst snd] in *. destruct (IH c2 d2 H2) as [H3 H4]. destruct (conn_run es c2), (conn_run es d2). cbn [fst snd] in *.
  rewrite (filter_cons _ _ o), (filter_cons _ _ o'), H1, H3. auto.
Qed.
(** [C76] Shutting the receiving half down does not touch sending: whatever is done and arrives
    afterwards, every send gives the same, and the peer reads the same. *)
Lemma reader_shut_sending_proof : forall c es, let d := snd (conn_step ReaderShutdown c) in
  filter of_sending (fst (conn_run es d)) = filter of_sending (fst (conn_run es c)) /\
  peer_in (snd (conn_run es d)) = peer_in (snd (conn_run es c)).
Proof.
  intros c es d. assert (same_out d c) as HS.
  { unfold d. cbn [conn_step]. unfold conn_shut. destruct (cn_reader c) eqn:E; cbn [snd]; repeat split. }
  destruct (out_run es d c HS) as [H1 (H2 & H3 & H4 & H5)]. split; [exact H1|].
  unfold peer_in, ended. rewrite H2, H3, H4, H5. reflexivity.
Qed.
(*EX
Example reader_shut_sending_ex :
  let c := conn_new (receiver_new false) [] (mk_sender false) [x89; x00] (mk_w [] []) in
  let k := mk_key x00 x00 x00 x00 in
  let es := [DoSend (OText [x61]) k; Arrive [x89; x00]; DropReader; DoSend (OPong []) k] in
  let d := snd (conn_step ReaderShutdown c) in
  filter of_sending (fst (conn_run es d)) = [Wrote (Ok tt); Wrote (Ok tt)] /\
  w_out (so_out (cn_socket (snd (conn_run es d)))) = [x81; x01; x61; x8a; x00].
Proof. split; vm_compute; reflexivity. Qed.
EX*)

Definition same_in2 (c d : conn) : Prop := same_in c d /\ half_gone (cn_writer c) = half_gone (cn_writer d).
Lemma in_step : forall e c d, same_in2 c d ->
  filter of_receiving [fst (conn_step e c)] = filter of_receiving [fst (conn_step e d)] /\
  same_in2 (snd (conn_step e c)) (snd (conn_step e d)).
Proof.
  intros e c d [HS S0]. pose proof HS as (S1 & S2 & S3 & S4).
  assert (forall (A B : Type) (h1 : option A) (h2 : option B) how, half_gone h1 = half_gone h2 ->
    filter of_receiving [fst (conn_shut h1 how c)] = filter of_receiving [fst (conn_shut h2 how d)] /\
    same_in2 (snd (conn_shut h1 how c)) (snd (conn_shut h2 how d))) as HSH.
  { intros A B h1 h2 how H. destruct h1, h2; try discriminate; cbn [conn_shut fst snd]; (split; [reflexivity|]); [|split; assumption].
    split; [|exact S0]. split; [exact S1|]. split; [exact S2|]. cbn. split; [exact S3|]. destruct how; auto. }
  destruct e; cbn [conn_step].
  - rewrite <- S1. destruct (cn_reader c) as [[rc buf]|] eqn:ER; [|split; [reflexivity|split; assumption]].
    pose proof (recv_same rc buf c d HS) as HR. destruct (conn_recv rc buf c) as [o c1].
    destruct HR as (d1 & -> & H1 & H2 & H3). cbn [fst snd]. split; [reflexivity|]. split; [exact H1|congruence].
  - destruct (cn_writer c) as [sd|] eqn:EW, (cn_writer d) as [sd'|] eqn:EW'; try discriminate S0;
      [|split; [reflexivity|]; split; [exact HS|cbn; rewrite EW, EW'; reflexivity]].
    destruct (send_rest sd m k c) as ((r & C0) & C1 & C2 & C3 & C4 & C5 & C6).
    destruct (send_rest sd' m k d) as ((r' & D0) & D1 & D2 & D3 & D4 & D5 & D6).
    rewrite C0, D0. split; [reflexivity|]. split; [|rewrite C2, D2, EW, EW'; reflexivity].
    repeat split; congruence.
  - apply HSH. rewrite S1. reflexivity.
  - apply HSH. rewrite S1. reflexivity.
  - apply HSH. exact S0.
  - apply HSH. exact S0.
  - split; [reflexivity|]. split; [|exact S0]. split; [reflexivity|]. auto.
  - split; [reflexivity|]. split; [|reflexivity]. split; [exact S1|]. auto.
  - split; [reflexivity|]. split; [|exact S0]. split; [exact S1|]. cbn. rewrite S2, S3. auto.
  - split; [reflexivity|]. split; [|exact S0]. split; [exact S1|]. cbn. auto.
Qed.
Lemma in_run : forall es c d, same_in2 c d ->
  filter of_receiving (fst (conn_run es c)) = filter of_receiving (fst (conn_run es d)).
Proof.
  induction es as [|e es IH]; intros c d HS; cbn [conn_run]; [auto|].
  destruct (in_step e c d HS) as [H1 H2]. destruct (conn_step e c) as [o c2], (conn_step e d) as [o' d2].
  cbn [fst snd] in *. pose proof (IH c2 d2 H2) as H3. destruct (conn_run es c2), (conn_run es d2). cbn [fst snd] in *.
  rewrite (filter_cons _ _ o), (filter_cons _ _ o'), H1, H3. auto.
Qed.
(** [C76] Shutting the sending half down does not touch receiving: whatever is done and arrives
    afterwards, every receive gives the same, or waits as it would have. *)
Lemma writer_shut_receiving_proof : forall c es,
  filter of_receiving (fst (conn_run es (snd (conn_step WriterShutdown c)))) = filter of_receiving (fst (conn_run es c)).
Proof.
  intros c es. apply in_run. cbn [conn_step]. unfold conn_shut. destruct (cn_writer c) eqn:E; cbn [snd]; repeat split.
Qed.
(*EX
Example writer_shut_receiving_ex :
  let c := conn_new (receiver_new false) [] (mk_sender false) [] (mk_w [] []) in
  let es := [Arrive [x89]; DoRecv; Arrive [x00; x8a; x00]; DoRecv; DoRecv; DoRecv] in
  filter of_receiving (fst (conn_run es (snd (conn_step WriterShutdown c))))
  = [Waits; Got (Ok (OPing [])); Got (Ok (OPong [])); Waits].
Proof. vm_compute. reflexivity. Qed.
EX*)

(** ** Sending on a connection that is shut down *)
Lemma frame_bytes_some : forall d key data, frame_bytes d key = Ok data -> data <> [].
Proof.
  intros d key data H. destruct (ops_sendable_dec d) as [HS|HS].
  - destruct (df_write_err d) eqn:EW.
    + unfold frame_bytes in H. fold (ops_header d key) in H. rewrite write_header_ok in H by apply HS. cbn [rbind] in H.
      rewrite payload_into_eq, EW in H. discriminate.
    + rewrite frame_bytes_ok in H by assumption. assert (header_bytes (ops_header d key) ++ mask_opt key (concat (df_writes d)) = data) as <- by congruence. unfold header_bytes. discriminate.
  - destruct (frame_bytes_refused d key HS) as [m E]. congruence.
Qed.
Lemma send_shut : forall sd m k c, so_write_shut (cn_socket c) = true ->
  exists r, conn_send sd m k c = (Wrote r, c) /\ r <> Ok tt /\ (sendable (2 ^ 34) m -> r = Err (IoError broken_pipe)).
Proof.
  intros sd m k c H. unfold conn_send, tcp_out, tcp_written. rewrite H. unfold send_message, send_frame, write_to.
  assert (with_socket (cn_socket c) c = c) as HC by (destruct c; reflexivity).
  set (key := if s_mask sd then Some k else None).
  destruct (frame_bytes_total (owned_ops m) key) as [[data E]|[e E]]; rewrite E.
  - pose proof (frame_bytes_some _ _ _ E) as HN. destruct data as [|b data]; [congruence|].
    unfold write_all. cbn [w_script w_out write_all_go io_to_ws of_io broken_pipe]. rewrite HC. eexists. split; [reflexivity|].
    split; [discriminate|]. reflexivity.
  - rewrite HC. exists (Err e). split; [reflexivity|]. split; [discriminate|]. intros HS. exfalso.
    destruct (sends (s_mask sd) m k (mk_w [] [])) as (w' & W & _); [constructor|exact HS|].
    unfold writer_send, writer_send_frame, send_frame, write_to in W. cbn [wr_sender wr_out s_mask] in W. fold key in W.
    rewrite E in W. discriminate.
Qed.
(** [C76] Once writing was shut down, by the sending half or for both directions by either
    half, nothing is written any more, and no send says it was: a message that could be sent is
    reported as a broken pipe. *)
Lemma shut_sends_proof : forall e c c1 es os c2,
  stops_writing e -> conn_step e c = (Nothing, c1) -> conn_run es c1 = (os, c2) ->
  w_out (so_out (cn_socket c2)) = w_out (so_out (cn_socket c)) /\
  forall m k r, In (DoSend m k, Wrote r) (combine es os) ->
    r <> Ok tt /\ (sendable (2 ^ 34) m -> r = Err (IoError broken_pipe)).
Proof.
  intros e c c1 es os c2 HE HS HR.
  assert (so_write_shut (cn_socket c1) = true /\ so_out (cn_socket c1) = so_out (cn_socket c)) as [HW <-].
  { destruct HE as [->|[->| ->]]; cbn [conn_step] in HS; unfold conn_shut in HS.
    - destruct (cn_writer c); [|discriminate]. injection HS as <-. auto.
    - destruct (cn_writer c); [|discriminate]. injection HS as <-. auto.
    - destruct (cn_reader c); [|discriminate]. injection HS as <-. auto. }
  clear HE HS c. revert c1 os HW HR. induction es as [|e' es IH]; intros c os HW H; cbn [conn_run] in H.
  - injection H as <- <-. split; [reflexivity|]. intros m k r [].
  - destruct (conn_step e' c) as [o c3] eqn:E. destruct (conn_run es c3) as [os2 c4] eqn:E2. injection H as <- <-.
    pose proof (step_keeps _ _ _ _ E) as (_ & _ & HK). specialize (HK HW).
    assert (so_out (cn_socket c3) = so_out (cn_socket c)) as HO.
    { destruct e'; cbn [conn_step] in E; unfold conn_shut in E.
      - destruct (cn_reader c) as [[rc buf]|]; [|injection E as <- <-; reflexivity].
        pose proof (recv_out rc buf c) as (_ & _ & _ & _ & HX). rewrite E in HX. exact HX.
      - destruct (cn_writer c) as [sd|]; [|injection E as <- <-; reflexivity].
        destruct (send_shut sd m k c HW) as (r & ES & _). rewrite ES in E. injection E as <- <-. reflexivity.
      - destruct (cn_reader c); injection E as <- <-; reflexivity.
      - destruct (cn_reader c); injection E as <- <-; reflexivity.
      - destruct (cn_writer c); injection E as <- <-; reflexivity.
      - destruct (cn_writer c); injection E as <- <-; reflexivity.
      - injection E as <- <-; reflexivity.
      - injection E as <- <-; reflexivity.
      - injection E as <- <-; reflexivity.
      - injection E as <- <-; reflexivity. }
    destruct (IH c3 os2 HK E2) as [I1 I2]. split; [rewrite I1, HO; reflexivity|].
    intros m k r [HI|HI]; [|eapply I2; exact HI]. injection HI as -> ->.
    cbn [conn_step] in E. destruct (cn_writer c) as [sd|]; [|discriminate].
    destruct (send_shut sd m k c HW) as (r' & ES & ER). rewrite ES in E. injection E as <- _. exact ER.
Qed.
(*EX
Example shut_sends_ex :
  let c := conn_new (receiver_new false) [] (mk_sender false) [] (mk_w [] []) in
  let k := mk_key x00 x00 x00 x00 in
  let es := [DoSend (OText [x61]) k; ReaderShutdownAll; DoSend (OText [x62]) k; DoSend (OPing (repeat x00 126)) k] in
  fst (conn_run es c) = [Wrote (Ok tt); Nothing; Wrote (Err (IoError broken_pipe));
                         Wrote (Err (DataFrameError "Control frame length too long"))] /\
  w_out (so_out (cn_socket (snd (conn_run es c)))) = [x81; x01; x61].
Proof. split; vm_compute; reflexivity. Qed.
EX*)

(** ** What the peer hears *)
Lemma step_ends : forall e c o c2, conn_step e c = (o, c2) ->
  (so_write_shut (cn_socket c2) = true <-> so_write_shut (cn_socket c) = true \/ (stops_writing e /\ o = Nothing)) /\
  (cn_reader c2 = None <-> cn_reader c = None \/ e = DropReader) /\
  (cn_writer c2 = None <-> cn_writer c = None \/ e = DropWriter).
Proof.
  intros e c o c2 H. destruct e; cbn [conn_step] in H; unfold conn_shut in H.
  - destruct (cn_reader c) as [[rc buf]|] eqn:ER.
    + pose proof (recv_out rc buf c) as (A1 & A2 & A3 & A4 & A5). rewrite H in A2, A3, A4. cbn [fst snd] in *.
      rewrite A2, A4. split; [|split].
      * split; [auto|]. intros [B|[[B|[B|B]] _]]; [exact B|discriminate..].
      * specialize (A3 ER). destruct (cn_reader c2); [|discriminate]. split; [discriminate|]. intros [B|B]; discriminate.
      * split; [auto|]. intros [B|B]; [exact B|discriminate].
    + injection H as <- <-. rewrite ER. split; [|split].
      * split; [auto|]. intros [B|[_ B]]; [exact B|discriminate].
      * tauto.
      * split; [auto|]. intros [B|B]; [exact B|discriminate].
  - assert (so_write_shut (cn_socket c2) = so_write_shut (cn_socket c) /\ cn_reader c2 = cn_reader c /\ cn_writer c2 = cn_writer c) as (A1 & A2 & A3).
    { destruct (cn_writer c) as [sd|] eqn:EW; [|injection H as <- <-; auto].
      pose proof (send_rest sd m k c) as (_ & C1 & C2 & _ & _ & _ & C6). rewrite H in C1, C2, C6. cbn [snd] in *. rewrite C2. auto. }
    rewrite A1, A2, A3. split; [|split].
    + split; [auto|]. intros [B|[[B|[B|B]] _]]; [exact B|discriminate..].
    + split; [auto|]. intros [B|B]; [exact B|discriminate].
    + split; [auto|]. intros [B|B]; [exact B|discriminate].
  - assert (so_write_shut (cn_socket c2) = so_write_shut (cn_socket c) /\ cn_reader c2 = cn_reader c /\ cn_writer c2 = cn_writer c) as (A1 & A2 & A3)
      by (destruct (cn_reader c) eqn:ER; injection H as <- <-; cbn; auto).
    rewrite A1, A2, A3. split; [|split].
    + split; [auto|]. intros [B|[[B|[B|B]] _]]; [exact B|discriminate..].
    + split; [auto|]. intros [B|B]; [exact B|discriminate].
    + split; [auto|]. intros [B|B]; [exact B|discriminate].
  - destruct (cn_reader c) eqn:ER; injection H as <- <-; cbn [with_socket cn_reader cn_writer cn_socket tcp_shutdown so_write_shut]; rewrite ?ER.
    + split; [|split].
      * split; [|reflexivity]. intros _. right. split; [right; right; reflexivity|reflexivity].
      * split; [auto|]. intros [B|B]; [exact B|discriminate].
      * split; [auto|]. intros [B|B]; [exact B|discriminate].
    + split; [|split].
      * split; [auto|]. intros [B|[_ B]]; [exact B|discriminate].
      * split; [auto|]. intros [B|B]; [exact B|discriminate].
      * split; [auto|]. intros [B|B]; [exact B|discriminate].
  - destruct (cn_writer c) eqn:ER; injection H as <- <-; cbn [with_socket cn_reader cn_writer cn_socket tcp_shutdown so_write_shut]; rewrite ?ER.
    + split; [|split].
      * split; [|reflexivity]. intros _. right. split; [left; reflexivity|reflexivity].
      * split; [auto|]. intros [B|B]; [exact B|discriminate].
      * split; [auto|]. intros [B|B]; [exact B|discriminate].
    + split; [|split].
      * split; [auto|]. intros [B|[_ B]]; [exact B|discriminate].
      * split; [auto|]. intros [B|B]; [exact B|discriminate].
      * split; [auto|]. intros [B|B]; [exact B|discriminate].
  - destruct (cn_writer c) eqn:ER; injection H as <- <-; cbn [with_socket cn_reader cn_writer cn_socket tcp_shutdown so_write_shut]; rewrite ?ER.
    + split; [|split].
      * split; [|reflexivity]. intros _. right. split; [right; left; reflexivity|reflexivity].
      * split; [auto|]. intros [B|B]; [exact B|discriminate].
      * split; [auto|]. intros [B|B]; [exact B|discriminate].
    + split; [|split].
      * split; [auto|]. intros [B|[_ B]]; [exact B|discriminate].
      * split; [auto|]. intros [B|B]; [exact B|discriminate].
      * split; [auto|]. intros [B|B]; [exact B|discriminate].
  - injection H as <- <-. cbn [cn_reader cn_writer cn_socket]. split; [|split].
    + split; [auto|]. intros [B|[[B|[B|B]] _]]; [exact B|discriminate..].
    + tauto.
    + split; [auto|]. intros [B|B]; [exact B|discriminate].
  - injection H as <- <-. cbn [cn_reader cn_writer cn_socket]. split; [|split].
    + split; [auto|]. intros [B|[[B|[B|B]] _]]; [exact B|discriminate..].
    + split; [auto|]. intros [B|B]; [exact B|discriminate].
    + tauto.
  - injection H as <- <-. cbn [with_socket cn_reader cn_writer cn_socket so_write_shut]. split; [|split].
    + split; [auto|]. intros [B|[[B|[B|B]] _]]; [exact B|discriminate..].
    + split; [auto|]. intros [B|B]; [exact B|discriminate].
    + split; [auto|]. intros [B|B]; [exact B|discriminate].
  - injection H as <- <-. cbn [with_socket cn_reader cn_writer cn_socket so_write_shut]. split; [|split].
    + split; [auto|]. intros [B|[[B|[B|B]] _]]; [exact B|discriminate..].
    + split; [auto|]. intros [B|B]; [exact B|discriminate].
    + split; [auto|]. intros [B|B]; [exact B|discriminate].
Qed.
Lemma ended_iff : forall es c os c1, conn_run es c = (os, c1) ->
  ended c1 = true <->
  so_write_shut (cn_socket c) = true \/ took_place stops_writing es os \/
  ((cn_reader c = None \/ In DropReader es) /\ (cn_writer c = None \/ In DropWriter es)).
Proof.
  induction es as [|e es IH]; intros c os c1 H; cbn [conn_run] in H.
  - injection H as <- <-. unfold ended, took_place. rewrite orb_true_iff, andb_true_iff. cbn [In combine].
    split.
    + intros [A|[A B]]; [left; exact A|]. right. right. split; left; [destruct (cn_reader c)|destruct (cn_writer c)]; (discriminate || reflexivity).
    + intros [A|[(e & _ & [])|[[A|[]] [B|[]]]]]; [left; exact A|]. right. rewrite A, B. auto.
  - destruct (conn_step e c) as [o c2] eqn:E. destruct (conn_run es c2) as [os2 c3] eqn:E2. injection H as <- <-.
    rewrite (IH _ _ _ E2). unfold took_place. cbn [combine In].
    assert ((exists e0, stops_writing e0 /\ ((e, o) = (e0, Nothing) \/ In (e0, Nothing) (combine es os2))) <->
            ((stops_writing e /\ o = Nothing) \/ exists e0, stops_writing e0 /\ In (e0, Nothing) (combine es os2))) as ->.
    { split.
      - intros (e0 & A & [B|B]); [left; injection B as -> ->; auto|right; eauto].
      - intros [[A ->]|(e0 & A & B)]; eauto. }
    apply step_ends in E as (E3 & E4 & E5). rewrite E3, E4, E5. clear. tauto.
Qed.

Lemma recv_n_tail : forall n r s ms r' s', clean s -> recv_n n r s = (map Ok ms, r', s') ->
  clean s' /\ recv_n n r (s ++ stop) = (map Ok ms, r', s' ++ stop).
Proof.
  induction n as [|n IH]; intros r s ms r' s' HC H; cbn [recv_n] in *.
  - injection H as <- <- <-. auto.
  - destruct (message_tails r s HC) as [(x & rc & t & E1 & E2 & HT & _)|(rc & E1 & E2)]; rewrite E1 in H; rewrite E2.
    + destruct (recv_n n rc t) as [[xs r2] s2] eqn:E3. destruct ms as [|m ms]; [discriminate|]. cbn [map] in H.
      injection H as -> -> <- <-. destruct (IH _ _ _ _ _ HT E3) as [H1 H2]. rewrite H2. auto.
    + destruct (recv_n n rc []) as [[xs r2] s2]. destruct ms; discriminate.
Qed.
Lemma recv_n_app : forall a b r s, recv_n (a + b) r s =
  let '(x, r1, s1) := recv_n a r s in let '(y, r2, s2) := recv_n b r1 s1 in (x ++ y, r2, s2).
Proof.
  induction a as [|a IH]; intros b r s.
  - cbn [Nat.add recv_n app]. destruct (recv_n b r s) as [[? ?] ?]; reflexivity.
  - cbn [Nat.add recv_n]. destruct (recv_message r s) as [[x r1] s1]. rewrite IH.
    destruct (recv_n a r1 s1) as [[xs r2] s2]. destruct (recv_n b r2 s2) as [[ys r3] s3]. reflexivity.
Qed.
Lemma told_cons : forall e es o os, told_sent (e :: es) (o :: os) =
  match e, o with DoSend m k, Wrote (Ok _) => [(m, k)] | _, _ => [] end ++ told_sent es os.
Proof. intros e es o os. destruct e, o; try reflexivity. destruct r; reflexivity. Qed.
Lemma sent_run : forall sd es c os c1, never_fails (so_out (cn_socket c)) ->
  (forall sd', cn_writer c = Some sd' -> sd' = sd) ->
  (forall m k, In (DoSend m k) es -> sendable (2 ^ 34) m) -> conn_run es c = (os, c1) ->
  w_out (so_out (cn_socket c1)) = w_out (so_out (cn_socket c)) ++ encs (masked_frames (s_mask sd) (told_sent es os)).
Proof.
  induction es as [|e es IH]; intros c os c1 HN HW HM H; cbn [conn_run] in H.
  - injection H as <- <-. cbn [told_sent masked_frames map encs concat]. symmetry. apply app_nil_r.
  - destruct (conn_step e c) as [o c2] eqn:E. destruct (conn_run es c2) as [os2 c3] eqn:E2. injection H as <- <-.
    assert (exists out, so_out (cn_socket c2) = out /\ never_fails out /\ (forall sd', cn_writer c2 = Some sd' -> sd' = sd) /\
      w_out out = w_out (so_out (cn_socket c)) ++ encs (masked_frames (s_mask sd)
        match e, o with DoSend m k, Wrote (Ok _) => [(m, k)] | _, _ => [] end)) as (out & <- & F1 & F2 & F3).
    { assert (cn_writer c2 = cn_writer c \/ cn_writer c2 = None ->
        so_out (cn_socket c2) = so_out (cn_socket c) ->
        exists out, so_out (cn_socket c2) = out /\ never_fails out /\ (forall sd', cn_writer c2 = Some sd' -> sd' = sd) /\
          w_out out = w_out (so_out (cn_socket c)) ++ encs (masked_frames (s_mask sd) [])) as HX.
      { intros A1 A2. exists (so_out (cn_socket c)). split; [exact A2|]. split; [exact HN|]. split.
        - destruct A1 as [->| ->]; [exact HW|discriminate].
        - symmetry. apply app_nil_r. }
      destruct e; cbn [conn_step] in E; unfold conn_shut in E.
      - apply HX; (destruct (cn_reader c) as [[rc buf]|]; [|injection E as <- <-; auto]);
          pose proof (recv_out rc buf c) as (_ & A2 & _ & _ & A5); rewrite E in A2, A5; auto.
      - destruct (cn_writer c) as [sd0|] eqn:EW; [|injection E as <- <-; apply HX; auto].
        assert (sd0 = sd) as -> by (apply HW; reflexivity).
        destruct (so_write_shut (cn_socket c)) eqn:ES.
        + destruct (send_shut sd m k c ES) as (r & G1 & G2 & _). rewrite G1 in E. injection E as <- <-.
          destruct r as [[]| | |]; [congruence|apply HX; rewrite ?EW; auto..].
        + destruct sd as [masked]. destruct (sends masked m k (so_out (cn_socket c)) HN) as (w' & W1 & W2 & W3);
            [apply (HM m k); left; reflexivity|].
          unfold writer_send, writer_send_frame in W1. cbn [wr_sender wr_out] in W1.
          unfold conn_send, tcp_out, tcp_written in E. rewrite ES in E. unfold send_message in E.
          destruct (send_frame (mk_sender masked) (owned_ops m) k (so_out (cn_socket c))) as [r w]. injection W1 as -> ->.
          injection E as <- <-. exists w'. cbn [with_socket cn_socket so_out cn_writer]. rewrite EW. auto.
      - apply HX; destruct (cn_reader c); injection E as <- <-; auto.
      - apply HX; destruct (cn_reader c); injection E as <- <-; auto.
      - apply HX; destruct (cn_writer c) eqn:EW; injection E as <- <-; rewrite ?EW; cbn; auto.
      - apply HX; destruct (cn_writer c) eqn:EW; injection E as <- <-; rewrite ?EW; cbn; auto.
      - apply HX; injection E as <- <-; auto.
      - apply HX; injection E as <- <-; auto.
      - apply HX; injection E as <- <-; auto.
      - apply HX; injection E as <- <-; auto. }
    assert (forall m k, In (DoSend m k) es -> sendable (2 ^ 34) m) as HM'
      by (intros m k HI; apply (HM m k); right; exact HI).
    rewrite (IH c2 os2 c3 F1 F2 HM' E2), F3, told_cons. unfold masked_frames. rewrite map_app, encs_app, <- app_assoc. reflexivity.
Qed.
Lemma told_in : forall es os m k, In (m, k) (told_sent es os) -> In (DoSend m k) es.
Proof.
  induction es as [|e es IH]; intros os m k H; [destruct H|]. destruct os as [|o os]; [destruct e; destruct H|].
  rewrite told_cons in H. apply in_app_or in H as [H|H]; [|right; eapply IH; exact H].
  left. destruct e, o; try contradiction. destruct r; try contradiction. destruct H as [H|[]]. congruence.
Qed.
Lemma push_flat : forall q, flat (push_back q []) = q.
Proof. intros [|b q]; cbn [push_back flat]; [reflexivity|]. apply app_nil_r. Qed.
(** [C76] What the peer hears, whatever is done with the connection: exactly the messages whose
    sends were reported as done, in order; then, if writing was shut down or both halves were
    dropped, [NoDataAvailable] for ever; and if not, it waits.  (No Close message is made up.) *)
Lemma peer_hears_proof : forall rc buf sd queue script es os c1 max_df max_msg,
  never_fails (mk_w [] script) -> (forall m k, In (DoSend m k) es -> sendable (capped max_df) m) ->
  conn_run es (conn_new rc buf sd queue (mk_w [] script)) = (os, c1) ->
  let l := map fst (told_sent es os) in
  let p := receiver_with_limits (s_mask sd) max_df max_msg in
  let over := took_place stops_writing es os \/ (In DropReader es /\ In DropWriter es) in
  (over -> forall n, fst (fst (recv_n (length l + n) p (peer_in c1))) = map Ok l ++ repeat (Err NoDataAvailable) n) /\
  (~ over -> fst (fst (recv_n (length l + 1) p (peer_in c1))) = map Ok l ++ [Err (IoError forever)]).
Proof.
  intros rc buf sd queue script es os c1 max_df max_msg HN HM HR l p over.
  pose proof (ended_iff _ _ _ _ HR) as HE. cbn [conn_new cn_reader cn_writer cn_socket so_write_shut] in HE.
  assert (ended c1 = true <-> over) as HO.
  { rewrite HE. unfold over. split; [intros [A|[A|[[A|A] [B|B]]]]; auto; discriminate|tauto]. }
  clear HE. pose proof (sent_run sd es (conn_new rc buf sd queue (mk_w [] script)) os c1 HN) as HS. cbn [conn_new cn_writer cn_socket so_out w_out app] in HS.
  specialize (HS ltac:(intros sd' H; congruence)).
  specialize (HS ltac:(intros m k HI; destruct (HM m k HI) as (A & B & C); split; [exact A|]; split; [unfold capped in B; lia|exact C]) HR).
  set (ps := told_sent es os) in *.
  assert (Forall (fun q => sendable (capped max_df) (fst q)) ps) as HF.
  { apply Forall_forall. intros [m k] HI. apply told_in in HI. cbn [fst]. eapply HM; exact HI. }
  assert (capped max_df < 2 ^ 64) as Hcap by (unfold capped; lia).
  set (s := push_back (w_out (so_out (cn_socket c1))) []).
  assert (clean s) as HC by (apply clean_push_back; constructor).
  destruct (recv_n_complete p s (map whole_frame l) (w_out (so_out (cn_socket c1))) [] (map Ok l)) as (s' & E1 & E2).
  { rewrite app_nil_r. apply carries_iff. split; [exact HC|]. apply push_flat. }
  { rewrite HS. pose proof (encs_on_wire _ _ _ (masked_frames_ok (s_mask sd) _ ps Hcap HF)) as HX.
    unfold masked_frames in HX at 1. rewrite map_map in HX. unfold l. rewrite map_map. exact HX. }
  { pose proof (wire_ok_fits _ _ _ (masked_frames_ok (s_mask sd) _ ps Hcap HF)) as HX.
    unfold masked_frames in HX. rewrite map_map in HX. unfold l. rewrite map_map. exact HX. }
  { apply (capped_u32 max_df). }
  { apply whole_within. }
  { apply delivers_results. eapply whole_results. apply Forall_map. exact HF. }
  rewrite map_length in E1. unfold peer_in. split; intros HV.
  - rewrite (proj2 HO HV). intros n. fold s. rewrite recv_n_app, E1.
    destruct (nothing_more_blocking_proof n (with_buffer p []) s' E2) as (s2 & -> & _). reflexivity.
  - destruct (ended c1); [exfalso; apply HV, HO; reflexivity|].
    replace (push_back (w_out (so_out (cn_socket c1))) [RErr forever]) with (s ++ stop) by (unfold s; rewrite push_back_app; reflexivity).
    destruct (recv_n_tail _ _ _ _ _ _ HC E1) as [H1 H2]. rewrite recv_n_app, H2. cbn [recv_n].
    apply carries_iff in E2 as [_ E2]. rewrite stop_message by assumption. reflexivity.
Qed.
(*EX
(** Two messages, then writing is shut down and a third is tried: the peer hears the two and then
    [NoDataAvailable]. *)
Example peer_hears_ex :
  let c := conn_new (receiver_new false) [] (mk_sender true) [] (mk_w [] [WAccept 2]) in
  let k := mk_key x01 x02 x03 x04 in
  let es := [DoSend (OText [x61]) k; DoSend (OPing []) k; WriterShutdown; DoSend (OText [x62]) k] in
  let '(os, c1) := conn_run es c in
  map fst (told_sent es os) = [OText [x61]; OPing []] /\
  fst (fst (recv_n 4 (receiver_with_limits true 100 100) (peer_in c1)))
  = [Ok (OText [x61]); Ok (OPing []); Err NoDataAvailable; Err NoDataAvailable].
Proof. vm_compute. split; reflexivity. Qed.
EX*)

(** [C76] Refuted that shutting down the receiving half is the end of receiving: messages that
    are there, even ones that arrive later, are still received. *)
Lemma shut_ends_refuted_proof : exists c c1 late,
  conn_step ReaderShutdown c = (Nothing, c1) /\
  fst (conn_run [DoRecv; DoRecv; Arrive late; DoRecv] c1)
  = [Got (Ok (OText [x61])); Got (Err NoDataAvailable); Nothing; Got (Ok (OText [x62]))].
Proof.
  exists (conn_new (receiver_new false) [] (mk_sender true) [x81; x01; x61] (mk_w [] [])).
  eexists. exists [x81; x01; x62]. split; [reflexivity|]. vm_compute. reflexivity.
Qed.
(** [C76] Refuted that dropping the sending half ends the connection for the peer: it shares its
    socket with the receiving half, and the peer goes on waiting until that is dropped too. *)
Lemma drop_ends_refuted_proof : exists c,
  fst (fst (recv_n 1 (receiver_new true) (peer_in (snd (conn_run [DropWriter] c))))) = [Err (IoError forever)] /\
  fst (fst (recv_n 1 (receiver_new true) (peer_in (snd (conn_run [DropWriter; DropReader] c))))) = [Err NoDataAvailable].
Proof.
  exists (conn_new (receiver_new false) [] (mk_sender true) [] (mk_w [] [])). split; vm_compute; reflexivity.
Qed.
