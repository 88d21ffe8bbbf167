(** The chat client and the server of the examples, talking to each other: C73. *)
From Coq Require Import NArith ZArith String Bool List Lia.
From Coq Require Import ZifyBool ZifyNat ZifyN.
From Coq.Strings Require Import Byte.
From Verif.Model Require Import Base Io Header Mask Dataframe Utf8 Text Headers
  Message Receiver Codec Connect Examples ChatClient Talk.
From Verif.Spec Require Import RfcFrame FrameSpec Schedule Unicode Drive Session Connection Polled Echo Chat Talking.
From Verif.Proofs Require Import BaseFacts MaskFacts HeaderFacts FrameFacts CodecFacts ScriptFacts
  Machine Utf8Facts ThmFrames ThmStream SessionFacts RecvFacts MessageFacts
  TextFacts ExTac ThmKeys ThmMessages ThmFlow ThmLimits ThmInterop ThmEcho ThmChat.
Import ListNotations.
Local Open Scope string_scope.
Local Open Scope list_scope.
Local Open Scope N_scope.

(** [C73] The turns of the server in this model are those of the loop of Model/Examples.v. *)
Lemma loop_is_turns_proof : forall n k r w, server_loop (S n) k r w =
  match server_turn Serving k r w with
  | (Served e, _, w') => (e, w')
  | (_, r', w') => server_loop n k r' w'
  end.
Proof.
  intros n k r w. cbn [server_loop server_turn]. destruct (reader_recv r) as [[m|e| |] r']; try reflexivity.
  destruct m; (destruct (writer_send _ k w) as [[[]|e| |] w'] eqn:E; rewrite ?E; reflexivity).
Qed.

(*EX
(** One turn: a masked text "a" is read and sent back. *)
Example loop_is_turns_ex :
  let r := mk_reader (receiver_new true) [] [RData x81 [x81; x00; x00; x00; x00; x61]] in
  exists r', server_turn Serving (mk_key x00 x00 x00 x00) r (mk_writer (mk_sender false) (mk_w [] []))
    = (Serving, r', mk_writer (mk_sender false) (mk_w [x81; x01; x61] [])).
Proof. eexists. reflexivity. Qed.
EX*)

(** ** A message on its way *)
Definition big : N := 104857600.
Definition limits (masked : bool) : receiver := receiver_new masked.
Lemma limits_df : forall masked, r_max_df (limits masked) = big.
Proof. reflexivity. Qed.

Lemma sends : forall masked m k w, never_fails w -> sendable (2 ^ 34) m ->
  exists w', writer_send m k (mk_writer (mk_sender masked) w) = (Ok tt, mk_writer (mk_sender masked) w') /\
    w_out w' = w_out w ++ encs (masked_frames masked [(m, k)]) /\ never_fails w'.
Proof.
  intros [] m k w HN HS.
  - destruct (client_says_one m k w HN HS) as (w' & W1 & W2 & W3). exists w'. split; [exact W1|]. split; [|exact W3].
    apply octets_inj. rewrite W2, octets_app. f_equal. unfold client_says, masked_frames. cbn [map concat fst snd].
    rewrite encs_cons, app_nil_r. cbn [encs map concat fst snd]. rewrite app_nil_r.
    symmetry. apply (enc_rfc (whole_frame m) (Some k)).
  - destruct (says_one m k w HN HS) as (w' & W1 & W2 & W3). exists w'. split; [exact W1|]. split; [|exact W3].
    apply octets_inj. rewrite W2, octets_app. f_equal. unfold server_says, masked_frames. cbn [map concat fst snd].
    rewrite encs_cons, app_nil_r. cbn [encs map concat fst snd]. rewrite app_nil_r.
    symmetry. apply (enc_rfc (whole_frame m) None).
Qed.

Lemma big_sendable : forall m, sendable big m -> sendable (2 ^ 34) m.
Proof. intros m (A & B & C). split; [exact A|]. split; [unfold big in B; clear - B; lia|exact C]. Qed.

Definition pipe (masked : bool) (r : reader) (q : bytes) (l : list (owned * mkey)) : Prop :=
  rd_receiver r = default_receiver (negb masked) /\ clean (rd_in r) /\
  (rd_buf r ++ flat (rd_in r)) ++ q = encs (masked_frames masked l) /\ Forall (sendable big) (map fst l).

Lemma step_whole : forall d m, sendable d m -> step [] (whole_frame m) = (Some (Ok m), []).
Proof.
  intros d m H. pose proof (delivers_results _ _ _ _ (whole_results [m] d (Forall_cons _ H (Forall_nil _)))) as HR.
  cbn [map results] in HR. destruct (step [] (whole_frame m)) as [[o|] b]; [|discriminate].
  injection HR as -> ->. reflexivity.
Qed.

(** What a read does: it gives the next message, or it would have to wait. *)
Lemma pipe_read : forall masked r q l, pipe masked r q l ->
  (exists m k l' r', l = (m, k) :: l' /\ reader_recv r = (Ok m, r') /\ pipe masked r' q l' /\
     length (rd_buf r ++ flat (rd_in r))
     = (length (enc (whole_frame m) (if masked then Some k else None)) + length (rd_buf r' ++ flat (rd_in r')))%nat) \/
  (fst (reader_recv r) = Err NoDataAvailable /\ (l = [] \/ q <> [])).
Proof.
  intros masked r q l (P1 & P2 & P3 & P4). unfold reader_recv.
  set (s := push_back (rd_buf r) (rd_in r)).
  assert (clean s) as Hc by (apply clean_push_back; exact P2).
  assert (flat s = rd_buf r ++ flat (rd_in r)) as Hf by apply flat_push_back.
  rewrite <- Hf in *. clear Hf P2. rewrite P1. set (rc := default_receiver (negb masked)).
  assert (r_mask rc = masked) as Hm by (unfold rc; destruct masked; reflexivity).
  assert (r_max_df rc = big) as Hd by (unfold rc; destruct masked; reflexivity).
  assert (r_max_df rc <= u32_max) as Hu by (rewrite Hd; vm_compute; discriminate).
  assert (forall rest tl, flat s = rest -> parse_frame (r_mask rc) (r_max_df rc) rest = (Err NoDataAvailable, tl) ->
    fst (let '(x, rc', s') := recv_message rc s in (x, mk_reader rc' [] s')) = Err NoDataAvailable) as HX.
  { intros rest tl E HP. destruct (recv_message_exhaust [] rc s rest tl) as (s' & E1 & _); auto.
    - constructor.
    - exact I.
    - rewrite E1. reflexivity. }
  destruct l as [|[m k] l].
  - right. apply app_eq_nil in P3 as [P3 ->]. split; [|left; reflexivity].
    apply (HX [] []); [exact P3|apply parse_nil].
  - cbn [map fst] in P4. pose proof (Forall_inv P4) as HS. pose proof (Forall_inv_tail P4) as HT.
    set (key := if masked then Some k else None).
    change (masked_frames masked ((m, k) :: l)) with ((whole_frame m, key) :: masked_frames masked l) in P3.
    rewrite encs_cons in P3. cbn [fst snd] in P3.
    assert (frame_ok (whole_frame m)) as Hok by (apply (sendable_frame_ok big); [reflexivity|exact HS]).
    assert (is_some key = masked) as Hk by (unfold key; destruct masked; reflexivity).
    assert (is_some key = r_mask rc) as Hk' by (rewrite Hm; exact Hk).
    assert (r_buffer rc = []) as Hb by (unfold rc; destruct masked; reflexivity).
    assert (llen (f_data (whole_frame m)) <= r_max_df rc) as Hl by (rewrite Hd; apply HS).
    assert ((exists x, flat s = enc (whole_frame m) key ++ x /\ x ++ q = encs (masked_frames masked l)) \/
            (exists x, enc (whole_frame m) key = flat s ++ x /\ x <> [] /\ q <> [])) as [(x & E1 & E2)|(x & E1 & E2 & E3)].
    { apply app_eq_app in P3 as (x & [[E1 E2]|[E1 E2]]).
      - left. eauto.
      - destruct x as [|b x]; [left; exists []; rewrite app_nil_r in E1; rewrite app_nil_r; auto|].
        right. exists (b :: x). split; [exact E1|]. split; [discriminate|]. rewrite E2. discriminate. }
    + left. assert (rfc_legal (rfc_of_frame (whole_frame m) key)) as HL.
      { apply frame_ok_legal. exact Hok. }
      destruct (recv_message_one rc s (flat s) (whole_frame m) key (enc (whole_frame m) key) x (Ok m) [])
        as (s' & R1 & R2); auto.
      * apply carries_iff. split; [exact Hc|reflexivity].
      * exact (enc_rfc (whole_frame m) key).
      * rewrite Hb; apply (step_whole big); exact HS.
      * apply carries_iff in R2 as [C1 C2]. exists m, k, l, (mk_reader (with_buffer rc []) [] s').
        split; [reflexivity|]. rewrite R1. split; [reflexivity|]. cbn [rd_receiver rd_buf rd_in app]. split.
        -- split; [unfold rc; destruct masked; reflexivity|]. split; [exact C1|]. cbn [rd_buf rd_in app]. rewrite C2. auto.
        -- rewrite C2, E1, app_length. reflexivity.
    + right. split; [|right; exact E3].
      destruct (parse_prefix (whole_frame m) key (r_max_df rc) (flat s) x Hok Hl E1 E2) as [tl HP].
      rewrite Hk, <- Hm in HP. apply (HX (flat s) tl); [reflexivity|exact HP].
Qed.

Lemma pipe_write : forall masked r q l p, pipe masked r q l -> sendable big (fst p) ->
  pipe masked r (q ++ encs (masked_frames masked [p])) (l ++ [p]).
Proof.
  intros masked r q l p (P1 & P2 & P3 & P4) H. split; [exact P1|]. split; [exact P2|]. split.
  - unfold masked_frames. rewrite map_app, encs_app, app_assoc. f_equal. exact P3.
  - rewrite map_app. apply Forall_app. split; [exact P4|]. constructor; [exact H|constructor].
Qed.
Lemma flat_app : forall a b, flat (a ++ b) = flat a ++ flat b.
Proof. induction a as [|[b0 bs| | |k] a IH]; intros b; cbn [app flat]; rewrite ?IH, ?app_comm_cons, ?app_assoc; reflexivity. Qed.
Lemma pipe_arrive : forall masked n r q l r' q', pipe masked r q l -> arrive n q r = Some (r', q') ->
  pipe masked r' q' l /\ (length q' < length q)%nat /\
  (length (rd_buf r' ++ flat (rd_in r')) + length q' = length (rd_buf r ++ flat (rd_in r)) + length q)%nat.
Proof.
  intros masked n r q l r' q' (P1 & P2 & P3 & P4) H. unfold arrive in H.
  pose proof (firstn_skipn n q) as HQ.
  destruct (firstn n q) as [|b bs] eqn:EF; [discriminate|]. injection H as <- <-. cbn [rd_receiver rd_buf rd_in].
  assert (flat (rd_in r ++ [RData b bs]) = flat (rd_in r) ++ b :: bs) as HF.
  { rewrite flat_app. cbn [flat]. rewrite app_nil_r. reflexivity. }
  split; [|split].
  - split; [exact P1|]. cbn [rd_receiver rd_buf rd_in]. split; [apply Forall_app; split; [exact P2|constructor; [exact I|constructor]]|].
    split; [|exact P4]. rewrite HF, <- P3, <- !app_assoc, HQ. reflexivity.
  - apply (f_equal (@length byte)) in HQ. rewrite app_length in HQ. cbn [length] in HQ. lia.
  - rewrite HF. apply (f_equal (@length byte)) in HQ. rewrite app_length in HQ. cbn [length] in HQ.
    rewrite !app_length. cbn [length]. lia.
Qed.

(** ** How long a frame is *)
Lemma enc_length : forall m k (masked : bool),
  let n := length (enc (whole_frame m) (if masked then Some k else None)) in
  (length (payload_of m) + (if masked then 6 else 2) <= n <= length (payload_of m) + (if masked then 14 else 10))%nat.
Proof.
  intros m k masked n. subst n. unfold enc, header_bytes.
  set (h := ops_header _ _).
  assert (length (mask_opt (if masked then Some k else None) (f_data (whole_frame m))) = length (payload_of m)) as HM.
  { destruct masked; cbn [mask_opt whole_frame f_data]; [|reflexivity]. apply length_mask_data. }
  assert (length (match h_mask h with Some k => key_bytes k | None => [] end) = if masked then 4 else 0)%nat as HK.
  { unfold h. destruct masked; reflexivity. }
  assert (length (ext_len (h_len h)) <= 8)%nat as HE.
  { unfold ext_len. repeat match goal with |- context [if ?b then _ else _] => destruct b end; cbn; lia. }
  rewrite !app_length, HM, HK. cbn [length]. destruct masked; lia.
Qed.

(** ** The invariant *)
Definition close_line : bytes := str "/close".
Definition typed_as (t : bytes) : owned := if beqb t (str "/close") then OClose None else command t.
Definition fit_line (t : bytes) : Prop := well_formed (octets t) /\ size t <= big.
Lemma typed_as_sendable : forall t, fit_line t -> sendable big (typed_as t).
Proof.
  intros t [H1 H2]. unfold typed_as, command. destruct (beqb t (str "/close")); [|destruct (beqb t (str "/ping"))].
  - repeat split; vm_compute; discriminate.
  - split; [exact I|]. split; [vm_compute; discriminate|]. intros _. vm_compute. discriminate.
  - split; [exact H1|]. split; [exact H2|]. intros [].
Qed.
Lemma typed_as_length : forall t, (length (payload_of (typed_as t)) <= length t)%nat.
Proof.
  intros t. unfold typed_as, command. destruct (beqb t (str "/close")); [cbn; lia|].
  destruct (beqb t (str "/ping")) eqn:E; [|cbn; lia]. apply beqb_eq in E. subst t. cbn. lia.
Qed.
Lemma empty_fit : fit_line [].
Proof. split; [apply utf8_valid_iff; reflexivity|vm_compute; discriminate]. Qed.

Definition open (p : owned * mkey) : Prop := ~ closing (fst p).
Definition client_ok (lines : list bytes) (c : chat) (us : list owned) (sent : list (owned * mkey)) (later : list owned)
    (got : list (owned * mkey)) (w : wstream) : Prop :=
  hands lines (ch_main c) (ch_lines c) us /\
  (ch_main c = Typing -> Forall (fun m => ~ closing m) us) /\
  us = map fst sent ++ later /\ spoken (ch_send c) sent (ch_queue c) later /\
  ch_writer c = mk_writer (mk_sender true) w /\ never_fails w /\
  Forall (sendable big) later /\ Forall fit_line (ch_lines c) /\ orderly c /\
  match ch_recv c with Listening => Forall open got | ReceiveOver => Exists (fun p => closing (fst p)) got end.
Definition greeting : owned := OText (str "Hello").
Definition server_ok (a : srv_at) (read said : list (owned * mkey)) : Prop :=
  match a with
  | Greeting => read = [] /\ said = []
  | Serving => Forall open read /\ map fst said = greeting :: flat_map echo_all (map fst read)
  | Served e => e = Returned /\ exists a p, read = a ++ [p] /\ Forall open a /\ closing (fst p) /\
      map fst said = greeting :: flat_map echo_all (map fst a) ++ [OClose None]
  end.
Record talk_ok (lines : list bytes) (t : talk) (us : list owned) (read unread : list (owned * mkey)) (later : list owned)
    (got ungot : list (owned * mkey)) (w1 w2 : wstream) : Prop := mk_ok {
  k_client : client_ok lines (t_chat t) us (read ++ unread) later got w1;
  k_up : pipe true (t_reader t) (t_up t) unread;
  k_server : server_ok (t_srv t) read (got ++ ungot);
  k_writer : t_writer t = mk_writer (mk_sender false) w2 /\ never_fails w2;
  k_down : pipe false (ch_reader (t_chat t)) (t_down t) ungot;
  k_heard : t_heard t = map Ok (map fst got)
}.

(** ** The time left *)
(** If [p], every byte that is written takes a turn too (see ThmNarrow.v). *)
Definition fee (p : bool) (a b : nat) : nat := if p then a else b.
Definition cost (p : bool) (m : owned) : nat := fee p 8 5 * length (payload_of m) + fee p 114 72.
Definition costs (p : bool) (l : list owned) : nat := fold_right (fun m n => (cost p m + n)%nat) 0%nat l.
Definition line_costs (p : bool) (l : list bytes) : nat := fold_right (fun t n => (fee p 8 5 * length t + fee p 116 74 + n)%nat) 0%nat l.
Definition chat_costs (p : bool) (c : chat) : nat :=
  match ch_main c with Typing => line_costs p (ch_lines c) + 3 | JoinSend => 2 | JoinReceive => 1 | Exited => 0 end +
  costs p (ch_queue c) + match ch_send c with Waiting => 1 | Holding m => cost p m | SendOver => 0 end +
  match ch_recv c with Listening => fee p 115 73 | ReceiveOver => 0 end.
Definition arrived_at (r : reader) : nat := length (rd_buf r ++ flat (rd_in r)).
Definition time_left (p : bool) (t : talk) : nat :=
  chat_costs p (t_chat t) + fee p 7 5 * length (t_up t) + fee p 6 4 * arrived_at (t_reader t) +
  match t_srv t with Greeting => fee p 47 32 | Serving => 1 | Served _ => 0 end +
  2 * length (t_down t) + arrived_at (ch_reader (t_chat t)).
(** The number of bytes written from [t] to [t']. *)
Definition wrote (t t' : talk) : nat := (length (t_up t') - length (t_up t)) + (length (t_down t') - length (t_down t)).
Definition will_close (t : talk) : Prop := ch_main (t_chat t) = Typing -> In (str "/close") (ch_lines (t_chat t)).

Lemma costs_app : forall p a b, costs p (a ++ b) = (costs p a + costs p b)%nat.
Proof. intros p. induction a as [|x a IH]; intros b; cbn [app costs fold_right]; [reflexivity|]. fold (costs p (a ++ b)) (costs p a). rewrite IH. lia. Qed.

Definition fine (lines : list bytes) (t : talk) : Prop :=
  exists us read unread later got ungot w1 w2, talk_ok lines t us read unread later got ungot w1 w2.

Lemma written_eq : forall m1 m2 w w' l, w_out w' = w_out w ++ l -> written (mk_writer m1 w) (mk_writer m2 w') = l.
Proof. intros m1 m2 w w' l H. unfold written. cbn [wr_out]. rewrite H, skipn_app, skipn_all, Nat.sub_diag. reflexivity. Qed.
Lemma written_same : forall w, written w w = [].
Proof. intros w. unfold written. apply skipn_all. Qed.

Lemma main_inv : forall c c', main_step c = Some c' ->
  ch_send c' = ch_send c /\ ch_writer c' = ch_writer c /\ ch_recv c' = ch_recv c /\ ch_reader c' = ch_reader c /\
  ((ch_main c = Typing /\ exists t,
      (ch_lines c = t :: ch_lines c' \/ ch_lines c = [] /\ ch_lines c' = [] /\ t = []) /\
      ch_queue c' = (match ch_send c with SendOver => ch_queue c | _ => ch_queue c ++ [typed_as t] end) /\
      (t = str "/close" /\ ch_main c' = JoinSend \/ t <> str "/close" /\ (ch_main c' = Typing \/ ch_send c = SendOver)))
   \/ (ch_main c = JoinSend /\ ch_main c' = JoinReceive /\ ch_lines c' = ch_lines c /\ ch_queue c' = ch_queue c)
   \/ (ch_main c = JoinReceive /\ ch_main c' = Exited /\ ch_lines c' = ch_lines c /\ ch_queue c' = ch_queue c)).
Proof.
  intros c c' H. unfold main_step in H. destruct (ch_main c) eqn:EM; [| | |discriminate].
  - assert (exists t ls, (ch_lines c = t :: ls \/ ch_lines c = [] /\ ls = [] /\ t = []) /\
      next_line c = (t, mk_chat Typing ls (ch_queue c) (ch_send c) (ch_writer c) (ch_recv c) (ch_reader c))) as (t & ls & E1 & E2).
    { unfold next_line. destruct (ch_lines c) as [|t ts] eqn:EL.
      - exists [], []. split; [auto|]. f_equal. destruct c; cbn in *; subst; reflexivity.
      - exists t, ts. split; [auto|]. rewrite EM. reflexivity. }
    rewrite E2 in H. clear E2. unfold typed_as. destruct (beqb t (str "/close")) eqn:EB.
    + apply beqb_eq in EB. rewrite put_eq in H. injection H as <-. unfold at_main.
      cbn [ch_main ch_lines ch_queue ch_send ch_writer ch_recv ch_reader].
      repeat (split; [reflexivity|]). left. split; [reflexivity|]. exists t. rewrite EB, (proj2 (beqb_eq _ _) eq_refl).
      rewrite EB in E1. auto.
    + assert (t <> str "/close") as Ht by (intros ->; rewrite (proj2 (beqb_eq _ _) eq_refl) in EB; discriminate).
      rewrite put_eq in H. fold (command t) in H. cbn [ch_main ch_lines ch_queue ch_send ch_writer ch_recv ch_reader] in H.
      destruct (ch_send c) eqn:ES; injection H as <-; unfold at_main;
        cbn [ch_main ch_lines ch_queue ch_send ch_writer ch_recv ch_reader]; repeat (split; [first [reflexivity|assumption]|]);
        left; (split; [reflexivity|]); exists t; rewrite ?EB; auto 6.
  - destruct (ch_send c) eqn:ES; try discriminate. injection H as <-. unfold at_main.
    cbn [ch_main ch_lines ch_queue ch_send ch_writer ch_recv ch_reader]. rewrite ES. repeat (split; [reflexivity|]). right. left. auto.
  - destruct (ch_recv c) eqn:ES; try discriminate. injection H as <-. unfold at_main.
    cbn [ch_main ch_lines ch_queue ch_send ch_writer ch_recv ch_reader]. rewrite ES. repeat (split; [reflexivity|]). right. right. auto.
Qed.

Lemma typed_as_open : forall t, t <> str "/close" -> ~ closing (typed_as t) /\ typed_as t = command t.
Proof.
  intros t H. unfold typed_as. destruct (beqb t (str "/close")) eqn:E; [apply beqb_eq in E; contradiction|].
  split; [|reflexivity]. unfold command. destruct (beqb t (str "/ping")); cbn; tauto.
Qed.

Lemma client_main : forall lines t t', fine lines t -> talk_step (Client Main) t = Some t' ->
  fine lines t' /\ (will_close t -> will_close t' /\ forall p, (time_left p t' + fee p (wrote t t') 0 < time_left p t)%nat).
Proof.
  intros lines t t' (us & read & unread & later & got & ungot & w1 & w2 & [KC KU KS KW KD KH]) H.
  cbn [talk_step] in H. destruct (chat_step Main (t_chat t)) as [c'|] eqn:EC; [|discriminate]. injection H as <-.
  pose proof (orderly_step _ _ _ ltac:(apply KC) EC) as HO. cbn [chat_step] in EC.
  destruct (main_inv _ _ EC) as (A1 & A2 & A3 & A4 & A5).
  destruct KC as (C1 & C2 & C3 & C4 & C5 & C6 & C7 & C8 & C9 & C10). set (c := t_chat t) in *.
  destruct A5 as [(B1 & l & B2 & B3 & B4)|B].
  - destruct C1 as [T1 T2]. specialize (T2 B1). specialize (C2 B1).
    assert (ch_send c <> SendOver) as HN.
    { intros E. rewrite E in C4. destruct C4 as (a & p & E1 & E2 & E3). rewrite C3, E1, map_app, <- app_assoc in C2.
      apply Forall_app in C2 as [_ C2]. cbn [map app] in C2. inversion C2; contradiction. }
    assert (ch_queue c' = ch_queue c ++ [typed_as l]) as Q by (rewrite B3; destruct (ch_send c); congruence).
    assert (fit_line l /\ Forall fit_line (ch_lines c')) as [F1 F2].
    { destruct B2 as [B2|(B2 & B2' & B2'')]; [rewrite B2 in C8; inversion C8; auto|]. subst l. rewrite B2'. split; [apply empty_fit|constructor]. }
    assert (types lines (us ++ [typed_as l]) /\ (l <> str "/close" -> forall us', types (ch_lines c') us' -> types lines ((us ++ [typed_as l]) ++ us'))) as [HT1 HT2].
    { assert (l <> str "/close" -> forall us', types (ch_lines c') us' -> types lines ((us ++ [typed_as l]) ++ us')) as G.
      { intros Hl us' HU. rewrite <- app_assoc. apply T2. rewrite (proj2 (typed_as_open l Hl)).
        destruct B2 as [B2|(B2 & B2' & ->)]; rewrite B2; [constructor; assumption|].
        rewrite B2' in HU. apply types_end. exact HU. }
      split; [|exact G]. destruct B4 as [[B4 _]|[B4 _]].
      - apply T2. subst l. destruct B2 as [B2|(_ & _ & B2)]; [|discriminate]. rewrite B2. constructor.
      - rewrite <- (app_nil_r (us ++ _)). apply G; [exact B4|constructor]. }
    split.
    + exists (us ++ [typed_as l]), read, unread, (later ++ [typed_as l]), got, ungot, w1, w2. constructor; cbn [t_chat t_up t_srv t_reader t_writer t_down t_heard]; auto.
      2:{ rewrite A2, written_same, app_nil_r. exact KU. }
      2:{ rewrite A4. exact KD. }
      split; [split; [exact HT1|]|].
      { intros E. apply HT2. destruct B4 as [[_ B4]|[B4 _]]; [congruence|exact B4]. }
      split.
      { intros E. apply Forall_app. split; [exact C2|]. constructor; [|constructor].
        destruct B4 as [[_ B4]|[B4 _]]; [congruence|]. apply typed_as_open, B4. }
      split; [rewrite C3, app_assoc; reflexivity|].
      split; [rewrite A1, B3; apply (spoken_put _ _ _ _ (typed_as l)) in C4; exact C4|].
      split; [rewrite A2; exact C5|]. split; [exact C6|].
      split; [apply Forall_app; split; [exact C7|constructor; [apply typed_as_sendable, F1|constructor]]|].
      split; [exact F2|]. split; [exact HO|]. rewrite A3. exact C10.
    + unfold will_close, wrote, time_left. cbn [t_chat t_up t_srv t_reader t_writer t_down t_heard]. fold c.
      rewrite A2, written_same, app_nil_r, A4. intros HC. specialize (HC B1).
      destruct B2 as [B2|(B2 & _)]; [|rewrite B2 in HC; destruct HC].
      rewrite B2 in HC. split.
      * intros E. destruct B4 as [[_ B4]|[B4 _]]; [congruence|]. destruct HC as [HC|HC]; [congruence|exact HC].
      * intros p. unfold chat_costs. rewrite A1, A3, Q, costs_app, B1, B2. cbn [costs line_costs fold_right].
        fold (line_costs p (ch_lines c')). pose proof (typed_as_length l) as HL. assert (cost p (typed_as l) = fee p 8 5 * length (payload_of (typed_as l)) + fee p 114 72)%nat as HC2 by reflexivity.
        assert ((match ch_main c' with Typing => line_costs p (ch_lines c') + 3 | JoinSend => 2 | JoinReceive => 1 | Exited => 0 end
                 <= line_costs p (ch_lines c') + 3)%nat) by (destruct (ch_main c'); lia).
        destruct p; cbn [fee] in *; lia.
  - assert (ch_main c <> Typing /\ ch_main c' <> Typing /\ ch_lines c' = ch_lines c /\ ch_queue c' = ch_queue c) as (B1 & B2 & B3 & B4).
    { destruct B as [(-> & -> & B1 & B2)|(-> & -> & B1 & B2)]; repeat split; try discriminate; assumption. }
    split.
    + exists us, read, unread, later, got, ungot, w1, w2. constructor; cbn [t_chat t_up t_srv t_reader t_writer t_down t_heard]; auto.
      2:{ rewrite A2, written_same, app_nil_r. exact KU. }
      2:{ rewrite A4. exact KD. }
      split; [split; [apply C1|intros E; contradiction]|]. split; [intros E; contradiction|].
      rewrite A1, A2, A3, B3, B4. repeat (split; [assumption|]). assumption.
    + unfold will_close, wrote, time_left. cbn [t_chat t_up t_srv t_reader t_writer t_down t_heard]. fold c.
      rewrite A2, written_same, app_nil_r, A4. intros _. split; [intros E; contradiction|].
      intros p. unfold chat_costs. rewrite A1, A3, B4.
      destruct B as [(-> & -> & _)|(-> & -> & _)]; destruct p; cbn [fee]; lia.
Qed.

Lemma frame_length : forall (masked : bool) m k, length (encs (masked_frames masked [(m, k)]))
  = length (enc (whole_frame m) (if masked then Some k else None)).
Proof. intros masked m k. unfold masked_frames. cbn [map fst snd]. rewrite encs_cons. cbn [encs map concat fst snd]. rewrite app_nil_r. reflexivity. Qed.

Lemma client_send : forall lines ks t t', fine lines t -> talk_step (Client (SendLoop ks)) t = Some t' ->
  fine lines t' /\ (will_close t -> will_close t' /\ forall p, (time_left p t' + fee p (wrote t t') 0 < time_left p t)%nat).
Proof.
  intros lines [k1 k2] t t' (us & read & unread & later & got & ungot & w1 & w2 & [KC KU KS KW KD KH]) H.
  cbn [talk_step] in H. destruct (chat_step (SendLoop (k1, k2)) (t_chat t)) as [c'|] eqn:EC; [|discriminate]. injection H as <-.
  pose proof (orderly_step _ _ _ ltac:(apply KC) EC) as HO. cbn [chat_step] in EC. unfold send_step in EC.
  destruct KC as (C1 & C2 & C3 & C4 & C5 & C6 & C7 & C8 & C9 & C10). set (c := t_chat t) in *.
  destruct (ch_send c) as [|m|] eqn:ES; [| |discriminate].
  - destruct (ch_queue c) as [|m q] eqn:EQ.
    + destruct (ch_main c) eqn:EM; try discriminate. destruct C9 as [_ C9]. rewrite ES in C9.
      discriminate (C9 (or_intror EM)).
    + injection EC as <-. cbn [ch_writer]. rewrite written_same, app_nil_r. split.
      * exists us, read, unread, later, got, ungot, w1, w2. constructor; cbn [t_chat t_up t_srv t_reader t_writer t_down t_heard ch_reader]; auto.
        unfold client_ok. cbn [ch_main ch_lines ch_queue ch_send ch_writer ch_recv ch_reader].
        repeat (split; [assumption|]). exact C10.
      * unfold will_close, wrote, time_left, chat_costs. cbn [t_chat t_up t_srv t_reader t_writer t_down t_heard ch_main ch_lines ch_queue ch_send ch_writer ch_recv ch_reader].
        fold c. rewrite ES, EQ. intros HC. split; [exact HC|]. intros p. cbn [costs fold_right]. fold (costs p q).
        assert (cost p m = fee p 8 5 * length (payload_of m) + fee p 114 72)%nat as HC2 by reflexivity. destruct p; cbn [fee] in *; lia.
  - cbn [spoken] in C4. destruct C4 as [C4 E]. rewrite E in C7. inversion C7 as [|? ? F1 F2]; subst x l.
    destruct (sends true m k1 w1 C6 (big_sendable m F1)) as (w1' & W1 & W2 & W3). rewrite C5 in EC. cbn [fst snd] in EC. rewrite W1 in EC.
    assert (forall a, (a = SendOver /\ closing m) \/ (a = Waiting /\ ~ closing m) ->
      c' = at_send a (set_writer (mk_writer (mk_sender true) w1') c) ->
      fine lines (mk_talk c' (t_up t ++ written (ch_writer c) (ch_writer c')) (t_srv t) (t_reader t) (t_writer t) (t_down t) (t_heard t)) /\
      (will_close t -> will_close (mk_talk c' (t_up t ++ written (ch_writer c) (ch_writer c')) (t_srv t) (t_reader t) (t_writer t) (t_down t) (t_heard t)) /\
        forall p, (time_left p (mk_talk c' (t_up t ++ written (ch_writer c) (ch_writer c')) (t_srv t) (t_reader t) (t_writer t) (t_down t) (t_heard t))
          + fee p (wrote t (mk_talk c' (t_up t ++ written (ch_writer c) (ch_writer c')) (t_srv t) (t_reader t) (t_writer t) (t_down t) (t_heard t))) 0 < time_left p t)%nat)) as G.
    { intros a Ha Ec. assert (written (ch_writer c) (ch_writer c') = encs (masked_frames true [(m, k1)])) as EW.
      { rewrite Ec, C5. unfold at_send, set_writer. cbn [ch_writer]. apply written_eq. exact W2. }
      rewrite EW. split.
      - exists us, read, (unread ++ [(m, k1)]), (ch_queue c), got, ungot, w1', w2.
        constructor; cbn [t_chat t_up t_srv t_reader t_writer t_down t_heard]; auto.
        2:{ apply pipe_write; [exact KU|exact F1]. }
        2:{ rewrite Ec. exact KD. }
        unfold client_ok. rewrite Ec in HO |- *. unfold at_send, set_writer in HO |- *.
        cbn [ch_main ch_lines ch_queue ch_send ch_writer ch_recv ch_reader] in HO |- *.
        split; [exact C1|]. split; [exact C2|].
        split; [rewrite C3, E, app_assoc, (map_app fst (read ++ unread)), <- app_assoc; reflexivity|].
        split.
        { destruct Ha as [[-> Hc]|[-> Hc]]; cbn [spoken].
          - exists (read ++ unread), (m, k1). rewrite app_assoc. auto.
          - split; [|reflexivity]. rewrite app_assoc. apply Forall_app. auto. }
        repeat (split; [first [assumption|reflexivity]|]). exact C10.
      - unfold will_close, wrote, time_left. cbn [t_chat t_up t_srv t_reader t_writer t_down t_heard]. fold c. rewrite Ec.
        unfold at_send, set_writer, chat_costs. cbn [ch_main ch_lines ch_queue ch_send ch_writer ch_recv ch_reader].
        intros HC. split; [exact HC|]. intros p. rewrite ES, app_length, frame_length.
        pose proof (enc_length m k1 true) as HL. cbv beta iota zeta in HL. unfold cost.
        assert (match a with Waiting => 1 | Holding m0 => fee p 8 5 * length (payload_of m0) + fee p 114 72 | SendOver => 0 end <= 1)%nat by (destruct Ha as [[-> _]|[-> _]]; lia).
        destruct p; cbn [fee] in *; lia. }
    destruct m; injection EC as Ec; symmetry in Ec; (eapply G; [|exact Ec]); cbn; auto.
Qed.

Lemma said_no_ping : forall a read said p, server_ok a read said -> In p said -> forall d, fst p <> OPing d.
Proof.
  intros a read said p H HI d E. apply (in_map fst) in HI.
  assert (forall l, ~ In (OPing d) (flat_map echo_all l)) as HE.
  { intros l G. apply in_flat_map in G as (x & _ & G). destruct x; cbn in G; intuition discriminate. }
  destruct a; cbn [server_ok] in H.
  - destruct H as [_ ->]. destruct HI.
  - destruct H as [_ H]. rewrite H, E in HI. destruct HI as [HI|HI]; [discriminate|]. eapply HE, HI.
  - destruct H as (_ & a & q & _ & _ & _ & H). rewrite H, E in HI. destruct HI as [HI|HI]; [discriminate|].
    apply in_app_iff in HI as [HI|[HI|[]]]; [eapply HE, HI|discriminate].
Qed.
Lemma said_close : forall a read said p, server_ok a read said -> In p said -> closing (fst p) ->
  exists e b q, a = Served e /\ read = b ++ [q] /\ closing (fst q).
Proof.
  intros a read said p H HI HC. apply (in_map fst) in HI.
  assert (forall l, ~ In (fst p) (flat_map echo_all l)) as HE.
  { intros l G. apply in_flat_map in G as (x & _ & G). destruct x; cbn in G; try (destruct G as [G|[]]; rewrite <- G in HC; exact HC); exact G. }
  destruct a; cbn [server_ok] in H.
  - destruct H as [_ ->]. destruct HI.
  - destruct H as [_ H]. rewrite H in HI. destruct HI as [HI|HI]; [rewrite <- HI in HC; destruct HC|]. destruct (HE _ HI).
  - destruct H as (-> & b & q & H1 & H2 & H3 & H). eauto 6.
Qed.
(** After the close message nothing is said. *)
Lemma said_all : forall a read said x p y, server_ok a read said -> said = x ++ p :: y -> closing (fst p) -> y = [].
Proof.
  intros a read said x p y H E HC.
  destruct (said_close _ _ _ p H) as (e & b & q & -> & R1 & R2); [rewrite E; apply in_elt|exact HC|].
  destruct H as (-> & b' & q' & H1 & H2 & H3 & H). rewrite E, map_app in H. cbn [map] in H.
  assert (Forall (fun m => ~ closing m) (greeting :: flat_map echo_all (map fst b'))) as HF.
  { constructor; [intros []|]. apply Forall_forall. intros z HZ. apply in_flat_map in HZ as (u & _ & HZ).
    destruct u; cbn in HZ; try (destruct HZ as [<-|[]]; intros []); destruct HZ. }
  change (greeting :: flat_map echo_all (map fst b') ++ [OClose None]) with ((greeting :: flat_map echo_all (map fst b')) ++ [OClose None]) in H.
  pose proof (first_close _ _ _ _ H HC HF) as E1. rewrite E1 in H. apply app_inv_head in H. injection H as _ H.
  destruct y; [reflexivity|discriminate].
Qed.

Lemma client_receive : forall lines t t', fine lines t -> talk_step (Client ReceiveLoop) t = Some t' ->
  fine lines t' /\ (will_close t -> will_close t' /\ forall p, (time_left p t' + fee p (wrote t t') 0 < time_left p t)%nat).
Proof.
  intros lines t t' (us & read & unread & later & got & ungot & w1 & w2 & [KC KU KS KW KD KH]) H.
  cbn [talk_step] in H. set (c := t_chat t) in *.
  destruct (pipe_read _ _ _ _ KD) as [(m & k & l & r' & E1 & E2 & E3 & E4)|(E1 & E2)].
  - rewrite E2 in H. cbn [fst must_wait] in H. destruct (chat_step ReceiveLoop c) as [c'|] eqn:EC; [|discriminate]. injection H as <-.
    pose proof (orderly_step _ _ _ ltac:(apply KC) EC) as HO. cbn [chat_step] in EC.
    destruct KC as (C1 & C2 & C3 & C4 & C5 & C6 & C7 & C8 & C9 & C10).
    assert (ch_recv c = Listening) as EL by (unfold recv_step in EC; destruct (ch_recv c); [reflexivity|discriminate]).
    rewrite EL in C10. unfold recv_step in EC. rewrite EL, E2 in EC. cbn [set_reader] in EC.
    assert (In (m, k) (got ++ ungot)) as HI by (rewrite E1; apply in_elt).
    assert (ch_main c' = ch_main c /\ ch_lines c' = ch_lines c /\ ch_queue c' = ch_queue c /\ ch_send c' = ch_send c /\ ch_writer c' = ch_writer c
      /\ ch_reader c' = r' /\ (ch_recv c' = Listening /\ ~ closing m \/ ch_recv c' = ReceiveOver /\ closing m)) as (A1 & A2 & A3 & A4 & A5 & A6 & A7).
    { destruct m as [d|d|cd|d|d]; try (injection EC as <-; unfold set_reader; cbn [ch_main ch_lines ch_queue ch_send ch_writer ch_recv ch_reader]; rewrite EL;
        repeat (split; [reflexivity|]); left; split; [reflexivity|intros []]).
      - destruct (said_close _ _ _ (OClose cd, k) KS HI I) as (e & b & q & _ & R1 & R2).
        assert (ch_send c = SendOver) as HS.
        { assert (Exists (fun p => closing (fst p)) (read ++ unread)) as HX.
          { rewrite R1, <- app_assoc. apply Exists_app. right. constructor. exact R2. }
          assert (Forall (fun p => ~ closing (fst p)) (read ++ unread) -> False) as HF.
          { intros HF. apply Exists_exists in HX as (x & X1 & X2). rewrite Forall_forall in HF. eapply HF; eauto. }
          destruct (ch_send c); cbn [spoken] in C4; [destruct HF; apply C4..|reflexivity]. }
        rewrite put_eq in EC. unfold set_reader in EC. cbn [ch_main ch_lines ch_queue ch_send ch_writer ch_recv ch_reader] in EC.
        rewrite HS in EC. injection EC as <-. unfold at_recv. cbn [ch_main ch_lines ch_queue ch_send ch_writer ch_recv ch_reader].
        rewrite HS. repeat (split; [reflexivity|]). right. split; [reflexivity|exact I].
      - destruct (said_no_ping _ _ _ _ KS HI d eq_refl). }
    rewrite A5, written_same, app_nil_r. split.
    + exists us, read, unread, later, (got ++ [(m, k)]), l, w1, w2.
      constructor; cbn [t_chat t_up t_srv t_reader t_writer t_down t_heard]; auto.
      * unfold client_ok. rewrite A1, A2, A3, A4, A5. repeat (split; [assumption|]).
        destruct A7 as [[-> A7]|[-> A7]].
        -- apply Forall_app. split; [exact C10|]. constructor; [exact A7|constructor].
        -- apply Exists_app. right. constructor. exact A7.
      * rewrite <- app_assoc. rewrite E1 in KS. exact KS.
      * rewrite A6. exact E3.
      * rewrite KH, !map_app. reflexivity.
    + unfold will_close, wrote, time_left. cbn [t_chat t_up t_srv t_reader t_writer t_down t_heard]. fold c.
      rewrite A1, A2, A6. intros HC. split; [exact HC|]. intros p. unfold chat_costs, arrived_at. rewrite A1, A2, A3, A4, E4, EL.
      pose proof (enc_length m k false) as HL. cbv beta iota zeta in HL.
      destruct A7 as [[-> _]|[-> _]]; destruct p; cbn [fee]; lia.
  - exfalso. rewrite E1 in H. cbn [must_wait] in H.
    destruct (negb _) eqn:EW in H; [discriminate|]. apply negb_false_iff, andb_true_iff in EW as [W1 W2].
    destruct (t_down t) as [|b q] eqn:ED; [|discriminate]. destruct E2 as [->|E2]; [|contradiction].
    rewrite app_nil_r in KS. destruct (t_srv t) as [| |e]; try discriminate.
    destruct KS as (_ & b & q & _ & _ & _ & HG).
    destruct (chat_step ReceiveLoop c) as [c'|] eqn:EC; [|discriminate]. cbn [chat_step] in EC. unfold recv_step in EC.
    destruct KC as (_ & _ & _ & _ & _ & _ & _ & _ & _ & C10). destruct (ch_recv c); [|discriminate].
    assert (In (OClose None) (map fst got)) as HI.
    { rewrite HG. right. apply in_app_iff. right. left. reflexivity. }
    apply in_map_iff in HI as ([m k] & HI1 & HI2). rewrite Forall_forall in C10. apply (C10 _ HI2).
    rewrite HI1. exact I.
Qed.

Lemma reply_sendable : forall m r, sendable big m -> In r (echo_all m) -> sendable big r.
Proof.
  intros m r (A & B & C) H. destruct m as [d|d|cd|d|d]; cbn in H; try (destruct H as [<-|[]]); try (repeat split; assumption); try destruct H.
Qed.
Lemma greeting_sendable : sendable big greeting.
Proof. split; [apply utf8_valid_iff; reflexivity|]. split; [vm_compute; discriminate|intros []]. Qed.
Lemma close_fits : sendable big (OClose None).
Proof. repeat split; vm_compute; discriminate. Qed.

Lemma some_inj : forall (A : Type) (x y : A), Some x = Some y -> x = y.
Proof. congruence. Qed.
Lemma server_serve : forall lines k t t', fine lines t -> talk_step (Server k) t = Some t' ->
  fine lines t' /\ (will_close t -> will_close t' /\ forall p, (time_left p t' + fee p (wrote t t') 0 < time_left p t)%nat).
Proof.
  intros lines k t t' (us & read & unread & later & got & ungot & w1 & w2 & [KC KU KS KW KD KH]) H.
  destruct KW as [KW1 KW2]. cbn [talk_step] in H. destruct (t_srv t) as [| |e] eqn:ES; [| |discriminate].
  - cbn [server_turn] in H. rewrite KW1 in H.
    destruct (sends false greeting k w2 KW2 (big_sendable _ greeting_sendable)) as (w2' & W1 & W2 & W3).
    unfold greeting in W1 at 1. rewrite W1 in H. rewrite (written_eq _ _ _ _ _ W2) in H. apply some_inj in H. subst t'.
    destruct KS as [-> KS]. apply app_eq_nil in KS as [-> ->]. split.
    + exists us, [], unread, later, [], [(greeting, k)], w1, w2'.
      constructor; cbn [t_chat t_up t_srv t_reader t_writer t_down t_heard]; auto.
      * split; [constructor|reflexivity].
      * apply (pipe_write _ _ _ [] (greeting, k) KD). apply greeting_sendable.
    + unfold will_close, wrote, time_left. cbn [t_chat t_up t_srv t_reader t_writer t_down t_heard]. intros HC. split; [exact HC|].
      intros p. rewrite ES, app_length, frame_length. pose proof (enc_length greeting k false) as HL. cbv beta iota zeta in HL.
      change (length (payload_of greeting)) with 5%nat in HL. destruct p; cbn [fee]; lia.
  - destruct (pipe_read _ _ _ _ KU) as [(m & k0 & l & r' & E1 & E2 & E3 & E4)|(E1 & E2)].
    + cbn [server_turn] in H. rewrite E2 in H. cbn [fst must_wait] in H. rewrite KW1 in H.
      assert (sendable big m) as Hm.
      { destruct KU as (_ & _ & _ & KU). rewrite E1 in KU. cbn [map fst] in KU. inversion KU; assumption. }
      destruct KS as [KS1 KS2].
      assert (exists m' a' w2', sendable big m' /\ (length (payload_of m') <= length (payload_of m))%nat /\
        never_fails w2' /\ w_out w2' = w_out w2 ++ encs (masked_frames false [(m', k)]) /\
        server_ok a' (read ++ [(m, k0)]) ((got ++ ungot) ++ [(m', k)]) /\ (a' = Serving \/ a' = Served Returned) /\
        t' = mk_talk (t_chat t) (t_up t) a' r' (mk_writer (mk_sender false) w2')
               (t_down t ++ encs (masked_frames false [(m', k)])) (t_heard t)) as (m' & a' & w2' & B1 & B2 & B3 & B4 & B5 & B6 & ->).
      { assert (forall m', echo_all m = [m'] -> exists w2', writer_send m' k (mk_writer (mk_sender false) w2) = (Ok tt, mk_writer (mk_sender false) w2') /\
          sendable big m' /\ never_fails w2' /\ w_out w2' = w_out w2 ++ encs (masked_frames false [(m', k)]) /\
          server_ok Serving (read ++ [(m, k0)]) ((got ++ ungot) ++ [(m', k)])) as G.
        { intros m' Em. assert (sendable big m') as Hm' by (apply (reply_sendable m); [exact Hm|rewrite Em; left; reflexivity]).
          destruct (sends false m' k w2 KW2 (big_sendable _ Hm')) as (w2' & W1 & W2 & W3).
          exists w2'. split; [exact W1|]. split; [exact Hm'|]. split; [exact W3|]. split; [exact W2|]. split.
          - apply Forall_app. split; [exact KS1|]. constructor; [|constructor].
            intros HC. cbn [fst] in HC. destruct m; try destruct HC. discriminate Em.
          - rewrite !map_app, <- map_app, KS2. cbn [map fst]. rewrite flat_map_app. cbn [flat_map]. rewrite Em. reflexivity. }
        destruct m as [d|d|cd|d|d].
        - destruct (G (OText d) eq_refl) as (w2' & W1 & W2 & W3 & W4 & W5). rewrite W1 in H.
          rewrite (written_eq _ _ _ _ _ W4) in H. apply some_inj in H. exists (OText d), Serving, w2'.
          repeat (split; [first [assumption|apply le_n|left; reflexivity]|]). symmetry. exact H.
        - destruct (G (OBinary d) eq_refl) as (w2' & W1 & W2 & W3 & W4 & W5). rewrite W1 in H.
          rewrite (written_eq _ _ _ _ _ W4) in H. apply some_inj in H. exists (OBinary d), Serving, w2'.
          repeat (split; [first [assumption|apply le_n|left; reflexivity]|]). symmetry. exact H.
        - destruct (sends false (OClose None) k w2 KW2 (big_sendable _ close_fits)) as (w2' & W1 & W2 & W3). rewrite W1 in H.
          rewrite (written_eq _ _ _ _ _ W2) in H. apply some_inj in H. exists (OClose None), (Served Returned), w2'.
          split; [apply close_fits|]. split; [cbn; lia|]. split; [exact W3|]. split; [exact W2|].
          split; [|split; [right; reflexivity|symmetry; exact H]]. split; [reflexivity|]. exists read, (OClose cd, k0).
          split; [reflexivity|]. split; [exact KS1|]. split; [exact I|]. rewrite map_app, KS2. reflexivity.
        - destruct (G (OPong d) eq_refl) as (w2' & W1 & W2 & W3 & W4 & W5). rewrite W1 in H.
          rewrite (written_eq _ _ _ _ _ W4) in H. apply some_inj in H. exists (OPong d), Serving, w2'.
          repeat (split; [first [assumption|apply le_n|left; reflexivity]|]). symmetry. exact H.
        - destruct (G (OPong d) eq_refl) as (w2' & W1 & W2 & W3 & W4 & W5). rewrite W1 in H.
          rewrite (written_eq _ _ _ _ _ W4) in H. apply some_inj in H. exists (OPong d), Serving, w2'.
          repeat (split; [first [assumption|apply le_n|left; reflexivity]|]). symmetry. exact H. }
      split.
      * exists us, (read ++ [(m, k0)]), l, later, got, (ungot ++ [(m', k)]), w1, w2'.
        constructor; cbn [t_chat t_up t_srv t_reader t_writer t_down t_heard]; auto.
        -- rewrite <- app_assoc. rewrite E1 in KC. exact KC.
        -- rewrite app_assoc. exact B5.
        -- apply pipe_write; [exact KD|exact B1].
      * unfold will_close, wrote, time_left. cbn [t_chat t_up t_srv t_reader t_writer t_down t_heard]. intros HC. split; [exact HC|].
        intros p. rewrite ES, app_length, frame_length. unfold arrived_at at 3. rewrite E4. unfold arrived_at at 1.
        pose proof (enc_length m' k false) as HL. pose proof (enc_length m k0 true) as HL0. cbv beta iota zeta in HL, HL0.
        assert (match a' with Greeting => fee p 47 32 | Serving => 1 | Served _ => 0 end <= 1)%nat by (destruct B6 as [-> | ->]; lia).
        destruct p; cbn [fee] in *; lia.
    + exfalso. rewrite E1 in H. cbn [must_wait] in H.
      destruct (negb _) eqn:EW in H; [discriminate|]. apply negb_false_iff, andb_true_iff in EW as [W1 W2].
      destruct (t_up t) as [|b q] eqn:ED; [|discriminate]. destruct E2 as [->|E2]; [|contradiction].
      destruct KC as (_ & _ & _ & C4 & _ & _ & _ & _ & [_ C9] & _).
      rewrite C9 in C4 by (destruct (ch_main (t_chat t)); try discriminate; auto).
      destruct C4 as (a & p & E & _ & HC). rewrite app_nil_r in E. destruct KS as [KS _]. rewrite E in KS.
      apply Forall_app in KS as [_ KS]. inversion KS; contradiction.
Qed.

Lemma up_arrives : forall lines n t t', fine lines t -> talk_step (Up n) t = Some t' ->
  fine lines t' /\ (will_close t -> will_close t' /\ forall p, (time_left p t' + fee p (wrote t t') 0 < time_left p t)%nat).
Proof.
  intros lines n t t' (us & read & unread & later & got & ungot & w1 & w2 & [KC KU KS KW KD KH]) H.
  cbn [talk_step] in H. destruct (arrive n (t_up t) (t_reader t)) as [[r' q]|] eqn:EA; [|discriminate]. injection H as <-.
  destruct (pipe_arrive _ _ _ _ _ _ _ KU EA) as (A1 & A2 & A3). split.
  - exists us, read, unread, later, got, ungot, w1, w2. constructor; cbn [t_chat t_up t_srv t_reader t_writer t_down t_heard]; auto.
  - unfold will_close, wrote, time_left, arrived_at. cbn [t_chat t_up t_srv t_reader t_writer t_down t_heard]. intros HC. split; [exact HC|]. intros [|]; cbn [fee]; lia.
Qed.
Lemma down_arrives : forall lines n t t', fine lines t -> talk_step (Down n) t = Some t' ->
  fine lines t' /\ (will_close t -> will_close t' /\ forall p, (time_left p t' + fee p (wrote t t') 0 < time_left p t)%nat).
Proof.
  intros lines n t t' (us & read & unread & later & got & ungot & w1 & w2 & [KC KU KS KW KD KH]) H.
  cbn [talk_step] in H. destruct (arrive n (t_down t) (ch_reader (t_chat t))) as [[r' q]|] eqn:EA; [|discriminate]. injection H as <-.
  destruct (pipe_arrive _ _ _ _ _ _ _ KD EA) as (A1 & A2 & A3). split.
  - exists us, read, unread, later, got, ungot, w1, w2. constructor; cbn [t_chat t_up t_srv t_reader t_writer t_down t_heard]; auto.
  - unfold will_close, wrote, time_left, arrived_at, chat_costs, set_reader.
    cbn [t_chat t_up t_srv t_reader t_writer t_down t_heard ch_main ch_lines ch_queue ch_send ch_writer ch_recv ch_reader].
    intros HC. split; [exact HC|]. intros [|]; cbn [fee]; lia.
Qed.

Lemma talk_keeps : forall lines a t t', fine lines t -> talk_step a t = Some t' ->
  fine lines t' /\ (will_close t -> will_close t' /\ forall p, (time_left p t' + fee p (wrote t t') 0 < time_left p t)%nat).
Proof.
  intros lines [[|ks|]|k|n|n] t t' HF H.
  - eapply client_main; eauto.
  - eapply client_send; eauto.
  - eapply client_receive; eauto.
  - eapply server_serve; eauto.
  - eapply up_arrives; eauto.
  - eapply down_arrives; eauto.
Qed.
Lemma talk_run_fine : forall lines acts t, fine lines t -> fine lines (talk_run acts t).
Proof.
  intros lines acts. induction acts as [|a acts IH]; intros t H; [exact H|]. cbn [talk_run]. apply IH.
  destruct (talk_step a t) as [t'|] eqn:E; [|exact H]. eapply talk_keeps; eauto.
Qed.
Lemma talk_starts : forall lines w1 w2, never_fails w1 -> never_fails w2 -> Forall fit_line lines ->
  fine lines (talk_new lines w1 w2).
Proof.
  intros lines w1 w2 H1 H2 HL. exists [], [], [], [], [], [], w1, w2.
  constructor; unfold talk_new, chat_new; cbn [t_chat t_up t_srv t_reader t_writer t_down t_heard ch_reader app].
  - split; [split; [constructor|auto]|]. split; [constructor|]. split; [reflexivity|]. split; [split; [constructor|reflexivity]|].
    split; [reflexivity|]. split; [exact H1|]. split; [constructor|]. split; [exact HL|]. split; [|constructor].
    split; cbn; [intros G; contradiction|intros [G|G]; discriminate].
  - split; [reflexivity|]. split; [constructor|]. split; [reflexivity|constructor].
  - split; reflexivity.
  - split; [reflexivity|exact H2].
  - split; [reflexivity|]. split; [constructor|]. split; [reflexivity|constructor].
  - reflexivity.
Qed.

Lemma types_close_last : forall ts us, types ts us -> close_is_last us.
Proof.
  induction 1 as [ts|t ts us Ht H IH|ts|us H IH]; intros a m b E Hm.
  - destruct a; discriminate.
  - destruct a as [|x a]; cbn [app] in E; injection E as E1 E2.
    + subst m. exfalso. revert Hm. unfold command. destruct (beqb _ _); intros [].
    + eapply IH; eauto.
  - destruct a as [|x a]; cbn [app] in E; injection E as E1 E2; [auto|destruct a; discriminate].
  - destruct a as [|x a]; cbn [app] in E; injection E as E1 E2; [subst m; destruct Hm|]. eapply IH; eauto.
Qed.

Lemma fine_sound : forall lines t, fine lines t ->
  exists us ms rest, types lines us /\ t_heard t = map Ok ms /\ ms ++ rest = conversation us /\
    (Exists closing ms -> In (OClose None) us) /\ (forall e, t_srv t = Served e -> e = Returned).
Proof.
  intros lines t (us & read & unread & later & got & ungot & v1 & v2 & [KC KU KS KW KD KH]).
  destruct KC as ([C1 _] & _ & C3 & _).
  assert (exists rest, map fst got ++ rest = conversation us) as [rest HR].
  { unfold conversation. fold greeting. destruct (t_srv t) as [| |e]; cbn [server_ok] in KS.
    - destruct KS as [_ KS]. apply app_eq_nil in KS as [-> _]. eexists. reflexivity.
    - destruct KS as [_ KS]. rewrite map_app in KS. rewrite C3, map_app, !flat_map_app.
      exists (map fst ungot ++ flat_map echo_all (map fst unread) ++ flat_map echo_all later ++ [OClose None]).
      rewrite app_assoc, KS, <- !app_assoc. cbn [app]. rewrite <- ?app_assoc. reflexivity.
    - destruct KS as (_ & a & p & -> & _ & HC & KS). rewrite map_app in KS.
      rewrite !map_app, <- !app_assoc in C3. cbn [map app] in C3.
      pose proof (types_close_last _ _ C1 _ _ _ C3 HC) as E. rewrite E in C3. exists (map fst ungot). rewrite KS, C3.
      rewrite flat_map_app. cbn [flat_map].
      assert (echo_all (fst p) = []) as -> by (destruct (fst p); try destruct HC; reflexivity). rewrite !app_nil_r. reflexivity. }
  exists us, (map fst got), rest. split; [exact C1|]. split; [exact KH|]. split; [exact HR|]. split.
  - intros HX. apply Exists_exists in HX as (m & HX1 & HX2). apply in_map_iff in HX1 as (p & <- & HX1).
    destruct (said_close _ _ _ p KS) as (e & b & q & _ & -> & HQ); [apply in_app_iff; left; exact HX1|exact HX2|].
    rewrite C3 in C1. rewrite C3. rewrite !map_app in *. cbn [map app] in *. rewrite <- !app_assoc in *. cbn [app] in *.
    assert (In (fst q) (map fst b ++ fst q :: map fst unread ++ later)) as HI by apply in_elt. revert HI C1.
    generalize (map fst b ++ fst q :: map fst unread ++ later). intros l HI C1.
    assert (forall ts us m, types ts us -> In m us -> closing m -> m = OClose None) as HG.
    { clear. induction 1 as [ts|t ts us Ht H IH|ts|us H IH]; intros HI HC; [destruct HI| | |].
      - destruct HI as [<-|HI]; [|auto]. exfalso. revert HC. unfold command. destruct (beqb _ _); intros [].
      - destruct HI as [<-|[]]. reflexivity.
      - destruct HI as [<-|HI]; [destruct HC|auto]. }
    rewrite <- (HG _ _ _ C1 HI HQ). exact HI.
  - intros e E. rewrite E in KS. apply KS.
Qed.

(** [C73] Whatever the order in which the threads, the server and the network take their turns:
    the client never gets an error, what it has heard so far is the beginning of the
    conversation the user's lines call for, it hears a close message only if the user typed
    "/close", and the server does not panic. *)
Lemma talk_sound_proof : forall lines w1 w2 acts, never_fails w1 -> never_fails w2 ->
  Forall (fun t => well_formed (octets t) /\ size t <= 104857600) lines ->
  let t := talk_run acts (talk_new lines w1 w2) in
  exists us ms rest, types lines us /\ t_heard t = map Ok ms /\ ms ++ rest = conversation us /\
    (Exists closing ms -> In (OClose None) us) /\ (forall e, t_srv t = Served e -> e = Returned).
Proof. intros lines w1 w2 acts H1 H2 HL t. apply fine_sound, talk_run_fine, talk_starts; assumption. Qed.

(*EX
(** The user types a word, "/ping" and "/close"; the network delivers three bytes at a time one
    way and two the other. *)
Definition talk_round : list act :=
  let k := mk_key x01 x02 x03 x04 in [Client Main; Up 3; Server k; Client (SendLoop (k, k)); Down 2; Client ReceiveLoop].
Definition talk_lines : list bytes := [str "hi"; str "/ping"; str "/close"].
Definition talk_start : talk := talk_new talk_lines (mk_w [] []) (mk_w [] []).
Example talk_sound_ex :
  t_heard (talk_run (concat (repeat talk_round 8)) talk_start) = [Ok (OText (str "Hello")); Ok (OText (str "hi"))] /\
  t_srv (talk_run (concat (repeat talk_round 10)) talk_start) = Served Returned.
Proof. split; reflexivity. Qed.
EX*)

Lemma talks_types : forall ts us us', talks ts us -> types ts us' -> Exists closing us' -> us' = us ++ [OClose None].
Proof.
  intros ts us us' H. revert us'. induction H as [ts|t ts us Ht H IH]; intros us' HT HX.
  - inversion HT; subst; [inversion HX|congruence|reflexivity].
  - inversion HT; subst; [inversion HX| |congruence]. cbn [app]. f_equal. apply IH; [assumption|].
    inversion HX; subst; [|assumption]. exfalso. match goal with G : closing (command _) |- _ => revert G end.
    unfold command. destruct (beqb _ _); intros [].
Qed.

Lemma rest_over : forall lines t, fine lines t -> at_rest t ->
  all_over (t_chat t) /\ t_srv t = Served Returned /\
  exists us, types lines us /\ Exists closing us /\ forall us0, us = us0 ++ [OClose None] -> t_heard t = map Ok (conversation us0).
Proof.
  intros lines t (us & read & unread & later & got & ungot & v1 & v2 & [KC KU KS KW KD KH]) HR.
  assert (t_up t = []) as EU.
  { specialize (HR (Up 1)). cbn [talk_step] in HR. unfold arrive in HR. destruct (t_up t) as [|b q]; [reflexivity|discriminate]. }
  assert (t_down t = []) as ED.
  { specialize (HR (Down 1)). cbn [talk_step] in HR. unfold arrive in HR. destruct (t_down t) as [|b q]; [reflexivity|discriminate]. }
  destruct KC as (C1 & C2 & C3 & C4 & C5 & C6 & C7 & C8 & [O1 O2] & C10). set (c := t_chat t) in *.
  assert (main_step c = None) as HM.
  { specialize (HR (Client Main)). cbn [talk_step chat_step] in HR. fold c in HR. destruct (main_step c); [discriminate|reflexivity]. }
  assert (forall ks, send_step ks c = None) as HS.
  { intros ks. specialize (HR (Client (SendLoop ks))). cbn [talk_step chat_step] in HR. fold c in HR. destruct (send_step ks c); [discriminate|reflexivity]. }
  assert (ch_main c <> Typing) as HT.
  { intros E. unfold main_step in HM. rewrite E in HM. destruct (next_line c) as [l c1]. destruct (beqb l (str "/close")); rewrite put_eq in HM; [discriminate|].
    destruct (ch_send c1); discriminate. }
  assert (ch_send c = SendOver) as ES.
  { destruct (O1 HT) as [E|E]; [exact E|]. specialize (HS (mk_key x00 x00 x00 x00, mk_key x00 x00 x00 x00)). unfold send_step in HS.
    destruct (ch_send c) as [|m|] eqn:ES; [| |reflexivity].
    - destruct (ch_queue c) as [|m q]; [inversion E|discriminate].
    - destruct (writer_send _ _ _) as [x w]. destruct (writer_send_frame _ _ w). destruct m; try discriminate; destruct x; discriminate. }
  rewrite ES in C4. destruct C4 as (a & p & S1 & S2 & S3).
  assert (exists e, t_srv t = Served e) as [e ESv].
  { specialize (HR (Server (mk_key x00 x00 x00 x00))). cbn [talk_step] in HR. destruct (t_srv t) as [| |e] eqn:EV; [| |eauto].
    - destruct (server_turn Greeting _ _ _) as [[? ?] ?]. discriminate.
    - destruct (pipe_read _ _ _ _ KU) as [(m & k & l & r' & E1 & E2 & E3 & E4)|(E1 & E2)].
      + rewrite E2 in HR. cbn [fst must_wait] in HR. destruct (server_turn Serving _ _ _) as [[? ?] ?]. discriminate.
      + destruct E2 as [->|E2]; [|congruence]. rewrite app_nil_r in S1. destruct KS as [KS _]. rewrite S1 in KS.
        apply Forall_app in KS as [_ KS]. inversion KS; contradiction. }
  rewrite ESv in KS. destruct KS as (-> & b & q & R1 & R2 & R3 & R4).
  assert (ch_recv c = ReceiveOver) as ER.
  { destruct (ch_recv c) eqn:ER; [|reflexivity]. exfalso.
    destruct (pipe_read _ _ _ _ KD) as [(m & k & l & r' & E1 & E2 & E3 & E4)|(E1 & E2)].
    - specialize (HR (Client ReceiveLoop)). cbn [talk_step] in HR. fold c in HR. rewrite E2 in HR. cbn [fst must_wait] in HR.
      cbn [chat_step] in HR. unfold recv_step in HR. rewrite ER, E2 in HR.
      destruct m; rewrite ?put_eq in HR; try discriminate; destruct (ch_send _); discriminate.
    - destruct E2 as [->|E2]; [|congruence]. rewrite app_nil_r in R4.
      assert (In (OClose None) (map fst got)) as HI by (rewrite R4; right; apply in_app_iff; right; left; reflexivity).
      apply in_map_iff in HI as ([m k] & HI1 & HI2). rewrite Forall_forall in C10. apply (C10 _ HI2). rewrite HI1. exact I. }
  split; [|split; [exact ESv|]].
  - split; [|auto]. unfold main_step in HM. destruct (ch_main c); [contradiction| | |reflexivity].
    + rewrite ES in HM. discriminate.
    + rewrite ER in HM. discriminate.
  - exists us. split; [apply C1|].
    assert (us = map fst b ++ fst q :: (map fst unread ++ later)) as EUs.
    { rewrite C3, R1, !map_app, <- !app_assoc. reflexivity. }
    split; [rewrite EUs; apply Exists_app; right; constructor; exact R3|].
    intros us0 E0. rewrite EUs in E0.
    pose proof (types_close_last _ _ (proj1 C1) _ _ _ EUs R3) as E. rewrite E in E0.
    apply app_inj_tail in E0 as [<- _].
    rewrite KH. f_equal. rewrite ER in C10. apply Exists_exists in C10 as (x & X1 & X2). apply in_split in X1 as (x1 & x2 & X1).
    assert (server_ok (Served Returned) read (got ++ ungot)) as KS by (split; [reflexivity|]; eauto 8).
    assert (x2 ++ ungot = []) as X3.
    { apply (said_all _ _ _ x1 x (x2 ++ ungot) KS); [|exact X2]. rewrite X1, <- app_assoc. reflexivity. }
    apply app_eq_nil in X3 as [_ ->]. rewrite app_nil_r in R4. exact R4.
Qed.

(** [C73] When nothing can happen any more, the conversation is complete: the user has seen the
    greeting, an echo of every line typed before "/close" and the answer to every "/ping", in
    order, and the server's close message; the server has returned, and all threads of the
    client are over. *)
Lemma talk_complete_proof : forall lines us w1 w2 acts, never_fails w1 -> never_fails w2 ->
  Forall (fun t => well_formed (octets t) /\ size t <= 104857600) lines -> talks lines us ->
  let t := talk_run acts (talk_new lines w1 w2) in
  at_rest t ->
  t_heard t = map Ok (conversation us) /\ t_srv t = Served Returned /\ all_over (t_chat t).
Proof.
  intros lines us w1 w2 acts H1 H2 HL HT t HR.
  assert (fine lines t) as HF by (apply talk_run_fine, talk_starts; assumption).
  destruct (rest_over _ _ HF HR) as (A1 & A2 & us' & A3 & A4 & A5). split; [|auto].
  apply A5. eapply talks_types; eauto.
Qed.

(*EX
Example talk_complete_ex :
  talks talk_lines [OText (str "hi"); OPing (str "PING")] /\
  at_rest (talk_run (concat (repeat talk_round 40)) talk_start) /\
  t_heard (talk_run (concat (repeat talk_round 40)) talk_start)
  = [Ok (OText (str "Hello")); Ok (OText (str "hi")); Ok (OPong (str "PING")); Ok (OClose None)].
Proof.
  split; [|split; [|vm_compute; reflexivity]].
  - apply (talks_line (str "hi")); [discriminate|]. apply (talks_line (str "/ping")); [discriminate|]. constructor.
  - set (t := talk_run _ _). vm_compute in t. intros [[|ks|]|k|[|n]|[|n]]; reflexivity.
Qed.
EX*)

Lemma talks_in : forall lines us, talks lines us -> In (str "/close") lines.
Proof. induction 1; [left; reflexivity|right; assumption]. Qed.
Lemma time_bound : forall p lines w1 w2, time_left p (talk_new lines w1 w2) = (fee p 8 5 * letters lines + fee p 116 74 * length lines + fee p 166 109)%nat.
Proof.
  intros p lines w1 w2. unfold time_left, talk_new, chat_costs, chat_new, arrived_at.
  cbn [t_chat t_up t_srv t_reader t_writer t_down t_heard ch_main ch_lines ch_queue ch_send ch_writer ch_recv ch_reader rd_buf rd_in flat app length costs fold_right].
  assert (line_costs p lines = fee p 8 5 * letters lines + fee p 116 74 * length lines)%nat as ->; [|destruct p; cbn [fee]; lia].
  induction lines as [|t ts IH]; [destruct p; reflexivity|]. cbn [line_costs letters fold_right length].
  fold (line_costs p ts) (letters ts). rewrite IH. destruct p; cbn [fee]; lia.
Qed.

(** [C73] It does come to an end: if the user types "/close" some time, no more than so many
    things can happen, in whatever order. *)
Lemma talk_ends_proof : forall lines w1 w2 acts, never_fails w1 -> never_fails w2 ->
  Forall (fun t => well_formed (octets t) /\ size t <= 104857600) lines -> In (str "/close") lines ->
  (happened acts (talk_new lines w1 w2) <= 5 * letters lines + 74 * length lines + 109)%nat.
Proof.
  intros lines w1 w2 acts H1 H2 HL HI. apply Nat.le_trans with (time_left false (talk_new lines w1 w2)); [|rewrite time_bound; apply le_n].
  assert (fine lines (talk_new lines w1 w2)) as HF by (apply talk_starts; assumption).
  assert (will_close (talk_new lines w1 w2)) as HC by (intros _; exact HI).
  revert HF HC. generalize (talk_new lines w1 w2). induction acts as [|a acts IH]; intros t HF HC; cbn [happened]; [lia|].
  destruct (talk_step a t) as [t'|] eqn:E; [|apply IH; assumption].
  destruct (talk_keeps _ _ _ _ HF E) as [G1 G2]. destruct (G2 HC) as [G3 G4']. pose proof (G4' false) as G4. clear G4'. cbn [fee] in G4. specialize (IH t' G1 G3). lia.
Qed.

(*EX
Example talk_ends_ex : happened (concat (repeat talk_round 40)) talk_start = 37%nat.
Proof. vm_compute. reflexivity. Qed.
EX*)

Lemma send_any_key : forall ks ks' c, send_step ks c = None -> send_step ks' c = None.
Proof.
  intros ks ks' c H. unfold send_step in *. destruct (ch_send c) as [|m|]; [exact H| |exact H]. exfalso.
  destruct (writer_send _ _ _) as [x w]. destruct (writer_send_frame _ _ w). destruct m; try discriminate; destruct x; discriminate.
Qed.
Lemma arrive_none : forall n q r, arrive (S n) q r = None -> q = [].
Proof. intros n [|b q] r H; [reflexivity|discriminate]. Qed.
Lemma arrive_nothing : forall n r, arrive n [] r = None.
Proof. intros n r. unfold arrive. rewrite firstn_nil. reflexivity. Qed.
Lemma round_rest : forall acts t, fair_round acts -> (forall a, In a acts -> talk_step a t = None) -> at_rest t.
Proof.
  intros acts t (R1 & (ks & R2) & R3 & (k & R4) & (n & R5) & (n' & R6)) H a.
  apply H in R1, R2, R3, R4, R5, R6. destruct a as [[|ks'|]|k'|m|m].
  - exact R1.
  - cbn [talk_step chat_step] in R2 |- *. destruct (send_step ks (t_chat t)) eqn:E; [discriminate|].
    rewrite (send_any_key _ ks' _ E). reflexivity.
  - exact R3.
  - cbn [talk_step] in R4 |- *. destruct (t_srv t) as [| |e]; [| |reflexivity].
    + destruct (server_turn Greeting k _ _) as [[? ?] ?]. discriminate.
    + destruct (must_wait _ _ _); [reflexivity|]. destruct (server_turn Serving k _ _) as [[? ?] ?]. discriminate.
  - cbn [talk_step] in R5 |- *. destruct (arrive (S n) _ _) as [[? ?]|] eqn:E; [discriminate|]. apply arrive_none in E. rewrite E, arrive_nothing. reflexivity.
  - cbn [talk_step] in R6 |- *. destruct (arrive (S n') _ _) as [[? ?]|] eqn:E; [discriminate|]. apply arrive_none in E. rewrite E, arrive_nothing. reflexivity.
Qed.
Lemma rest_stays : forall acts t, at_rest t -> talk_run acts t = t.
Proof. induction acts as [|a acts IH]; intros t H; [reflexivity|]. cbn [talk_run]. rewrite H. apply IH, H. Qed.
Lemma round_moves : forall lines acts t, fine lines t -> will_close t ->
  let t' := talk_run acts t in
  fine lines t' /\ will_close t' /\ (time_left false t' <= time_left false t)%nat /\
  ((time_left false t' < time_left false t)%nat \/ t' = t /\ forall a, In a acts -> talk_step a t = None).
Proof.
  induction acts as [|a acts IH]; intros t HF HC t'.
  - repeat split; auto. right. split; [reflexivity|]. intros a [].
  - subst t'. cbn [talk_run]. destruct (talk_step a t) as [t1|] eqn:E.
    + destruct (talk_keeps _ _ _ _ HF E) as [G1 G2]. destruct (G2 HC) as [G3 G4']. pose proof (G4' false) as G4. clear G4'. cbn [fee] in G4.
      destruct (IH t1 G1 G3) as (I1 & I2 & I3 & _). repeat split; auto; [lia|]. left. lia.
    + destruct (IH t HF HC) as (I1 & I2 & I3 & I4). repeat split; auto.
      destruct I4 as [I4|[I4 I5]]; [left; exact I4|right]. split; [exact I4|]. intros a' [<-|G]; auto.
Qed.
Lemma app_run : forall a b t, talk_run (a ++ b) t = talk_run b (talk_run a t).
Proof. induction a as [|x a IH]; intros b t; [reflexivity|]. apply IH. Qed.

(** [C73] And it does get there: if everyone gets a turn again and again - in whatever order, with
    whatever pieces the network delivers - the conversation is complete after that many rounds. *)
Lemma talk_live_proof : forall lines us w1 w2 rounds, never_fails w1 -> never_fails w2 ->
  Forall (fun t => well_formed (octets t) /\ size t <= 104857600) lines -> talks lines us ->
  Forall fair_round rounds -> (5 * letters lines + 74 * length lines + 109 <= length rounds)%nat ->
  let t := talk_run (concat rounds) (talk_new lines w1 w2) in
  at_rest t /\ t_heard t = map Ok (conversation us) /\ t_srv t = Served Returned /\ all_over (t_chat t).
Proof.
  intros lines us w1 w2 rounds H1 H2 HL HT HR HN t.
  assert (at_rest t) as HA.
  { subst t. assert (time_left false (talk_new lines w1 w2) <= length rounds)%nat as HN' by (rewrite time_bound; exact HN). clear HN. rename HN' into HN.
    assert (fine lines (talk_new lines w1 w2)) as HF by (apply talk_starts; assumption).
    assert (will_close (talk_new lines w1 w2)) as HC by (intros _; eapply talks_in, HT).
    revert HF HC HN. generalize (talk_new lines w1 w2). clear HT. induction HR as [|r rounds Hr HR IH]; intros t HF HC HN.
    - cbn [concat talk_run]. intros a. destruct (talk_step a t) as [t1|] eqn:E; [|reflexivity]. exfalso.
      destruct (talk_keeps _ _ _ _ HF E) as [G1 G2]. destruct (G2 HC) as [G3 G4']. pose proof (G4' false) as G4. clear G4'. cbn [fee] in G4. cbn [length] in HN. lia.
    - cbn [concat length] in *. rewrite app_run. destruct (round_moves lines r t HF HC) as (I1 & I2 & I3 & [I4|[I4 I5]]).
      + apply IH; auto. lia.
      + rewrite I4. pose proof (round_rest _ _ Hr I5) as G. rewrite rest_stays by exact G. exact G. }
  split; [exact HA|]. apply (talk_complete_proof lines us w1 w2 (concat rounds)); assumption.
Qed.

(*EX
Example talk_live_ex : fair_round talk_round /\
  (5 * letters talk_lines + 74 * List.length talk_lines + 109 <= List.length (repeat talk_round 400))%nat /\
  at_rest (talk_run (concat (repeat talk_round 400)) talk_start).
Proof.
  assert (fair_round talk_round) as HF.
  { unfold fair_round, talk_round. repeat split; try (eexists; repeat ((left; reflexivity) || right)); repeat ((left; reflexivity) || right). }
  assert (5 * letters talk_lines + 74 * List.length talk_lines + 109 <= List.length (repeat talk_round 400))%nat as HN
    by (apply PeanoNat.Nat.leb_le; reflexivity).
  split; [exact HF|]. split; [exact HN|].
  apply (talk_live talk_lines [OText (str "hi"); OPing (str "PING")]); try exact HN; try (constructor; fail).
  - unfold talk_lines. repeat (constructor; [split; [apply ExTac.good_text; reflexivity|vm_compute; discriminate]|]). constructor.
  - apply (talks_line (str "hi")); [discriminate|]. apply (talks_line (str "/ping")); [discriminate|]. constructor.
  - apply Forall_forall. intros r HR. apply repeat_spec in HR. subst r. exact HF.
Qed.
EX*)
