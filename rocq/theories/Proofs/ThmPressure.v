(** Back-pressure on the asynchronous sinks: C82. *)
From Coq Require Import NArith ZArith String Bool List Lia.
From Coq Require Import ZifyBool ZifyNat ZifyN.
From Coq.Strings Require Import Byte.
From Verif.Model Require Import Base Io Header Mask Dataframe Utf8 Message Receiver Codec Framed Http Connect HttpStream.
From Verif.Spec Require Import RfcFrame FrameSpec Sink HttpSeries Pressure.
From Verif.Proofs Require Import BaseFacts HeaderFacts FrameFacts ThmFrames ThmConnect ThmFlow ThmHttpStream.
Import ListNotations.
Local Open Scope string_scope.
Local Open Scope list_scope.
Local Open Scope N_scope.

Lemma frame_len_size : forall (server : bool) d, honest d -> frame_size d (negb server) = frame_len server d.
Proof.
  intros server d [Hs _]. unfold frame_size, frame_len, wire_len. rewrite Hs.
  generalize (N.of_nat (length (concat (df_writes d)))). intros n.
  destruct (N.leb_spec n 125), (N.leb_spec n 65535), (N.ltb_spec n 126), (N.ltb_spec n 65536); destruct server; cbn [negb]; lia.
Qed.
Lemma flush_shrinks : forall ws data out r data' out' ws',
  flush_go ws data out = (r, data', out', ws') -> (length data' <= length data)%nat.
Proof.
  induction ws as [|w ws IH]; intros data out r data' out' ws' H; cbn [flush_go] in H;
    (destruct data as [|b bs]; [injection H as <- <- <- <-; lia|]).
  - injection H as <- <- <- <-. cbn [length]. lia.
  - destruct w as [n| | |k]; try (injection H as <- <- <- <-; lia).
    apply IH in H. pose proof (llen_drop _ (n + 1) (b :: bs)) as HD. unfold llen in HD. lia.
Qed.
Lemma complete_shrinks : forall w r w', poll_complete w = (r, w') -> waiting w' <= waiting w.
Proof.
  intros w r w' H. unfold poll_complete in H.
  destruct (flush_go (fw_ws w) (bm_data (fw_buf w)) (fw_out w)) as [[[o data] out] ws] eqn:E.
  apply flush_shrinks in E. unfold waiting. destruct o as [e|].
  - injection H as <- <-. cbn [fw_buf bm_data]. lia.
  - destruct (fw_fs w) as [|[| |k] fs]; injection H as <- <-; cbn [fw_buf bm_data]; lia.
Qed.
Lemma complete_ready : forall w, ready_transport w ->
  exists w', poll_complete w = (SReady, w') /\ waiting w' = 0 /\ ready_transport w'.
Proof.
  intros w [H1 H2]. destruct (poll_complete w) as [r w'] eqn:E. pose proof (poll_complete_spec _ _ _ E) as (_ & P2 & P3 & P4).
  rewrite H1, H2 in P3, P4. cbn [length] in P3, P4. destruct r as [| |e]; [|specialize (P4 ltac:(discriminate)); lia..].
  exists w'. split; [reflexivity|]. unfold waiting. rewrite (P2 eq_refl). split; [reflexivity|].
  split; [destruct (fw_ws w'); [reflexivity|cbn [length] in P3; lia]|destruct (fw_fs w'); [reflexivity|cbn [length] in P3; lia]].
Qed.

(** One [start_send], by what it puts into the buffer. *)
Definition put (is_server : bool) (d : dataframe_ops) (k : mkey) (extra : N) (w : fwrite) : spoll * fwrite :=
  match codec_encode is_server d k extra (fw_buf w) with
  | (Ok _, b) => (SReady, mk_fw b (fw_out w) (fw_ws w) (fw_fs w))
  | (Err e, b) => (SErr e, mk_fw b (fw_out w) (fw_ws w) (fw_fs w))
  | (_, b) => (SErr (OtherError "panic"), mk_fw b (fw_out w) (fw_ws w) (fw_fs w))
  end.
Lemma put_len : forall is_server d k extra w r w', honest d -> put is_server d k extra w = (r, w') ->
  fw_out w' = fw_out w /\ r <> SNotReady /\ waiting w' <= waiting w + frame_len is_server d.
Proof.
  intros is_server d k extra w r w' HH H. unfold put in H. destruct (ops_sendable_dec d) as [HO|HO].
  - destruct (encode_good is_server d k extra (fw_buf w) HH HO) as (wire & dst' & E1 & E2 & E3).
    rewrite E1 in H. injection H as <- <-. split; [reflexivity|]. split; [discriminate|].
    unfold waiting. cbn [fw_buf]. rewrite E2, app_length.
    assert (llen wire = frame_size d (negb is_server)) as HZ.
    { set (key := if is_server then None else Some k) in *.
      pose proof (predicted_size_proof d key [] wire HH) as HP.
      rewrite (write_to_good _ _ _ _ E3) in HP. specialize (HP eq_refl). cbn [length] in HP.
      unfold llen. rewrite HP. unfold key. destruct is_server; reflexivity. }
    rewrite (frame_len_size is_server d HH) in HZ. unfold llen in HZ. lia.
  - destruct (encode_bad is_server d k extra (fw_buf w) HH HO) as (e & dst' & E1 & E2).
    rewrite E1 in H. injection H as <- <-. split; [reflexivity|]. split; [discriminate|].
    unfold waiting. cbn [fw_buf]. rewrite E2. lia.
Qed.
Lemma send_cases : forall is_server d k extra w,
  (waiting w < mark /\ start_send is_server d k extra w = put is_server d k extra w) \/
  (mark <= waiting w /\ exists r1 w1, poll_complete w = (r1, w1) /\
    ((exists e, r1 = SErr e /\ start_send is_server d k extra w = (SErr e, w1)) \/
     (mark <= waiting w1 /\ start_send is_server d k extra w = (SNotReady, w1)) \/
     (waiting w1 < mark /\ start_send is_server d k extra w = put is_server d k extra w1))).
Proof.
  intros is_server d k extra w. unfold start_send, put.
  change (llen (bm_data (fw_buf w))) with (waiting w). change BACKPRESSURE with mark.
  destruct (N.leb_spec mark (waiting w)) as [H|H]; [|left; split; [exact H|reflexivity]].
  right. split; [exact H|]. destruct (poll_complete w) as [r1 w1]. exists r1, w1. split; [reflexivity|].
  change (llen (bm_data (fw_buf w1))) with (waiting w1).
  destruct r1 as [| |e]; [right|right|left; exists e; auto];
    (destruct (N.leb_spec mark (waiting w1)) as [H1|H1]; [left; auto|right; auto]).
Qed.
(** [C82] The buffer of the sink is bounded: whatever the task does and however slow the
    transport is, less than 8 KiB plus one frame (the largest offered) ever wait. *)
Lemma sink_bounded_proof : forall (is_server : bool) L ops w,
  Forall (fun d => honest d /\ frame_len is_server d <= L) (offered ops) ->
  waiting w < mark + L -> 0 < L ->
  waiting (snd (sink_run is_server ops w)) < mark + L.
Proof.
  intros is_server L. induction ops as [|op ops IH]; intros w HO HW HL; cbn [sink_run]; [exact HW|].
  assert (G : forall r w1, (match op with Send d k extra => start_send is_server d k extra w | Flush => poll_complete w end) = (r, w1) ->
    waiting w1 < mark + L).
  { intros r w1 E. destruct op as [d k extra|]; [|apply complete_shrinks in E; lia].
    cbn [offered] in HO. inversion HO as [|? ? [H1 H2] H3]; subst.
    destruct (send_cases is_server d k extra w) as [[C1 C2]|(C1 & r1 & w2 & C2 & C3)].
    - rewrite C2 in E. apply put_len in E as (_ & _ & E); [lia|exact H1].
    - apply complete_shrinks in C2. destruct C3 as [(e & -> & C3)|[(C4 & C3)|(C4 & C3)]]; rewrite C3 in E.
      + injection E as <- <-. lia.
      + injection E as <- <-. lia.
      + apply put_len in E as (_ & _ & E); [lia|exact H1]. }
  destruct (match op with Send d k extra => start_send is_server d k extra w | Flush => poll_complete w end) as [r w1] eqn:E.
  specialize (G r w1 eq_refl).
  assert (HO' : Forall (fun d => honest d /\ frame_len is_server d <= L) (offered ops)).
  { destruct op; cbn [offered] in HO; [inversion HO; assumption|exact HO]. }
  specialize (IH w1 HO' G HL). destruct (sink_run is_server ops w1) as [rs w2]. exact IH.
Qed.

(*EX
(** A transport that is never ready: of three messages of 5000 bytes two are taken. *)
Example sink_bounded_ex :
  let m := owned_ops (OBinary (repeat x61 (N.to_nat 5000))) in
  let k := mk_key x00 x00 x00 x00 in
  let w := mk_fw (mk_bm [] 0) [] (repeat AwNotReady 9) [] in
  frame_len true m = 5004 /\
  fst (sink_run true [Send m k 0; Flush; Send m k 0; Flush; Send m k 0] w)
  = [SReady; SNotReady; SReady; SNotReady; SNotReady] /\
  waiting (snd (sink_run true [Send m k 0; Flush; Send m k 0; Flush; Send m k 0] w)) = 10008.
Proof. vm_compute. auto. Qed.
EX*)
(** [C82] A frame is handed back only while at least 8 KiB wait to be written, even after
    trying; then nothing of it has been taken. *)
Lemma refused_only_when_full_proof : forall is_server d k extra w w', honest d ->
  start_send is_server d k extra w = (SNotReady, w') ->
  mark <= waiting w' /\ exists r, poll_complete w = (r, w') /\ r <> SReady.
Proof.
  intros is_server d k extra w w' HH H.
  destruct (send_cases is_server d k extra w) as [[C1 C2]|(C1 & r1 & w2 & C2 & C3)].
  - rewrite C2 in H. apply put_len in H as (_ & H & _); [congruence|exact HH].
  - destruct C3 as [(e & -> & C3)|[(C4 & C3)|(C4 & C3)]]; rewrite C3 in H.
    + discriminate H.
    + injection H as ->. split; [exact C4|]. exists r1. split; [exact C2|]. intros ->.
      apply poll_complete_spec in C2 as (_ & P & _). unfold waiting in C4. rewrite (P eq_refl) in C4.
      unfold mark in C4. cbn in C4. lia.
    + apply put_len in H as (_ & H & _); [congruence|exact HH].
Qed.

(*EX
Example refused_only_when_full_ex :
  let w := mk_fw (mk_bm (repeat x61 (N.to_nat 8195)) 8195) [] [AwAccept 1; AwNotReady] [] in
  start_send true (owned_ops (OPing [])) (mk_key x00 x00 x00 x00) 0 w
  = (SNotReady, mk_fw (mk_bm (repeat x61 (N.to_nat 8193)) 8193) [x61; x61] [] []).
Proof. vm_compute. reflexivity. Qed.
EX*)
(** [C82] On a transport that takes what it is given, every frame that can be sent at all is
    taken at once. *)
Lemma taken_when_ready_proof : forall (is_server : bool) d (k : mkey) extra w, honest d -> ready_transport w ->
  rfc_sendable (rfc_of (df_is_last d) (df_reserved d) (df_opcode d) (concat (df_writes d)) (if is_server then None else Some k)) ->
  exists w', start_send is_server d k extra w = (SReady, w') /\ ready_transport w'.
Proof.
  intros is_server d k extra w HH HR HS. pose proof (sendable_ops _ _ HH HS) as HO.
  assert (P : forall w, ready_transport w -> exists w', put is_server d k extra w = (SReady, w') /\ ready_transport w').
  { intros w0 R. unfold put. destruct (encode_good is_server d k extra (fw_buf w0) HH HO) as (wire & dst' & E1 & _).
    rewrite E1. eexists. split; [reflexivity|exact R]. }
  destruct (send_cases is_server d k extra w) as [[C1 C2]|(C1 & r1 & w2 & C2 & C3)].
  - rewrite C2. apply P, HR.
  - destruct (complete_ready w HR) as (w3 & R1 & R2 & R3). rewrite C2 in R1. injection R1 as -> ->.
    destruct C3 as [(e & E & C3)|[(C4 & C3)|(C4 & C3)]]; [discriminate E|unfold mark in C4; lia|].
    rewrite C3. apply P, R3.
Qed.

(*EX
Example taken_when_ready_ex :
  let w := mk_fw (mk_bm (repeat x61 (N.to_nat 8192)) 8192) [] [] [] in
  fst (start_send true (owned_ops (OPing [])) (mk_key x00 x00 x00 x00) 0 w) = SReady /\
  waiting (snd (start_send true (owned_ops (OPing [])) (mk_key x00 x00 x00 x00) 0 w)) = 2.
Proof. vm_compute. auto. Qed.
EX*)

(** ** The HTTP codecs *)
Definition hput (t : bytes) (extra : N) (w : fwrite) : spoll * fwrite :=
  (SReady, mk_fw (http_encode t extra (fw_buf w)) (fw_out w) (fw_ws w) (fw_fs w)).
Lemma hput_len : forall t extra w r w', hput t extra w = (r, w') ->
  r = SReady /\ waiting w' = waiting w + N.of_nat (length t).
Proof.
  intros t extra w r w' H. injection H as <- <-. split; [reflexivity|]. unfold waiting. cbn [fw_buf].
  rewrite encode_all, app_length. lia.
Qed.
Lemma hsend_cases : forall t extra w,
  (waiting w < mark /\ http_start_send t extra w = hput t extra w) \/
  (mark <= waiting w /\ exists r1 w1, poll_complete w = (r1, w1) /\
    ((exists e, r1 = SErr e /\ http_start_send t extra w = (SErr e, w1)) \/
     (mark <= waiting w1 /\ http_start_send t extra w = (SNotReady, w1)) \/
     (waiting w1 < mark /\ http_start_send t extra w = hput t extra w1))).
Proof.
  intros t extra w. unfold http_start_send, hput.
  change (llen (bm_data (fw_buf w))) with (waiting w). change BACKPRESSURE with mark.
  destruct (N.leb_spec mark (waiting w)) as [H|H]; [|left; split; [exact H|reflexivity]].
  right. split; [exact H|]. destruct (poll_complete w) as [r1 w1]. exists r1, w1. split; [reflexivity|].
  change (llen (bm_data (fw_buf w1))) with (waiting w1).
  destruct r1 as [| |e]; [right|right|left; exists e; auto];
    (destruct (N.leb_spec mark (waiting w1)) as [H1|H1]; [left; auto|right; auto]).
Qed.
(** [C82] The same holds for the sinks of the HTTP codecs. *)
Lemma http_sink_bounded_proof : forall L ops w,
  Forall (fun t : bytes => N.of_nat (length t) <= L) (http_offered ops) ->
  waiting w < mark + L -> 0 < L ->
  waiting (snd (http_ops ops w)) < mark + L.
Proof.
  intros L. induction ops as [|op ops IH]; intros w HO HW HL; cbn [http_ops]; [exact HW|].
  assert (G : forall r w1, (match op with HSend t extra => http_start_send t extra w | HFlush => poll_complete w end) = (r, w1) ->
    waiting w1 < mark + L).
  { intros r w1 E. destruct op as [t extra|]; [|apply complete_shrinks in E; lia].
    cbn [http_offered] in HO. inversion HO as [|? ? H1 H3]; subst.
    destruct (hsend_cases t extra w) as [[C1 C2]|(C1 & r1 & w2 & C2 & C3)].
    - rewrite C2 in E. apply hput_len in E as (_ & E). lia.
    - apply complete_shrinks in C2. destruct C3 as [(e & -> & C3)|[(C4 & C3)|(C4 & C3)]]; rewrite C3 in E.
      + injection E as <- <-. lia.
      + injection E as <- <-. lia.
      + apply hput_len in E as (_ & E). lia. }
  destruct (match op with HSend t extra => http_start_send t extra w | HFlush => poll_complete w end) as [r w1] eqn:E.
  specialize (G r w1 eq_refl).
  assert (HO' : Forall (fun t : bytes => N.of_nat (length t) <= L) (http_offered ops)).
  { destruct op; cbn [http_offered] in HO; [inversion HO; assumption|exact HO]. }
  specialize (IH w1 HO' G HL). destruct (http_ops ops w1) as [rs w2]. exact IH.
Qed.

(*EX
Example http_sink_bounded_ex :
  let t := repeat x61 (N.to_nat 9000) in
  let w := mk_fw (mk_bm [] 0) [] [AwNotReady; AwAccept 999; AwNotReady] [] in
  fst (http_ops [HSend t 0; HSend t 0; HSend t 0] w) = [SReady; SNotReady; SReady] /\
  waiting (snd (http_ops [HSend t 0; HSend t 0; HSend t 0] w)) = 17000.
Proof. vm_compute. auto. Qed.
EX*)
(** [C82] *)
Lemma http_refused_only_when_full_proof : forall t extra w w',
  http_start_send t extra w = (SNotReady, w') ->
  mark <= waiting w' /\ exists r, poll_complete w = (r, w') /\ r <> SReady.
Proof.
  intros t extra w w' H.
  destruct (hsend_cases t extra w) as [[C1 C2]|(C1 & r1 & w2 & C2 & C3)].
  - rewrite C2 in H. discriminate H.
  - destruct C3 as [(e & -> & C3)|[(C4 & C3)|(C4 & C3)]]; rewrite C3 in H.
    + discriminate H.
    + injection H as ->. split; [exact C4|]. exists r1. split; [exact C2|]. intros ->.
      apply poll_complete_spec in C2 as (_ & P & _). unfold waiting in C4. rewrite (P eq_refl) in C4.
      unfold mark in C4. cbn in C4. lia.
    + discriminate H.
Qed.
(*EX
Example http_refused_only_when_full_ex :
  http_start_send (str "GET") 0 (mk_fw (mk_bm (repeat x61 (N.to_nat 8194)) 8194) [] [AwAccept 0; AwNotReady] [])
  = (SNotReady, mk_fw (mk_bm (repeat x61 (N.to_nat 8193)) 8193) [x61] [] []).
Proof. vm_compute. reflexivity. Qed.
EX*)
(** [C82] *)
Lemma http_taken_when_ready_proof : forall t extra w, ready_transport w ->
  exists w', http_start_send t extra w = (SReady, w') /\ ready_transport w'.
Proof.
  intros t extra w HR.
  destruct (hsend_cases t extra w) as [[C1 C2]|(C1 & r1 & w2 & C2 & C3)].
  - rewrite C2. eexists. split; [reflexivity|exact HR].
  - destruct (complete_ready w HR) as (w3 & R1 & R2 & R3). rewrite C2 in R1. injection R1 as -> ->.
    destruct C3 as [(e & E & C3)|[(C4 & C3)|(C4 & C3)]]; [discriminate E|unfold mark in C4; lia|].
    rewrite C3. eexists. split; [reflexivity|exact R3].
Qed.
(*EX
Example http_taken_when_ready_ex :
  fst (http_start_send (str "GET") 0 (mk_fw (mk_bm (repeat x61 (N.to_nat 8192)) 8192) [] [] [])) = SReady /\
  waiting (snd (http_start_send (str "GET") 0 (mk_fw (mk_bm (repeat x61 (N.to_nat 8192)) 8192) [] [] []))) = 3.
Proof. vm_compute. auto. Qed.
EX*)
