(** Receiving depends on what a stream shows, not on how the bytes are grouped into reads. *)
From Coq Require Import NArith ZArith String Bool List Lia.
From Coq Require Import ZifyBool ZifyNat ZifyN.
From Coq.Strings Require Import Byte.
From Verif.Model Require Import Base Io Header Mask Dataframe Utf8 Text Base64 WsKey Headers
  Handshake Message Receiver Codec Framed Http.
From Verif.Spec Require Import Fields HttpHead.
From Verif.Proofs Require Import BaseFacts HeaderFacts Machine ThmHttp.
Import ListNotations.
Local Open Scope string_scope.
Local Open Scope list_scope.
Local Open Scope N_scope.

Notation shown := (list (byte + rd_ev)).

(** ** [read_exact] and [take().read_to_end()] on what is shown *)
Fixpoint sp_exact (n : N) (l : shown) : result bytes io_kind * shown :=
  if n =? 0 then (Ok [], l) else
  match l with
  | [] => (Err UnexpectedEof, [])
  | inl b :: l' => match sp_exact (n - 1) l' with
                   | (Ok d, l'') => (Ok (b :: d), l'')
                   | r => r
                   end
  | inr RIntr :: l' => sp_exact n l'
  | inr (RErr k) :: l' => (Err k, l')
  | inr _ :: l' => (Err UnexpectedEof, l')
  end.
Fixpoint sp_take (n : N) (l : shown) : result bytes io_kind * shown :=
  if n =? 0 then (Ok [], l) else
  match l with
  | [] => (Ok [], [])
  | inl b :: l' => match sp_take (n - 1) l' with
                   | (Ok d, l'') => (Ok (b :: d), l'')
                   | r => r
                   end
  | inr RIntr :: l' => sp_take n l'
  | inr (RErr k) :: l' => (Err k, l')
  | inr _ :: l' => (Ok [], l')
  end.
Definition glue (d : bytes) (x : result bytes io_kind * shown) : result bytes io_kind * shown :=
  match x with (Ok a, l) => (Ok (d ++ a), l) | r => r end.
Lemma sp_exact_data : forall d n l, sp_exact n (map inl d ++ l) =
  if n <=? llen d then (Ok (take n d), map inl (drop n d) ++ l)
  else glue d (sp_exact (n - llen d) l).
Proof.
  induction d as [|b d IH]; intros n l.
  - cbn [map app]. rewrite llen_nil. destruct (N.leb_spec n 0) as [H|H].
    + replace n with 0 by lia. destruct l; reflexivity.
    + replace (n - 0) with n by lia. destruct (sp_exact n l) as [[x|k| |] l']; reflexivity.
  - cbn [map app sp_exact]. rewrite llen_cons. destruct (N.eqb_spec n 0) as [->|Hn].
    + cbn [take drop]. replace (0 <=? 1 + llen d) with true by lia. reflexivity.
    + rewrite IH. cbn [take drop]. replace (n =? 0) with false by lia.
      replace (n - (1 + llen d)) with (n - 1 - llen d) by lia.
      destruct (N.leb_spec (n - 1) (llen d)), (N.leb_spec n (1 + llen d)); try lia.
      * reflexivity.
      * destruct (sp_exact (n - 1 - llen d) l) as [[x|k| |] l']; reflexivity.
Qed.
Lemma sp_take_data : forall d n l, sp_take n (map inl d ++ l) =
  if n <=? llen d then (Ok (take n d), map inl (drop n d) ++ l)
  else glue d (sp_take (n - llen d) l).
Proof.
  induction d as [|b d IH]; intros n l.
  - cbn [map app]. rewrite llen_nil. destruct (N.leb_spec n 0) as [H|H].
    + replace n with 0 by lia. destruct l; reflexivity.
    + replace (n - 0) with n by lia. destruct (sp_take n l) as [[x|k| |] l']; reflexivity.
  - cbn [map app sp_take]. rewrite llen_cons. destruct (N.eqb_spec n 0) as [->|Hn].
    + cbn [take drop]. replace (0 <=? 1 + llen d) with true by lia. reflexivity.
    + rewrite IH. cbn [take drop]. replace (n =? 0) with false by lia.
      replace (n - (1 + llen d)) with (n - 1 - llen d) by lia.
      destruct (N.leb_spec (n - 1) (llen d)), (N.leb_spec n (1 + llen d)); try lia.
      * reflexivity.
      * destruct (sp_take (n - 1 - llen d) l) as [[x|k| |] l']; reflexivity.
Qed.
Definition seen {A E : Type} (x : result A E * script) : result A E * shown :=
  (fst x, spread (snd x)).
Lemma spread_data : forall b bs s, spread (RData b bs :: s) = map inl (b :: bs) ++ spread s.
Proof. reflexivity. Qed.
Lemma rd_exact_seen : forall s n, seen (rd_exact n s) = sp_exact n (spread s).
Proof.
  induction s as [|e s IH]; intros n.
  - cbn [rd_exact spread sp_exact]. destruct (n =? 0); reflexivity.
  - cbn [rd_exact]. destruct (N.eqb_spec n 0) as [->|Hn].
    { destruct (spread (e :: s)) as [|x l] eqn:E; cbn [sp_exact]; unfold seen; cbn [fst snd];
        rewrite ?E; reflexivity. }
    destruct e as [b bs| | |k].
    + rewrite spread_data, sp_exact_data. set (d := b :: bs).
      destruct (n <=? llen d) eqn:E.
      * unfold seen. cbn [fst snd]. rewrite spread_push_back. reflexivity.
      * rewrite <- IH. unfold seen. destruct (rd_exact (n - llen d) s) as [[x|k| |] s']; reflexivity.
    + cbn [spread sp_exact]. replace (n =? 0) with false by lia. apply IH.
    + cbn [spread sp_exact]. replace (n =? 0) with false by lia. reflexivity.
    + cbn [spread sp_exact]. replace (n =? 0) with false by lia. reflexivity.
Qed.
Lemma rd_take_seen : forall s n, seen (rd_take_to_end n s) = sp_take n (spread s).
Proof.
  induction s as [|e s IH]; intros n.
  - cbn [rd_take_to_end spread sp_take]. destruct (n =? 0); reflexivity.
  - cbn [rd_take_to_end]. destruct (N.eqb_spec n 0) as [->|Hn].
    { destruct (spread (e :: s)) as [|x l] eqn:E; cbn [sp_take]; unfold seen; cbn [fst snd];
        rewrite ?E; reflexivity. }
    destruct e as [b bs| | |k].
    + rewrite spread_data, sp_take_data. set (d := b :: bs).
      destruct (n <=? llen d) eqn:E.
      * unfold seen. cbn [fst snd]. rewrite spread_push_back. reflexivity.
      * rewrite <- IH. unfold seen. destruct (rd_take_to_end (n - llen d) s) as [[x|k| |] s']; reflexivity.
    + cbn [spread sp_take]. replace (n =? 0) with false by lia. apply IH.
    + cbn [spread sp_take]. replace (n =? 0) with false by lia. reflexivity.
    + cbn [spread sp_take]. replace (n =? 0) with false by lia. reflexivity.
Qed.

(** ** Everything built on them *)
Definition alike (s1 s2 : script) : Prop := spread s1 = spread s2.
Lemma alike_exact : forall n s1 s2, alike s1 s2 -> sim alike (rd_exact n s1) (rd_exact n s2).
Proof.
  intros n s1 s2 H. pose proof (rd_exact_seen s1 n) as H1. pose proof (rd_exact_seen s2 n) as H2.
  unfold alike in H. rewrite H, <- H2 in H1. injection H1 as H1 H3. split; assumption.
Qed.
Lemma alike_take : forall n s1 s2, alike s1 s2 -> sim alike (rd_take_to_end n s1) (rd_take_to_end n s2).
Proof.
  intros n s1 s2 H. pose proof (rd_take_seen s1 n) as H1. pose proof (rd_take_seen s2 n) as H2.
  unfold alike in H. rewrite H, <- H2 in H1. injection H1 as H1 H3. split; assumption.
Qed.
Lemma alike_bytes : forall s1 s2, alike s1 s2 -> script_bytes s1 = script_bytes s2.
Proof.
  assert (G : forall s, script_bytes s =
    length (filter (fun x : byte + rd_ev => match x with inl _ => true | inr _ => false end) (spread s))).
  { induction s as [|[b bs| | |k] s IH]; try exact IH; [reflexivity|].
    rewrite spread_data, filter_app, app_length, <- IH. cbn [script_bytes]. f_equal.
    assert (F : forall l : bytes, length (filter (fun x : byte + rd_ev => match x with inl _ => true | inr _ => false end) (map inl l)) = length l).
    { induction l as [|y l IHl]; [reflexivity|]. cbn [map filter length]. rewrite IHl. reflexivity. }
    rewrite F. reflexivity. }
  intros s1 s2 H. rewrite !G, H. reflexivity.
Qed.
Lemma alike_payload : forall h m s1 s2, alike s1 s2 ->
  sim alike (read_payload h m s1) (read_payload h m s2).
Proof.
  intros h m s1 s2 H. unfold read_payload. destruct (_ <? _); [apply sim_ret; exact H|].
  pose proof (alike_take (h_len h) s1 s2 H) as [H1 H2].
  destruct (rd_take_to_end (h_len h) s1) as [x s1'], (rd_take_to_end (h_len h) s2) as [y s2'].
  cbn [fst snd] in *. subst y. destruct x as [d|k| |]; try (apply sim_ret; exact H2).
  destruct (_ <? _); apply sim_ret; exact H2.
Qed.
Lemma alike_frame : forall r s1 s2, alike s1 s2 ->
  sim alike (recv_dataframe r s1) (recv_dataframe r s2).
Proof.
  intros r s1 s2 H. unfold recv_dataframe, read_dataframe_with_limit.
  apply sim_bind; [apply read_header_sim; [exact alike_exact|exact H]|].
  intros h t1 t2 Ht. destruct (_ <? _); [apply sim_ret; exact Ht|]. apply alike_payload. exact Ht.
Qed.
Definition same {A : Type} (x y : A * script) : Prop := fst x = fst y /\ alike (snd x) (snd y).
Lemma same_ret : forall A (x : A) s1 s2, alike s1 s2 -> same (x, s1) (x, s2).
Proof. split; auto. Qed.
Lemma alike_loop : forall fuel r cur s1 s2, alike s1 s2 ->
  same (recv_loop fuel r cur s1) (recv_loop fuel r cur s2).
Proof.
  induction fuel as [|fuel IH]; intros r cur s1 s2 H; cbn [recv_loop]; [apply same_ret; exact H|].
  destruct (alike_frame r s1 s2 H) as [H1 H2].
  destruct (recv_dataframe r s1) as [x s1'], (recv_dataframe r s2) as [y s2'].
  cbn [fst snd] in *. subst y. destruct x as [f|e| |]; try (apply same_ret; exact H2).
  destruct (op_u8 (f_opcode f) =? 0); [|destruct (_ && _); apply same_ret; exact H2].
  destruct (f_finished f); [apply same_ret; exact H2|].
  destruct (_ <=? _); [apply same_ret; exact H2|].
  destruct (_ <=? _); [apply same_ret; exact H2|]. apply IH. exact H2.
Qed.
Lemma alike_frames : forall r s1 s2, alike s1 s2 ->
  same (recv_message_dataframes r s1) (recv_message_dataframes r s2).
Proof.
  intros r s1 s2 H. unfold recv_message_dataframes. destruct (r_buffer r) as [|f0 fs].
  - destruct (alike_frame r s1 s2 H) as [H1 H2].
    destruct (recv_dataframe r s1) as [x s1'], (recv_dataframe r s2) as [y s2'].
    cbn [fst snd] in *. subst y. destruct x as [f|e| |]; try (apply same_ret; exact H2).
    rewrite (alike_bytes _ _ H2).
    destruct (f_opcode f), (f_finished f); try (apply same_ret; exact H2);
      apply alike_loop; exact H2.
  - rewrite (alike_bytes _ _ H). apply alike_loop. exact H.
Qed.
Lemma alike_message : forall r s1 s2, alike s1 s2 ->
  same (recv_message r s1) (recv_message r s2).
Proof.
  intros r s1 s2 H. unfold recv_message. destruct (alike_frames r s1 s2 H) as [H1 H2].
  destruct (recv_message_dataframes r s1) as [[x r1] s1'], (recv_message_dataframes r s2) as [[y r2] s2'].
  cbn [fst snd] in *. injection H1 as <- <-. destruct x; apply same_ret; exact H2.
Qed.
Lemma alike_n : forall n r s1 s2, alike s1 s2 -> same (recv_n n r s1) (recv_n n r s2).
Proof.
  induction n as [|n IH]; intros r s1 s2 H; cbn [recv_n]; [apply same_ret; exact H|].
  destruct (alike_message r s1 s2 H) as [H1 H2].
  destruct (recv_message r s1) as [[x r1] s1'], (recv_message r s2) as [[y r2] s2'].
  cbn [fst snd] in *. injection H1 as <- <-. destruct (IH r1 s1' s2' H2) as [H3 H4].
  destruct (recv_n n r1 s1') as [[xs q1] t1], (recv_n n r1 s2') as [[ys q2] t2].
  cbn [fst snd] in *. injection H3 as <- <-. apply same_ret. exact H4.
Qed.
