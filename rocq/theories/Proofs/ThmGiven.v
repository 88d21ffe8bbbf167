(** Requests that another server has read: C103. *)
From Coq Require Import NArith ZArith String Bool List Lia.
From Coq Require Import ZifyBool ZifyNat ZifyN.
From Coq.Strings Require Import Byte.
From Verif.Model Require Import Base Io Header Mask Dataframe Utf8 Text Base64 WsKey Headers
  Handshake Message Receiver Codec Framed Http Connect.
From Verif.Spec Require Import RfcFrame FrameSpec Fields Upgrade Builder HttpHead Connection Wire Sides Accept.
From Verif.Proofs Require Import BaseFacts FrameFacts TextFacts HttpFacts ThmHttp ThmServer SpreadFacts.
Import ListNotations.
Local Open Scope string_scope.
Local Open Scope list_scope.
Local Open Scope N_scope.

Definition cl_alike (c c' : client) : Prop :=
  c_headers c = c_headers c' /\ c_sender c = c_sender c' /\ c_receiver c = c_receiver c' /\ c_out c = c_out c' /\
  alike (push_back (c_buf c) (c_in c)) (push_back (c_buf c') (c_in c')).
Lemma use_alike : forall u c c', cl_alike c c' ->
  fst (use_client u c) = fst (use_client u c') /\ cl_alike (snd (use_client u c)) (snd (use_client u c')).
Proof.
  intros u [h sd rc b s w] [h' sd' rc' b' s' w'] (H1 & H2 & H3 & H4 & H5).
  cbn [c_headers c_sender c_receiver c_out c_buf c_in] in *. subst h' sd' rc' w'.
  destruct u as [m k|d k| |]; unfold use_client, client_send, client_send_frame, client_recv, client_recv_frame;
    cbn [c_headers c_sender c_receiver c_out c_buf c_in].
  - destruct (send_frame sd (owned_ops m) k w) as [r w1]. cbn [fst snd]. split; [reflexivity|]. repeat split. exact H5.
  - destruct (send_frame sd d k w) as [r w1]. cbn [fst snd]. split; [reflexivity|]. repeat split. exact H5.
  - destruct (alike_message rc _ _ H5) as [G1 G2].
    destruct (recv_message rc (push_back b s)) as [[x r1] t1], (recv_message rc (push_back b' s')) as [[y r2] t2].
    cbn [fst snd] in *. injection G1 as <- <-. split; [reflexivity|]. repeat split. exact G2.
  - destruct (alike_frame rc _ _ H5) as [G1 G2].
    destruct (recv_dataframe rc (push_back b s)) as [x t1], (recv_dataframe rc (push_back b' s')) as [y t2].
    cbn [fst snd] in *. subst y. split; [reflexivity|]. repeat split. exact G2.
Qed.
Lemma run_alike : forall us c c', cl_alike c c' ->
  fst (client_run us c) = fst (client_run us c') /\ cl_alike (snd (client_run us c)) (snd (client_run us c')).
Proof.
  induction us as [|u us IH]; intros c c' H; cbn [client_run]; [split; [reflexivity|exact H]|].
  destruct (use_alike u c c' H) as [H1 H2].
  destruct (use_client u c) as [a c1], (use_client u c') as [a' c1']. cbn [fst snd] in *. subst a'.
  destruct (IH c1 c1' H2) as [H3 H4].
  destruct (client_run us c1) as [l c2], (client_run us c1') as [l' c2']. cbn [fst snd] in *. subst l'. auto.
Qed.

Definition held (b : option bytes) : bytes := match b with Some b => b | None => [] end.

Lemma accept_alike : forall custom df ms u u', up_headers u = up_headers u' -> up_request u = up_request u' ->
  up_out u = up_out u' -> alike (push_back (held (up_buffer u)) (up_in u)) (push_back (held (up_buffer u')) (up_in u')) ->
  match internal_accept custom df ms u, internal_accept custom df ms u' with
  | Ok c, Ok c' => cl_alike c c'
  | Err (_, w1, k), Err (_, w2, k') => w1 = w2 /\ k = k'
  | Panic, Panic => True
  | OutOfFuel, OutOfFuel => True
  | _, _ => False
  end.
Proof.
  intros custom df ms [h q b s w] [h' q' b' s' w'] H1 H2 H3 H4. cbn [up_headers up_request up_out up_buffer up_in] in *. subst h' q' w'.
  unfold internal_accept. cbn [up_headers up_request up_out up_buffer up_in].
  destruct (prepare_headers custom h (rq_headers q)) as [hh|[[ss ww] kk]| |]; cbn [rbind]; auto.
  destruct (print_response (rq_version q) switching_protocols hh) as [data|[[ss ww] kk]| |]; cbn [rbind]; auto.
  destruct (write_all data w) as [[[]|k| |] w1]; auto.
  repeat split. exact H4.
Qed.

(** [C103] A program has an HTTP server of its own, which has read a request and holds [b], bytes it has read
    beyond the head, if any.  It hands the request over, with the stream.  The library then does what it
    would have done, had it read the connection from the start: it refuses for the same reason, handing
    back all it was given; or it offers the upgrade of the same request, and when that is accepted, however
    it is, the same is written, and all that is sent and received afterwards is the same. *)
Lemma given_request_proof : forall X m t v fs head after s w b s2, sound_lib X -> sound_room X ->
  request_head X m t v fs head -> (length fs <= 100)%nat -> target_accepted X t ->
  llen head <= 417792 -> first_come head after s ->
  let q := mk_req (method_named m) t v (from_raw fs) in
  spread (match b with Some b => push_back b s2 | None => s2 end) = after ->
  match into_ws X s w, into_ws_with q b s2 w with
  | Ok u, Ok u' => up_request u = q /\ up_request u' = q /\
      forall custom df ms,
        match internal_accept custom df ms u, internal_accept custom df ms u' with
        | Ok c, Ok c' => c_headers c = c_headers c' /\ forall us,
            fst (client_run us c) = fst (client_run us c') /\
            c_out (snd (client_run us c)) = c_out (snd (client_run us c'))
        | Err (_, w1, k), Err (_, w2, k') => w1 = w2 /\ k = k'
        | Panic, Panic => True
        | OutOfFuel, OutOfFuel => True
        | _, _ => False
        end
  | Err f, Err f' => rf_error f = rf_error f' /\ f' = mk_refusal s2 w (Some q) b (rf_error f')
  | _, _ => False
  end.
Proof.
  intros X m t v fs head after s w b s2 HX HR HH HN HT HL HF q HB.
  destruct (sync_request_read_proof X m t v fs head after s HX HR HH HN HT HL HF) as (rest & s3 & E1 & E2).
  unfold into_ws, into_ws_with. rewrite E1. change (mk_req (method_named m) t v (from_raw fs)) with q.
  destruct (server_validate_total_proof (method_named m) v fs) as [V|[e V]];
    change (validate (method_named m) v (from_raw fs)) with (validate (rq_method q) (rq_version q) (rq_headers q)) in V; rewrite V.
  2:{ cbn [rf_error]. auto. }
  cbn [up_request]. split; [reflexivity|]. split; [reflexivity|].
  intros custom df ms.
  pose proof (accept_alike custom df ms (mk_upgrade [] q (Some rest) s3 w) (mk_upgrade [] q b s2 w) eq_refl eq_refl eq_refl) as A.
  cbn [up_buffer up_in held] in A.
  assert (HA : alike (push_back rest s3) (push_back (held b) s2)).
  { unfold alike. rewrite E2, <- HB. destruct b; reflexivity. }
  specialize (A HA).
  destruct (internal_accept custom df ms (mk_upgrade [] q (Some rest) s3 w)) as [c|[[ss w1] k]| |];
    destruct (internal_accept custom df ms (mk_upgrade [] q b s2 w)) as [c'|[[ss' w2] k']| |]; auto.
  - split; [exact (proj1 A)|]. intros us. destruct (run_alike us c c' A) as [H1 (_ & _ & _ & H2 & _)]. auto.
Qed.
(*EX
(** The first message came with the request: handed over in the other server's buffer it is received,
    and a request that is not for this library comes back. *)
Example given_request_ex :
  let q := mk_req Get (str "/") Http11 (from_raw
    [(str "Upgrade", str "websocket"); (str "Connection", str "Upgrade"); (str "Sec-WebSocket-Version", str "13");
     (str "Sec-WebSocket-Key", str "dGhlIHNhbXBsZSBub25jZQ==")]) in
  let frame := [x82; x81; x00; x00; x00; x00; x07] in
  match into_ws_with q (Some frame) [] (mk_w [] []) with
  | Ok u => match accept u with Ok c => fst (client_run [RecvMessage] c) = [Message (Ok (OBinary [x07]))] | _ => False end
  | _ => False
  end /\
  into_ws_with (mk_req (OtherMethod (str "POST")) (str "/") Http11 (from_raw [])) (Some frame) [REof] (mk_w [] [])
    = Err (mk_refusal [REof] (mk_w [] []) (Some (mk_req (OtherMethod (str "POST")) (str "/") Http11 (from_raw []))) (Some frame) MethodNotGet).
Proof. split; vm_compute; reflexivity. Qed.
EX*)
