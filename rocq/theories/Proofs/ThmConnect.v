(** Connections: C39, C43, C44, C47, and C10 for the handshakes. *)
From Coq Require Import NArith ZArith String Bool List Lia Permutation.
From Coq Require Import ZifyBool ZifyNat ZifyN.
From Coq.Strings Require Import Byte.
From Verif.Model Require Import Base Io Header Mask Dataframe Utf8 Text Base64 WsKey Headers
  Handshake Message Receiver Codec Framed Http Connect.
From Verif.Spec Require Import Fields Upgrade Builder HttpHead Connection.
From Verif.Proofs Require Import BaseFacts HeaderFacts Machine HttpFacts ThmHttp SpreadFacts
  MapFacts ThmServer ThmClient.
Import ListNotations.
Local Open Scope string_scope.
Local Open Scope list_scope.
Local Open Scope N_scope.

(** ** Receiving from a connection *)
Lemma client_recv_alike : forall n c s, unread c = spread s ->
  fst (client_recv_n n c) = fst (fst (recv_n n (c_receiver c) s)).
Proof.
  induction n as [|n IH]; intros c s H; [reflexivity|].
  cbn [client_recv_n recv_n]. unfold client_recv.
  assert (A : alike (push_back (c_buf c) (c_in c)) s).
  { unfold alike. rewrite spread_push_back. exact H. }
  destruct (alike_message (c_receiver c) _ _ A) as [H1 H2].
  destruct (recv_message (c_receiver c) (push_back (c_buf c) (c_in c))) as [[x r1] s1].
  destruct (recv_message (c_receiver c) s) as [[y r2] s2]. cbn [fst snd] in *.
  injection H1 as <- <-.
  specialize (IH (mk_client (c_headers c) (c_sender c) r1 [] s1 (c_out c)) s2).
  cbn [c_receiver unread c_buf c_in map app] in IH. specialize (IH H2).
  destruct (client_recv_n n _) as [l c2], (recv_n n r1 s2) as [[l' r3] s3].
  cbn [fst snd] in *. rewrite IH. reflexivity.
Qed.
Lemma into_ws_inv : forall X s w u, into_ws X s w = Ok u ->
  exists q rest s2, parse_request X s = (Ok q, rest, s2) /\
    validate (rq_method q) (rq_version q) (rq_headers q) = Ok tt /\
    u = mk_upgrade [] q (Some rest) s2 w.
Proof.
  intros X s w u H. unfold into_ws in H.
  destruct (parse_request X s) as [[[q|e| |] rest] s2]; try discriminate H.
  destruct (validate (rq_method q) (rq_version q) (rq_headers q)) as [[]|e| |] eqn:E; try discriminate H.
  injection H as <-. exists q, rest, s2. auto.
Qed.
Lemma accept_inv : forall custom df msg u c, internal_accept custom df msg u = Ok c ->
  exists h data w',
    @prepare_headers (script * wstream * io_kind) custom (up_headers u) (rq_headers (up_request u)) = Ok h /\
    @print_response (script * wstream * io_kind) (rq_version (up_request u)) switching_protocols h = Ok data /\
    write_all data (up_out u) = (Ok tt, w') /\
    c = unchecked_with_limits (match up_buffer u with Some b => b | None => [] end)
            (up_in u) w' h false true df msg.
Proof.
  intros custom df msg u c H. unfold internal_accept in H.
  destruct (prepare_headers custom (up_headers u) (rq_headers (up_request u))) as [h| | |] eqn:E1; try discriminate H.
  cbn [rbind] in H. destruct (print_response (rq_version (up_request u)) switching_protocols h) as [d| | |] eqn:E2; try discriminate H.
  cbn [rbind] in H. destruct (write_all d (up_out u)) as [[[]|k| |] w'] eqn:E3; try discriminate H.
  injection H as <-. exists h, d, w'. auto.
Qed.

(** [C43] A connection the blocking server accepted: the client's stream was a request head
    that meets the server's conditions, and then [after]; and the connection receives exactly
    what the limits it was accepted with let a receiver of masked frames receive from any
    stream that shows [after].  Nothing that came together with the head is lost. *)
Lemma server_connection_proof : forall X s w u custom max_df max_msg c, sound_lib X ->
  into_ws X s w = Ok u -> internal_accept custom max_df max_msg u = Ok c ->
  exists head m t v fs after,
    first_come head after s /\ request_head X m t v fs head /\
    Forall (fun x => fst x) (request_conditions (method_named m) v fs) /\
    up_request u = mk_req (method_named m) t v (from_raw fs) /\
    unread c = after /\
    forall n s', spread s' = after ->
      fst (client_recv_n n c) = fst (fst (recv_n n (receiver_with_limits true max_df max_msg) s')).
Proof.
  intros X s w u custom df msg c HX H1 H2.
  apply into_ws_inv in H1 as (q & rest & s2 & E1 & E2 & ->).
  apply accept_inv in H2 as (h & data & w' & _ & _ & _ & ->).
  apply (sync_request_only_proof X s q rest s2 HX) in E1 as (head & m & t & v & fs & A1 & A2 & _ & _ & ->).
  exists head, m, t, v, fs, (spread (push_back rest s2)). cbn [rq_method rq_version rq_headers] in E2.
  apply server_validate_iff_proof in E2.
  split; [exact A1|]. split; [exact A2|]. split; [exact E2|]. split; [reflexivity|].
  assert (U : unread (unchecked_with_limits rest s2 w' h false true df msg) = spread (push_back rest s2)).
  { rewrite spread_push_back. reflexivity. }
  split; [exact U|]. intros n s' Hs. apply client_recv_alike. rewrite Hs. exact U.
Qed.
(*EX Example server_connection_ex :
  let head := str "GET / HTTP/1.1" ++ crlf ++ str "Upgrade: websocket" ++ crlf ++ str "Connection: upgrade" ++ crlf ++
    str "Sec-WebSocket-Key: dGhlIHNhbXBsZSBub25jZQ==" ++ crlf ++ crlf in
  let ping := [x89; x80; x00; x00; x00; x00] in
  exists u c, into_ws httparse_lib (push_back (head ++ take 3 ping) (push_back (drop 3 ping) [])) (mk_w [] []) = Ok u /\
    internal_accept None 100 100 u = Ok c /\
    c_buf c = [x89; x80; x00] /\ fst (client_recv_n 1 c) = [Ok (OPing [])] /\
    take 12 (w_out (c_out c)) = str "HTTP/1.1 101".
Proof.
  do 2 eexists. split; [vm_compute; reflexivity|]. split; [vm_compute; reflexivity|].
  split; [vm_compute; reflexivity|]. split; vm_compute; reflexivity.
Qed. EX*)
(** [C43] The blocking client, likewise. *)
Lemma client_connection_proof : forall X rnd b s w c b' w', sound_lib X ->
  connect_on X rnd b s w = (Ok c, b', w') ->
  exists head v r fs after,
    first_come head after s /\ response_head X v 101 r fs head /\
    c_headers c = from_raw fs /\ unread c = after /\
    forall n s', spread s' = after ->
      fst (client_recv_n n c) = fst (fst (recv_n n (receiver_with_limits false (b_max_df b) (b_max_df b)) s')).
Proof.
  intros X rnd b s w c b' w' HX H. unfold connect_on in H.
  destruct (print_request (build_request rnd b)) as [d| | |]; try discriminate H.
  destruct (write_all d w) as [[[]|k| |] w1]; try discriminate H.
  destruct (parse_response X s) as [[[q|e| |] rest] s2] eqn:E1; try discriminate H.
  destruct (client_validate (build_request rnd b) q) as [[]|e| |] eqn:E2; try discriminate H.
  injection H as <- <- <-.
  apply (sync_response_only_proof X s q rest s2 HX) in E1 as (head & v & code & r & fs & A1 & A2 & _ & ->).
  assert (code = 101) as ->.
  { unfold client_validate in E2. cbn [rs_status rs_headers] in E2.
    destruct (N.eqb_spec code 101) as [|Hc]; [assumption|]. exfalso. cbn [negb] in E2.
    destruct (is_redirection code); [|discriminate E2].
    destruct (get_location (from_raw fs)) as [[l|]| | |]; discriminate E2. }
  exists head, v, r, fs, (spread (push_back rest s2)).
  split; [exact A1|]. split; [exact A2|]. split; [reflexivity|].
  assert (U : unread (unchecked_with_limits rest s2 w1 (from_raw fs) true false
      (b_max_df (build_request rnd b)) (b_max_df (build_request rnd b))) = spread (push_back rest s2)).
  { rewrite spread_push_back. reflexivity. }
  split; [exact U|]. intros n s' Hs. rewrite (client_recv_alike n _ s'); [reflexivity|].
  rewrite Hs. exact U.
Qed.

(*EX
(** A server that sends a ping along with its response. *)
Example client_connection_ex :
  let u := mk_url (ascii "ws") (Some (ascii "h")) None [] None (ascii "/") in
  let head := str "HTTP/1.1 101 Switching Protocols" ++ crlf ++ str "Connection: Upgrade" ++ crlf ++
    str "Upgrade: websocket" ++ crlf ++ str "Sec-WebSocket-Accept: s3pPLMBiTxaQ9kYGzzhZRbK+xOo=" ++ crlf ++ crlf in
  exists c b' w', connect_on httparse_lib (ascii "the sample nonce") (builder_init u)
      (push_back (head ++ [x89]) [RData x01 [x07]]) (mk_w [] []) = (Ok c, b', w') /\
    unread c = [inl x89; inl x01; inl x07] /\ fst (client_recv_n 1 c) = [Ok (OPing [x07])].
Proof.
  do 3 eexists. split; [vm_compute; reflexivity|]. split; vm_compute; reflexivity.
Qed.
EX*)


(** [C43] And the other way: a request head that meets the conditions, cut into reads in any
    way, within hyper's buffer, is accepted. *)
Lemma server_accepts_proof : forall X m t v fs head after s w, sound_lib X -> sound_room X ->
  request_head X m t v fs head -> (length fs <= 100)%nat -> target_accepted X t ->
  llen head <= 417792 -> first_come head after s ->
  Forall (fun x => fst x) (request_conditions (method_named m) v fs) ->
  exists u, into_ws X s w = Ok u /\
    up_request u = mk_req (method_named m) t v (from_raw fs) /\ up_headers u = [] /\ up_out u = w.
Proof.
  intros X m t v fs head after s w H1 H2 H3 H4 H5 H6 H7 H8.
  destruct (sync_request_read_proof X m t v fs head after s H1 H2 H3 H4 H5 H6 H7) as (rest & s2 & E & _).
  unfold into_ws. rewrite E. cbn [rq_method rq_version rq_headers].
  apply server_validate_iff_proof in H8. rewrite H8. eexists. repeat split.
Qed.

(*EX
(** Nothing more is asked for: lower case names, several words in Connection, HTTP/1.1. *)
Example server_accepts_ex :
  let head := str "GET /chat HTTP/1.1" ++ crlf ++ str "upgrade: WebSocket" ++ crlf ++
    str "connection: keep-alive, Upgrade" ++ crlf ++ str "sec-websocket-key: dGhlIHNhbXBsZSBub25jZQ==" ++ crlf ++ crlf in
  let s := push_back (take 20 head) (push_back (drop 20 head) []) in
  first_come head [] s /\
  exists u, into_ws httparse_lib s (mk_w [] []) = Ok u /\ rq_uri (up_request u) = str "/chat".
Proof. cbv zeta. split; [vm_compute; reflexivity|]. eexists. split; vm_compute; reflexivity. Qed.
EX*)

(** [C43] A request that is refused comes back whole: the error carries the request and the
    conditions it fails, and what was not read of the stream. *)
Lemma server_refuses_proof : forall X m t v fs head after s w e, sound_lib X -> sound_room X ->
  request_head X m t v fs head -> (length fs <= 100)%nat -> target_accepted X t ->
  llen head <= 417792 -> first_come head after s ->
  first_failing (request_conditions (method_named m) v fs) e ->
  exists rest s2, into_ws X s w =
      Err (mk_refusal s2 w (Some (mk_req (method_named m) t v (from_raw fs))) (Some rest) e) /\
    spread (push_back rest s2) = after.
Proof.
  intros X m t v fs head after s w e H1 H2 H3 H4 H5 H6 H7 H8.
  destruct (sync_request_read_proof X m t v fs head after s H1 H2 H3 H4 H5 H6 H7) as (rest & s2 & E & Ha).
  exists rest, s2. split; [|exact Ha].
  unfold into_ws. rewrite E. cbn [rq_method rq_version rq_headers].
  apply server_validate_error_proof in H8. rewrite H8. reflexivity.
Qed.

(*EX
(** A GET that asks for nothing, with a body behind it. *)
Example server_refuses_ex :
  let fs := [(str "Host", str "h")] in
  let head := str "GET / HTTP/1.1" ++ crlf ++ str "Host: h" ++ crlf ++ crlf in
  first_failing (request_conditions Get Http11 fs) NoSecWsKeyHeader /\
  into_ws httparse_lib (push_back (head ++ str "bo") [RData "d"%byte (str "y")]) (mk_w [] [])
  = Err (mk_refusal [RData "d"%byte (str "y")] (mk_w [] []) (Some (mk_req Get (str "/") Http11 (from_raw fs)))
      (Some (str "bo")) NoSecWsKeyHeader).
Proof.
  cbv zeta. split; [|vm_compute; reflexivity]. unfold request_conditions.
  apply ff_next; [reflexivity|]. apply ff_next; [split; discriminate|]. apply ff_next; [intros v H; discriminate H|].
  apply ff_here. intros [k [_ [t [_ [v [H _]]]]]]. discriminate H.
Qed.
EX*)

(** [C10] The blocking server's handshake ends with an upgrade or an error, whatever the
    stream. *)
Lemma into_ws_total_proof : forall X s w, sound_lib X ->
  (exists u, into_ws X s w = Ok u) \/ (exists f, into_ws X s w = Err f).
Proof.
  intros X s w HX. unfold into_ws.
  destruct (parse_request X s) as [[r rest] s2] eqn:E.
  pose proof (sync_head_total_proof X s) as HT. rewrite E in HT. cbn [fst] in HT.
  destruct HT as [[q ->]|[e ->]]; [|eauto].
  apply (sync_request_only_proof X s q rest s2 HX) in E as (head & m & t & v & fs & _ & _ & _ & _ & ->).
  cbn [rq_method rq_version rq_headers].
  destruct (server_validate_total_proof (method_named m) v fs) as [->|[e ->]]; eauto.
Qed.

(*EX
Example into_ws_total_ex :
  exists f, into_ws httparse_lib [RData x00 [x01]; RErr WouldBlock] (mk_w [] []) = Err f.
Proof. eexists. vm_compute. reflexivity. Qed.
EX*)


(** ** Splitting *)
Lemma pair_reader : forall us r w,
  filter received (fst (pair_run us (r, w))) = fst (reader_run us r) /\
  fst (snd (pair_run us (r, w))) = snd (reader_run us r).
Proof.
  induction us as [|u us IH]; intros r w; [split; reflexivity|].
  cbn [pair_run use_pair]. destruct u as [m k|d k| |].
  - destruct (writer_send m k w) as [x w']. destruct (IH r w') as [H1 H2].
    destruct (pair_run us (r, w')) as [l p]. split; assumption.
  - destruct (writer_send_frame d k w) as [x w']. destruct (IH r w') as [H1 H2].
    destruct (pair_run us (r, w')) as [l p]. split; assumption.
  - cbn [reader_run]. destruct (reader_recv r) as [x r']. destruct (IH r' w) as [H1 H2].
    destruct (pair_run us (r', w)) as [l p], (reader_run us r') as [l' p'].
    cbn [fst snd filter received] in *. rewrite H1. auto.
  - cbn [reader_run]. destruct (reader_recv_frame r) as [x r']. destruct (IH r' w) as [H1 H2].
    destruct (pair_run us (r', w)) as [l p], (reader_run us r') as [l' p'].
    cbn [fst snd filter received] in *. rewrite H1. auto.
Qed.
Lemma pair_writer : forall us r w,
  filter sent (fst (pair_run us (r, w))) = fst (writer_run us w) /\
  snd (snd (pair_run us (r, w))) = snd (writer_run us w).
Proof.
  induction us as [|u us IH]; intros r w; [split; reflexivity|].
  cbn [pair_run use_pair]. destruct u as [m k|d k| |].
  - cbn [writer_run]. destruct (writer_send m k w) as [x w']. destruct (IH r w') as [H1 H2].
    destruct (pair_run us (r, w')) as [l p], (writer_run us w') as [l' p'].
    cbn [fst snd filter sent received negb] in *. rewrite H1. auto.
  - cbn [writer_run]. destruct (writer_send_frame d k w) as [x w']. destruct (IH r w') as [H1 H2].
    destruct (pair_run us (r, w')) as [l p], (writer_run us w') as [l' p'].
    cbn [fst snd filter sent received negb] in *. rewrite H1. auto.
  - destruct (reader_recv r) as [x r']. destruct (IH r' w) as [H1 H2].
    destruct (pair_run us (r', w)) as [l p]. split; assumption.
  - destruct (reader_recv_frame r) as [x r']. destruct (IH r' w) as [H1 H2].
    destruct (pair_run us (r', w)) as [l p]. split; assumption.
Qed.
Definition halves (c : client) : reader * writer :=
  (mk_reader (c_receiver c) (c_buf c) (c_in c), mk_writer (c_sender c) (c_out c)).
Lemma run_halves : forall us c,
  fst (pair_run us (halves c)) = fst (client_run us c) /\
  snd (pair_run us (halves c)) = halves (snd (client_run us c)).
Proof.
  induction us as [|u us IH]; intros c; [split; reflexivity|].
  cbn [pair_run client_run].
  assert (H : let '(a, c1) := use_client u c in use_pair u (halves c) = (a, halves c1)).
  { unfold halves. destruct u as [m k|d k| |]; cbn [use_client use_pair].
    - unfold client_send, writer_send, client_send_frame, writer_send_frame. cbn [wr_sender wr_out].
      destruct (send_frame (c_sender c) (owned_ops m) k (c_out c)) as [r w]. reflexivity.
    - unfold client_send_frame, writer_send_frame. cbn [wr_sender wr_out].
      destruct (send_frame (c_sender c) d k (c_out c)) as [r w]. reflexivity.
    - unfold client_recv, reader_recv. cbn [rd_receiver rd_buf rd_in].
      destruct (recv_message (c_receiver c) (push_back (c_buf c) (c_in c))) as [[x rc] s]. reflexivity.
    - unfold client_recv_frame, reader_recv_frame. cbn [rd_receiver rd_buf rd_in].
      destruct (recv_dataframe (c_receiver c) (push_back (c_buf c) (c_in c))) as [x s]. reflexivity. }
  destruct (use_client u c) as [a c1]. rewrite H. destruct (IH c1) as [H1 H2].
  destruct (pair_run us (halves c1)) as [l p], (client_run us c1) as [l' c2].
  cbn [fst snd] in *. rewrite H1, H2. split; reflexivity.
Qed.

(** [C44] Whatever a program does with a connection, it gets the same answers when it has
    split it and receives with one half and sends with the other; the same bytes are written, and
    the same are left to read. *)
Lemma split_same_proof : forall us c r w, split None c = Ok (r, w) ->
  let '(l, (r', w')) := pair_run us (r, w) in let '(l', c') := client_run us c in
  l = l' /\ wr_out w' = c_out c' /\ map inl (rd_buf r') ++ spread (rd_in r') = unread c'.
Proof.
  intros us c r w H. injection H as <- <-. destruct (run_halves us c) as [H1 H2]. unfold halves in H1, H2 at 1.
  destruct (pair_run us _) as [l [r' w']], (client_run us c) as [l' c']. cbn [fst snd] in *.
  injection H2 as -> ->. auto.
Qed.
(*EX Example split_same_ex :
  let c := unchecked [x89; x00] [RData x8a [x00]] (mk_w [] []) [] true false in
  exists r w, split None c = Ok (r, w) /\
  let '(l, (r', w')) := pair_run [SendMessage (OPing []) (mk_key x01 x02 x03 x04); RecvMessage; RecvFrame] (r, w) in
  l = [Sent (Ok tt); Message (Ok (OPing [])); Frame (Ok (mk_df true (false, false, false) Pong []))] /\
  w_out (wr_out w') = [x89; x80; x01; x02; x03; x04] /\ rd_in r' = [].
Proof. do 2 eexists. split; [reflexivity|]. vm_compute. auto. Qed. EX*)
(** [C44] And the halves do not disturb each other: what the reader gets depends only on what
    the reader does, and what the writer gets and has written only on what the writer does,
    however the two are interleaved. *)
Lemma split_independent_proof : forall us r w,
  filter received (fst (pair_run us (r, w))) = fst (reader_run us r) /\
  filter sent (fst (pair_run us (r, w))) = fst (writer_run us w) /\
  snd (pair_run us (r, w)) = (snd (reader_run us r), snd (writer_run us w)).
Proof.
  intros us r w. destruct (pair_reader us r w) as [H1 H2], (pair_writer us r w) as [H3 H4].
  split; [exact H1|]. split; [exact H3|]. rewrite <- H2, <- H4.
  destruct (snd (pair_run us (r, w))). reflexivity.
Qed.

(*EX
(** A reader that fails does not stop the writer, nor the other way round. *)
Example split_independent_ex :
  let r := mk_reader (receiver_new false) [] [RErr WouldBlock; RData x89 [x00]] in
  let w := mk_writer (mk_sender false) (mk_w [] [WErr ConnectionReset]) in
  let p := mk_key x00 x00 x00 x00 in
  fst (pair_run [RecvMessage; SendMessage (OPing []) p; SendMessage (OPong []) p; RecvMessage] (r, w))
  = [Message (Err (IoError WouldBlock)); Sent (Err (IoError ConnectionReset)); Sent (Ok tt); Message (Ok (OPing []))].
Proof. vm_compute. reflexivity. Qed.
EX*)

Lemma reader_filter : forall us r, reader_run us r = reader_run (filter receives us) r.
Proof.
  induction us as [|u us IH]; intros r; [reflexivity|].
  destruct u as [m k|d k| |]; cbn [reader_run filter receives]; try apply IH.
  - destruct (reader_recv r) as [x r']. rewrite IH. reflexivity.
  - destruct (reader_recv_frame r) as [x r']. rewrite IH. reflexivity.
Qed.
Lemma writer_filter : forall us w, writer_run us w = writer_run (filter sends us) w.
Proof.
  induction us as [|u us IH]; intros w; [reflexivity|].
  destruct u as [m k|d k| |]; cbn [writer_run filter sends receives negb]; try apply IH.
  - destruct (writer_send m k w) as [x w']. rewrite IH. reflexivity.
  - destruct (writer_send_frame d k w) as [x w']. rewrite IH. reflexivity.
Qed.
(** [C44] Two interleavings of the same receives and the same sends give the same. *)
Lemma interleaving_proof : forall us us' c,
  filter receives us = filter receives us' -> filter sends us = filter sends us' ->
  filter received (fst (client_run us c)) = filter received (fst (client_run us' c)) /\
  filter sent (fst (client_run us c)) = filter sent (fst (client_run us' c)) /\
  into_stream (snd (client_run us c)) = into_stream (snd (client_run us' c)).
Proof.
  intros us us' c H1 H2.
  destruct (run_halves us c) as [A1 A2], (run_halves us' c) as [B1 B2].
  destruct (halves c) as [r w] eqn:E.
  destruct (pair_reader us r w) as [C1 C2], (pair_reader us' r w) as [D1 D2].
  destruct (pair_writer us r w) as [C3 C4], (pair_writer us' r w) as [D3 D4].
  rewrite (reader_filter us), H1, <- (reader_filter us') in C1, C2.
  rewrite (writer_filter us), H2, <- (writer_filter us') in C3, C4.
  rewrite <- A1, <- B1. split; [congruence|]. split; [congruence|].
  assert (G : halves (snd (client_run us c)) = halves (snd (client_run us' c))).
  { rewrite <- A2, <- B2. destruct (snd (pair_run us (r, w))), (snd (pair_run us' (r, w))).
    cbn [fst snd] in *. congruence. }
  unfold halves in G. injection G as G1 G2 G3 G4 G5. unfold into_stream. congruence.
Qed.

(*EX
Example interleaving_ex :
  let k := mk_key x01 x02 x03 x04 in
  let us := [RecvMessage; SendMessage (OPing []) k; RecvFrame; SendMessage (OClose None) k] in
  let us' := [SendMessage (OPing []) k; SendMessage (OClose None) k; RecvMessage; RecvFrame] in
  filter receives us = filter receives us' /\ filter sends us = filter sends us' /\ us <> us'.
Proof. cbv zeta. split; [reflexivity|]. split; [reflexivity|discriminate]. Qed.
EX*)


(** ** Asynchronous connections *)
Lemma poll_fresh : forall St Item (decode : St -> bytes -> result (option Item) ws_error * St * bytes)
  st buf s, framed_poll decode (apush_back buf s) (framed_new st [])
    = framed_poll decode s (framed_new st buf) \/ buf = [].
Proof. intros St Item decode st [|b buf] s; [right; reflexivity|left; reflexivity]. Qed.
Lemma poll_n_fresh : forall St Item (decode : St -> bytes -> result (option Item) ws_error * St * bytes)
  n st buf s, poll_n decode n s (framed_new st buf) = poll_n decode n (apush_back buf s) (framed_new st []).
Proof.
  intros St Item decode [|n] st buf s; [reflexivity|]. cbn [poll_n].
  destruct (poll_fresh St Item decode st buf s) as [->| ->]; reflexivity.
Qed.
Lemma async_accept_inv : forall custom df msg extra u a h, async_accept custom df msg extra u = Ok (a, h) ->
  exists data w',
    @prepare_headers ws_error custom (au_headers u) (rq_headers (au_request u)) = Ok h /\
    @print_response ws_error (rq_version (au_request u)) switching_protocols h = Ok data /\
    http_send data extra (au_out u) = (SReady, w') /\
    a = mk_aclient (framed_new (msg_codec_with_limits CtxServer df msg) (au_buffer u)) (au_in u) w'.
Proof.
  intros custom df msg extra u a h H. unfold async_accept in H.
  destruct (prepare_headers custom (au_headers u) (rq_headers (au_request u))) as [h'| | |] eqn:E1; try discriminate H.
  cbn [rbind] in H. destruct (print_response (rq_version (au_request u)) switching_protocols h') as [d| | |] eqn:E2; try discriminate H.
  cbn [rbind] in H. destruct (http_send d extra (au_out u)) as [[| |e] w'] eqn:E3; try discriminate H.
  injection H as <- <-. exists d, w'. auto.
Qed.

(** [C43] The asynchronous server: a request head that meets the conditions is accepted,
    however it is cut into chunks; and the accepted connection polls exactly as a new one, of
    a server with the limits given, on the stream after the head. *)
Lemma async_server_connection_proof : forall X m t v fs head s s' w, sound_lib X ->
  request_head X m t v fs head -> (length fs <= 100)%nat -> target_accepted X t ->
  ends_first head -> aflows s head s' ->
  Forall (fun x => fst x) (request_conditions (method_named m) v fs) ->
  exists u, async_into_ws X s w = Ok u /\
    au_request u = mk_req (method_named m) t v (from_raw fs) /\ au_headers u = [] /\ au_out u = w /\
    forall custom max_df max_msg extra a h,
      async_accept custom max_df max_msg extra u = Ok (a, h) ->
      forall n, poll_n mc_decode n (ac_in a) (ac_read a)
        = poll_n mc_decode n s' (framed_new (msg_codec_with_limits CtxServer max_df max_msg) []).
Proof.
  intros X m t v fs head s s' w H1 H2 H3 H4 H5 H6 H7.
  destruct (async_request_read_proof X m t v fs head s s' H1 H2 H3 H4 H5 H6) as (rest & s2 & E & ->).
  unfold async_into_ws. rewrite E. cbn [finish_into_ws rq_method rq_version rq_headers fr_buf].
  apply server_validate_iff_proof in H7. rewrite H7. eexists. split; [reflexivity|].
  split; [reflexivity|]. split; [reflexivity|]. split; [reflexivity|].
  intros custom df msg extra a h Ha n. apply async_accept_inv in Ha as (d & w' & _ & _ & _ & ->).
  cbn [ac_in ac_read au_buffer au_in]. apply poll_n_fresh.
Qed.
(*EX Example async_server_connection_ex :
  let head := str "GET / HTTP/1.1" ++ crlf ++ str "Upgrade: websocket" ++ crlf ++ str "Connection: upgrade" ++ crlf ++
    str "Sec-WebSocket-Key: dGhlIHNhbXBsZSBub25jZQ==" ++ crlf ++ crlf in
  exists u a h, async_into_ws httparse_lib (apush_back (head ++ [x89; x80; x00]) [ANotReady; AData x00 [x00; x00]])
      (mk_fw (mk_bm [] 0) [] [] []) = Ok u /\
    au_buffer u = [x89; x80; x00] /\
    async_accept None 100 100 0 u = Ok (a, h) /\
    poll_n mc_decode 2 (ac_in a) (ac_read a) = [PNotReady; PItem (OPing [])].
Proof.
  do 3 eexists. split; [vm_compute; reflexivity|]. split; [vm_compute; reflexivity|].
  split; vm_compute; reflexivity.
Qed. EX*)
(** [C43] The asynchronous client, likewise; and it takes the limits it was built with. *)
Lemma async_client_connection_proof : forall X rnd b extra s w a h v code r fs head s', sound_lib X ->
  async_connect_on X rnd b extra s w = Ok (a, h) ->
  response_head X v code r fs head -> (length fs <= 100)%nat -> ends_first head -> aflows s head s' ->
  code = 101 /\ h = from_raw fs /\
  forall n, poll_n mc_decode n (ac_in a) (ac_read a)
    = poll_n mc_decode n s' (framed_new (msg_codec_with_limits CtxClient (b_max_df b) (b_max_msg b)) []).
Proof.
  intros X rnd b extra s w a h v code r fs head s' HX H H1 H2 H3 H4.
  destruct (async_response_read_proof X v code r fs head s s' HX H1 H2 H3 H4) as (rest & s2 & E & ->).
  unfold async_connect_on in H.
  destruct (print_request (build_request rnd b)) as [d| | |]; try discriminate H. cbn [rbind] in H.
  destruct (http_send d extra w) as [[| |e] w']; try discriminate H. rewrite E in H.
  destruct (client_validate (build_request rnd b) (mk_resp v code r (from_raw fs))) as [[]|e| |] eqn:E2;
    try discriminate H.
  cbn [rbind] in H. injection H as <- <-.
  assert (code = 101) as ->.
  { unfold client_validate in E2. cbn [rs_status rs_headers] in E2.
    destruct (N.eqb_spec code 101) as [|Hc]; [assumption|]. exfalso. cbn [negb] in E2.
    destruct (is_redirection code); [|discriminate E2].
    destruct (get_location (from_raw fs)) as [[l|]| | |]; discriminate E2. }
  split; [reflexivity|]. split; [reflexivity|]. intros n. apply poll_n_fresh.
Qed.

(*EX
Example async_client_connection_ex :
  let u := mk_url (ascii "ws") (Some (ascii "h")) None [] None (ascii "/") in
  let head := str "HTTP/1.1 101 Switching Protocols" ++ crlf ++ str "Connection: Upgrade" ++ crlf ++
    str "Upgrade: websocket" ++ crlf ++ str "Sec-WebSocket-Accept: s3pPLMBiTxaQ9kYGzzhZRbK+xOo=" ++ crlf ++ crlf in
  exists a h, async_connect_on httparse_lib (ascii "the sample nonce") (builder_init u) 0
      (apush_back (head ++ [x89]) [ANotReady; AData x01 [x07]]) (mk_fw (mk_bm [] 0) [] [] []) = Ok (a, h) /\
    poll_n mc_decode 3 (ac_in a) (ac_read a) = [PNotReady; PItem (OPing [x07]); PEnd].
Proof. do 2 eexists. split; vm_compute; reflexivity. Qed.
EX*)


(** ** Sending a head *)
Lemma encode_all : forall data extra dst, bm_data (http_encode data extra dst) = bm_data dst ++ data.
Proof.
  intros data extra dst. unfold http_encode.
  destruct (N.ltb_spec (remaining_mut dst) (llen data)) as [H|H]; cbn [bm_data].
  - unfold bm_reserve. destruct (N.leb_spec (llen data) (remaining_mut dst)); [lia|].
    cbn [bm_data]. f_equal. apply take_all. unfold remaining_mut. cbn [bm_cap bm_data]. lia.
  - f_equal. apply take_all. lia.
Qed.
Lemma flush_go_shape : forall ws data out r data' out' ws', flush_go ws data out = (r, data', out', ws') ->
  out ++ data = out' ++ data' /\ (length ws' <= length ws)%nat /\
  (r = None -> data' = []) /\ (r = Some SNotReady -> (length ws' < length ws)%nat) /\ r <> Some SReady /\
  (Forall (fun e => match e with AwAccept _ | AwNotReady => True | _ => False end) ws ->
   Forall (fun e => match e with AwAccept _ | AwNotReady => True | _ => False end) ws' /\
   (r = None \/ r = Some SNotReady)).
Proof.
  induction ws as [|e ws IH]; intros data out r data' out' ws' H; destruct data as [|b data]; cbn [flush_go] in H.
  - injection H as <- <- <- <-. repeat split; try discriminate; auto; lia.
  - injection H as <- <- <- <-. rewrite app_nil_r. repeat split; try discriminate; auto; lia.
  - injection H as <- <- <- <-. repeat split; try discriminate; auto; lia.
  - destruct e as [n| | |k].
    + apply IH in H as (A1 & A2 & A3 & A4 & A5 & A6). rewrite <- app_assoc, take_drop in A1.
      split; [exact A1|]. split; [cbn [length]; lia|]. split; [exact A3|].
      split; [intros E; specialize (A4 E); cbn [length]; lia|]. split; [exact A5|].
      intros F. inversion F; subst. auto.
    + injection H as <- <- <- <-. split; [reflexivity|]. split; [cbn [length]; lia|]. split; [discriminate|].
      split; [cbn [length]; lia|]. split; [discriminate|]. intros F. inversion F; subst. auto.
    + injection H as <- <- <- <-. split; [reflexivity|]. split; [cbn [length]; lia|]. split; [discriminate|].
      split; [discriminate|]. split; [discriminate|]. intros F. inversion F; contradiction.
    + injection H as <- <- <- <-. split; [reflexivity|]. split; [cbn [length]; lia|]. split; [discriminate|].
      split; [discriminate|]. split; [discriminate|]. intros F. inversion F; contradiction.
Qed.
Lemma poll_complete_shape : forall w r w', poll_complete w = (r, w') ->
  fw_out w ++ bm_data (fw_buf w) = fw_out w' ++ bm_data (fw_buf w') /\
  (r = SReady -> bm_data (fw_buf w') = []) /\
  (r = SNotReady -> (length (fw_ws w') + length (fw_fs w') < length (fw_ws w) + length (fw_fs w))%nat) /\
  (afails_never w -> afails_never w' /\ (r = SReady \/ r = SNotReady)).
Proof.
  intros w r w' H. unfold poll_complete in H.
  destruct (flush_go (fw_ws w) (bm_data (fw_buf w)) (fw_out w)) as [[[q data] out] ws] eqn:E.
  apply flush_go_shape in E as (A1 & A2 & A3 & A4 & A5 & A6). unfold afails_never.
  destruct q as [q|].
  - injection H as <- <-. cbn [fw_out fw_buf bm_data fw_ws fw_fs].
    split; [exact A1|]. split; [intros ->; contradiction|]. split; [intros ->; specialize (A4 eq_refl); lia|].
    intros [F1 F2]. destruct (A6 F1) as [G1 [G2|G2]]; [discriminate G2|]. injection G2 as ->. auto.
  - specialize (A3 eq_refl). subst data.
    destruct (fw_fs w) as [|[| |k] fs]; injection H as <- <-; cbn [fw_out fw_buf bm_data fw_ws fw_fs];
      (split; [exact A1|]; split; [auto|]; split; [intros; try discriminate; cbn [length]; lia|]);
      intros [F1 F2]; try (inversion F2; subst); destruct (A6 F1) as [G1 _]; auto. contradiction.
Qed.
Lemma flush_all_shape : forall fuel w, (length (fw_ws w) + length (fw_fs w) < fuel)%nat ->
  let '(r, w') := flush_all fuel w in
  fw_out w ++ bm_data (fw_buf w) = fw_out w' ++ bm_data (fw_buf w') /\
  r <> SNotReady /\ (r = SReady -> bm_data (fw_buf w') = []) /\
  (afails_never w -> afails_never w' /\ r = SReady).
Proof.
  induction fuel as [|fuel IH]; intros w Hf; [lia|]. cbn [flush_all].
  destruct (poll_complete w) as [r w1] eqn:E. apply poll_complete_shape in E as (A1 & A2 & A3 & A4).
  destruct r as [| |e].
  - split; [exact A1|]. split; [discriminate|]. split; [exact A2|]. intros F. destruct (A4 F). auto.
  - specialize (A3 eq_refl). specialize (IH w1 ltac:(lia)). destruct (flush_all fuel w1) as [r2 w2].
    destruct IH as (B1 & B2 & B3 & B4). split; [congruence|]. split; [exact B2|]. split; [exact B3|].
    intros F. apply B4. apply (A4 F).
  - split; [exact A1|]. split; [discriminate|]. split; [discriminate|].
    intros F. destruct (A4 F) as [_ [G|G]]; discriminate G.
Qed.
(** [C34] A head handed to the asynchronous transport: it ends with the head written, whole and
    behind what was buffered before, or with an error; and with a transport that never fails it
    is written. *)
Lemma head_sent_proof : forall data extra w,
  (exists w', http_send data extra w = (SReady, w') /\
     fw_out w' = fw_out w ++ bm_data (fw_buf w) ++ data /\ bm_data (fw_buf w') = []) \/
  (exists e w', http_send data extra w = (SErr e, w') /\ ~ afails_never w).
Proof.
  intros data extra w. unfold http_send.
  set (w0 := mk_fw (http_encode data extra (fw_buf w)) (fw_out w) (fw_ws w) (fw_fs w)).
  pose proof (flush_all_shape (S (length (fw_ws w) + length (fw_fs w))) w0) as H.
  cbn [fw_ws fw_fs fw_out fw_buf w0] in H. specialize (H ltac:(subst w0; cbn [fw_ws fw_fs]; lia)).
  destruct (flush_all _ w0) as [r w'].
  destruct H as (A1 & A2 & A3 & A4). destruct r as [| |e]; [| contradiction |].
  - left. exists w'. split; [reflexivity|]. specialize (A3 eq_refl). split; [|exact A3].
    rewrite A3, app_nil_r in A1. rewrite <- A1. subst w0. cbn [fw_out fw_buf]. rewrite encode_all. reflexivity.
  - right. exists e, w'. split; [reflexivity|]. intros F. destruct (A4 F) as [_ G]. discriminate G.
Qed.
(*EX Example head_sent_ex :
  http_send (str "abc") 0 (mk_fw (mk_bm [] 0) [] [AwAccept 0; AwNotReady] [AfNotReady])
  = (SReady, mk_fw (mk_bm [] 0) (str "abc") [] []).
Proof. reflexivity. Qed. EX*)

(** ** The asynchronous server *)
Lemma http_poll : forall A (try : bytes -> pres A) s f, fr_eof f = false ->
  match framed_poll (http_decode try) s f with
  | (PNotReady, f', s') => fr_eof f' = false /\ (length s' < length s)%nat
  | (PItem (inl q), _, _) => exists h r, try h = Done q r
  | (PPanic, _, _) | (POutOfFuel, _, _) => False
  | _ => True
  end.
Proof.
  intros A try.
  assert (D : forall st src, match http_decode try st src with
    | (Ok (Some (inl q)), _, _) => exists h r, try h = Done q r
    | (Ok _, _, _) => True
    | _ => False end).
  { intros st src. unfold http_decode. destruct (split_off_http src) as [[h r]|]; [|exact I].
    destruct (try h) as [q r'| |e] eqn:E; [exists h, r'; exact E|exact I|destruct e; exact I]. }
  assert (FD : forall f, fr_eof f = false ->
    match framed_decode (http_decode try) f with
    | (Some (PItem (inl q)), _) => exists h r, try h = Done q r
    | (Some PPanic, _) | (Some POutOfFuel, _) | (Some PNotReady, _) => False
    | (None, f') => fr_eof f' = false
    | _ => True end).
  { intros f Hf. unfold framed_decode. destruct (fr_readable f); [|exact Hf].
    specialize (D (fr_st f) (fr_buf f)). destruct (http_decode try (fr_st f) (fr_buf f)) as [[[[[q|e]|]|e| |] st] buf];
      try contradiction; try exact D; try exact I. rewrite Hf. reflexivity. }
  induction s as [|e s IH]; intros f Hf; cbn [framed_poll]; specialize (FD f Hf) as HFD;
    destruct (framed_decode (http_decode try) f) as [[p|] f'].
  - destruct p as [[q|x]| | |x| |]; auto; contradiction.
  - rewrite HFD. unfold framed_decode. cbn [fr_readable fr_st fr_buf fr_eof].
    specialize (D (fr_st f') (fr_buf f')).
    destruct (http_decode try (fr_st f') (fr_buf f')) as [[[[[q|x]|]|x| |] st] [|b0 buf]];
      try contradiction; try exact D; exact I.
  - destruct p as [[q|x]| | |x| |]; auto; contradiction.
  - rewrite HFD. destruct e as [b bs| |k].
    + specialize (IH (mk_framed (fr_st f') (fr_buf f' ++ b :: bs) true false) eq_refl).
      destruct (framed_poll (http_decode try) s _) as [[[[q|x]| | |x| |] f2] s2]; auto.
      destruct IH. split; [assumption|cbn [length]; lia].
    + split; [exact HFD|]. cbn [length]. lia.
    + exact I.
Qed.
Lemma first_item_fuel : forall A (try : bytes -> pres A) n1 n2 s f, fr_eof f = false ->
  (length s < n1)%nat -> (length s < n2)%nat ->
  first_item (http_decode try) n1 s f = first_item (http_decode try) n2 s f.
Proof.
  intros A try. induction n1 as [|n1 IH]; intros n2 s f Hf H1 H2; [lia|].
  destruct n2 as [|n2]; [lia|]. cbn [first_item]. pose proof (http_poll A try s f Hf) as H.
  destruct (framed_poll (http_decode try) s f) as [[p f'] s']. destruct p as [i| | |e| |]; auto.
  destruct H as [H3 H4]. apply IH; [exact H3|lia|lia].
Qed.
(** What a pending handshake will end with. *)
Definition fate (X : http_lib) (h : handshake) : N * result aupgrade arefusal :=
  let '(p, f, s) := first_item (http_decode (try_request X)) (S (length (hs_in h))) (hs_in h) (hs_framed h) in
  (hs_peer h, finish_into_ws p f s (hs_out h)).
Lemma poll_fate : forall X h, fr_eof (hs_framed h) = false ->
  match handshake_poll X h with
  | inl h' => fate X h' = fate X h /\ fr_eof (hs_framed h') = false /\
              (length (hs_in h') < length (hs_in h))%nat
  | inr o => o = fate X h
  end.
Proof.
  intros X h Hf. unfold handshake_poll.
  pose proof (http_poll _ (try_request X) (hs_in h) (hs_framed h) Hf) as H.
  assert (F : fate X h = let '(p, f, s) := match framed_poll (http_decode (try_request X)) (hs_in h) (hs_framed h) with
      | (PNotReady, f', s') => first_item (http_decode (try_request X)) (length (hs_in h)) s' f'
      | r => r end in (hs_peer h, finish_into_ws p f s (hs_out h))) by reflexivity.
  destruct (framed_poll (http_decode (try_request X)) (hs_in h) (hs_framed h)) as [[p f'] s'].
  destruct p as [i| | |e| |]; try (symmetry; exact F). destruct H as [H1 H2].
  split; [|split; [exact H1|exact H2]]. rewrite F. unfold fate. cbn [hs_in hs_framed hs_peer hs_out].
  rewrite (first_item_fuel _ (try_request X) (S (length s')) (length (hs_in h)) s' f' H1) by lia. reflexivity.
Qed.
Lemma fate_new : forall X c, fate X (let '(p, s, w) := c in handshake_new p s w) = alone X c.
Proof.
  intros X [[p s] w]. unfold fate, alone, async_into_ws, await_head. cbn [handshake_new hs_in hs_framed hs_peer hs_out].
  destruct (first_item _ _ _ _) as [[q f] s2]. reflexivity.
Qed.
Definition sane (h : handshake) : Prop := fr_eof (hs_framed h) = false.
Lemma outcomes_app : forall A B (l1 l2 : list (A + B)), outcomes (l1 ++ l2) = outcomes l1 ++ outcomes l2.
Proof. induction l1 as [|[a|b] l1 IH]; intros l2; cbn [outcomes app]; rewrite ?IH; reflexivity. Qed.
Lemma failures_app : forall A B (l1 l2 : list (A + B)), failures (l1 ++ l2) = failures l1 ++ failures l2.
Proof. induction l1 as [|[a|b] l1 IH]; intros l2; cbn [failures app]; rewrite ?IH; reflexivity. Qed.
Lemma nth_cut : forall A (l : list A) i x, nth_error l i = Some x -> l = firstn i l ++ x :: skipn (S i) l.
Proof.
  induction l as [|y l IH]; intros [|i] x H; try discriminate H; cbn [nth_error firstn skipn app] in *.
  - injection H as ->. reflexivity.
  - f_equal. apply IH. exact H.
Qed.
(** One step: what was settled stays so. *)
Lemma step_invariant : forall X st e all errs, Forall sane (in_pending st) ->
  Permutation all (outcomes (in_yielded st) ++ map (fate X) (in_pending st)) ->
  failures (in_yielded st) = errs ->
  let st' := incoming_step X st e in
  Forall sane (in_pending st') /\
  Permutation (all ++ match e with NewConnection p s w => [alone X (p, s, w)] | _ => [] end)
    (outcomes (in_yielded st') ++ map (fate X) (in_pending st')) /\
  failures (in_yielded st') = errs ++ match e with ListenerError k => [k] | _ => [] end.
Proof.
  intros X st e all errs HS HP HF. destruct e as [p s w|k|i]; cbn [incoming_step].
  - cbn [in_pending in_yielded]. split; [|split; [|rewrite app_nil_r; exact HF]].
    + apply Forall_app. split; [exact HS|]. constructor; [reflexivity|constructor].
    + rewrite map_app, app_assoc. cbn [map]. rewrite (fate_new X (p, s, w)).
      apply Permutation_app_tail. exact HP.
  - cbn [in_pending in_yielded]. rewrite outcomes_app, failures_app. cbn [outcomes failures].
    rewrite !app_nil_r. split; [exact HS|]. split; [exact HP|]. rewrite HF. reflexivity.
  - rewrite !app_nil_r. destruct (nth_error (in_pending st) i) as [h|] eqn:E; [|auto].
    apply nth_cut in E. rewrite E in HS, HP. apply Forall_app in HS as [HS1 HS2].
    inversion HS2 as [|h0 l0 Hh HS3]; subst h0 l0.
    pose proof (poll_fate X h Hh) as HQ. destruct (handshake_poll X h) as [h'|o]; cbn [in_pending in_yielded].
    + destruct HQ as (Q1 & Q2 & _). split; [|split; [|exact HF]].
      * apply Forall_app. split; [exact HS1|]. constructor; assumption.
      * rewrite map_app in HP |- *. cbn [map] in HP |- *. rewrite Q1. exact HP.
    + split; [apply Forall_app; auto|]. rewrite outcomes_app, failures_app. cbn [outcomes failures].
      split; [|rewrite app_nil_r; exact HF].
      rewrite map_app in HP |- *. cbn [map] in HP. rewrite <- HQ in HP.
      eapply Permutation_trans; [exact HP|]. rewrite <- app_assoc. cbn [app].
      apply Permutation_app_head. apply Permutation_sym, Permutation_middle.
Qed.
Lemma arrived_snoc : forall es e, arrived (es ++ [e]) = arrived es ++ match e with NewConnection p s w => [(p, s, w)] | _ => [] end.
Proof.
  induction es as [|x es IH]; intros e; [destruct e; reflexivity|].
  cbn [app arrived]. destruct x; rewrite IH; reflexivity.
Qed.
Lemma errors_snoc : forall es e, listener_errors (es ++ [e]) = listener_errors es ++ match e with ListenerError k => [k] | _ => [] end.
Proof.
  induction es as [|x es IH]; intros e; [destruct e; reflexivity|].
  cbn [app listener_errors]. destruct x; rewrite IH; reflexivity.
Qed.
Lemma run_snoc : forall X es e, incoming_run X (es ++ [e]) = incoming_step X (incoming_run X es) e.
Proof. intros X es e. unfold incoming_run. rewrite fold_left_app. reflexivity. Qed.
Lemma run_invariant : forall X es,
  Forall sane (in_pending (incoming_run X es)) /\
  Permutation (map (alone X) (arrived es))
    (outcomes (in_yielded (incoming_run X es)) ++ map (fate X) (in_pending (incoming_run X es))) /\
  failures (in_yielded (incoming_run X es)) = listener_errors es.
Proof.
  intros X es. induction es as [|e es (H1 & H2 & H3)] using rev_ind.
  - split; [constructor|]. split; [constructor|reflexivity].
  - rewrite run_snoc, arrived_snoc, errors_snoc, map_app.
    pose proof (step_invariant X (incoming_run X es) e _ _ H1 H2 H3) as H. cbv zeta in H.
    destruct H as (A1 & A2 & A3). split; [exact A1|]. split; [|exact A3].
    destruct e; exact A2.
Qed.

(** [C47] Whatever connections come and however their handshakes are scheduled: the outcomes
    the server has yielded, together with one for every handshake still running, are those the
    connections would have each on its own, no connection missing or twice; and the listener's
    errors are yielded, in order. *)
Lemma one_outcome_each_proof : forall X es,
  let st := incoming_run X es in
  exists open, length open = length (in_pending st) /\
    Permutation (map (alone X) (arrived es)) (outcomes (in_yielded st) ++ open) /\
    failures (in_yielded st) = listener_errors es.
Proof.
  intros X es st. destruct (run_invariant X es) as (_ & H2 & H3).
  exists (map (fate X) (in_pending st)). split; [apply map_length|]. split; assumption.
Qed.

(*EX
(** Two connections, of which one is never polled; an error of the listener in between. *)
Example one_outcome_each_ex :
  let w := mk_fw (mk_bm [] 0) [] [] [] in
  let es := [NewConnection 1 [] w; ListenerError WouldBlock; NewConnection 2 [] w; PollFuture 1; PollFuture 1] in
  let st := incoming_run httparse_lib es in
  map hs_peer (in_pending st) = [1] /\ length (in_yielded st) = 2%nat /\ listener_errors es = [WouldBlock] /\
  map fst (map (alone httparse_lib) (arrived es)) = [1; 2].
Proof. vm_compute. auto. Qed.
EX*)

Lemma firstn_at : forall A (l1 l2 : list A), firstn (length l1) (l1 ++ l2) = l1.
Proof. intros. rewrite firstn_app, Nat.sub_diag, firstn_all, firstn_O, app_nil_r. reflexivity. Qed.
Lemma skipn_past : forall A (l1 l2 : list A) x, skipn (S (length l1)) (l1 ++ x :: l2) = l2.
Proof. induction l1 as [|y l1 IH]; intros l2 x; [reflexivity|]. cbn [length app]. apply IH. Qed.
Lemma poll_until : forall X n before h after ys, sane h -> (length (hs_in h) < n)%nat ->
  exists k, (k <= n)%nat /\
  fold_left (incoming_step X) (repeat (PollFuture (length before)) k) (mk_incoming (before ++ h :: after) ys)
  = mk_incoming (before ++ after) (ys ++ [inl (fate X h)]).
Proof.
  intros X. induction n as [|n IH]; intros before h after ys Hs Hn; [lia|].
  pose proof (poll_fate X h Hs) as HQ.
  assert (S1 : incoming_step X (mk_incoming (before ++ h :: after) ys) (PollFuture (length before))
    = match handshake_poll X h with
      | inl h' => mk_incoming (before ++ h' :: after) ys
      | inr o => mk_incoming (before ++ after) (ys ++ [inl o]) end).
  { cbn [incoming_step in_pending in_yielded].
    rewrite nth_error_app2 by lia. rewrite Nat.sub_diag. cbn [nth_error].
    rewrite firstn_at, skipn_past. reflexivity. }
  destruct (handshake_poll X h) as [h'|o].
  - destruct HQ as (Q1 & Q2 & Q3). destruct (IH before h' after ys Q2 ltac:(lia)) as (k & Hk & Hf).
    exists (S k). split; [lia|]. cbn [repeat fold_left]. rewrite S1, Hf, Q1. reflexivity.
  - exists 1%nat. split; [lia|]. cbn [repeat fold_left]. rewrite S1, HQ. reflexivity.
Qed.
(** [C47] No handshake waits for another: in any state, polling one of them often enough makes
    its outcome come next, and leaves all others where they were. *)
Lemma handshake_completes_proof : forall X es before h after,
  in_pending (incoming_run X es) = before ++ h :: after ->
  exists k o, (k <= S (length (hs_in h)))%nat /\
    let st := incoming_run X (es ++ repeat (PollFuture (length before)) k) in
    in_pending st = before ++ after /\
    in_yielded st = in_yielded (incoming_run X es) ++ [inl o] /\ In o (map (alone X) (arrived es)).
Proof.
  intros X es before h after E. destruct (run_invariant X es) as (H1 & H2 & _).
  rewrite E in H1, H2. apply Forall_app in H1 as [_ H1]. inversion H1 as [|h0 l0 Hh _]; subst h0 l0.
  destruct (poll_until X (S (length (hs_in h))) before h after (in_yielded (incoming_run X es)) Hh
    ltac:(lia)) as (k & Hk & HF).
  exists k, (fate X h). split; [exact Hk|]. cbv zeta.
  assert (ES : incoming_run X es = mk_incoming (before ++ h :: after) (in_yielded (incoming_run X es))).
  { rewrite <- E. destruct (incoming_run X es). reflexivity. }
  rewrite <- ES in HF.
  assert (HR : incoming_run X (es ++ repeat (PollFuture (length before)) k)
    = mk_incoming (before ++ after) (in_yielded (incoming_run X es) ++ [inl (fate X h)])).
  { unfold incoming_run at 1. rewrite fold_left_app. exact HF. }
  rewrite HR. cbn [in_pending in_yielded]. split; [reflexivity|]. split; [reflexivity|].
  apply (Permutation_in _ (Permutation_sym H2)). apply in_or_app. right. rewrite map_app. apply in_or_app.
  right. left. reflexivity.
Qed.

(*EX
(** The second of two handshakes gets its outcome, though the first waits for ever. *)
Example handshake_completes_ex :
  let w := mk_fw (mk_bm [] 0) [] [] [] in
  let es := [NewConnection 1 (repeat ANotReady 50) w; NewConnection 2 [ANotReady; AData "G"%byte []; ANotReady] w] in
  let st := incoming_run httparse_lib (es ++ repeat (PollFuture 1) 3) in
  map hs_peer (in_pending (incoming_run httparse_lib es)) = [1; 2] /\
  map hs_peer (in_pending st) = [1] /\ exists o, in_yielded st = [inl (2, o)].
Proof. split; [vm_compute; reflexivity|]. split; [vm_compute; reflexivity|]. eexists. vm_compute. reflexivity. Qed.
EX*)

(** [C47] So from any state all handshakes can be brought to their end. *)
Lemma all_complete_proof : forall X es, exists polls, only_polls polls /\
  let st := incoming_run X (es ++ polls) in
  in_pending st = [] /\ Permutation (map (alone X) (arrived es)) (outcomes (in_yielded st)).
Proof.
  intros X es.
  assert (G : forall n es, length (in_pending (incoming_run X es)) = n -> exists polls, only_polls polls /\
    in_pending (incoming_run X (es ++ polls)) = []).
  { induction n as [|n IH]; intros es0 Hn.
    - exists []. split; [constructor|]. rewrite app_nil_r.
      destruct (in_pending (incoming_run X es0)); [reflexivity|discriminate Hn].
    - destruct (in_pending (incoming_run X es0)) as [|h after] eqn:E; [discriminate Hn|].
      destruct (handshake_completes_proof X es0 [] h after E) as (k & o & _ & H & _).
      destruct (IH (es0 ++ repeat (PollFuture (length (@nil handshake))) k)) as (polls & P1 & P2).
      { rewrite H. cbn [app length] in *. lia. }
      exists (repeat (PollFuture 0) k ++ polls). split.
      + apply Forall_app. split; [|exact P1]. clear. induction k; cbn [repeat]; constructor; auto.
      + rewrite app_assoc. exact P2. }
  destruct (G _ es eq_refl) as (polls & P1 & P2). exists polls. split; [exact P1|]. cbv zeta.
  split; [exact P2|]. destruct (run_invariant X (es ++ polls)) as (_ & H2 & _).
  rewrite P2 in H2. cbn [map] in H2. rewrite app_nil_r in H2.
  assert (arrived (es ++ polls) = arrived es) as EA.
  { clear -P1. induction es as [|e es IH]; cbn [app arrived].
    - induction P1 as [|e polls He P1 IH]; [reflexivity|]. destruct e; try contradiction. exact IH.
    - destruct e; rewrite IH; reflexivity. }
  rewrite EA in H2. exact H2.
Qed.
(*EX Example incoming_ex :
  let r := str "GET / HTTP/1.1" ++ head_end in
  let stalled := NewConnection 1 [ANotReady; ANotReady; AData "G"%byte (str "ET / HT")] (mk_fw (mk_bm [] 0) [] [] []) in
  let fine := NewConnection 2 [AData "G"%byte (str "ET / HTTP/1.1" ++ head_end)] (mk_fw (mk_bm [] 0) [] [] []) in
  let st := incoming_run httparse_lib [stalled; fine; PollFuture 0; ListenerError ConnectionReset; PollFuture 1] in
  map hs_peer (in_pending st) = [1] /\
  in_yielded st = [inr ConnectionReset; inl (2, Err (mk_arefusal [] (mk_fw (mk_bm [] 0) [] [] [])
    (Some (mk_req Get (str "/") Http11 [])) [] NoSecWsKeyHeader))].
Proof. vm_compute. auto. Qed. EX*)
(** [C10] The asynchronous server's handshake ends with an upgrade or an error carrying the
    stream, whatever the transport does. *)
Lemma async_into_ws_total_proof : forall X s w, sound_lib X ->
  (exists u, async_into_ws X s w = Ok u) \/ (exists f, async_into_ws X s w = Err f).
Proof.
  intros X s w HX. unfold async_into_ws, await_head.
  assert (G : forall n s f, fr_eof f = false -> (length s < n)%nat ->
    match first_item (http_decode (try_request X)) n s f with
    | (PItem (inl q), _, _) => exists h r, try_request X h = Done q r
    | (PNotReady, _, _) | (PPanic, _, _) | (POutOfFuel, _, _) => False
    | _ => True end).
  { induction n as [|n IH]; intros s0 f Hf Hn; [lia|]. cbn [first_item].
    pose proof (http_poll _ (try_request X) s0 f Hf) as H.
    destruct (framed_poll (http_decode (try_request X)) s0 f) as [[[[q|e]| | |e| |] f'] s']; auto.
    destruct H. apply IH; [assumption|lia]. }
  specialize (G (S (length s)) s (framed_new tt []) eq_refl ltac:(lia)).
  destruct (first_item (http_decode (try_request X)) (S (length s)) s (framed_new tt [])) as [[[[q|e]| | |e| |] f'] s'];
    try contradiction; cbn [finish_into_ws]; eauto.
  destruct G as (h & r & G). apply request_exact_proof in G as (head & m & t & v & fs & _ & _ & _ & _ & ->); [|exact HX].
  cbn [rq_method rq_version rq_headers].
  destruct (server_validate_total_proof (method_named m) v fs) as [->|[e ->]]; eauto.
Qed.

(*EX
Example async_into_ws_total_ex :
  exists f, async_into_ws httparse_lib [AData x00 [x01]; AErr WouldBlock] (mk_fw (mk_bm [] 0) [] [] []) = Err f.
Proof. eexists. vm_compute. reflexivity. Qed.
EX*)


(** ** Limits *)
Lemma perform_limits : forall c b b', perform c b = Ok b' ->
  (b_max_df b', b_max_msg b') = match c with
    | MaxDataframeSize n => (n, b_max_msg b) | MaxMessageSize n => (b_max_df b, n)
    | _ => (b_max_df b, b_max_msg b) end.
Proof.
  intros c b b' H. destruct c; cbn [perform] in H; try (injection H as <-; reflexivity).
  - unfold add_protocol in H. destruct (upsert _ _ _ _ _ _) as [h| | |]; try discriminate H.
    cbn [rbind] in H. injection H as <-. reflexivity.
  - unfold add_protocols in H. destruct (upsert _ _ _ _ _ _) as [h| | |]; try discriminate H.
    cbn [rbind] in H. injection H as <-. reflexivity.
  - unfold add_extension in H. destruct (upsert _ _ _ _ _ _) as [h| | |]; try discriminate H.
    cbn [rbind] in H. injection H as <-. reflexivity.
  - unfold add_extensions in H. destruct (upsert _ _ _ _ _ _) as [h| | |]; try discriminate H.
    cbn [rbind] in H. injection H as <-. reflexivity.
Qed.
Lemma asked_limits_app : forall cs1 cs2 df msg, asked_limits (cs1 ++ cs2) df msg
  = let '(a, b) := asked_limits cs2 df msg in asked_limits cs1 a b.
Proof.
  induction cs1 as [|c cs1 IH]; intros cs2 df msg; cbn [app asked_limits].
  - destruct (asked_limits cs2 df msg). reflexivity.
  - rewrite IH. destruct (asked_limits cs2 df msg). destruct c; reflexivity.
Qed.
Lemma limits_go : forall cs b b', run_calls cs b = Ok b' ->
  (b_max_df b', b_max_msg b') = asked_limits (rev cs) (b_max_df b) (b_max_msg b).
Proof.
  induction cs as [|c cs IH]; intros b b' H; cbn [run_calls] in H.
  - injection H as <-. reflexivity.
  - destruct (perform c b) as [b1| | |] eqn:E; try discriminate H. cbn [rbind] in H.
    apply perform_limits in E. apply IH in H. rewrite H. cbn [rev]. rewrite asked_limits_app.
    destruct c; cbn [asked_limits fst snd]; injection E as -> ->; reflexivity.
Qed.

(** [C39] The builder keeps the limits last given to it, else 100 MiB and 200 MiB. *)
Lemma builder_limits_proof : forall u cs b, run_calls cs (builder_init u) = Ok b ->
  (b_max_df b, b_max_msg b) = asked_limits (rev cs) 104857600 209715200.
Proof. intros u cs b H. apply limits_go in H. exact H. Qed.
(*EX Example builder_limits_ex : forall u, exists b,
  run_calls [MaxMessageSize 7; MaxDataframeSize 5; AddProtocol (ascii "x"); MaxMessageSize 9] (builder_init u) = Ok b /\
  (b_max_df b, b_max_msg b) = (5, 9).
Proof. intros u. eexists. split; reflexivity. Qed. EX*)
(** [C39] A connection of the asynchronous client polls as a new one with the limits asked
    for. *)
Lemma async_client_limits_proof : forall X u cs b rnd extra s w a h v code r fs head s', sound_lib X ->
  run_calls cs (builder_init u) = Ok b ->
  async_connect_on X rnd b extra s w = Ok (a, h) ->
  response_head X v code r fs head -> (length fs <= 100)%nat -> ends_first head -> aflows s head s' ->
  forall n, poll_n mc_decode n (ac_in a) (ac_read a)
    = let '(max_df, max_msg) := asked_limits (rev cs) 104857600 209715200 in
      poll_n mc_decode n s' (framed_new (msg_codec_with_limits CtxClient max_df max_msg) []).
Proof.
  intros X u cs b rnd extra s w a h v code r fs head s' HX Hb H H1 H2 H3 H4 n.
  apply builder_limits_proof in Hb.
  destruct (async_client_connection_proof X rnd b extra s w a h v code r fs head s' HX H H1 H2 H3 H4)
    as (_ & _ & G).
  rewrite G, <- Hb. reflexivity.
Qed.

(*EX
(** A frame limit of five: a frame of six is refused. *)
Example async_client_limits_ex :
  let u := mk_url (ascii "ws") (Some (ascii "h")) None [] None (ascii "/") in
  let head := str "HTTP/1.1 101 Switching Protocols" ++ crlf ++ str "Connection: Upgrade" ++ crlf ++
    str "Upgrade: websocket" ++ crlf ++ str "Sec-WebSocket-Accept: s3pPLMBiTxaQ9kYGzzhZRbK+xOo=" ++ crlf ++ crlf in
  exists b a h, run_calls [Key (ascii "the sample nonce"); MaxDataframeSize 5] (builder_init u) = Ok b /\
    async_connect_on httparse_lib [] b 0 (apush_back (head ++ [x82; x06; x00]) []) (mk_fw (mk_bm [] 0) [] [] []) = Ok (a, h) /\
    poll_n mc_decode 1 (ac_in a) (ac_read a) = [PErr (ProtocolError "Exceeded maximum incoming DataFrame size")].
Proof. do 3 eexists. split; [reflexivity|]. split; vm_compute; reflexivity. Qed.
EX*)

(** [C39] One of the blocking client receives as with the frame limit asked for, used for both
    frames and messages. *)
Lemma sync_client_limits_proof : forall X u cs b rnd s w c b' w', sound_lib X ->
  run_calls cs (builder_init u) = Ok b -> connect_on X rnd b s w = (Ok c, b', w') ->
  exists head v r fs after, first_come head after s /\ response_head X v 101 r fs head /\
    forall n s', spread s' = after ->
    fst (client_recv_n n c)
    = let max_df := fst (asked_limits (rev cs) 104857600 209715200) in
      fst (fst (recv_n n (receiver_with_limits false max_df max_df) s')).
Proof.
  intros X u cs b rnd s w c b' w' HX Hb H. apply builder_limits_proof in Hb.
  destruct (client_connection_proof X rnd b s w c b' w' HX H) as (head & v & r & fs & after & A1 & A2 & _ & _ & A3).
  exists head, v, r, fs, after. split; [exact A1|]. split; [exact A2|]. intros n s' Hs.
  rewrite (A3 n s' Hs), <- Hb. reflexivity.
Qed.

(*EX
Example sync_client_limits_ex :
  let u := mk_url (ascii "ws") (Some (ascii "h")) None [] None (ascii "/") in
  let head := str "HTTP/1.1 101 Switching Protocols" ++ crlf ++ str "Connection: Upgrade" ++ crlf ++
    str "Upgrade: websocket" ++ crlf ++ str "Sec-WebSocket-Accept: s3pPLMBiTxaQ9kYGzzhZRbK+xOo=" ++ crlf ++ crlf in
  exists b c b' w', run_calls [Key (ascii "the sample nonce"); MaxDataframeSize 5] (builder_init u) = Ok b /\
    connect_on httparse_lib [] b (push_back (head ++ [x82; x06; x00]) []) (mk_w [] []) = (Ok c, b', w') /\
    fst (client_recv_n 1 c) = [Err (IoError InvalidData)].
Proof. do 4 eexists. split; [reflexivity|]. split; vm_compute; reflexivity. Qed.
EX*)


(** [C39] A connection a blocking server accepted receives as with the limits it was accepted with,
    100 MiB and 200 MiB if none were given. *)
Lemma server_limits_proof : forall u c custom max_df max_msg,
  (accept_with_limits max_df max_msg u = Ok c \/
   accept_with_headers_and_limits custom max_df max_msg u = Ok c \/
   (max_df, max_msg) = (104857600, 209715200) /\ (accept u = Ok c \/ accept_with custom u = Ok c)) ->
  forall n s', spread s' = unread c ->
    fst (client_recv_n n c) = fst (fst (recv_n n (receiver_with_limits true max_df max_msg) s')).
Proof.
  intros u c custom df msg H n s' Hs.
  assert (E : exists cu, internal_accept cu df msg u = Ok c).
  { destruct H as [H|[H|[HE [H|H]]]]; try (injection HE as -> ->); [exists None|exists (Some custom)|exists None|exists (Some custom)]; exact H. }
  destruct E as (cu & E). apply accept_inv in E as (h & data & w' & _ & _ & _ & ->).
  apply client_recv_alike. symmetry. exact Hs.
Qed.
(*EX
(** Three bytes with a limit of two. *)
Example server_limits_ex :
  let head := str "GET / HTTP/1.1" ++ crlf ++ str "Upgrade: websocket" ++ crlf ++ str "Connection: upgrade" ++ crlf ++
    str "Sec-WebSocket-Key: dGhlIHNhbXBsZSBub25jZQ==" ++ crlf ++ crlf in
  let frame := [x82; x83; x00; x00; x00; x00; x61; x62; x63] in
  exists u c1 c2, into_ws httparse_lib (push_back (head ++ frame) []) (mk_w [] []) = Ok u /\
    accept_with_limits 2 100 u = Ok c1 /\ fst (client_recv_n 1 c1) = [Err (IoError InvalidData)] /\
    accept u = Ok c2 /\ fst (client_recv_n 1 c2) = [Ok (OBinary (str "abc"))].
Proof.
  do 3 eexists. split; [vm_compute; reflexivity|]. split; [vm_compute; reflexivity|].
  split; [vm_compute; reflexivity|]. split; [vm_compute; reflexivity|]. vm_compute; reflexivity.
Qed.
EX*)
(** [C39] The asynchronous server, likewise. *)
Lemma async_server_limits_proof : forall u a h custom max_df max_msg extra,
  (async_accept_with_limits max_df max_msg extra u = Ok (a, h) \/
   async_accept_with_headers_and_limits custom max_df max_msg extra u = Ok (a, h) \/
   (max_df, max_msg) = (104857600, 209715200) /\
     (async_accept_plain extra u = Ok (a, h) \/ async_accept_with custom extra u = Ok (a, h))) ->
  forall n, poll_n mc_decode n (ac_in a) (ac_read a)
    = poll_n mc_decode n (apush_back (au_buffer u) (au_in u)) (framed_new (msg_codec_with_limits CtxServer max_df max_msg) []).
Proof.
  intros u a h custom df msg extra H n.
  assert (E : exists cu, async_accept cu df msg extra u = Ok (a, h)).
  { destruct H as [H|[H|[HE [H|H]]]]; try (injection HE as -> ->); [exists None|exists (Some custom)|exists None|exists (Some custom)]; exact H. }
  destruct E as (cu & E). apply async_accept_inv in E as (d & w' & _ & _ & _ & ->).
  cbn [ac_in ac_read]. apply poll_n_fresh.
Qed.
(*EX
Example async_server_limits_ex :
  let head := str "GET / HTTP/1.1" ++ crlf ++ str "Upgrade: websocket" ++ crlf ++ str "Connection: upgrade" ++ crlf ++
    str "Sec-WebSocket-Key: dGhlIHNhbXBsZSBub25jZQ==" ++ crlf ++ crlf in
  let frame := [x82; x83; x00; x00; x00; x00; x61; x62; x63] in
  exists u a1 h1 a2 h2, async_into_ws httparse_lib (apush_back (head ++ frame) []) (mk_fw (mk_bm [] 0) [] [] []) = Ok u /\
    async_accept_with_limits 2 100 0 u = Ok (a1, h1) /\
    poll_n mc_decode 1 (ac_in a1) (ac_read a1) = [PErr (ProtocolError "Exceeded maximum incoming DataFrame size")] /\
    async_accept_plain 0 u = Ok (a2, h2) /\
    poll_n mc_decode 1 (ac_in a2) (ac_read a2) = [PItem (OBinary (str "abc"))].
Proof.
  do 5 eexists. split; [vm_compute; reflexivity|]. split; [vm_compute; reflexivity|].
  split; [vm_compute; reflexivity|]. split; [vm_compute; reflexivity|]. vm_compute; reflexivity.
Qed.
EX*)
(** [C39] Refuted for the blocking client: the message limit is ignored.  A message in three
    fragments that is within the limits asked for is refused; and one over the message limit
    asked for is delivered. *)
Lemma sync_client_limits_refuted_proof :
  let u := mk_url (ascii "ws") (Some (ascii "h")) None [] None (ascii "/") in
  let crlf := [x0d; x0a] in
  let head := ascii "HTTP/1.1 101 Switching Protocols" ++ crlf ++ ascii "Connection: Upgrade" ++ crlf ++
    ascii "Upgrade: websocket" ++ crlf ++
    ascii "Sec-WebSocket-Accept: s3pPLMBiTxaQ9kYGzzhZRbK+xOo=" ++ crlf ++ crlf in
  let fragments := [x02; x03; x61; x62; x63; x00; x01; x64; x80; x01; x65] in
  (exists b c b' w',
     run_calls [Key (ascii "the sample nonce"); MaxDataframeSize 10; MaxMessageSize 1000] (builder_init u) = Ok b /\
     connect_on httparse_lib [] b (push_back (head ++ fragments) []) (mk_w [] []) = (Ok c, b', w') /\
     fst (client_recv_n 1 c) = [Err (ProtocolError "Exceeded maximum WebSocket message size")] /\
     fst (fst (recv_n 1 (receiver_with_limits false 10 1000) (push_back fragments [])))
       = [Ok (OBinary [x61; x62; x63; x64; x65])]) /\
  (exists b c b' w',
     run_calls [Key (ascii "the sample nonce"); MaxMessageSize 60] (builder_init u) = Ok b /\
     connect_on httparse_lib [] b (push_back (head ++ fragments) []) (mk_w [] []) = (Ok c, b', w') /\
     fst (client_recv_n 1 c) = [Ok (OBinary [x61; x62; x63; x64; x65])] /\
     fst (fst (recv_n 1 (receiver_with_limits false 104857600 60) (push_back fragments [])))
       = [Err (ProtocolError "Exceeded maximum WebSocket message size")]).
Proof.
  cbv zeta. split; do 4 eexists;
    (split; [reflexivity|]); (split; [vm_compute; reflexivity|]); split; vm_compute; reflexivity.
Qed.
