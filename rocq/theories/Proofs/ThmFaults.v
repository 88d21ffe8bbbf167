(** What is left of a connection after something went wrong: sending again after a failed send,
    and the stream behind a rejected request: C55, C56. *)
From Coq Require Import NArith ZArith String Bool List Lia.
From Coq Require Import ZifyBool ZifyNat ZifyN.
From Coq.Strings Require Import Byte.
From Verif.Model Require Import Base Io Header Mask Dataframe Utf8 Text Base64 WsKey Headers
  Handshake Message Receiver Codec Framed Http Connect.
From Verif.Spec Require Import RfcFrame FrameSpec Fields Upgrade Builder HttpHead Connection.
From Verif.Proofs Require Import BaseFacts FrameFacts ThmStream ThmServer HttpFacts ThmHttp ThmConnect.
Import ListNotations.
Local Open Scope string_scope.
Local Open Scope list_scope.
Local Open Scope N_scope.

(** ** Sending again *)

Lemma rfc_mask_length : forall l i k, length (rfc_mask_from i k l) = length l.
Proof. induction l as [|x l IH]; intros i k; cbn [rfc_mask_from length]; [|rewrite IH]; reflexivity. Qed.
Lemma rfc_encode_length : forall fin r op p (k k' : mkey) (m : bool),
  length (rfc_encode (rfc_of fin r op p (if m then Some k else None)))
  = length (rfc_encode (rfc_of fin r op p (if m then Some k' else None))).
Proof.
  intros fin [[r1 r2] r3] op p k k' m. destruct m; [|reflexivity].
  destruct k as [? ? ? ?], k' as [? ? ? ?].
  unfold rfc_encode, rfc_of, rfc_header. cbn [rf_payload rf_key octet_key option_map].
  rewrite !app_length, !rfc_mask_length. reflexivity.
Qed.
Lemma octets_length : forall l, length (octets l) = length l.
Proof. intros. unfold octets. apply map_length. Qed.
Lemma octets_app : forall a b, octets (a ++ b) = octets a ++ octets b.
Proof. intros. unfold octets. apply map_app. Qed.
(** [C55] Sending again after a failed send: the wire then has a part of the frame, a proper
    one, and after it the whole frame; and this is that frame once (under any masking key)
    exactly if the first attempt had put nothing on the wire. *)
Lemma send_again_proof : forall (s : sender) (d : dataframe_ops) (k1 k2 : mkey) w w1 e w2,
  honest d ->
  let frame (k : mkey) := rfc_of (df_is_last d) (df_reserved d) (df_opcode d) (concat (df_writes d))
                            (if s_mask s then Some k else None) in
  rfc_sendable (frame k1) -> rfc_sendable (frame k2) ->
  send_frame s d k1 w = (Err e, w1) -> send_frame s d k2 w1 = (Ok tt, w2) ->
  exists part n,
    w_out w1 = w_out w ++ part /\ octets part = firstn n (rfc_encode (frame k1)) /\
    octets part <> rfc_encode (frame k1) /\
    octets (w_out w2) = octets (w_out w) ++ octets part ++ rfc_encode (frame k2) /\
    ((exists k, octets (w_out w2) = octets (w_out w) ++ rfc_encode (frame k)) <-> w_out w1 = w_out w).
Proof.
  intros s d k1 k2 w w1 e w2 HH frame S1 S2 H1 H2.
  destruct (send_prefix_proof s d k1 w HH S1) as (n & P1). rewrite H1 in P1.
  destruct P1 as ((part & O1 & O2 & O3) & _).
  destruct (send_prefix_proof s d k2 w1 HH S2) as (n2 & P2). rewrite H2 in P2.
  destruct P2 as ((whole & Q1 & _ & Q3) & _).
  assert (octets whole = rfc_encode (frame k2)) as Q by (apply Q3; reflexivity). clear Q3.
  exists part, n. split; [exact O1|]. split; [exact O2|].
  split; [intros C; apply O3 in C; discriminate|].
  assert (octets (w_out w2) = octets (w_out w) ++ octets part ++ rfc_encode (frame k2)) as HO.
  { rewrite Q1, O1, !octets_app, Q, app_assoc. reflexivity. }
  split; [exact HO|]. rewrite HO. split.
  - intros [k E]. apply app_inv_head in E. apply (f_equal (@length N)) in E.
    rewrite app_length, octets_length in E. unfold frame in E.
    rewrite (rfc_encode_length _ _ _ _ k2 k (s_mask s)) in E.
    assert (length part = 0%nat) as Z by lia. apply length_zero_iff_nil in Z. subst part.
    rewrite O1, app_nil_r. reflexivity.
  - intros E. assert (part = []) as ->.
    { rewrite O1 in E. apply (f_equal (@length byte)) in E. rewrite app_length in E.
      apply length_zero_iff_nil. lia. }
    exists k2. reflexivity.
Qed.
(*EX (** One octet on the wire before the error; then the second attempt. *)
Example send_again_ex :
  let d := owned_ops (OBinary [x61]) in
  let k := mk_key x00 x00 x00 x00 in
  let w1 := mk_w [x82] [WAccept 0] in
  honest d /\
  send_frame (mk_sender false) d k (mk_w [] [WAccept 0; WErr WouldBlock; WAccept 0]) = (Err (IoError WouldBlock), w1) /\
  send_frame (mk_sender false) d k w1 = (Ok tt, mk_w [x82; x82; x01; x61] []).
Proof. split; [split; reflexivity|]. split; vm_compute; reflexivity. Qed. EX*)
(** [C55] Refuted therefore that a send can be tried again after [WouldBlock]: the second
    attempt reports success, and the peer receives another message, without an error. *)
Lemma send_again_refuted_proof : exists m k w w1 w2 got,
  send_message (mk_sender false) m k w = (Err (IoError WouldBlock), w1) /\
  send_message (mk_sender false) m k w1 = (Ok tt, w2) /\
  fst (fst (recv_message (receiver_new false) (push_back (w_out w2) []))) = Ok got /\ got <> m.
Proof.
  exists (OBinary [x61; x62; x63]), (mk_key x00 x00 x00 x00), (mk_w [] [WAccept 2; WErr WouldBlock]).
  do 3 eexists. split; [vm_compute; reflexivity|]. split; [vm_compute; reflexivity|].
  split; [vm_compute; reflexivity|]. discriminate.
Qed.

(** ** After a rejection *)

(** [C56] The asynchronous [reject] hands back everything the client sent after its request:
    whatever protocol goes on with the stream it returns reads exactly what comes after the
    head. *)
Lemma async_reject_keeps_proof : forall X m t v fs head s s' w, sound_lib X ->
  request_head X m t v fs head -> (length fs <= 100)%nat -> target_accepted X t ->
  ends_first head -> aflows s head s' ->
  Forall (fun x => fst x) (request_conditions (method_named m) v fs) ->
  exists u, async_into_ws X s w = Ok u /\
    forall custom extra f s1 w1, async_reject custom extra u = Ok (f, s1, w1) ->
    forall codec n,
      poll_n mc_decode n (ac_in (update_framed_codec f s1 w1 codec)) (ac_read (update_framed_codec f s1 w1 codec))
      = poll_n mc_decode n s' (framed_new codec []).
Proof.
  intros X m t v fs head s s' w H1 H2 H3 H4 H5 H6 H7.
  destruct (async_request_read_proof X m t v fs head s s' H1 H2 H3 H4 H5 H6) as (rest & s2 & E & ->).
  unfold async_into_ws. rewrite E. cbn [finish_into_ws rq_method rq_version rq_headers fr_buf].
  apply server_validate_iff_proof in H7. rewrite H7. eexists. split; [reflexivity|].
  intros custom extra f s1 w1 Ha codec n. unfold async_reject in Ha.
  cbn [au_request au_headers au_out au_in au_buffer rq_version] in Ha.
  destruct (print_response v bad_request (reject_headers custom [])) as [d| | |]; try discriminate Ha.
  cbn [rbind] in Ha. destruct (http_send d extra w) as [[| |e] w']; try discriminate Ha.
  injection Ha as <- <- <-. unfold update_framed_codec. cbn [ac_in ac_read framed_new fr_buf].
  apply poll_n_fresh.
Qed.
(*EX Example async_reject_keeps_ex :
  let head := str "GET / HTTP/1.1" ++ crlf ++ str "Upgrade: websocket" ++ crlf ++ str "Connection: upgrade" ++ crlf ++
    str "Sec-WebSocket-Key: dGhlIHNhbXBsZSBub25jZQ==" ++ crlf ++ crlf in
  exists u f w1, async_into_ws httparse_lib (apush_back (head ++ str "NEXT") []) (mk_fw (mk_bm [] 0) [] [] []) = Ok u /\
    async_reject None 0 u = Ok (f, [], w1) /\ fr_buf f = str "NEXT".
Proof.
  do 3 eexists. split; [vm_compute; reflexivity|]. split; [vm_compute; reflexivity|]. vm_compute. reflexivity.
Qed. EX*)
(** [C56] The blocking [reject] hands back the bare stream: what the client had sent after its
    request, up to what is in [up_buffer], is gone, and the rest is there. *)
Lemma reject_returns_proof : forall X s w u custom s1 w1, sound_lib X ->
  into_ws X s w = Ok u -> reject custom u = Ok (s1, w1) ->
  exists head m t v fs buffered,
    request_head X m t v fs head /\ up_buffer u = Some buffered /\
    first_come (head ++ buffered) (spread s1) s.
Proof.
  intros X s w u custom s1 w1 HX H1 H2.
  apply into_ws_inv in H1 as (q & rest & s2 & E1 & E2 & ->).
  unfold reject in H2. cbn [up_request up_headers up_out up_in] in H2.
  destruct (print_response (rq_version q) bad_request (reject_headers custom [])) as [d| | |]; try discriminate H2.
  cbn [rbind] in H2. destruct (write_all d w) as [[[]|k| |] w']; try discriminate H2.
  injection H2 as <- <-.
  apply (sync_request_only_proof X s q rest s2 HX) in E1 as (head & m & t & v & fs & A1 & A2 & _ & _ & _).
  exists head, m, t, v, fs, rest. split; [exact A2|]. split; [reflexivity|].
  unfold first_come in *. rewrite A1, spread_push_back, map_app, app_assoc. reflexivity.
Qed.
(*EX
(** The client sent "NEXT" in the same packet as its request, and "MORE" in another: the first is
    gone with the buffer. *)
Example reject_returns_ex :
  let head := str "GET / HTTP/1.1" ++ crlf ++ str "Upgrade: websocket" ++ crlf ++ str "Connection: upgrade" ++ crlf ++
    str "Sec-WebSocket-Key: dGhlIHNhbXBsZSBub25jZQ==" ++ crlf ++ crlf in
  exists u w1, into_ws httparse_lib (push_back (head ++ str "NEXT") (push_back (str "MORE") [])) (mk_w [] []) = Ok u /\
    up_buffer u = Some (str "NEXT") /\ reject None u = Ok (push_back (str "MORE") [], w1).
Proof.
  do 2 eexists. split; [vm_compute; reflexivity|]. split; vm_compute; reflexivity.
Qed.
EX*)
(** [C56] Refuted therefore that the rejected stream goes on where the request ends. *)
Lemma reject_keeps_refuted_proof : exists head next u s1 w1,
  ends_first head /\ next <> [] /\
  into_ws httparse_lib (push_back (head ++ next) []) (mk_w [] []) = Ok u /\
  reject None u = Ok (s1, w1) /\ spread s1 = [].
Proof.
  exists (str "GET / HTTP/1.1" ++ crlf ++ str "Upgrade: websocket" ++ crlf ++ str "Connection: upgrade" ++ crlf ++
    str "Sec-WebSocket-Key: dGhlIHNhbXBsZSBub25jZQ==" ++ crlf ++ crlf), (str "GET /other HTTP/1.1").
  do 3 eexists. split.
  - match goal with |- ends_first ?t => apply (proj1 (ThmHttp.split_exact_proof t t [])) end. vm_compute. reflexivity.
  - split; [discriminate|]. split; [vm_compute; reflexivity|]. split; [vm_compute; reflexivity|]. reflexivity.
Qed.
