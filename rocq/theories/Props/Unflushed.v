(** What is sent over a writer that keeps bytes back: C90. *)
From Coq Require Import NArith ZArith String Bool List Lia.
From Coq.Strings Require Import Byte.
From Verif.Model Require Import Base Io Header Mask Dataframe Utf8 Text Base64 WsKey Headers
  Handshake Message Receiver Codec Framed Http Connect Examples Unflushed.
From Verif.Spec Require Import RfcFrame FrameSpec Schedule Unicode Drive Session Connection Polled Fields Upgrade Builder HttpHead Wire Endpoint Echo
  AsyncChat Unflushed.
From Verif.Proofs Require Import ExTac.
From Verif.Proofs Require ThmUnflushed.
Import ListNotations.
Local Open Scope string_scope.
Local Open Scope list_scope.
Local Open Scope N_scope.

(** ** The writers *)

(** [C90] Messages sent over a writer that keeps bytes back: every send reports success, and the
    frames have been handed on in order, except for at most as many bytes as the buffer takes.
    If the program flushes the writer, all of them have. *)
Theorem sends_kept : forall write mask l b, lazy_writer write -> Forall (fun p => sendable (2 ^ 34) (fst p)) l ->
  let '(rs, b') := kept_sends write (mk_sender mask) l b in
  rs = repeat (Ok tt) (length l) /\ took b b' (frames_for mask l) /\
  octets (kp_on (kp_flush b')) = octets (kp_on b) ++ octets (kp_buf b) ++ frames_for mask l.
Proof. exact ThmUnflushed.sends_kept_proof. Qed.
Print Assumptions sends_kept.

(** A Ping of two frames' room, a BufWriter for 16 bytes: the first frame has gone, the second has not. *)
Example sends_kept_ex : let k := mk_key x01 x02 x03 x04 in
  kept_sends bufw_write (mk_sender true) [(OPing (ascii "abcd"), k); (OText (ascii "efgh"), k)] (keeping_new 16)
  = ([Ok tt; Ok tt], mk_keeping 16 [x81; x84; x01; x02; x03; x04; x64; x64; x64; x6c]
                       [x89; x84; x01; x02; x03; x04; x60; x60; x60; x60]).
Proof. vm_compute. reflexivity. Qed.

(** [C90] As long as the frames fit into the buffer of a [BufWriter], nothing at all is handed on. *)
Theorem sends_held_back : forall mask l b, Forall (fun p => sendable (2 ^ 34) (fst p)) l ->
  size (kp_buf b) + N.of_nat (length (frames_for mask l)) < kp_cap b ->
  let '(rs, b') := kept_sends bufw_write (mk_sender mask) l b in
  rs = repeat (Ok tt) (length l) /\ kp_on b' = kp_on b.
Proof. exact ThmUnflushed.sends_held_back_proof. Qed.
Print Assumptions sends_held_back.

Example sends_held_back_ex : let k := mk_key x01 x02 x03 x04 in
  let l := [(OPing (ascii "abcd"), k); (OText (ascii "efgh"), k)] in
  Forall (fun p => sendable (2 ^ 34) (fst p)) l /\ N.of_nat (length (frames_for true l)) < 8192.
Proof. split; [facts|vm_compute; reflexivity]. Qed.

(** [C90] Refuted therefore that a message whose send succeeded is on its way: over a [BufWriter]
    of any size, one of a few bytes stays where it is, whatever the peer waits for, until the
    program flushes the writer itself. *)
Theorem sent_is_on_its_way_refuted : forall cap mask k, 16 < cap -> exists m b,
  kept_send bufw_write (mk_sender mask) m k (keeping_new cap) = (Ok tt, b) /\
  kp_on b = [] /\ octets (kp_on (kp_flush b)) = frames_for mask [(m, k)].
Proof. exact ThmUnflushed.sent_is_on_its_way_refuted_proof. Qed.
Print Assumptions sent_is_on_its_way_refuted.

(** [C90] The client's request likewise: over a [BufWriter] that has room for it the server gets
    not one byte of it, while the client already waits for the response. *)
Theorem request_held_back : forall rnd bl cap text,
  request_text rnd bl text -> llen text < cap ->
  @kept_request unit bufw_write rnd bl (keeping_new cap) = Ok (mk_keeping cap text []).
Proof. exact ThmUnflushed.request_held_back_proof. Qed.
Print Assumptions request_held_back.

Example request_held_back_ex :
  let bl := builder_init (mk_url (ascii "ws") (Some (ascii "example.com")) None [] None (ascii "/chat")) in
  exists text, request_text (ascii "the sample nonce") bl text /\ llen text < 8192.
Proof. eexists. split; [vm_compute; reflexivity|]. vm_compute. reflexivity. Qed.

(** [C90] And the server's response. *)
Theorem response_held_back : forall v st h cap text,
  @print_response unit v st h = Ok text -> llen text < cap ->
  @kept_response unit bufw_write v st h (keeping_new cap) = Ok (mk_keeping cap text []).
Proof. exact ThmUnflushed.response_held_back_proof. Qed.
Print Assumptions response_held_back.

Example response_held_back_ex :
  exists text, @print_response unit Http11 switching_protocols [(ascii "Server", Raw [ascii "x"])] = Ok text /\ llen text < 8192.
Proof. eexists. split; [vm_compute; reflexivity|]. vm_compute. reflexivity. Qed.

(** [C90] Over a writer that flushes after each line (as [Stdout] does) the heads get through,
    since they end with one ... *)
Theorem heads_pass_lines : forall cap rnd bl text v st h text',
  request_text rnd bl text -> @print_response unit v st h = Ok text' ->
  @kept_request unit linew_write rnd bl (keeping_new cap) = Ok (mk_keeping cap [] text) /\
  @kept_response unit linew_write v st h (keeping_new cap) = Ok (mk_keeping cap [] text').
Proof. exact ThmUnflushed.heads_pass_lines_proof. Qed.
Print Assumptions heads_pass_lines.

Example heads_pass_lines_ex :
  let bl := builder_init (mk_url (ascii "ws") (Some (ascii "example.com")) None [] None (ascii "/chat")) in
  exists text text', request_text (ascii "the sample nonce") bl text /\
    @print_response unit Http11 switching_protocols [(ascii "Server", Raw [ascii "x"])] = Ok text'.
Proof. eexists. eexists. split; vm_compute; reflexivity. Qed.

(** [C90] ... but of the messages such a writer keeps back whatever follows the last byte 0x0a,
    be that the text of a line or the header or the masking key of a frame: what it has not
    handed on never contains one, and frames without one that fit are kept whole. *)
Theorem lines_keep_messages : forall mask l b, Forall (fun p => sendable (2 ^ 34) (fst p)) l -> ~ In x0a (kp_buf b) ->
  let '(rs, b') := kept_sends linew_write (mk_sender mask) l b in
  ~ In x0a (kp_buf b') /\
  (~ In 10 (frames_for mask l) -> size (kp_buf b) + N.of_nat (length (frames_for mask l)) < kp_cap b -> kp_on b' = kp_on b).
Proof. exact ThmUnflushed.lines_keep_messages_proof. Qed.
Print Assumptions lines_keep_messages.

(** The first text ends with a line feed, but the client's mask hides it; the server's does not. *)
Example lines_keep_messages_ex : let k := mk_key x01 x02 x03 x04 in
  let l := [(OText [x61; x0a], k); (OText [x62], k)] in
  Forall (fun p => sendable (2 ^ 34) (fst p)) l /\ ~ In 10 (frames_for true l) /\
  kp_on (snd (kept_sends linew_write (mk_sender true) l (keeping_new 1024))) = [] /\
  kp_on (snd (kept_sends linew_write (mk_sender false) l (keeping_new 1024))) = [x81; x02; x61; x0a].
Proof.
  split; [facts|]. split; [|split; vm_compute; reflexivity]. vm_compute. intuition discriminate.
Qed.

(** [C90] The asynchronous code does flush: when [poll_complete] reports that it is done, every
    byte has been written and the stream below has said, when asked to flush after that, that it
    is done too. *)
Theorem async_flushes : forall w w', poll_complete w = (SReady, w') ->
  fw_out w' = fw_out w ++ bm_data (fw_buf w) /\ bm_data (fw_buf w') = [] /\
  (fw_fs w = [] /\ fw_fs w' = [] \/ fw_fs w = AfReady :: fw_fs w').
Proof. exact ThmUnflushed.async_flushes_proof. Qed.
Print Assumptions async_flushes.

Example async_flushes_ex :
  poll_complete (mk_fw (mk_bm [x81; x01; x61] 10) [] [AwAccept 0; AwAccept 5] [AfReady; AfNotReady])
  = (SReady, mk_fw (mk_bm [] 7) [x81; x01; x61] [] [AfNotReady]).
Proof. vm_compute. reflexivity. Qed.
