(** Shutting down a blocking connection, or one direction of it: C76. *)
From Coq Require Import NArith ZArith String Bool List Lia.
From Coq.Strings Require Import Byte.
From Verif.Model Require Import Base Io Header Mask Dataframe Utf8 Text Headers
  Message Receiver Codec Connect Accepting Shutdown.
From Verif.Spec Require Import RfcFrame FrameSpec Schedule Unicode Drive Session Connection Shutting.
From Verif.Proofs Require Import ExTac.
From Verif.Proofs Require ThmShutdown.
Import ListNotations.
Local Open Scope string_scope.
Local Open Scope list_scope.
Local Open Scope N_scope.

(** ** Receiving on a connection that is shut down *)

(** [C76] Once reading was shut down, by the receiving half or for both directions by either
    half, no receive waits any more, whatever happens and however often one is called. *)
Theorem shut_returns : forall e c c1 es os c2,
  stops_reading e -> conn_step e c = (Nothing, c1) -> conn_run es c1 = (os, c2) -> ~ In Waits os.
Proof. exact ThmShutdown.shut_returns_proof. Qed.
Print Assumptions shut_returns.

(** A message and a half have arrived.  After the shutdown the message is received and then,
    however often one asks, [NoDataAvailable]; without it the second receive would wait. *)
Example shut_returns_ex :
  let c := conn_new (receiver_new false) [] (mk_sender true) [x81; x01; x61; x81; x02; x62] (mk_w [] []) in
  let c1 := snd (conn_step ReaderShutdown c) in
  stops_reading ReaderShutdown /\ conn_step ReaderShutdown c = (Nothing, c1) /\
  fst (conn_run [DoRecv; DoRecv; DoRecv] c) = [Got (Ok (OText [x61])); Waits; Waits] /\
  fst (conn_run [DoRecv; DoRecv; DoRecv] c1)
  = [Got (Ok (OText [x61])); Got (Err NoDataAvailable); Got (Err NoDataAvailable)].
Proof. split; [left; reflexivity|]. split; [reflexivity|]. split; vm_compute; reflexivity. Qed.

(** [C76] A receive that is waiting when reading is shut down (in another thread, by the other
    half) or when the peer ends the stream returns [NoDataAvailable]. *)
Theorem shut_wakes : forall c c0 e c1, conn_step DoRecv c = (Waits, c0) ->
  c0 = c /\
  (stops_reading e \/ e = ArriveEnd -> conn_step e c = (Nothing, c1) ->
   exists c2, conn_step DoRecv c1 = (Got (Err NoDataAvailable), c2)).
Proof. exact ThmShutdown.shut_wakes_proof. Qed.
Print Assumptions shut_wakes.

(** The receiving half waits; the sending half shuts everything down. *)
Example shut_wakes_ex :
  let c := conn_new (receiver_new false) [] (mk_sender true) [x81; x02] (mk_w [] []) in
  let c1 := snd (conn_step WriterShutdownAll c) in
  conn_step DoRecv c = (Waits, c) /\ conn_step WriterShutdownAll c = (Nothing, c1) /\
  fst (conn_step DoRecv c1) = Got (Err NoDataAvailable).
Proof. split; [vm_compute; reflexivity|]. split; vm_compute; reflexivity. Qed.

(** [C76] And it waits until then: as long as nothing arrives and nobody shuts reading down,
    whatever else is done with the connection, it does not return. *)
Theorem waits_on : forall c c0 es os c1, conn_step DoRecv c = (Waits, c0) ->
  Forall (fun e => ~ stops_reading e /\ ~ brings e /\ e <> DropReader) es -> conn_run es c = (os, c1) ->
  fst (conn_step DoRecv c1) = Waits.
Proof. exact ThmShutdown.waits_on_proof. Qed.
Print Assumptions waits_on.

(** Messages sent, writing shut down, the other half dropped: none of it ends the wait. *)
Example waits_on_ex :
  let c := conn_new (receiver_new false) [x81] (mk_sender true) [] (mk_w [] []) in
  let k := mk_key x01 x02 x03 x04 in
  fst (conn_step DoRecv c) = Waits /\
  fst (conn_run [DoSend (OPing []) k; WriterShutdown; DropWriter; DoRecv] c) = [Wrote (Ok tt); Nothing; Nothing; Waits].
Proof. split; vm_compute; reflexivity. Qed.

(** [C76] Shutting the receiving half down changes nothing but that: what was there to be
    received is still received, sending gives what it would have given, and every receive that
    would have waited gives [NoDataAvailable]. *)
Theorem shut_only_wakes : forall c c1 es, conn_step ReaderShutdown c = (Nothing, c1) ->
  Forall (fun e => ~ brings e) es ->
  fst (conn_run es c1) = map not_waiting (fst (conn_run es c)).
Proof. exact ThmShutdown.shut_only_wakes_proof. Qed.
Print Assumptions shut_only_wakes.

Example shut_only_wakes_ex :
  let c := conn_new (receiver_new false) [] (mk_sender false) [x89; x00; x81; x01] (mk_w [] []) in
  let k := mk_key x00 x00 x00 x00 in
  let es := [DoRecv; DoSend (OPong []) k; DoRecv; WriterShutdown; DoRecv] in
  fst (conn_run es (snd (conn_step ReaderShutdown c)))
  = [Got (Ok (OPing [])); Wrote (Ok tt); Got (Err NoDataAvailable); Nothing; Got (Err NoDataAvailable)] /\
  fst (conn_run es c) = [Got (Ok (OPing [])); Wrote (Ok tt); Waits; Nothing; Waits].
Proof. split; vm_compute; reflexivity. Qed.

(** ** The two directions *)

(** [C76] Shutting the receiving half down does not touch sending: whatever is done and arrives
    afterwards, every send gives the same, and the peer reads the same. *)
Theorem reader_shut_sending : forall c es, let d := snd (conn_step ReaderShutdown c) in
  filter of_sending (fst (conn_run es d)) = filter of_sending (fst (conn_run es c)) /\
  peer_in (snd (conn_run es d)) = peer_in (snd (conn_run es c)).
Proof. exact ThmShutdown.reader_shut_sending_proof. Qed.
Print Assumptions reader_shut_sending.

Example reader_shut_sending_ex :
  let c := conn_new (receiver_new false) [] (mk_sender false) [x89; x00] (mk_w [] []) in
  let k := mk_key x00 x00 x00 x00 in
  let es := [DoSend (OText [x61]) k; Arrive [x89; x00]; DropReader; DoSend (OPong []) k] in
  let d := snd (conn_step ReaderShutdown c) in
  filter of_sending (fst (conn_run es d)) = [Wrote (Ok tt); Wrote (Ok tt)] /\
  w_out (so_out (cn_socket (snd (conn_run es d)))) = [x81; x01; x61; x8a; x00].
Proof. split; vm_compute; reflexivity. Qed.

(** [C76] Shutting the sending half down does not touch receiving: whatever is done and arrives
    afterwards, every receive gives the same, or waits as it would have. *)
Theorem writer_shut_receiving : forall c es,
  filter of_receiving (fst (conn_run es (snd (conn_step WriterShutdown c)))) = filter of_receiving (fst (conn_run es c)).
Proof. exact ThmShutdown.writer_shut_receiving_proof. Qed.
Print Assumptions writer_shut_receiving.

Example writer_shut_receiving_ex :
  let c := conn_new (receiver_new false) [] (mk_sender false) [] (mk_w [] []) in
  let es := [Arrive [x89]; DoRecv; Arrive [x00; x8a; x00]; DoRecv; DoRecv; DoRecv] in
  filter of_receiving (fst (conn_run es (snd (conn_step WriterShutdown c))))
  = [Waits; Got (Ok (OPing [])); Got (Ok (OPong [])); Waits].
Proof. vm_compute. reflexivity. Qed.

(** ** Sending on a connection that is shut down *)

(** [C76] Once writing was shut down, by the sending half or for both directions by either
    half, nothing is written any more, and no send says it was: a message that could be sent is
    reported as a broken pipe. *)
Theorem shut_sends : forall e c c1 es os c2,
  stops_writing e -> conn_step e c = (Nothing, c1) -> conn_run es c1 = (os, c2) ->
  w_out (so_out (cn_socket c2)) = w_out (so_out (cn_socket c)) /\
  forall m k r, In (DoSend m k, Wrote r) (combine es os) ->
    r <> Ok tt /\ (sendable (2 ^ 34) m -> r = Err (IoError broken_pipe)).
Proof. exact ThmShutdown.shut_sends_proof. Qed.
Print Assumptions shut_sends.

Example shut_sends_ex :
  let c := conn_new (receiver_new false) [] (mk_sender false) [] (mk_w [] []) in
  let k := mk_key x00 x00 x00 x00 in
  let es := [DoSend (OText [x61]) k; ReaderShutdownAll; DoSend (OText [x62]) k; DoSend (OPing (repeat x00 126)) k] in
  fst (conn_run es c) = [Wrote (Ok tt); Nothing; Wrote (Err (IoError broken_pipe));
                         Wrote (Err (DataFrameError "Control frame length too long"))] /\
  w_out (so_out (cn_socket (snd (conn_run es c)))) = [x81; x01; x61].
Proof. split; vm_compute; reflexivity. Qed.

(** ** What the peer hears *)

(** [C76] What the peer hears, whatever is done with the connection: exactly the messages whose
    sends were reported as done, in order; then, if writing was shut down or both halves were
    dropped, [NoDataAvailable] for ever; and if not, it waits.  (No Close message is made up.) *)
Theorem peer_hears : forall rc buf sd queue script es os c1 max_df max_msg,
  never_fails (mk_w [] script) -> (forall m k, In (DoSend m k) es -> sendable (capped max_df) m) ->
  conn_run es (conn_new rc buf sd queue (mk_w [] script)) = (os, c1) ->
  let l := map fst (told_sent es os) in
  let p := receiver_with_limits (s_mask sd) max_df max_msg in
  let over := took_place stops_writing es os \/ (In DropReader es /\ In DropWriter es) in
  (over -> forall n, fst (fst (recv_n (length l + n) p (peer_in c1))) = map Ok l ++ repeat (Err NoDataAvailable) n) /\
  (~ over -> fst (fst (recv_n (length l + 1) p (peer_in c1))) = map Ok l ++ [Err (IoError forever)]).
Proof. exact ThmShutdown.peer_hears_proof. Qed.
Print Assumptions peer_hears.

(** Two messages, then writing is shut down and a third is tried: the peer hears the two and then
    [NoDataAvailable]. *)
Example peer_hears_ex :
  let c := conn_new (receiver_new false) [] (mk_sender true) [] (mk_w [] [WAccept 2]) in
  let k := mk_key x01 x02 x03 x04 in
  let es := [DoSend (OText [x61]) k; DoSend (OPing []) k; WriterShutdown; DoSend (OText [x62]) k] in
  let '(os, c1) := conn_run es c in
  map fst (told_sent es os) = [OText [x61]; OPing []] /\
  fst (fst (recv_n 4 (receiver_with_limits true 100 100) (peer_in c1)))
  = [Ok (OText [x61]); Ok (OPing []); Err NoDataAvailable; Err NoDataAvailable].
Proof. vm_compute. split; reflexivity. Qed.

(** [C76] Refuted that shutting down the receiving half is the end of receiving: messages that
    are there, even ones that arrive later, are still received. *)
Theorem shut_ends_refuted : exists c c1 late,
  conn_step ReaderShutdown c = (Nothing, c1) /\
  fst (conn_run [DoRecv; DoRecv; Arrive late; DoRecv] c1)
  = [Got (Ok (OText [x61])); Got (Err NoDataAvailable); Nothing; Got (Ok (OText [x62]))].
Proof. exact ThmShutdown.shut_ends_refuted_proof. Qed.
Print Assumptions shut_ends_refuted.

(** [C76] Refuted that dropping the sending half ends the connection for the peer: it shares its
    socket with the receiving half, and the peer goes on waiting until that is dropped too. *)
Theorem drop_ends_refuted : exists c,
  fst (fst (recv_n 1 (receiver_new true) (peer_in (snd (conn_run [DropWriter] c))))) = [Err (IoError forever)] /\
  fst (fst (recv_n 1 (receiver_new true) (peer_in (snd (conn_run [DropWriter; DropReader] c))))) = [Err NoDataAvailable].
Proof. exact ThmShutdown.drop_ends_refuted_proof. Qed.
Print Assumptions drop_ends_refuted.
