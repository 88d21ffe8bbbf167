(** Back-pressure on the asynchronous sinks: C82. *)
From Coq Require Import NArith ZArith String Bool List Lia.
From Coq.Strings Require Import Byte.
From Verif.Model Require Import Base Io Header Mask Dataframe Utf8 Message Receiver Codec Framed Http Connect HttpStream.
From Verif.Spec Require Import RfcFrame FrameSpec Sink HttpSeries Pressure.
From Verif.Proofs Require Import ExTac.
From Verif.Proofs Require ThmPressure.
Import ListNotations.
Local Open Scope string_scope.
Local Open Scope list_scope.
Local Open Scope N_scope.

(** [C82] The buffer of the sink is bounded: whatever the task does and however slow the
    transport is, less than 8 KiB plus one frame (the largest offered) ever wait. *)
Theorem sink_bounded : forall (is_server : bool) L ops w,
  Forall (fun d => honest d /\ frame_len is_server d <= L) (offered ops) ->
  waiting w < mark + L -> 0 < L ->
  waiting (snd (sink_run is_server ops w)) < mark + L.
Proof. exact ThmPressure.sink_bounded_proof. Qed.
Print Assumptions sink_bounded.

(** A transport that is never ready: of three messages of 5000 bytes two are taken. *)
Example sink_bounded_ex :
  let m := owned_ops (OBinary (repeat x61 (N.to_nat 5000))) in
  let k := mk_key x00 x00 x00 x00 in
  let w := mk_fw (mk_bm [] 0) [] (repeat AwNotReady 9) [] in
  frame_len true m = 5004 /\
  fst (sink_run true [Send m k 0; Flush; Send m k 0; Flush; Send m k 0] w)
  = [SReady; SNotReady; SReady; SNotReady; SNotReady] /\
  waiting (snd (sink_run true [Send m k 0; Flush; Send m k 0; Flush; Send m k 0] w)) = 10008.
Proof. vm_compute. auto. Qed.

(** [C82] A frame is handed back only while at least 8 KiB wait to be written, even after
    trying; then nothing of it has been taken. *)
Theorem refused_only_when_full : forall is_server d k extra w w', honest d ->
  start_send is_server d k extra w = (SNotReady, w') ->
  mark <= waiting w' /\ exists r, poll_complete w = (r, w') /\ r <> SReady.
Proof. exact ThmPressure.refused_only_when_full_proof. Qed.
Print Assumptions refused_only_when_full.

Example refused_only_when_full_ex :
  let w := mk_fw (mk_bm (repeat x61 (N.to_nat 8195)) 8195) [] [AwAccept 1; AwNotReady] [] in
  start_send true (owned_ops (OPing [])) (mk_key x00 x00 x00 x00) 0 w
  = (SNotReady, mk_fw (mk_bm (repeat x61 (N.to_nat 8193)) 8193) [x61; x61] [] []).
Proof. vm_compute. reflexivity. Qed.

(** [C82] On a transport that takes what it is given, every frame that can be sent at all is
    taken at once. *)
Theorem taken_when_ready : forall (is_server : bool) d (k : mkey) extra w, honest d -> ready_transport w ->
  rfc_sendable (rfc_of (df_is_last d) (df_reserved d) (df_opcode d) (concat (df_writes d)) (if is_server then None else Some k)) ->
  exists w', start_send is_server d k extra w = (SReady, w') /\ ready_transport w'.
Proof. exact ThmPressure.taken_when_ready_proof. Qed.
Print Assumptions taken_when_ready.

Example taken_when_ready_ex :
  let w := mk_fw (mk_bm (repeat x61 (N.to_nat 8192)) 8192) [] [] [] in
  fst (start_send true (owned_ops (OPing [])) (mk_key x00 x00 x00 x00) 0 w) = SReady /\
  waiting (snd (start_send true (owned_ops (OPing [])) (mk_key x00 x00 x00 x00) 0 w)) = 2.
Proof. vm_compute. auto. Qed.

(** ** The HTTP codecs *)

(** [C82] The same holds for the sinks of the HTTP codecs. *)
Theorem http_sink_bounded : forall L ops w,
  Forall (fun t : bytes => N.of_nat (length t) <= L) (http_offered ops) ->
  waiting w < mark + L -> 0 < L ->
  waiting (snd (http_ops ops w)) < mark + L.
Proof. exact ThmPressure.http_sink_bounded_proof. Qed.
Print Assumptions http_sink_bounded.

Example http_sink_bounded_ex :
  let t := repeat x61 (N.to_nat 9000) in
  let w := mk_fw (mk_bm [] 0) [] [AwNotReady; AwAccept 999; AwNotReady] [] in
  fst (http_ops [HSend t 0; HSend t 0; HSend t 0] w) = [SReady; SNotReady; SReady] /\
  waiting (snd (http_ops [HSend t 0; HSend t 0; HSend t 0] w)) = 17000.
Proof. vm_compute. auto. Qed.

(** [C82] *)
Theorem http_refused_only_when_full : forall t extra w w',
  http_start_send t extra w = (SNotReady, w') ->
  mark <= waiting w' /\ exists r, poll_complete w = (r, w') /\ r <> SReady.
Proof. exact ThmPressure.http_refused_only_when_full_proof. Qed.
Print Assumptions http_refused_only_when_full.

Example http_refused_only_when_full_ex :
  http_start_send (str "GET") 0 (mk_fw (mk_bm (repeat x61 (N.to_nat 8194)) 8194) [] [AwAccept 0; AwNotReady] [])
  = (SNotReady, mk_fw (mk_bm (repeat x61 (N.to_nat 8193)) 8193) [x61] [] []).
Proof. vm_compute. reflexivity. Qed.

(** [C82] *)
Theorem http_taken_when_ready : forall t extra w, ready_transport w ->
  exists w', http_start_send t extra w = (SReady, w') /\ ready_transport w'.
Proof. exact ThmPressure.http_taken_when_ready_proof. Qed.
Print Assumptions http_taken_when_ready.

Example http_taken_when_ready_ex :
  fst (http_start_send (str "GET") 0 (mk_fw (mk_bm (repeat x61 (N.to_nat 8192)) 8192) [] [] [])) = SReady /\
  waiting (snd (http_start_send (str "GET") 0 (mk_fw (mk_bm (repeat x61 (N.to_nat 8192)) 8192) [] [] []))) = 3.
Proof. vm_compute. auto. Qed.
