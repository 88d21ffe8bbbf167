(** Reading through a buffer: C24, C43. *)
From Coq Require Import NArith ZArith String Bool List Lia.
From Coq.Strings Require Import Byte.
From Verif.Model Require Import Base Io Header Mask Dataframe Utf8 Text Base64 WsKey Headers
  Handshake Message Receiver Codec Framed Http BufReader.
From Verif.Spec Require Import Fields HttpHead.
From Verif.Proofs Require Import ExTac.
From Verif.Proofs Require ThmBuffered.
Import ListNotations.
Local Open Scope string_scope.
Local Open Scope list_scope.
Local Open Scope N_scope.

(** [C24] The closed forms the model uses for [read_exact] and [take().read_to_end()] are the
    loops of the standard library: same result, and the stream shows the same afterwards. *)
Theorem std_loops : forall s n want, proper s -> (forall m, 0 < m -> 0 < want m) ->
  (fst (std_exact rd_read (S (script_bytes s + length s)) n s) = fst (rd_exact n s) /\
   same_stream (snd (std_exact rd_read (S (script_bytes s + length s)) n s)) (snd (rd_exact n s))) /\
  (fst (std_take rd_read want (S (script_bytes s + length s)) n s) = fst (rd_take_to_end n s) /\
   same_stream (snd (std_take rd_read want (S (script_bytes s + length s)) n s))
     (snd (rd_take_to_end n s))).
Proof. exact ThmBuffered.std_loops_proof. Qed.
Print Assumptions std_loops.

Example std_loops_ex :
  let s := [RData x01 [x02]; RIntr; RData x03 [x04; x05]; REof] in
  proper s /\ rd_exact 4 s = (Ok [x01; x02; x03; x04], [RData x05 []; REof]) /\
  std_exact rd_read 10 4 s = (Ok [x01; x02; x03; x04], [RData x05 []; REof]).
Proof. split; [|split; reflexivity]. intros [H|[H|[H|[H|[]]]]]; discriminate H. Qed.

(** ** Connections *)

(** [C43] A connection reads through a buffer that may already hold bytes (those that came
    with the HTTP head) and that reads ahead.  It receives exactly what it would receive from
    a stream showing the buffered bytes and then the stream's: every message, every error,
    the same receiver state; and at any point buffer and stream together, which is what
    [into_stream] and [split] hand over, show exactly the bytes not yet used. *)
Theorem buffered_recv : forall size want n rc buf s, proper s ->
  (forall m, 0 < m -> 0 < want m) ->
  let '(got, rc', r) := br_recv_n size want n rc (mk_br buf s) in
  let '(got0, rc0, s0) := recv_n n rc (push_back buf s) in
  got = got0 /\ rc' = rc0 /\ same_stream (push_back (br_buf r) (br_in r)) s0.
Proof. exact ThmBuffered.buffered_recv_proof. Qed.
Print Assumptions buffered_recv.

Example buffered_recv_ex :
  let s := [RData x82 [x01; x07; x82; x02; x08]; RIntr; RData x09 [x81]; RErr WouldBlock] in
  br_recv_n 4096 (fun n => n) 2 (receiver_new false) (mk_br [x89; x00] s)
  = ([Ok (OPing []); Ok (OBinary [x07])], receiver_new false,
     mk_br [x82; x02; x08] [RIntr; RData x09 [x81]; RErr WouldBlock]).
Proof. vm_compute. reflexivity. Qed.

(** [C43] The same for single frames. *)
Theorem buffered_frames : forall size want rc buf s, proper s ->
  (forall m, 0 < m -> 0 < want m) ->
  let '(x, r) := br_recv_frame size want rc (mk_br buf s) in
  let '(x0, s0) := recv_dataframe rc (push_back buf s) in
  x = x0 /\ same_stream (push_back (br_buf r) (br_in r)) s0.
Proof. exact ThmBuffered.buffered_frames_proof. Qed.
Print Assumptions buffered_frames.

Example buffered_frames_ex :
  let s := [RData x82 [x01; x07; x82]; RErr WouldBlock] in
  br_recv_frame 4096 (fun n => n) (receiver_new false) (mk_br [x89] (RData x00 [] :: s))
  = (Ok (mk_df true (false, false, false) Ping []), mk_br [] s).
Proof. vm_compute. reflexivity. Qed.
