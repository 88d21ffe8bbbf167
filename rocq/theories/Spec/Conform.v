(** RFC 6455, sections 5 and 7: which sequences of frames an endpoint may send, and what they
    say.  On the frames of RfcFrame.v; nothing here uses the model. *)
From Coq Require Import NArith Bool List.
From Verif.Spec Require Import RfcFrame Unicode.
Import ListNotations.
Local Open Scope N_scope.

(** What a sequence of frames says: opcode and application data of each message, of control
    frames too. *)
Definition saying : Type := N * list N.

(** Where the sequence stands: between data messages, within one that began with the opcode and
    has so far this data, within one that cannot be completed any more, or at its end. *)
Inductive progress : Type := Between | Within (op : N) (data : list N) | Doomed | Ended.

(** Rules that may be left out: that a close frame has only codes fit to be sent (7.4); that
    nothing follows it (5.5.1); that reserved bits and opcodes are unused in a frame (5.2) even
    before the message it begins or continues is complete. *)
Record rules : Type := { any_code : bool; talk_on : bool; look_late : bool }.
Definition rfc6455 : rules := {| any_code := false; talk_on := false; look_late := false |}.

(** 7.4.1 and 7.4.2: 1004 is reserved, 1005, 1006 and 1015 must not be sent, the others up to
    2999 are not defined, those below 1000 and above 4999 are not used. *)
Definition fit_code (c : N) : Prop :=
  1000 <= c <= 1003 \/ 1007 <= c <= 1011 \/ 3000 <= c <= 4999.
(** 5.5.1 *)
Inductive close_data (R : rules) : list N -> Prop :=
| no_data : close_data R []
| code_and_reason : forall a b reason,
    (any_code R = true \/ fit_code (256 * a + b)) -> well_formed reason -> close_data R (a :: b :: reason).
(** 5.6, 8.1: text is UTF-8. *)
Definition message_data (op : N) (data : list N) : Prop := op = 1 -> well_formed data.
Definition no_bits (f : rfc_frame) : Prop := rf_rsv1 f = false /\ rf_rsv2 f = false /\ rf_rsv3 f = false.

(** One frame.  5.4: the frames of a message follow each other, with control frames in between
    at most. *)
Inductive frame_says (R : rules) : progress -> rfc_frame -> list saying -> progress -> Prop :=
| says_ping : forall st f, st <> Ended -> no_bits f -> rf_opcode f = 9 \/ rf_opcode f = 10 ->
    frame_says R st f [(rf_opcode f, rf_payload f)] st
| says_close : forall st f, st <> Ended -> no_bits f -> rf_opcode f = 8 -> close_data R (rf_payload f) ->
    frame_says R st f [(8, rf_payload f)] (if talk_on R then st else Ended)
| says_whole : forall f, no_bits f -> rf_opcode f = 1 \/ rf_opcode f = 2 -> rf_fin f = true ->
    message_data (rf_opcode f) (rf_payload f) ->
    frame_says R Between f [(rf_opcode f, rf_payload f)] Between
| says_first : forall f, no_bits f -> rf_opcode f = 1 \/ rf_opcode f = 2 -> rf_fin f = false ->
    frame_says R Between f [] (Within (rf_opcode f) (rf_payload f))
| says_more : forall op data f, no_bits f -> rf_opcode f = 0 -> rf_fin f = false ->
    frame_says R (Within op data) f [] (Within op (data ++ rf_payload f))
| says_last : forall op data f, no_bits f -> rf_opcode f = 0 -> rf_fin f = true ->
    message_data op (data ++ rf_payload f) ->
    frame_says R (Within op data) f [(op, data ++ rf_payload f)] Between
(* with the rule left out: the message will not be completed *)
| dooms_first : forall f, look_late R = true -> 1 <= rf_opcode f < 8 -> rf_fin f = false ->
    ~ (no_bits f /\ rf_opcode f <= 2) -> frame_says R Between f [] Doomed
| dooms_more : forall op data f, look_late R = true -> rf_opcode f = 0 -> rf_fin f = false ->
    ~ no_bits f -> frame_says R (Within op data) f [] Doomed
| doomed_more : forall f, look_late R = true -> rf_opcode f = 0 -> rf_fin f = false ->
    frame_says R Doomed f [] Doomed.

(** A sequence of frames, each of which is legal in itself (RfcFrame.v). *)
Inductive conforms (R : rules) : progress -> list rfc_frame -> list saying -> progress -> Prop :=
| says_nothing : forall st, conforms R st [] [] st
| says_on : forall st f out st1 fs outs st2, rfc_legal f -> frame_says R st f out st1 ->
    conforms R st1 fs outs st2 -> conforms R st (f :: fs) (out ++ outs) st2.
