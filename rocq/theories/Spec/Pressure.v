(** How much a sender can pile up. *)
From Coq Require Import NArith List.
From Coq.Strings Require Import Byte.
From Verif.Model Require Import Base Io Header Mask Dataframe Message Codec Framed.
From Verif.Spec Require Import Sink HttpSeries.
Import ListNotations.
Local Open Scope N_scope.

(** The length of a frame on the wire (RFC 6455 5.2): two bytes, the extended length, the
    masking key of a client, the payload. *)
Definition wire_len (is_server : bool) (payload : N) : N :=
  2 + (if payload <? 126 then 0 else if payload <? 65536 then 2 else 8)
  + (if is_server then 0 else 4) + payload.
Definition frame_len (is_server : bool) (d : dataframe_ops) : N :=
  wire_len is_server (N.of_nat (length (concat (df_writes d)))).

(** What waits to be written. *)
Definition waiting (w : fwrite) : N := N.of_nat (length (bm_data (fw_buf w))).
(** The buffer's mark: from here on the sink first has to get rid of something. *)
Definition mark : N := 8192.

(** A transport that takes everything at once. *)
Definition ready_transport (w : fwrite) : Prop := fw_ws w = [] /\ fw_fs w = [].

(** Every text handed to the sink of an HTTP codec. *)
Fixpoint http_offered (ops : list http_op) : list bytes :=
  match ops with
  | [] => []
  | HSend t _ :: ops' => t :: http_offered ops'
  | HFlush :: ops' => http_offered ops'
  end.
