(** Programs that begin with the handshake: what they ought to know of it. *)
From Coq Require Import NArith List.
From Coq.Strings Require Import Byte.
From Verif.Model Require Import Base Io Headers Handshake Http Message Connect Programs Encounter.
From Verif.Spec Require Import Fields Builder HttpHead Upgrade Wire Connection Echo Queues.
Import ListNotations.
Local Open Scope list_scope.
Local Open Scope N_scope.

(** An occasion on which the handshake ought to succeed: the client was configured without breaking
    it, with the default limit for frames, the server's program chose headers that can be written down,
    the two heads are not too long for the HTTP library, and writing does not fail. *)
Definition auspicious (u : url) (cs : list call) (o : occasion) : Prop :=
  speaks (o_lib o) /\ sound_room (o_lib o) /\
  configured (o_lib o) u cs (o_rnd o) (o_builder o) /\ b_max_df (o_builder o) = 104857600 /\
  unique_names (o_chosen o) /\ all_unique (o_custom o) /\ never_fails (o_wire1 o) /\ never_fails (o_wire2 o) /\
  exists text h rtext, request_text (o_rnd o) (o_builder o) text /\ llen text <= 417792 /\
    response_text (o_custom o) (o_chosen o) (request_fields (o_rnd o) (o_builder o)) h rtext /\
    legible_all (o_lib o) (fields h) /\ llen rtext <= 417792.

(** What has happened to a program with its connection; nothing, as long as it has none. *)
Definition past1 (t : encounter) : list happening := match n_client t with CIn u => u_past u | _ => [] end.
Definition past2 (t : encounter) : list happening := match n_server t with SIn u => u_past u | _ => [] end.
(** No call of the handshake has failed. *)
Definition on_course (t : encounter) : Prop := n_client t <> CGone /\ n_server t <> SGone.
(** Nothing can happen any more. *)
Definition encounter_rests (o : occasion) (f1 f2 : program) (cap : nat) (t : encounter) : Prop :=
  forall a, encounter_step o f1 f2 cap a t = None.
