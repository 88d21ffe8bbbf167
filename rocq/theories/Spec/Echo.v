(** What an echo server has to answer. *)
From Coq Require Import NArith List.
From Coq.Strings Require Import Byte.
From Verif.Model Require Import Base Io Header Mask Dataframe Message Framed Headers Handshake Http Connect.
From Verif.Spec Require Import RfcFrame FrameSpec Session.
Import ListNotations.

(** A text or binary message comes back, a ping is answered with a pong of the same data
    (RFC 6455, 5.5.2), a pong is not answered. *)
Definition echo (m : owned) : list owned :=
  match m with
  | OText _ | OBinary _ => [m]
  | OPing d => [OPong d]
  | OPong _ | OClose _ => []
  end.
(** The same with pongs sent back. *)
Definition echo_all (m : owned) : list owned :=
  match m with
  | OText _ | OBinary _ | OPong _ => [m]
  | OPing d => [OPong d]
  | OClose _ => []
  end.
Definition closing (m : owned) : Prop := match m with OClose _ => True | _ => False end.

(** What a server puts on the wire to say [ms]: one unmasked frame each. *)
Definition server_says (ms : list owned) : list N :=
  concat (map (fun m => rfc_encode (rfc_of_frame (whole_frame m) None)) ms).

(** The handshakes that succeeded, of those that are over. *)
Definition completed (l : list (N * result aupgrade arefusal)) : list (N * aupgrade) :=
  flat_map (fun c => match snd c with Ok u => [(fst c, u)] | _ => [] end) l.
