(** Polling a stream, and what a transport said meanwhile. *)
From Coq Require Import List.
From Coq.Strings Require Import Byte.
From Verif.Model Require Import Base Io Codec Framed.
Import ListNotations.

(** [polled decode s f s' f']: a stream with the state [f], whose transport will do [s], has
    been polled some number of times. *)
Inductive polled {St Item : Type}
  (decode : St -> bytes -> result (option Item) ws_error * St * bytes)
  : list aev -> framed St -> list aev -> framed St -> Prop :=
| polled_not : forall s f, polled decode s f s f
| polled_item : forall s f i s1 f1 s2 f2,
    framed_poll decode s f = (PItem i, f1, s1) -> polled decode s1 f1 s2 f2 -> polled decode s f s2 f2
| polled_wait : forall s f s1 f1 s2 f2,
    framed_poll decode s f = (PNotReady, f1, s1) -> polled decode s1 f1 s2 f2 -> polled decode s f s2 f2.

(** The transport gave some bytes, any number of times, and then was not ready. *)
Definition read_waits (s s' : list aev) : Prop :=
  exists chunks : list (byte * bytes),
    s = map (fun c => AData (fst c) (snd c)) chunks ++ ANotReady :: s'.
(** The transport took some bytes, any number of times, and then was not ready. *)
Definition write_waits (ws ws' : list awev) : Prop :=
  exists took, ws = map AwAccept took ++ AwNotReady :: ws'.
