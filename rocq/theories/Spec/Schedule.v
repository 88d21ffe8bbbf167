(** What it means for a transport behaviour to deliver a byte stream. *)
From Coq Require Import NArith List.
From Coq.Strings Require Import Byte.
From Verif.Model Require Import Base Io Framed.
Import ListNotations.

(** [carries s l]: reading script [s] delivers the bytes [l] and then end of file,
    cut into reads in any way, with [Interrupted] errors anywhere in between. *)
Inductive carries : script -> list byte -> Prop :=
| carries_nil : carries [] []
| carries_data : forall b bs s l, carries s l -> carries (RData b bs :: s) ((b :: bs) ++ l)
| carries_intr : forall s l, carries s l -> carries (RIntr :: s) l.

(** [contains s l]: [l] are all the bytes of [s], which may also fail or report end
    of file any number of times anywhere. *)
Inductive contains : script -> list byte -> Prop :=
| contains_nil : contains [] []
| contains_data : forall b bs s l,
    contains s l -> contains (RData b bs :: s) ((b :: bs) ++ l)
| contains_intr : forall s l, contains s l -> contains (RIntr :: s) l
| contains_eof : forall s l, contains s l -> contains (REof :: s) l
| contains_err : forall k s l, contains s l -> contains (RErr k :: s) l.

(** [acarries s l]: the asynchronous transport delivers [l] and then end of file, in
    chunks of any size, being not ready any number of times. *)
Inductive acarries : list aev -> list byte -> Prop :=
| acarries_nil : acarries [] []
| acarries_data : forall b bs s l,
    acarries s l -> acarries (AData b bs :: s) ((b :: bs) ++ l)
| acarries_not_ready : forall s l, acarries s l -> acarries (ANotReady :: s) l.

(** [acontains s l]: [l] are all the bytes the transport delivers; it may also fail
    anywhere. *)
Inductive acontains : list aev -> list byte -> Prop :=
| acontains_nil : acontains [] []
| acontains_data : forall b bs s l,
    acontains s l -> acontains (AData b bs :: s) ((b :: bs) ++ l)
| acontains_not_ready : forall s l, acontains s l -> acontains (ANotReady :: s) l
| acontains_err : forall k s l, acontains s l -> acontains (AErr k :: s) l.
