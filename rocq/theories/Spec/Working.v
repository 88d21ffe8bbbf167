(** How much a peer may make the other side do. *)
From Coq Require Import NArith List.
From Coq.Strings Require Import Byte.
From Verif.Model Require Import Base Header Dataframe Message Codec Framed.
From Verif.Spec Require Import RfcFrame FrameSpec Session Schedule.
Import ListNotations.
Local Open Scope N_scope.

(** How often the transport has something. *)
Fixpoint reads (s : list aev) : N :=
  match s with
  | [] => 0
  | AData _ _ :: s' => 1 + reads s'
  | _ :: s' => reads s'
  end.

(** Never do more than [most] fragments of an unfinished message wait for the others, in whatever
    the bytes [l] begin with. *)
Definition piles_up_to (most : N) (masked : bool) (l : list byte) : Prop :=
  forall fs ws rest ms p, l = ws ++ rest -> on_wire masked fs ws -> delivers [] fs ms p ->
    N.of_nat (length p) <= most.

(** A message in [n] empty fragments, but for the last of them. *)
Definition empty_fragments (n : nat) : list dataframe :=
  match n with
  | O => []
  | S n' => mk_df false (false, false, false) Binary []
            :: repeat (mk_df false (false, false, false) Continuation []) n'
  end.
(** The same with an empty ping after each of them. *)
Definition with_pings (fs : list dataframe) : list dataframe :=
  concat (map (fun f => [f; whole_frame (OPing [])]) fs).
