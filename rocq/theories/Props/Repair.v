(** Text that is not UTF-8: C20. *)
From Coq Require Import NArith ZArith String Bool List Lia.
From Coq.Strings Require Import Byte.
From Verif.Model Require Import Base Utf8 Message.
From Verif.Spec Require Import Unicode FrameSpec Repair.
From Verif.Proofs Require Import ExTac.
From Verif.Proofs Require ThmRepair.
Import ListNotations.
Local Open Scope string_scope.
Local Open Scope list_scope.
Local Open Scope N_scope.

(** [C20] What an OwnedMessage has for a text or a close reason that is not UTF-8: every character
    is kept, and where there is none, as many bytes as could have begun one, and at least one, become a single U+FFFD. *)
Theorem ill_formed_repaired : forall d, exists o,
  to_owned (msg_text d) = OText o /\ (forall code, to_owned (msg_close_because code d) = OClose (Some (mk_close code o))) /\
  repaired d o /\ (forall o', repaired d o' -> o' = o).
Proof. exact ThmRepair.ill_formed_repaired_proof. Qed.
Print Assumptions ill_formed_repaired.

(** A character cut short, a stray continuation byte, an overlong form and a surrogate, between letters. *)
Example ill_formed_repaired_ex :
  to_owned (msg_text ([x61; xe2; x82; x62; x80; x63] ++ [xc0; xaf; x64; xed; xa0; x80; x65]))
  = OText ([x61] ++ [xef; xbf; xbd] ++ [x62] ++ [xef; xbf; xbd] ++ [x63] ++ [xef; xbf; xbd] ++ [xef; xbf; xbd] ++ [x64]
           ++ [xef; xbf; xbd] ++ [xef; xbf; xbd] ++ [xef; xbf; xbd] ++ [x65]).
Proof. reflexivity. Qed.
