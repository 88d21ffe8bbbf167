(** A tactic for the concrete examples beside the theorems. *)
From Coq Require Import NArith List Bool.
From Coq.Strings Require Import Byte.
From Verif.Model Require Import Base Utf8 Message.
From Verif.Spec Require Import RfcFrame FrameSpec Unicode Session.
From Verif.Proofs Require Import Utf8Facts.
Import ListNotations.

Lemma good_text : forall d, utf8_valid d = true -> well_formed (octets d).
Proof. intros d H. apply utf8_valid_iff, H. Qed.

Ltac facts := repeat match goal with
 | |- True => exact I
 | |- _ /\ _ => split
 | |- Forall _ [] => apply Forall_nil
 | |- Forall _ (_ :: _) => apply Forall_cons
 | |- Forall ?P ?l => let l' := eval vm_compute in l in change (Forall P l')
 | |- well_formed _ => apply good_text; vm_compute; reflexivity
 | |- N.le _ _ => vm_compute; discriminate
 | |- N.lt _ _ => vm_compute; reflexivity
 | |- _ = _ => vm_compute; reflexivity
 | |- False -> _ => let H := fresh in intro H; destruct H
 | |- N.le _ _ -> _ => first [ intros _; solve [vm_compute; reflexivity | vm_compute; discriminate]
     | let H := fresh in intro H; exfalso; vm_compute in H; apply H; reflexivity ]
 | |- True -> _ => intros _
 | |- context [fst (_, _)] => progress cbn [fst snd]
 | |- typed _ => cbn [typed c_reason c_status cm_message cm_text]
 | |- control_message _ => cbn [control_message]
 | |- control_message _ -> _ => cbn [control_message]
 | |- control_ok _ => unfold control_ok
 | |- cut_ok _ _ _ => unfold cut_ok
 | |- item_ok _ _ _ => unfold item_ok
 | |- rfc_legal _ => unfold rfc_legal
 | |- rfc_sendable _ => unfold rfc_sendable
 | |- sendable _ _ => unfold sendable
 | |- _ => progress cbv beta
 end.
