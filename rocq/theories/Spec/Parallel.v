(** What is said about the parallel server in terms of what happens around it: what each client
    sends, which handshakes complete, when the updates run. *)
From Coq Require Import NArith Bool List.
From Coq.Strings Require Import Byte.
From Verif.Model Require Import Base Message Parallel.
Import ListNotations.
Local Open Scope N_scope.

(** Everything that arrives from client [i] during the events. *)
Fixpoint sends_of (i : N) (es : list pevent) : list sitem :=
  match es with
  | [] => []
  | Arrives j x :: r => if j =? i then x :: sends_of i r else sends_of i r
  | _ :: r => sends_of i r
  end.

(** The texts a client sends before its stream ends or fails, and whether it ends. *)
Fixpoint texts_of (l : list sitem) : list bytes :=
  match l with
  | SMsg (OText t) :: r => t :: texts_of r
  | SMsg _ :: r => texts_of r
  | _ => []
  end.
Fixpoint comes_to_end (l : list sitem) : bool :=
  match l with
  | SMsg _ :: r => comes_to_end r
  | SEnd :: _ => true
  | _ => false
  end.
Definition from (i : N) (ts : list bytes) : list (N * bytes) := map (fun t => (i, t)) ts.

(** How many handshakes complete. *)
Fixpoint handshakes (es : list pevent) : N :=
  match es with
  | [] => 0
  | Accepted :: r => 1 + handshakes r
  | _ :: r => handshakes r
  end.

(** Whether the listener or a handshake ever fails. *)
Definition refuses (e : pevent) : bool := match e with Refused => true | _ => false end.

(** No update runs while a greeting of an earlier one still waits for the send handler. *)
Fixpoint unhurried (s : pserver) (es : list pevent) : Prop :=
  match es with
  | [] => True
  | e :: r => (e = UpdateRuns -> ps_msg_tasks s = [] /\ ps_sends s = []) /\ unhurried (par_step s e) r
  end.

(** How often an update runs while client [i] is in the table. *)
Fixpoint updates_with (i : N) (s : pserver) (es : list pevent) : nat :=
  match es with
  | [] => 0
  | e :: r =>
      (match e, ps_updates s, ps_down s with
       | UpdateRuns, S _, None => if existsb (N.eqb i) (ps_conns s) then 1 else 0
       | _, _, _ => 0
       end + updates_with i (par_step s e) r)%nat
  end.

Definition times (i : N) (l : list N) : nat := List.count_occ N.eq_dec l i.

(** Whether a client's stream fails (after any messages). *)
Fixpoint comes_to_failure (l : list sitem) : bool :=
  match l with
  | SMsg _ :: r => comes_to_failure r
  | SFail :: _ => true
  | _ => false
  end.
