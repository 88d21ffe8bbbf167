(** Reading frames and messages from one blocking client, in any order. *)
From Coq Require Import NArith Bool List.
From Coq.Strings Require Import Byte.
From Verif.Model Require Import Base Io Header Dataframe Message Receiver Connect.
From Verif.Spec Require Import FrameSpec Session.
Import ListNotations.
Local Open Scope N_scope.

(** What the program asks for, and what it gets. *)
Inductive ask : Type := AskFrame | AskMessage.
Inductive got : Type := GotFrame (f : dataframe) | GotMessage (m : owned).

(** A program calling [recv_dataframe] and [recv_message] of its client as listed, going on
    after an error. *)
Fixpoint client_asks (qs : list ask) (c : client) : list (result got ws_error) * client :=
  match qs with
  | [] => ([], c)
  | q :: qs' =>
      let '(x, c1) :=
        match q with
        | AskFrame =>
            match client_recv_frame c with
            | (Ok f, c1) => (Ok (GotFrame f), c1)
            | (Err e, c1) => (Err e, c1)
            | (Panic, c1) => (Panic, c1)
            | (OutOfFuel, c1) => (OutOfFuel, c1)
            end
        | AskMessage =>
            match client_recv c with
            | (Ok m, c1) => (Ok (GotMessage m), c1)
            | (Err e, c1) => (Err e, c1)
            | (Panic, c1) => (Panic, c1)
            | (OutOfFuel, c1) => (OutOfFuel, c1)
            end
        end in
      let '(xs, c2) := client_asks qs' c1 in
      (x :: xs, c2)
  end.

Definition asked (g : got) : ask := match g with GotFrame _ => AskFrame | GotMessage _ => AskMessage end.

(** [reading p gs fs p']: with [p] the frames of an unfinished message, a program that gets
    [gs] has used the frames [fs], every frame in exactly one call: a frame asked for is
    handed out and forgotten; a message is made of the frames up to the first that
    completes one.  [p'] is unfinished afterwards. *)
Inductive reading : list dataframe -> list got -> list dataframe -> list dataframe -> Prop :=
| reading_none : forall p, reading p [] [] p
| reading_frame : forall p f gs fs p', reading p gs fs p' ->
    reading p (GotFrame f :: gs) (f :: fs) p'
| reading_message : forall p fs1 p1 f m p2 gs fs p',
    delivers p fs1 [] p1 -> delivers p1 [f] [m] p2 -> reading p2 gs fs p' ->
    reading p (GotMessage m :: gs) (fs1 ++ f :: fs) p'.

(** The same, no unfinished message ever being too large for the limit. *)
Inductive reading_under (lim : N) : list dataframe -> list got -> list dataframe -> list dataframe -> Prop :=
| under_none : forall p, reading_under lim p [] [] p
| under_frame : forall p f gs fs p', reading_under lim p gs fs p' ->
    reading_under lim p (GotFrame f :: gs) (f :: fs) p'
| under_message : forall p fs1 p1 f m p2 gs fs p',
    delivers p fs1 [] p1 -> delivers p1 [f] [m] p2 -> under lim p (fs1 ++ [f]) ->
    reading_under lim p2 gs fs p' ->
    reading_under lim p (GotMessage m :: gs) (fs1 ++ f :: fs) p'.
