(** What is to be seen of a conversation of examples/async-client.rs with examples/async-server.rs. *)
From Coq Require Import NArith String Bool List.
From Coq.Strings Require Import Byte.
From Verif.Model Require Import Base Io Header Mask Dataframe Text Message Receiver Codec Framed Connect Examples AsyncExamples AsyncChat AsyncTalk.
From Verif.Spec Require Import FrameSpec Session Unicode Fields Echo Chat Talking AsyncChat.
Import ListNotations.
Local Open Scope string_scope.
Local Open Scope list_scope.
Local Open Scope N_scope.

(** [before_close lines us closed]: the messages for the lines before "/close", and whether
    there is one. *)
Inductive before_close : list bytes -> list owned -> bool -> Prop :=
| before_none : before_close [] [] false
| before_it : forall ts, before_close (ascii "/close" :: ts) [] true
| before_line : forall t ts us b, t <> ascii "/close" -> before_close ts us b -> before_close (t :: ts) (command t :: us) b.

(** The conversation as the user sees it, if they wait for its end. *)
Definition aconversation (us : list owned) (closed : bool) : list owned :=
  OText (ascii "Hello World!") :: flat_map echo_all us ++ if closed then [OClose None] else [].

(** A line that can be sent: text, at most 100 MB. *)
Definition sayable (t : bytes) : Prop := well_formed (octets t) /\ size t <= 104857600.

(** All that the user will say, framed (at most 14 bytes each), does not fill the network and
    the client's buffer. *)
Definition wont_fill (cap : nat) (lines : list bytes) : Prop :=
  N.of_nat (letters lines + 14 * List.length lines) < N.of_nat cap + 8192.

(** A stretch of time in which everyone gets a turn: each task, the network in either
    direction, and the user. *)
Definition all_act (acts : list aact) : Prop :=
  (exists e, In (APollClient e) acts) /\ (exists k e, In (APollServer k e) acts) /\
  (exists n, In (AUp (S n)) acts) /\ (exists n, In (ADown (S n)) acts) /\ In AType acts.
