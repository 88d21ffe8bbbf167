(** What a chat client has to say. *)
From Coq Require Import NArith String List.
From Coq.Strings Require Import Byte.
From Verif.Model Require Import Base Io Header Mask Dataframe Text Message Receiver Connect ChatClient.
From Verif.Spec Require Import RfcFrame FrameSpec Session Echo.
Import ListNotations.
Local Open Scope string_scope.
Local Open Scope list_scope.
Local Open Scope N_scope.

(** A line typed by the user. *)
Definition command (t : bytes) : owned :=
  if beqb t (str "/ping") then OPing (str "PING") else OText t.
(** [types lines us]: of the lines [lines] the user has typed so far, the messages [us] were
    made.  The command "/close" is the last; after the last line there are empty ones. *)
Inductive types : list bytes -> list owned -> Prop :=
| types_none : forall ts, types ts []
| types_line : forall t ts us, t <> str "/close" -> types ts us -> types (t :: ts) (command t :: us)
| types_close : forall ts, types (str "/close" :: ts) [OClose None]
| types_end : forall us, types [] us -> types [] (OText [] :: us).

(** What is to be answered to the server on the way. *)
Definition pong (m : owned) : list owned := match m with OPing d => [OPong d] | _ => [] end.
(** [hears r ms ans]: from [r], the messages [ms] were received so far, and [ans] is to be
    said to them; after a close message or an error, a close message. *)
Inductive hears (r : reader) : list owned -> list owned -> Prop :=
| hears_on : forall ms rc s, Forall (fun m => ~ closing m) ms ->
    recv_n (List.length ms) (rd_receiver r) (push_back (rd_buf r) (rd_in r)) = (map Ok ms, rc, s) ->
    hears r ms (flat_map pong ms)
| hears_end : forall ms x rc s, Forall (fun m => ~ closing m) ms ->
    recv_n (S (List.length ms)) (rd_receiver r) (push_back (rd_buf r) (rd_in r)) = (map Ok ms ++ [x], rc, s) ->
    match x with Ok m => closing m | Err _ => True | _ => False end ->
    hears r ms (flat_map pong ms ++ [OClose None]).

(** [merge a b l]: [l] is made of [a] and [b], each in its order. *)
Inductive merge {A : Type} : list A -> list A -> list A -> Prop :=
| merge_nil : merge [] [] []
| merge_left : forall x a b l, merge a b l -> merge (x :: a) b (x :: l)
| merge_right : forall x a b l, merge a b l -> merge a (x :: b) (x :: l).

(** What a client puts on the wire to say [l]: one frame each, masked with the key given. *)
Definition client_says (l : list (owned * mkey)) : list N :=
  concat (map (fun p => rfc_encode (rfc_of_frame (whole_frame (fst p)) (Some (snd p)))) l).

(** Nothing follows a close message. *)
Definition close_is_last (ms : list owned) : Prop :=
  forall a m b, ms = a ++ m :: b -> closing m -> b = [].

(** How many of the turns given were used (the thread was able to go on). *)
Fixpoint turns_used (sched : list who) (c : chat) : nat :=
  match sched with
  | [] => 0
  | p :: sched' =>
      match chat_step p c with
      | Some c' => S (turns_used sched' c')
      | None => turns_used sched' c
      end
  end.
Definition all_wait (c : chat) : Prop := forall p, chat_step p c = None.
Definition all_over (c : chat) : Prop :=
  ch_main c = Exited /\ ch_send c = SendOver /\ ch_recv c = ReceiveOver.
