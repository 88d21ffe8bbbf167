(** The chat client of three threads: C72. *)
From Coq Require Import NArith ZArith String Bool List Lia.
From Coq.Strings Require Import Byte.
From Verif.Model Require Import Base Io Header Mask Dataframe Utf8 Text Headers
  Message Receiver Codec Connect Examples ChatClient.
From Verif.Spec Require Import RfcFrame FrameSpec Schedule Unicode Drive Session Connection Polled Echo Chat.
From Verif.Proofs Require Import ExTac.
From Verif.Proofs Require ThmChat.
Import ListNotations.
Local Open Scope string_scope.
Local Open Scope list_scope.
Local Open Scope N_scope.

(** ** Saying and hearing *)

(** [C72] However the three threads are scheduled and whatever the server sends, when writing
    does not fail: what is on the wire are the messages typed and the answers to those
    received, each in order, one masked frame each; nothing follows a close message; and
    nothing gets lost but what comes after it. *)
Theorem chat_says : forall df msg lines buf s w sched,
  never_fails w -> Forall (fun t => well_formed (octets t) /\ size t <= 2 ^ 34) lines ->
  let r := mk_reader (receiver_with_limits false df msg) buf s in
  let c := chat_run sched (chat_new lines r (mk_writer (mk_sender true) w)) in
  exists us ms ans said later,
    types lines us /\ hears r ms ans /\ merge us ans (map fst said ++ later) /\
    octets (w_out (wr_out (ch_writer c))) = octets (w_out w) ++ client_says said /\
    close_is_last (map fst said) /\
    (ch_send c = Waiting -> later = ch_queue c) /\ (forall m, ch_send c = Holding m -> later = m :: ch_queue c) /\
    (ch_send c = SendOver -> exists before m k, said = before ++ [(m, k)] /\ closing m).
Proof. exact ThmChat.chat_says_proof. Qed.
Print Assumptions chat_says.

(** The server pings and closes; the user types a word and "/ping".  Two schedules. *)
Definition chat_start : chat :=
  chat_new [str "hi"; str "/ping"] (mk_reader (receiver_with_limits false 100 1000) [] [RData x89 [x01; x07; x88]; RData x00 []])
    (mk_writer (mk_sender true) (mk_w [] [])).
Definition key0 : mkey * mkey := (mk_key x00 x00 x00 x00, mk_key x00 x00 x00 x00).
Example chat_says_ex :
  let go := repeat (SendLoop key0) 10 in
  w_out (wr_out (ch_writer (chat_run ([Main; ReceiveLoop; Main; ReceiveLoop] ++ go) chat_start)))
  = [x81; x82; x00; x00; x00; x00; x68; x69; x8a; x81; x00; x00; x00; x00; x07;
     x89; x84; x00; x00; x00; x00; x50; x49; x4e; x47; x88; x80; x00; x00; x00; x00] /\
  w_out (wr_out (ch_writer (chat_run ([ReceiveLoop; ReceiveLoop; Main; Main] ++ go) chat_start)))
  = [x8a; x81; x00; x00; x00; x00; x07; x88; x80; x00; x00; x00; x00].
Proof. split; reflexivity. Qed.

(** [C72] If the user does not close the connection and the send loop is over, every ping
    received before the server's close message (or an error) has been answered, in order; and
    the close message is the last thing said. *)
Theorem chat_answers : forall df msg lines buf s w sched,
  never_fails w -> Forall (fun t => well_formed (octets t) /\ size t <= 2 ^ 34) lines ->
  ~ In (str "/close") lines ->
  let r := mk_reader (receiver_with_limits false df msg) buf s in
  let c := chat_run sched (chat_new lines r (mk_writer (mk_sender true) w)) in
  ch_send c = SendOver ->
  exists us ms x rc s' said k,
    recv_n (S (length ms)) (receiver_with_limits false df msg) (push_back buf s) = (map Ok ms ++ [x], rc, s') /\
    Forall (fun m => ~ closing m) ms /\ match x with Ok m => closing m | Err _ => True | _ => False end /\
    types lines us /\ merge us (flat_map pong ms) (map fst said) /\
    octets (w_out (wr_out (ch_writer c))) = octets (w_out w) ++ client_says (said ++ [(OClose None, k)]).
Proof. exact ThmChat.chat_answers_proof. Qed.
Print Assumptions chat_answers.

Example chat_answers_ex :
  ch_send (chat_run ([ReceiveLoop; ReceiveLoop; Main; Main] ++ repeat (SendLoop key0) 10) chat_start) = SendOver.
Proof. reflexivity. Qed.

(** ** The end *)

(** [C72] The threads never wait for each other in a circle: if none can go on, all are over,
    whatever the server, the user and the stream did before. *)
Theorem chat_no_deadlock : forall lines r w sched,
  all_wait (chat_run sched (chat_new lines r w)) -> all_over (chat_run sched (chat_new lines r w)).
Proof. exact ThmChat.chat_no_deadlock_proof. Qed.
Print Assumptions chat_no_deadlock.

(** Both schedules above, with one more turn of the main thread, come to the end. *)
Example chat_no_deadlock_ex :
  all_wait (chat_run ([Main; ReceiveLoop; Main; ReceiveLoop] ++ repeat (SendLoop key0) 10 ++ [Main; Main; Main]) chat_start).
Proof. intros [|[k1 k2]|]; vm_compute; reflexivity. Qed.

(** [C72] If the user types "/close" some time and the server's stream ends, the program does:
    no schedule can use more turns than the lines and bytes allow. *)
Theorem chat_ends : forall df msg lines buf s w sched,
  In (str "/close") lines ->
  (turns_used sched (chat_new lines (mk_reader (receiver_with_limits false df msg) buf s) w)
   <= 3 * length lines + 3 * (length buf + script_bytes s) + 7)%nat.
Proof. exact ThmChat.chat_ends_proof. Qed.
Print Assumptions chat_ends.

(** A server that hangs up at once; of 60 turns offered, nine are used (the bound is 13). *)
Example chat_ends_ex :
  let c := chat_new [str "a"; str "/close"] (mk_reader (receiver_with_limits false 100 1000) [] []) (mk_writer (mk_sender true) (mk_w [] [])) in
  turns_used (concat (repeat [Main; SendLoop key0; ReceiveLoop] 20)) c = 9%nat /\
  ch_main (chat_run (concat (repeat [Main; SendLoop key0; ReceiveLoop] 20)) c) = Exited.
Proof. split; reflexivity. Qed.
