(** A client and a server that begin with the handshake: a program calls [connect_on]
    (src/client/builder.rs:502-519), another [into_ws] and [accept] (src/server/upgrade/sync.rs); when
    its call has returned, each goes on as in Model/Programs.v.  The network carries bytes, in order, in
    pieces of any size, after any delay, and holds at most so many of them in either direction. *)
From Coq Require Import NArith String Bool List.
From Coq.Strings Require Import Byte.
From Verif.Model Require Import Base Io Header Mask Dataframe Text Headers WsKey Handshake Http Message Receiver Connect Talk Narrow Errand Dialogue Programs.
Import ListNotations.
Local Open Scope list_scope.

(** What the two calls are given: the key drawn at random, the builder and the stream it writes to;
    the headers the server's program chose before and gives with [accept_with], and the stream it
    writes to. *)
Record occasion : Type := mk_occasion {
  o_lib : http_lib; o_rnd : ws_key; o_builder : builder; o_wire1 : wstream;
  o_chosen : headers; o_custom : option headers; o_wire2 : wstream }.

(** The client is writing its request, of which [out] is still to be written; it is reading the
    response, of which [s] has arrived; it is connected; or [connect_on] gave an error. *)
Inductive cstage : Type := CAsks (out : bytes) | CAwaits (s : script) | CIn (u : user) | CGone.
(** The server is reading the request; it is writing the response, and will then be [u]; the
    connection is made; or one of the calls gave an error. *)
Inductive sstage : Type := SAwaits (s : script) | SAnswers (u : user) (out : bytes) | SIn (u : user) | SGone.
Record encounter : Type := mk_encounter { n_client : cstage; n_server : sstage; n_up : bytes; n_down : bytes }.

(** The [Client] the call returned (src/client/sync.rs:137-151), as its two halves ([split] changes
    nothing, see C44). *)
Definition as_user (c : client) : user :=
  mk_user [] (mk_reader (c_receiver c) (c_buf c) (c_in c)) (mk_writer (c_sender c) (c_out c)) None.

(** src/client/builder.rs:502-519 up to the reading: what it writes. *)
Definition asked (o : occasion) : bytes :=
  skipn (length (w_out (o_wire1 o))) (w_out (snd (connect_on (o_lib o) (o_rnd o) (o_builder o) [] (o_wire1 o)))).
Definition c_asks (out : bytes) : cstage := match out with [] => CAwaits [] | _ => CAsks out end.

(** Is the read that [connect_on] or [into_ws] is in waiting?  It is if what has arrived ends before
    the head does (a read at the end of the script gives [UnexpectedEof]); the other side does not
    close the connection. *)
Definition c_waits (o : occasion) (s : script) : bool :=
  match connect_on (o_lib o) (o_rnd o) (o_builder o) s (o_wire1 o) with
  | (Err (CParsing (PEIo UnexpectedEof)), _, _) => true
  | _ => false
  end.
Definition s_waits (o : occasion) (s : script) : bool :=
  match into_ws (o_lib o) s (o_wire2 o) with
  | Err r => match rf_error r with UpParsing (PEIo UnexpectedEof) => true | _ => false end
  | _ => false
  end.
(** [connect_on] returns.  (Its writing is done over again here; it writes the same.) *)
Definition c_returns (o : occasion) (s : script) : cstage :=
  match connect_on (o_lib o) (o_rnd o) (o_builder o) s (o_wire1 o) with
  | (Ok c, _, _) => CIn (as_user c)
  | _ => CGone
  end.
(** [into_ws] returns, headers are chosen (src/server/upgrade/mod.rs:56-96), and [accept] or
    [accept_with] writes the response (src/server/upgrade/sync.rs:56-97). *)
Definition s_returns (o : occasion) (s : script) : sstage :=
  match into_ws (o_lib o) s (o_wire2 o) with
  | Ok up =>
      match internal_accept (o_custom o) SERVER_MAX_DATAFRAME_SIZE SERVER_MAX_MESSAGE_SIZE
              (mk_upgrade (o_chosen o) (up_request up) (up_buffer up) (up_in up) (up_out up)) with
      | Ok c => SAnswers (as_user c) (skipn (length (w_out (o_wire2 o))) (w_out (c_out c)))
      | _ => SGone
      end
  | _ => SGone
  end.

(** The network takes up to [n] bytes of [out], if there is room: what it holds then, and what is
    left (External: a blocking [TcpStream]). *)
Definition put (cap n : nat) (q out : bytes) : option (bytes * bytes) :=
  let j := Nat.min n (cap - length q) in
  match firstn j out with [] => None | now => Some (q ++ now, skipn j out) end.
(** A read takes up to [n] bytes. *)
Definition get (n : nat) (q : bytes) (s : script) : option (script * bytes) :=
  match firstn n q with [] => None | b :: bs => Some (s ++ [RData b bs], skipn n q) end.

(** What may happen is as in Model/Dialogue.v ([dact]). *)
Definition encounter_step (o : occasion) (f1 f2 : program) (cap : nat) (a : dact) (t : encounter) : option encounter :=
  let '(mk_encounter c s u d) := t in
  match a with
  | DTurn true k =>
      match c with
      | CAsks _ | CGone => None
      | CAwaits i => if c_waits o i then None else Some (mk_encounter (c_returns o i) s u d)
      | CIn x => match user_turn f1 k d x with Some (x', w) => Some (mk_encounter (CIn x') s (u ++ w) d) | None => None end
      end
  | DTurn false k =>
      match s with
      | SAnswers _ _ | SGone => None
      | SAwaits i => if s_waits o i then None else Some (mk_encounter c (s_returns o i) u d)
      | SIn y => match user_turn f2 k u y with Some (y', w) => Some (mk_encounter c (SIn y') u (d ++ w)) | None => None end
      end
  | DSend true n =>
      match c with
      | CAwaits _ | CGone => None
      | CAsks out => match put cap n u out with Some (u', out') => Some (mk_encounter (c_asks out') s u' d) | None => None end
      | CIn x => match user_send cap n u x with Some (x', u') => Some (mk_encounter (CIn x') s u' d) | None => None end
      end
  | DSend false n =>
      match s with
      | SAwaits _ | SGone => None
      | SAnswers y out =>
          match put cap n d out with
          | Some (d', out') => Some (mk_encounter c (match out' with [] => SIn y | _ => SAnswers y out' end) u d')
          | None => None
          end
      | SIn y => match user_send cap n d y with Some (y', d') => Some (mk_encounter c (SIn y') u d') | None => None end
      end
  | DRead true n =>
      match c with
      | CAsks _ | CGone => None
      | CAwaits i => if c_waits o i then match get n d i with Some (i', d') => Some (mk_encounter (CAwaits i') s u d') | None => None end else None
      | CIn x => match user_read f1 n d x with Some (x', d') => Some (mk_encounter (CIn x') s u d') | None => None end
      end
  | DRead false n =>
      match s with
      | SAnswers _ _ | SGone => None
      | SAwaits i => if s_waits o i then match get n u i with Some (i', u') => Some (mk_encounter c (SAwaits i') u' d) | None => None end else None
      | SIn y => match user_read f2 n u y with Some (y', u') => Some (mk_encounter c (SIn y') u' d) | None => None end
      end
  end.
Fixpoint encounter_run (o : occasion) (f1 f2 : program) (cap : nat) (acts : list dact) (t : encounter) : encounter :=
  match acts with
  | [] => t
  | a :: acts' => encounter_run o f1 f2 cap acts' (match encounter_step o f1 f2 cap a t with Some t' => t' | None => t end)
  end.
Definition encounter_new (o : occasion) : encounter := mk_encounter (c_asks (asked o)) (SAwaits []) [] [].
