(** The asynchronous chat clients: C79. *)
From Coq Require Import NArith ZArith String Bool List Lia.
From Coq.Strings Require Import Byte.
From Verif.Model Require Import Base Io Header Mask Dataframe Utf8 Text Base64 WsKey Headers
  Handshake Message Receiver Codec Framed Http Connect Examples AsyncExamples Suite AsyncChat.
From Verif.Spec Require Import RfcFrame FrameSpec Schedule Unicode Drive Session Connection Polled Fields Upgrade Builder HttpHead Wire Endpoint Echo Polls Chat Suite AsyncChat.
From Verif.Proofs Require Import ExTac.
From Verif.Proofs Require ThmAsyncChat.
Import ListNotations.
Local Open Scope string_scope.
Local Open Scope list_scope.
Local Open Scope N_scope.

(** ** What is left *)

(** [C79] At every moment, whatever was received and typed, and however reads, writes and typing
    are interleaved: a program has printed the first of the messages received, in their order; and
    what it has written or buffered is one masked frame each for its answers to the messages
    printed and for the first of the user's messages, interleaved, each in their order, none left
    out or doubled - except that at most one more message has been taken and waits for the sink. *)
Theorem achat_says : forall pr n extra a us ks ms e cs, amade a -> afails_never (ac_out a) -> all_text us ->
  run_messages (fr_st (ac_read a)) (fr_buf (ac_read a)) (ac_in a) = (ms, e) -> asks (lines us) cs ->
  let c := snd (achat_run n extra (achat_new pr a us ks)) in
  prefix (at_shown c) ms /\
  exists said wait qs, merge (flat_map (said_to pr) (at_shown c)) qs (said ++ wait) /\ (List.length wait <= 1)%nat /\ prefix qs cs /\
    octets (fw_out (at_out c) ++ bm_data (fw_buf (at_out c))) = octets (fw_out (ac_out a)) ++ client_says (with_keys ks said).
Proof. exact ThmAsyncChat.achat_says_proof. Qed.
Print Assumptions achat_says.

(** [C79] When the user types "/close" and the server's stream ends, the program ends too.  It has
    then printed every message received, and written, flushed, all its answers and all the user's
    messages up to the Close. *)
Theorem achat_ends : forall pr extra a us ks ms cs, amade a -> afails_never (ac_out a) -> all_text us ->
  run_messages (fr_st (ac_read a)) (fr_buf (ac_read a)) (ac_in a) = (ms, PEnd) -> asks (lines us) cs ->
  In (ascii "/close") (lines us) ->
  exists n c said, achat_run n extra (achat_new pr a us ks) = (TReady, c) /\ at_shown c = ms /\
    merge (flat_map (said_to pr) ms) cs said /\ bm_data (fw_buf (at_out c)) = [] /\
    octets (fw_out (at_out c)) = octets (fw_out (ac_out a)) ++ client_says (with_keys ks said).
Proof. exact ThmAsyncChat.achat_ends_proof. Qed.
Print Assumptions achat_ends.

(** [C79] It ends in no other way but one: it is over only when the stream has ended and "/close"
    was typed; if receiving fails, it panics with that error; otherwise it waits. *)
Theorem achat_over : forall pr n extra a us ks ms e r c, amade a -> afails_never (ac_out a) -> all_text us ->
  run_messages (fr_st (ac_read a)) (fr_buf (ac_read a)) (ac_in a) = (ms, e) ->
  achat_run n extra (achat_new pr a us ks) = (r, c) ->
  (r = TReady /\ e = PEnd /\ In (ascii "/close") (lines us)) \/ (exists x, r = TErr x /\ e = PErr x) \/ r = TNotReady.
Proof. exact ThmAsyncChat.achat_over_proof. Qed.
Print Assumptions achat_over.

(** [C79] A stream that fails always ends it, whatever the user does; what was received before has
    been printed. *)
Theorem achat_fails : forall pr extra a us ks ms x, amade a -> afails_never (ac_out a) -> all_text us ->
  run_messages (fr_st (ac_read a)) (fr_buf (ac_read a)) (ac_in a) = (ms, PErr x) ->
  exists n c, achat_run n extra (achat_new pr a us ks) = (TErr x, c) /\ at_shown c = ms.
Proof. exact ThmAsyncChat.achat_fails_proof. Qed.
Print Assumptions achat_fails.

(** [C79] The two take turns: a line that has been typed is the next message taken, or the one
    after it, however much is received. *)
Theorem achat_fair : forall pr n extra a us ks c t us', amade a -> afails_never (ac_out a) -> all_text us ->
  achat_run n extra (achat_new pr a us ks) = (TNotReady, c) -> at_user c = Typed t :: us' -> at_over c = false ->
  let m := if beqb t (str "/close") then OClose None else command t in
  (exists c1, select_poll c = (PItem m, c1) /\ at_user c1 = us') \/
  (exists m' c1 c2, select_poll c = (PItem m', c1) /\ select_poll c1 = (PItem m, c2) /\ at_user c2 = us') \/
  (exists x c1, select_poll c = (PErr x, c1)).
Proof. exact ThmAsyncChat.achat_fair_proof. Qed.
Print Assumptions achat_fair.

(** [C79] Refuted: a comment in examples/async-client.rs says that it responds to a Close from the
    server.  It does not: the server closes and ends its stream, and the client, polled any
    number of times, has said nothing and is not over. *)
Theorem achat_answers_close_refuted : exists a, amade a /\ afails_never (ac_out a) /\
  run_messages (fr_st (ac_read a)) (fr_buf (ac_read a)) (ac_in a) = ([OClose None], PEnd) /\
  forall ks n extra, exists c, achat_run n extra (achat_new AsyncClient a [] ks) = (TNotReady, c) /\
    octets (fw_out (at_out c) ++ bm_data (fw_buf (at_out c))) = octets (fw_out (ac_out a)).
Proof. exact ThmAsyncChat.achat_answers_close_refuted_proof. Qed.
Print Assumptions achat_answers_close_refuted.

(** [C79] The end of the connection does not end a program.  Whatever the server sent
    before its stream ended, a Close or nothing, it waits for the user's "/close". *)
Theorem achat_waits_for_user : forall pr n extra a us ks ms, amade a -> afails_never (ac_out a) -> all_text us ->
  run_messages (fr_st (ac_read a)) (fr_buf (ac_read a)) (ac_in a) = (ms, PEnd) -> ~ In (ascii "/close") (lines us) ->
  fst (achat_run n extra (achat_new pr a us ks)) = TNotReady.
Proof. exact ThmAsyncChat.achat_waits_for_user_proof. Qed.
Print Assumptions achat_waits_for_user.

(** [C79] Refuted: the Close of a program is not the last thing it says.  It goes on answering
    pings, up to the end of the server's stream; and examples/ssl-client.rs also sends a second
    Close, in answer to the server's. *)
Theorem achat_close_last_refuted :
  (forall pr, exists a us ks n c d k, amade a /\ afails_never (ac_out a) /\ all_text us /\
    achat_run n 0 (achat_new pr a us ks) = (TReady, c) /\
    octets (fw_out (at_out c)) = octets (fw_out (ac_out a)) ++ client_says [(OClose None, ks O); (OPong d, k)]) /\
  (exists a us ks n c k, amade a /\ afails_never (ac_out a) /\ all_text us /\
    achat_run n 0 (achat_new SslClient a us ks) = (TReady, c) /\
    octets (fw_out (at_out c)) = octets (fw_out (ac_out a)) ++ client_says [(OClose None, ks O); (OClose None, k)]).
Proof. exact ThmAsyncChat.achat_close_last_refuted_proof. Qed.
Print Assumptions achat_close_last_refuted.

(** The server pings, pauses, pings again and ends; the user says "hi", pings and closes. *)
Definition chatting_head : bytes := str "HTTP/1.1 101 Switching Protocols" ++ crlf ++ str "Connection: Upgrade" ++ crlf ++
    str "Upgrade: websocket" ++ crlf ++ str "Sec-WebSocket-Accept: s3pPLMBiTxaQ9kYGzzhZRbK+xOo=" ++ crlf ++ crlf.
Definition chatting (s : list aev) (ws : list awev) (fs : list afev) : aclient :=
  match async_connect_on httparse_lib (ascii "the sample nonce")
      (builder_init (mk_url (ascii "ws") (Some (ascii "127.0.0.1")) (Some 2794) [] None (ascii "/"))) 0
      (apush_back chatting_head s) (mk_fw (mk_bm [] 0) [] ws fs) with
  | Ok (a, _) => a
  | _ => mk_aclient (framed_new (msg_codec_with_limits CtxClient 0 0) []) [] (mk_fw (mk_bm [] 0) [] [] [])
  end.
Definition chatting_keys : nat -> mkey := fun n => mk_key x00 x00 x00 (match n with O => x00 | S O => x01 | _ => xff end).
Definition a_server : list aev := [AData x89 [x01; x61]; ANotReady; AData x81 [x00; x89; x01]; AData x62 []].
Definition a_user : list uev := [Typed (ascii "hi"); Idle; Typed (ascii "/ping"); Typed (ascii "/close"); Typed (ascii "late")].
Definition a_chat : aclient := chatting a_server [AwAccept 5; AwNotReady; AwAccept 1000; AwAccept 2; AwNotReady] [AfReady; AfNotReady].
Example achat_ex : amade a_chat /\ afails_never (ac_out a_chat) /\ all_text a_user /\
  run_messages (fr_st (ac_read a_chat)) (fr_buf (ac_read a_chat)) (ac_in a_chat) = ([OPing [x61]; OText []; OPing [x62]], PEnd) /\
  asks (lines a_user) [OText (ascii "hi"); OPing (ascii "PING"); OClose None] /\ In (ascii "/close") (lines a_user) /\
  (exists c, achat_run 9 0 (achat_new AsyncClient a_chat a_user chatting_keys) = (TReady, c) /\
    at_shown c = [OPing [x61]; OText []; OPing [x62]] /\
    octets (fw_out (at_out c)) = octets (fw_out (ac_out a_chat)) ++
      client_says (with_keys chatting_keys [OPong [x61]; OText (ascii "hi"); OPing (ascii "PING"); OPong [x62]; OClose None])).
Proof.
  split; [|split; [|split; [|split; [|split; [|split]]]]].
  - destruct (async_connect_on httparse_lib (ascii "the sample nonce")
      (builder_init (mk_url (ascii "ws") (Some (ascii "127.0.0.1")) (Some 2794) [] None (ascii "/"))) 0
      (apush_back chatting_head a_server) (mk_fw (mk_bm [] 0) [] [AwAccept 5; AwNotReady; AwAccept 1000; AwAccept 2; AwNotReady] [AfReady; AfNotReady])) as [[a h]|e| |] eqn:E;
      try (vm_compute in E; discriminate E). unfold a_chat, chatting. rewrite E. unfold amade. eauto 10.
  - split; vm_compute; repeat constructor.
  - unfold all_text. cbn [lines flat_map a_user app]. repeat (constructor; [split; [apply ExTac.good_text; reflexivity|vm_compute; discriminate]|]). constructor.
  - vm_compute. reflexivity.
  - apply asks_more; [discriminate|]. apply (asks_more (ascii "/ping")); [discriminate|]. apply asks_close.
  - right. right. left. reflexivity.
  - eexists. split; [vm_compute; reflexivity|]. split; vm_compute; reflexivity.
Qed.
(** Halfway, and when the stream fails. *)
Example achat_waiting_ex : exists c, achat_run 1 0 (achat_new AsyncClient a_chat a_user chatting_keys) = (TNotReady, c) /\
  at_user c = [Typed (ascii "/ping"); Typed (ascii "/close"); Typed (ascii "late")] /\ at_over c = false.
Proof. eexists. split; [vm_compute; reflexivity|]. split; reflexivity. Qed.
Example achat_fails_ex : exists x, let a := chatting [AData x89 [x01; x61]; AData xff [xff]] [] [] in
  run_messages (fr_st (ac_read a)) (fr_buf (ac_read a)) (ac_in a) = ([OPing [x61]], PErr x) /\
  exists c, achat_run 1 0 (achat_new SslClient a [] chatting_keys) = (TErr x, c).
Proof. eexists. split; [vm_compute; reflexivity|]. eexists. vm_compute. reflexivity. Qed.
(** The other program answers a Close, with its reason. *)
Example achat_ssl_ex : exists c, let a := chatting [AData x89 [x01; x61]; ANotReady; AData x88 [x04; x03; xe8; x6f; x6b]] [] [] in
  run_messages (fr_st (ac_read a)) (fr_buf (ac_read a)) (ac_in a) = ([OPing [x61]; OClose (Some (mk_close 1000 [x6f; x6b]))], PEnd) /\
  achat_run 9 0 (achat_new SslClient a [Idle; Idle; Idle; Typed (ascii "/close")] chatting_keys) = (TReady, c) /\
  octets (fw_out (at_out c)) = octets (fw_out (ac_out a)) ++
    client_says (with_keys chatting_keys [OPong [x61]; OClose (Some (mk_close 1000 [x6f; x6b])); OClose None]).
Proof. eexists. split; [vm_compute; reflexivity|]. split; vm_compute; reflexivity. Qed.
