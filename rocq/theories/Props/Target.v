(** The request's Host and Authorization fields, and using a builder again: C52, C53, C54. *)
From Coq Require Import NArith ZArith String Bool List Lia.
From Coq.Strings Require Import Byte.
From Verif.Model Require Import Base Io Utf8 Text Base64 WsKey Headers Handshake Http Connect.
From Verif.Spec Require Import FrameSpec Unicode Rfc4648 Fields Upgrade Builder Target.
From Verif.Proofs Require Import ExTac.
From Verif.Proofs Require ThmTarget.
Import ListNotations.
Local Open Scope string_scope.
Local Open Scope list_scope.
Local Open Scope N_scope.

(** ** Host *)

(** [C52] For any history of calls, the request has one Host field, and it names the URL's host
    and its port as RFC 6455 asks, unless the port is 80 or 443. *)
Theorem request_host : forall u cs b rnd host,
  run_calls cs (builder_init u) = Ok b -> u_host u = Some host ->
  (forall p, u_port u = Some p -> p < 65536 /\ p <> 80 /\ p <> 443) ->
  exists v, values (ascii "Host") (fields (b_headers (build_request rnd b))) = [v] /\ host_for u v.
Proof. exact ThmTarget.request_host_proof. Qed.
Print Assumptions request_host.

Example request_host_ex :
  let u := mk_url (ascii "ws") (Some (ascii "h")) (Some 8080) [] None (ascii "/") in
  exists b, run_calls [AddProtocol (ascii "p"); CustomHeaders [(ascii "host", Raw [ascii "other"])]] (builder_init u) = Ok b /\
    values (ascii "Host") (fields (b_headers (build_request [] b))) = [ascii "h:8080"].
Proof. eexists. split; reflexivity. Qed.

(** [C52] Refuted for those two ports: ws://h:443 (and wss://h:80) is asked for with a Host
    field that names no port, which stands for another server. *)
Theorem request_host_refuted : forall host rnd,
  let u := mk_url (ascii "ws") (Some host) (Some 443) [] None (ascii "/") in
  let u' := mk_url (ascii "ws") (Some host) None [] None (ascii "/") in
  let fs := fields (b_headers (build_request rnd (builder_init u))) in
  extract_host_port None u = Ok (host, 443) /\
  (forall v, values (ascii "Host") fs = [v] -> ~ host_for u v /\ host_for u' v) /\
  fs = fields (b_headers (build_request rnd (builder_init u'))).
Proof. exact ThmTarget.request_host_refuted_proof. Qed.
Print Assumptions request_host_refuted.

Example request_host_refuted_ex :
  values (ascii "Host") (fields (b_headers (build_request [] (builder_init
    (mk_url (ascii "ws") (Some (ascii "h")) (Some 443) [] None (ascii "/")))))) = [ascii "h"].
Proof. reflexivity. Qed.

(** ** Credentials *)

(** [C53] If the URL names a user, the request has one Authorization field, whatever custom
    headers say: Basic, with user and password as they stand in the URL (an absent password
    being empty). *)
Theorem request_authorization : forall u cs b rnd,
  run_calls cs (builder_init u) = Ok b -> u_user u <> [] ->
  values (ascii "Authorization") (fields (b_headers (build_request rnd b)))
  = [basic (u_user u) (or_else (u_password u) [])].
Proof. exact ThmTarget.request_authorization_proof. Qed.
Print Assumptions request_authorization.

(** [C53] So they are the credentials the URL stands for if it has no percent signs there. *)
Theorem credentials_sent : forall u cs b rnd user password,
  run_calls cs (builder_init u) = Ok b -> u_user u <> [] ->
  ~ In "%"%byte (u_user u) -> ~ In "%"%byte (or_else (u_password u) []) ->
  credentials u user password ->
  values (ascii "Authorization") (fields (b_headers (build_request rnd b))) = [basic user password].
Proof. exact ThmTarget.credentials_sent_proof. Qed.
Print Assumptions credentials_sent.

(** The example of RFC 7617. *)
Example credentials_ex :
  let u := mk_url (ascii "ws") (Some (ascii "h")) None (ascii "Aladdin") (Some (ascii "opensesame")) (ascii "/") in
  values (ascii "Authorization") (fields (b_headers (build_request [] (builder_init u))))
  = [ascii "Basic QWxhZGRpbjpvcGVuc2VzYW1l"].
Proof. reflexivity. Qed.

(** [C53] Refuted otherwise: percent-encoding is not undone, so for a password with an "@" (which
    a URL can only have encoded) other credentials are sent. *)
Theorem credentials_sent_refuted : exists u user password,
  credentials u user password /\ u_user u <> [] /\
  forall rnd, exists v,
    values (ascii "Authorization") (fields (b_headers (build_request rnd (builder_init u)))) = [v] /\
    v <> basic user password.
Proof. exact ThmTarget.credentials_sent_refuted_proof. Qed.
Print Assumptions credentials_sent_refuted.

(** [C53] Without a user in the URL the field is what custom headers say; a password alone is
    not sent. *)
Theorem no_user_no_authorization : forall u cs b rnd,
  run_calls cs (builder_init u) = Ok b -> u_user u = [] ->
  values (ascii "Authorization") (fields (b_headers (build_request rnd b)))
  = values (ascii "Authorization") (fields (b_headers b)).
Proof. exact ThmTarget.no_user_no_authorization_proof. Qed.
Print Assumptions no_user_no_authorization.

Example no_user_ex :
  exists b, run_calls [CustomHeaders [(ascii "authorization", Raw [ascii "Bearer x"])]]
    (builder_init (mk_url (ascii "ws") None None [] (Some (ascii "pw")) (ascii "/"))) = Ok b /\
  values (ascii "Authorization") (fields (b_headers (build_request [] b))) = [ascii "Bearer x"].
Proof. eexists. split; reflexivity. Qed.

(** ** Using a builder again *)

(** [C54] A builder can be used again: after any connection attempt, whatever its outcome,
    connecting writes and does exactly what a builder never used would with the same random
    key; nothing of the first request is left over. *)
Theorem connect_again : forall X u cs b r1 r2 s1 w1 s2 w2,
  run_calls cs (builder_init u) = Ok b ->
  let b' := snd (fst (connect_on X r1 b s1 w1)) in
  connect_on X r2 b' s2 w2 = connect_on X r2 b s2 w2.
Proof. exact ThmTarget.connect_again_proof. Qed.
Print Assumptions connect_again.

(** [C54] In particular, unless the caller fixed a key, each attempt sends its own random key. *)
Theorem fresh_key_each_time : forall X u cs b r1 r2 s1 w1,
  Forall (leaves_alone (ascii "Sec-WebSocket-Key")) cs -> run_calls cs (builder_init u) = Ok b ->
  asked_key (List.rev cs) = None ->
  let b' := snd (fst (connect_on X r1 b s1 w1)) in
  values (ascii "Sec-WebSocket-Key") (fields (b_headers (build_request r2 b'))) = [base64_text r2].
Proof. exact ThmTarget.fresh_key_each_time_proof. Qed.
Print Assumptions fresh_key_each_time.

(** A connection that fails because the server says nothing; then another attempt. *)
Example connect_again_ex :
  let u := mk_url (ascii "ws") (Some (ascii "h")) None [] None (ascii "/") in
  exists b, run_calls [AddProtocol (ascii "p")] (builder_init u) = Ok b /\
  b_headers (build_request (ascii "the sample nonce") (build_request (ascii "another nonce 16") b))
  = b_headers (build_request (ascii "the sample nonce") b) /\
  values (ascii "Sec-WebSocket-Key") (fields (b_headers (build_request (ascii "the sample nonce") b)))
  = [ascii "dGhlIHNhbXBsZSBub25jZQ=="].
Proof. eexists. split; [reflexivity|]. split; reflexivity. Qed.
