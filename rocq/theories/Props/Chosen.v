(** What the client sees of what the server chose, and the server of what the client asked for: C37, C63. *)
From Coq Require Import NArith ZArith String Bool List Lia Permutation.
From Coq.Strings Require Import Byte.
From Verif.Model Require Import Base Io Header Mask Dataframe Utf8 Text Base64 Sha1 WsKey Headers
  Handshake Message Receiver Codec Framed Http Connect.
From Verif.Spec Require Import RfcFrame FrameSpec Unicode Rfc4648 Accept Fields Upgrade Builder HttpHead Connection Wire.
From Verif.Proofs Require Import ExTac.
From Verif.Proofs Require ThmChosen.
Import ListNotations.
Local Open Scope string_scope.
Local Open Scope list_scope.
Local Open Scope N_scope.

(** [C37] A server that calls [use_protocol], [use_extensions] and [use_extension] on the upgrade: the client
    sees that protocol, and those extensions in the order they were given, if their parameters have no
    values and the server's custom headers do not have these fields too.  (With values: C40.) *)
Theorem client_sees_chosen : forall X u cs rnd b p es e h1 h2 h0 custom h rtext,
  configured X u cs rnd b -> list_word p -> Forall simple_extension (es ++ [e]) ->
  @use_protocol unit p [] = Ok h1 -> @use_extensions unit es h1 = Ok h2 -> @use_extension unit e h2 = Ok h0 ->
  all_unique custom ->
  match custom with
  | Some c => unset (ascii "Sec-WebSocket-Protocol") c /\ unset (ascii "Sec-WebSocket-Extensions") c
  | None => True
  end ->
  response_text custom h0 (request_fields rnd b) h rtext ->
  @protocols unit (from_raw (read_back (fields h))) = Ok [p] /\
  @extensions unit (from_raw (read_back (fields h))) = Ok (map without_values (es ++ [e])).
Proof. exact ThmChosen.client_sees_chosen_proof. Qed.
Print Assumptions client_sees_chosen.

Example client_sees_chosen_ex : exists b h1 h2 h0 h rtext,
  let u := mk_url (ascii "ws") (Some (ascii "h")) None [] None (ascii "/") in
  let x := mk_ext (ascii "x") [mk_param (ascii "fast") None] in
  run_calls [] (builder_init u) = Ok b /\ @use_protocol unit (ascii "chat") [] = Ok h1 /\
  @use_extensions unit [mk_ext (ascii "a") []; mk_ext (ascii "b") []] h1 = Ok h2 /\ @use_extension unit x h2 = Ok h0 /\
  response_text None h0 (request_fields (ascii "the sample nonce") b) h rtext /\
  @protocols unit (from_raw (read_back (fields h))) = Ok [ascii "chat"] /\
  @extensions unit (from_raw (read_back (fields h))) = Ok [mk_ext (ascii "a") []; mk_ext (ascii "b") []; x].
Proof.
  eexists _, _, _, _, _, _. split; [reflexivity|]. split; [reflexivity|]. split; [reflexivity|]. split; [reflexivity|].
  split; [split; vm_compute; reflexivity|]. split; vm_compute; reflexivity.
Qed.

(** [C63] The upgrade a blocking or asynchronous server offers for the request of a client names the
    extensions the client asks for, if their parameters have no values. *)
Theorem servers_see_extensions : forall X u cs rnd b text s w after sa sa' wa,
  speaks X -> sound_room X -> configured X u cs rnd b -> request_text rnd b text -> llen text <= 417792 ->
  first_come text after s -> aflows sa text sa' ->
  Forall (leaves_alone (ascii "Sec-WebSocket-Extensions")) cs -> Forall simple_extension (asked_extensions (rev cs)) ->
  exists up au, into_ws X s w = Ok up /\ async_into_ws X sa wa = Ok au /\
    @seen_extensions unit (up_request up) = Ok (map without_values (asked_extensions (rev cs))) /\
    @seen_extensions unit (au_request au) = Ok (map without_values (asked_extensions (rev cs))).
Proof. exact ThmChosen.servers_see_extensions_proof. Qed.
Print Assumptions servers_see_extensions.

Example servers_see_extensions_ex :
  let u := mk_url (ascii "ws") (Some (ascii "example.org")) None [] None (ascii "/") in
  let e := mk_ext (ascii "x") [mk_param (ascii "fast") None] in
  exists b text up, run_calls [AddExtension e; AddExtension (mk_ext (ascii "y") [])] (builder_init u) = Ok b /\
  request_text (ascii "the sample nonce") b text /\
  into_ws httparse_lib (push_back text []) (mk_w [] []) = Ok up /\
  @seen_extensions unit (up_request up) = Ok [e; mk_ext (ascii "y") []].
Proof.
  cbv zeta. do 3 eexists. split; [reflexivity|]. split; [vm_compute; reflexivity|]. split; vm_compute; reflexivity.
Qed.
