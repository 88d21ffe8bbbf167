(** Requests that another server has read: C103. *)
From Coq Require Import NArith ZArith String Bool List Lia.
From Coq.Strings Require Import Byte.
From Verif.Model Require Import Base Io Header Mask Dataframe Utf8 Text Base64 WsKey Headers
  Handshake Message Receiver Codec Framed Http Connect.
From Verif.Spec Require Import RfcFrame FrameSpec Fields Upgrade Builder HttpHead Connection Wire Sides Accept.
From Verif.Proofs Require Import ExTac.
From Verif.Proofs Require ThmGiven.
Import ListNotations.
Local Open Scope string_scope.
Local Open Scope list_scope.
Local Open Scope N_scope.

(** [C103] A program has an HTTP server of its own, which has read a request and holds [b], bytes it has read
    beyond the head, if any.  It hands the request over, with the stream.  The library then does what it
    would have done, had it read the connection from the start: it refuses for the same reason, handing
    back all it was given; or it offers the upgrade of the same request, and when that is accepted, however
    it is, the same is written, and all that is sent and received afterwards is the same. *)
Theorem given_request : forall X m t v fs head after s w b s2, sound_lib X -> sound_room X ->
  request_head X m t v fs head -> (length fs <= 100)%nat -> target_accepted X t ->
  llen head <= 417792 -> first_come head after s ->
  let q := mk_req (method_named m) t v (from_raw fs) in
  spread (match b with Some b => push_back b s2 | None => s2 end) = after ->
  match into_ws X s w, into_ws_with q b s2 w with
  | Ok u, Ok u' => up_request u = q /\ up_request u' = q /\
      forall custom df ms,
        match internal_accept custom df ms u, internal_accept custom df ms u' with
        | Ok c, Ok c' => c_headers c = c_headers c' /\ forall us,
            fst (client_run us c) = fst (client_run us c') /\
            c_out (snd (client_run us c)) = c_out (snd (client_run us c'))
        | Err (_, w1, k), Err (_, w2, k') => w1 = w2 /\ k = k'
        | Panic, Panic => True
        | OutOfFuel, OutOfFuel => True
        | _, _ => False
        end
  | Err f, Err f' => rf_error f = rf_error f' /\ f' = mk_refusal s2 w (Some q) b (rf_error f')
  | _, _ => False
  end.
Proof. exact ThmGiven.given_request_proof. Qed.
Print Assumptions given_request.

(** The first message came with the request: handed over in the other server's buffer it is received,
    and a request that is not for this library comes back. *)
Example given_request_ex :
  let q := mk_req Get (str "/") Http11 (from_raw
    [(str "Upgrade", str "websocket"); (str "Connection", str "Upgrade"); (str "Sec-WebSocket-Version", str "13");
     (str "Sec-WebSocket-Key", str "dGhlIHNhbXBsZSBub25jZQ==")]) in
  let frame := [x82; x81; x00; x00; x00; x00; x07] in
  match into_ws_with q (Some frame) [] (mk_w [] []) with
  | Ok u => match accept u with Ok c => fst (client_run [RecvMessage] c) = [Message (Ok (OBinary [x07]))] | _ => False end
  | _ => False
  end /\
  into_ws_with (mk_req (OtherMethod (str "POST")) (str "/") Http11 (from_raw [])) (Some frame) [REof] (mk_w [] [])
    = Err (mk_refusal [REof] (mk_w [] []) (Some (mk_req (OtherMethod (str "POST")) (str "/") Http11 (from_raw []))) (Some frame) MethodNotGet).
Proof. split; vm_compute; reflexivity. Qed.
