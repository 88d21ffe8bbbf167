(** The two ends of a connection after the handshake, of any kind. *)
From Coq Require Import NArith String List Bool.
From Coq.Strings Require Import Byte.
From Verif.Model Require Import Base Io Header Mask Dataframe Headers Handshake Message Receiver
  Codec Framed Http Connect.
From Verif.Spec Require Import FrameSpec Schedule Drive Session Sink HttpHead Connection.
Import ListNotations.
Local Open Scope list_scope.
Local Open Scope N_scope.

Inductive endpoint : Type := Blocking (c : client) | Async (a : aclient).
(** The ends the handshake functions give, with the frame size they accept. *)
Inductive client_end (X : http_lib) : N -> endpoint -> Prop :=
| blocking_client : forall rnd b s w c b' w',
    connect_on X rnd b s w = (Ok c, b', w') -> client_end X (b_max_df b) (Blocking c)
| async_client : forall rnd b extra s w a h,
    async_connect_on X rnd b extra s w = Ok (a, h) -> client_end X (b_max_df b) (Async a).
Inductive server_end : N -> endpoint -> Prop :=
| blocking_server : forall custom df msg up c,
    internal_accept custom df msg up = Ok c -> server_end df (Blocking c)
| async_server : forall custom df msg extra up a h,
    async_accept custom df msg extra up = Ok (a, h) -> server_end df (Async a).

(** An end sends the messages [l] (with the masking keys drawn for them), every send being
    reported as done (a blocking end) or taken and flushed out, whatever else was tried in
    between (an asynchronous end), and by this puts the bytes [wire] on the wire. *)
Inductive puts : endpoint -> list (owned * mkey) -> bytes -> Prop :=
| blocking_puts : forall c l answers c' wire,
    client_run (map (fun p => SendMessage (fst p) (snd p)) l) c = (answers, c') ->
    Forall (fun a => a = Sent (Ok tt)) answers ->
    w_out (c_out c') = w_out (c_out c) ++ wire ->
    puts (Blocking c) l wire
| async_puts : forall a l ops rs w wire,
    Forall (fun d => exists m, d = owned_ops m /\ size (payload_of m) < 2 ^ 63 /\ typed m) (offered ops) ->
    sink_run (dc_is_server (mc_df (fr_st (ac_read a)))) ops (ac_out a) = (rs, w) ->
    accepted ops rs = map (fun p => (owned_ops (fst p), snd p)) l ->
    bm_data (fw_buf w) = [] ->
    fw_out w = (fw_out (ac_out a) ++ bm_data (fw_buf (ac_out a))) ++ wire ->
    puts (Async a) l wire.
(** An end gets the messages [ms]: if the bytes it has still to read, then the end of the
    stream, are [wire], in chunks of any kind, with any interruptions and pauses. *)
Definition gets (e : endpoint) (wire : bytes) (ms : list owned) : Prop :=
  match e with
  | Blocking c =>
      carries (push_back (c_buf c) (c_in c)) wire ->
      fst (client_recv_n (List.length ms) c) = map Ok ms
  | Async a =>
      acarries (apush_back (fr_buf (ac_read a)) (ac_in a)) wire ->
      run_messages (fr_st (ac_read a)) (fr_buf (ac_read a)) (ac_in a) = (ms, PEnd)
  end.
