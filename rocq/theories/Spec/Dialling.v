(** Which connection a URL and a way of connecting stand for. *)
From Coq Require Import NArith String List.
From Coq.Strings Require Import Byte.
From Verif.Model Require Import Base Io Handshake Framed Http Connect Dial.
From Verif.Spec Require Import Fields Connection.
Import ListNotations.
Local Open Scope string_scope.
Local Open Scope list_scope.
Local Open Scope N_scope.

Definition secure_scheme (u : url) : Prop :=
  u_scheme u = ascii "wss" \/ u_scheme u = ascii "https".
Definition plain_scheme (u : url) : Prop :=
  u_scheme u = ascii "ws" \/ u_scheme u = ascii "http".
(** Where a URL says to connect to: its host, and its port or else the scheme's. *)
Definition destination (u : url) (host : bytes) (port : N) : Prop :=
  u_host u = Some host /\
  match u_port u with
  | Some p => port = p
  | None => (secure_scheme u /\ port = 443) \/ (plain_scheme u /\ port = 80)
  end.
(** URLs that say so: an explicit port, or one of the four schemes. *)
Definition says_port (u : url) : Prop := u_port u <> None \/ secure_scheme u \/ plain_scheme u.

(** The three ways: by the URL's scheme ([connect]), always with TLS ([connect_secure]),
    never ([connect_insecure]). *)
Inductive way : Type := ByScheme | Always | Never.
Definition encrypted (w : way) (u : url) : Prop :=
  match w with ByScheme => secure_scheme u | Always => True | Never => False end.

Definition refuses (W : network) (a : address) : Prop := exists k, n_dial W a = Some k.
Definition answers (W : network) (a : address) : Prop := n_dial W a = None.
(** The connector the caller gave, or the default one. *)
Definition connector_for (W : network) (ssl : option connector) (c : connector) : Prop :=
  match ssl with Some c' => c = c' | None => n_default_tls W = Some c end.
(** [t] is the right connection over a TCP connection to [a]: encrypted if it has to be, with
    the caller's connector, for the URL's host, and the TLS handshake succeeds. *)
Definition over (W : network) (ssl : option connector) (w : way) (u : url) (host : bytes)
  (a : address) (t : transport) : Prop :=
  (encrypted w u /\ exists c, connector_for W ssl c /\ n_tls W c host a = None /\ t = Secured c host a)
  \/ (~ encrypted w u /\ t = Plain a).
(** The connection a blocking client makes: to the first address that answers. *)
Definition reaches (W : network) (ssl : option connector) (w : way) (u : url) (t : transport)
  : Prop :=
  exists host port before a after,
    destination u host port /\ n_resolve W host port = inl (before ++ a :: after) /\
    Forall (refuses W) before /\ answers W a /\ over W ssl w u host a t.
(** An asynchronous client: to the first address, if it answers. *)
Definition areaches (W : network) (ssl : option connector) (w : way) (u : url) (t : transport)
  : Prop :=
  exists host port a after,
    destination u host port /\ n_resolve W host port = inl (a :: after) /\
    answers W a /\ over W ssl w u host a t.

Definition connect_by (X : http_lib) (W : network) rnd ssl (w : way) (b : builder) :=
  match w with
  | ByScheme => connect X W rnd ssl b
  | Always => connect_secure X W rnd ssl b
  | Never => connect_insecure X W rnd b
  end.
Definition async_connect_by (X : http_lib) (W : network) rnd ssl (extra : N) (w : way) (b : builder) :=
  match w with
  | ByScheme => async_connect X W rnd ssl extra b
  | Always => async_connect_secure X W rnd ssl extra b
  | Never => async_connect_insecure X W rnd extra b
  end.
(** The connections something was said on. *)
Fixpoint spoken (l : list act) : list transport :=
  match l with [] => [] | Spoken t :: l' => t :: spoken l' | _ :: l' => spoken l' end.
Fixpoint dialled (l : list act) : list address :=
  match l with [] => [] | Dialled a :: l' => a :: dialled l' | _ :: l' => dialled l' end.

(** What is done on a TCP connection to [a]: TLS if the connection has to be encrypted and
    there is a connector, and the handshake of the WebSocket protocol if that succeeds. *)
Inductive afterwards (W : network) (ssl : option connector) (w : way) (u : url) (host : bytes)
  (a : address) : list act -> Prop :=
| AwPlain : ~ encrypted w u -> afterwards W ssl w u host a [Spoken (Plain a)]
| AwSecured : forall c, encrypted w u -> connector_for W ssl c -> n_tls W c host a = None ->
    afterwards W ssl w u host a [Negotiated c host a; Spoken (Secured c host a)]
| AwFailed : forall c f, encrypted w u -> connector_for W ssl c -> n_tls W c host a = Some f ->
    afterwards W ssl w u host a [Negotiated c host a]
| AwNoConnector : encrypted w u -> (forall c, ~ connector_for W ssl c) ->
    afterwards W ssl w u host a [].
(** All that a blocking client does, in order. *)
Inductive trail (W : network) (ssl : option connector) (w : way) (u : url) : list act -> Prop :=
| TrNowhere : u_host u = None -> trail W ssl w u []
| TrUnknown : forall host port k, destination u host port -> n_resolve W host port = inr k ->
    trail W ssl w u [Resolved host port]
| TrRefused : forall host port l, destination u host port -> n_resolve W host port = inl l ->
    Forall (refuses W) l -> trail W ssl w u (Resolved host port :: map Dialled l)
| TrReached : forall host port before a after rest, destination u host port ->
    n_resolve W host port = inl (before ++ a :: after) -> Forall (refuses W) before ->
    answers W a -> afterwards W ssl w u host a rest ->
    trail W ssl w u (Resolved host port :: map Dialled (before ++ [a]) ++ rest).
(** All that an asynchronous client does: it tries the first address only, and none at all if
    the connection has to be encrypted and there is no connector. *)
Definition equipped (W : network) (ssl : option connector) (w : way) (u : url) : Prop :=
  encrypted w u -> exists c, connector_for W ssl c.
Inductive async_trail (W : network) (ssl : option connector) (w : way) (u : url)
  : list act -> Prop :=
| ATrNowhere : u_host u = None -> async_trail W ssl w u []
| ATrUnknown : forall host port, destination u host port ->
    (n_resolve W host port = inl [] \/ exists k, n_resolve W host port = inr k) ->
    async_trail W ssl w u [Resolved host port]
| ATrUnequipped : forall host port, destination u host port -> ~ equipped W ssl w u ->
    async_trail W ssl w u [Resolved host port]
| ATrRefused : forall host port a after, destination u host port -> equipped W ssl w u ->
    n_resolve W host port = inl (a :: after) -> refuses W a ->
    async_trail W ssl w u [Resolved host port; Dialled a]
| ATrReached : forall host port a after rest, destination u host port -> equipped W ssl w u ->
    n_resolve W host port = inl (a :: after) -> answers W a ->
    afterwards W ssl w u host a rest ->
    async_trail W ssl w u (Resolved host port :: Dialled a :: rest).

(** ** The asynchronous server with TLS *)
Fixpoint tls_arrived (es : list tls_event) : list (N * option (list aev * fwrite)) :=
  match es with
  | [] => []
  | TlsConnection p _ o :: es' => (p, o) :: tls_arrived es'
  | _ :: es' => tls_arrived es'
  end.
Fixpoint tls_listener_errors (es : list tls_event) : list io_kind :=
  match es with
  | [] => []
  | TlsListenerError k :: es' => k :: tls_listener_errors es'
  | _ :: es' => tls_listener_errors es'
  end.
(** The outcome of a connection on its own: that of its handshake over TLS, if TLS succeeds. *)
Definition tls_alone (X : http_lib) (c : N * option (list aev * fwrite))
  : N * option (result aupgrade arefusal) :=
  let '(p, o) := c in
  (p, match o with Some (s, w) => Some (async_into_ws X s w) | None => None end).
Definition only_tls_polls (es : list tls_event) : Prop :=
  Forall (fun e => match e with TlsPoll _ => True | _ => False end) es.
