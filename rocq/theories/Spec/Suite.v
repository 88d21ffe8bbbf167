(** What a client of the Autobahn test suite has to do. *)
From Coq Require Import NArith String List.
From Coq.Strings Require Import Byte.
From Verif.Model Require Import Base Io Header Mask Dataframe Message Handshake Codec Framed Http Connect Suite.
From Verif.Spec Require Import Fields Session Connection Echo Chat.
Import ListNotations.
Local Open Scope string_scope.
Local Open Scope list_scope.
Local Open Scope N_scope.

(** The messages, each with the key drawn for it. *)
Fixpoint with_keys (ks : nat -> mkey) (ms : list owned) : list (owned * mkey) :=
  match ms with
  | [] => []
  | m :: l => (m, ks O) :: with_keys (fun n => ks (S n)) l
  end.

(** The number a decimal numeral stands for. *)
Definition is_digit (b : byte) (d : N) : Prop := d <= 9 /\ Byte.to_N b = 48 + d.
Inductive numeral : bytes -> N -> Prop :=
| numeral_one : forall b d, is_digit b d -> numeral [b] d
| numeral_more : forall l n b d, numeral l n -> is_digit b d -> numeral (l ++ [b]) (10 * n + d).
(** A numeral a [usize] can be read from. *)
Definition names_number (t : bytes) (n : N) : Prop :=
  n < 2 ^ 64 /\ (numeral t n \/ exists r, t = x2b :: r /\ numeral r n).

(** The texts among messages. *)
Definition texts (ms : list owned) : list bytes :=
  flat_map (fun m => match m with OText t => [t] | _ => [] end) ms.
(** The pongs that pings ask for. *)
Definition pongs (ms : list owned) : list owned :=
  flat_map (fun m => match m with OPing d => [OPong d] | _ => [] end) ms.
(** The count a server announces: the last number, if every text is one. *)
Inductive announces : list bytes -> N -> Prop :=
| announces_none : announces [] 0
| announces_last : forall ts t n, Forall (fun t => exists k, names_number t k) ts -> names_number t n ->
    announces (ts ++ [t]) n.

(** A client that the blocking handshake gave, and an asynchronous one. *)
Definition made (c : client) : Prop :=
  exists X rnd b s w b' w', connect_on X rnd b s w = (Ok c, b', w').
Definition amade (a : aclient) : Prop :=
  exists X rnd b extra s w h, async_connect_on X rnd b extra s w = Ok (a, h).

(** The messages a connection's reader delivers up to the first Close or the first error, which
    is [x]. *)
Definition hears (c : client) (ms : list owned) (x : result owned ws_error) : Prop :=
  fst (client_recv_n (S (List.length ms)) c) = map Ok ms ++ [x] /\ Forall (fun m => ~ closing m) ms /\
  match x with Ok m => closing m | Err _ => True | _ => False end.
(** A URL can be connected to, and what is sent there is taken. *)
Definition reached (W : bytes -> attempt) (u : bytes) : Prop :=
  exists c ks, W u = Connected c None ks /\ made c /\ never_fails (c_out c).
(** The server announces [n] cases. *)
Definition tells (W : bytes -> attempt) (n : N) : Prop :=
  exists c ks ms x, W count_url = Connected c None ks /\ made c /\ never_fails (c_out c) /\
    hears c ms x /\ announces (texts ms) n.

(** The URLs spelled out. *)
Definition url_of (path : bytes) : bytes := ascii "ws://127.0.0.1:9001" ++ path.
Inductive case_path (n : N) : bytes -> Prop :=
| case_path_of : forall d, numeral d n -> (d = [x30] \/ hd x30 d <> x30) ->
    case_path n (ascii "/runCase?case=" ++ d ++ ascii "&agent=rust-websocket").

(** The numbers from [n] on, [k] of them. *)
Fixpoint upto (n : N) (k : nat) : list N :=
  match k with O => [] | S k' => n :: upto (n + 1) k' end.
