(** A whole session between two programs, from the request to the last message, over any two
    kinds of connection. *)
From Coq Require Import NArith String List Bool.
From Coq.Strings Require Import Byte.
From Verif.Model Require Import Base Io Header Mask Dataframe Headers Handshake Message Receiver
  Codec Framed Http Connect.
From Verif.Spec Require Import FrameSpec Schedule Drive Session Sink HttpHead Connection Endpoint.
Import ListNotations.
Local Open Scope list_scope.
Local Open Scope N_scope.

(** The stream of one side: what its reads will give, and what its writes will do ([extra] is
    what the allocator adds). *)
Inductive stream : Type :=
| OverBlocking (s : script) (w : wstream)
| OverAsync (extra : N) (s : list aev) (w : fwrite).

(** A client that connects over it, with [connect_on] or [async_connect_on]. *)
Definition connects (X : http_lib) (rnd : bytes) (b : builder) (st : stream) : option endpoint :=
  match st with
  | OverBlocking s w =>
      match connect_on X rnd b s w with (Ok c, _, _) => Some (Blocking c) | _ => None end
  | OverAsync extra s w =>
      match async_connect_on X rnd b extra s w with Ok (a, _) => Some (Async a) | _ => None end
  end.
(** A server that accepts over it, having chosen the headers [h0] (protocols and so on), with
    custom headers and limits. *)
Definition serves (X : http_lib) (h0 : headers) (custom : option headers) (df msg : N) (st : stream)
  : option endpoint :=
  match st with
  | OverBlocking s w =>
      match into_ws X s w with
      | Ok up =>
          match internal_accept custom df msg (mk_upgrade h0 (up_request up) (up_buffer up) (up_in up) (up_out up)) with
          | Ok c => Some (Blocking c)
          | _ => None
          end
      | _ => None
      end
  | OverAsync extra s w =>
      match async_into_ws X s w with
      | Ok up =>
          match async_accept custom df msg extra (mk_aupgrade h0 (au_request up) (au_buffer up) (au_in up) (au_out up)) with
          | Ok (a, _) => Some (Async a)
          | _ => None
          end
      | _ => None
      end
  end.

(** Writes on it do not fail; they may be partial, interrupted or not ready. *)
Definition reliable (st : stream) : Prop :=
  match st with OverBlocking _ w => never_fails w | OverAsync _ _ w => afails_never w end.
(** Its reads give the bytes [head], then [wire], then the end; cut in any way; with pauses
    anywhere (asynchronous), interruptions anywhere behind the head (blocking; for those in the
    head see C49). *)
Definition brings (st : stream) (head wire : bytes) : Prop :=
  match st with
  | OverBlocking s _ => exists s', first_come head (spread s') s /\ carries s' wire
  | OverAsync _ s _ => acarries s (head ++ wire)
  end.
(** By the time it is the end [e], [l] has gone out over it. *)
Definition wrote (st : stream) (e : endpoint) (l : bytes) : Prop :=
  match st, e with
  | OverBlocking _ w, Blocking c => w_out (c_out c) = w_out w ++ l
  | OverAsync _ _ w, Async a => fw_out (ac_out a) = fw_out w ++ bm_data (fw_buf w) ++ l /\ bm_data (fw_buf (ac_out a)) = []
  | _, _ => False
  end.
(** An end receives these messages (an asynchronous one: these and then the end). *)
Definition hears (e : endpoint) (ms : list owned) : Prop :=
  match e with
  | Blocking c => fst (client_recv_n (List.length ms) c) = map Ok ms
  | Async a => run_messages (fr_st (ac_read a)) (fr_buf (ac_read a)) (ac_in a) = (ms, PEnd)
  end.
