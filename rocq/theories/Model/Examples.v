(** Programs of the repository that use the library: the WebSocket servers of
    examples/autobahn-server.rs, examples/server.rs and examples/hyper.rs. *)
From Coq Require Import NArith String Bool List.
From Coq.Strings Require Import Byte.
From Verif.Model Require Import Base Io Header Mask Dataframe Utf8 Text Base64 WsKey Headers
  Handshake Message Receiver Codec Framed Http Connect.
Import ListNotations.
Local Open Scope string_scope.
Local Open Scope list_scope.
Local Open Scope N_scope.

(** How the thread of a connection ends.  [Dropped]: no thread is started, because
    [filter_map(Result::ok)] drops a connection whose handshake failed.  [NoFuel] is not an
    end; it is excluded by the theorems. *)
Inductive ending : Type := Returned | Panicked | Dropped | NoFuel.

(** examples/autobahn-server.rs:16-41: the loop over [incoming_messages].  [k] is what
    [gen_mask] would give (a server does not ask for it).  Printing is left out. *)
Fixpoint autobahn_loop (fuel : nat) (k : mkey) (r : reader) (w : writer) : ending * writer :=
  match fuel with
  | O => (NoFuel, w)
  | S fuel' =>
      match reader_recv r with
      | (Ok m, r') =>
          match m with
          | OText txt =>
              match writer_send (OText txt) k w with
              | (Ok _, w') => autobahn_loop fuel' k r' w'
              | (_, w') => (Panicked, w')
              end
          | OBinary bin =>
              match writer_send (OBinary bin) k w with
              | (Ok _, w') => autobahn_loop fuel' k r' w'
              | (_, w') => (Panicked, w')
              end
          | OClose _ =>
              match writer_send (OClose None) k w with
              | (Panic, w') => (Panicked, w')
              | (_, w') => (Returned, w')
              end
          | OPing data =>
              match writer_send (OPong data) k w with
              | (Ok _, w') => autobahn_loop fuel' k r' w'
              | (_, w') => (Panicked, w')
              end
          | OPong _ => autobahn_loop fuel' k r' w
          end
      | (Err _, _) =>
          match writer_send_frame (msg_ops msg_close) k w with
          | (Panic, w') => (Panicked, w')
          | (_, w') => (Returned, w')
          end
      | (Panic, _) => (Panicked, w)
      | (OutOfFuel, _) => (NoFuel, w)
      end
  end.
(** The bytes still to be read; every turn of the loop takes some. *)
Definition loop_fuel (r : reader) : nat := S (script_bytes (push_back (rd_buf r) (rd_in r))).

(** examples/autobahn-server.rs:8-43: what becomes of one connection; [fail] is the error of
    splitting its stream. *)
Definition autobahn_server (X : http_lib) (fail : option io_kind) (k : mkey) (s : script) (w : wstream)
  : ending * wstream :=
  match server_accept X (Arrives s w) with
  | Ok u =>
      match accept u with
      | Ok c =>
          match split fail c with
          | Ok (r, wr) => let '(e, wr') := autobahn_loop (loop_fuel r) k r wr in (e, wr_out wr')
          | _ => (Panicked, c_out c)
          end
      | Err (_, w', _) => (Panicked, w')
      | _ => (Panicked, up_out u)
      end
  | Err (Some f, _) => (Dropped, rf_out f)
  | Err (None, _) => (Dropped, w)
  | _ => (Panicked, w)
  end.

(** examples/server.rs:29-45 and examples/hyper.rs:55-71: the loop; here a message that cannot
    be received ends the thread in a panic. *)
Fixpoint server_loop (fuel : nat) (k : mkey) (r : reader) (w : writer) : ending * writer :=
  match fuel with
  | O => (NoFuel, w)
  | S fuel' =>
      match reader_recv r with
      | (Ok m, r') =>
          match m with
          | OClose _ =>
              match writer_send (OClose None) k w with
              | (Ok _, w') => (Returned, w')
              | (_, w') => (Panicked, w')
              end
          | OPing ping =>
              match writer_send (OPong ping) k w with
              | (Ok _, w') => server_loop fuel' k r' w'
              | (_, w') => (Panicked, w')
              end
          | _ =>
              match writer_send m k w with
              | (Ok _, w') => server_loop fuel' k r' w'
              | (_, w') => (Panicked, w')
              end
          end
      | (OutOfFuel, _) => (NoFuel, w)
      | (_, _) => (Panicked, w)
      end
  end.
Definition example_protocol : bytes := str "rust-websocket".
(** examples/server.rs:10-47 and examples/hyper.rs:33-73.  [addr] is whether [peer_addr] succeeds. *)
Definition example_server (X : http_lib) (addr : bool) (fail : option io_kind) (k : mkey)
  (s : script) (w : wstream) : ending * wstream :=
  match server_accept X (Arrives s w) with
  | Ok u =>
      match @seen_protocols unit (up_request u) with
      | Ok ps =>
          if negb (existsb (beqb example_protocol) ps) then
            match reject None u with
            | Ok (_, w') => (Returned, w')
            | Err (_, w', _) => (Panicked, w')
            | _ => (Panicked, w)
            end
          else
            match @use_protocol unit example_protocol (up_headers u) with
            | Ok h =>
                match accept (mk_upgrade h (up_request u) (up_buffer u) (up_in u) (up_out u)) with
                | Ok c =>
                    if negb addr then (Panicked, c_out c)
                    else
                      match client_send (OText (str "Hello")) k c with
                      | (Ok _, c') =>
                          match split fail c' with
                          | Ok (r, wr) =>
                              let '(e, wr') := server_loop (loop_fuel r) k r wr in (e, wr_out wr')
                          | _ => (Panicked, c_out c')
                          end
                      | (_, c') => (Panicked, c_out c')
                      end
                | Err (_, w', _) => (Panicked, w')
                | _ => (Panicked, w)
                end
            | _ => (Panicked, w)
            end
      | _ => (Panicked, w)
      end
  | Err (Some f, _) => (Dropped, rf_out f)
  | Err (None, _) => (Dropped, w)
  | _ => (Panicked, w)
  end.
