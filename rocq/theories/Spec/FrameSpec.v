(** How the library's frames are seen as RFC 6455 frames. *)
From Coq Require Import NArith Bool List.
From Coq.Strings Require Import Byte.
From Verif.Model Require Import Base Header Dataframe.
From Verif.Spec Require Import RfcFrame.
Import ListNotations.
Local Open Scope N_scope.

Definition octets (l : list byte) : list N := map Byte.to_N l.
Definition octet_key (k : option mkey) : option (list N) :=
  match k with
  | Some (mk_key a b c d) => Some [Byte.to_N a; Byte.to_N b; Byte.to_N c; Byte.to_N d]
  | None => None
  end.

(** The RFC frame with the given fields. *)
Definition rfc_of (fin : bool) (reserved : rsv) (op : N) (payload : list byte)
  (key : option mkey) : rfc_frame :=
  let '(r1, r2, r3) := reserved in
  {| rf_fin := fin; rf_rsv1 := r1; rf_rsv2 := r2; rf_rsv3 := r3; rf_opcode := op;
     rf_key := octet_key key; rf_payload := octets payload |}.

(** RFC 6455 section 5.2 numbering of the opcodes. *)
Definition rfc_opcode (o : opcode) : N :=
  match o with
  | Continuation => 0x0 | Text => 0x1 | Binary => 0x2
  | NonControl1 => 0x3 | NonControl2 => 0x4 | NonControl3 => 0x5 | NonControl4 => 0x6
  | NonControl5 => 0x7 | Close => 0x8 | Ping => 0x9 | Pong => 0xA
  | Control1 => 0xB | Control2 => 0xC | Control3 => 0xD | Control4 => 0xE | Control5 => 0xF
  end.

Definition rfc_of_frame (f : dataframe) (key : option mkey) : rfc_frame :=
  rfc_of (f_finished f) (f_reserved f) (rfc_opcode (f_opcode f)) (f_data f) key.

(** A user implementation of the frame trait that tells the truth: [size()] is
    what [write_payload] writes, and [write_payload] has no error of its own. *)
Definition honest (d : dataframe_ops) : Prop :=
  df_size d = N.of_nat (length (concat (df_writes d))) /\ df_write_err d = None.

(** [announces l n rest]: [l] starts with a legal frame header announcing a payload of
    [n] bytes, and [rest] follows the header. *)
Definition announces (l : list byte) (n : N) (rest : list byte) : Prop :=
  exists fin r op key hdr,
    l = hdr ++ rest /\
    octets hdr = rfc_header (rfc_of fin r op [] key) n /\
    op < 16 /\ n < 2 ^ 64 /\ (8 <= op -> n <= 125 /\ fin = true).
