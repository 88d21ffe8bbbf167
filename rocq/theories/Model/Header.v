(** websocket-base/src/ws/util/header.rs *)
From Coq Require Import NArith String Bool List.
From Coq.Strings Require Import Byte.
From Verif.Model Require Import Base Io.
Import ListNotations.
Local Open Scope string_scope.
Local Open Scope list_scope.
Local Open Scope N_scope.

(** header.rs:7-19 [DataFrameFlags], the [bits] of the bitflags value. *)
Definition FIN : N := 0x80.
Definition RSV1 : N := 0x40.
Definition RSV2 : N := 0x20.
Definition RSV3 : N := 0x10.
(** bitflags 1.x: [contains], [insert], [from_bits_truncate]. *)
Definition fl_contains (flags f : N) : bool := N.land flags f =? f.
Definition fl_insert (flags f : N) : N := N.lor flags f.
Definition fl_truncate (bits : N) : N := N.land bits 0xF0.

(** A [[u8; 4]] masking key. *)
Record mkey : Type := mk_key { k0 : byte; k1 : byte; k2 : byte; k3 : byte }.
Definition key_bytes (k : mkey) : bytes := [k0 k; k1 k; k2 k; k3 k].

(** header.rs:22-32 [DataFrameHeader] *)
Record dfheader : Type := mk_header {
  h_flags : N;
  h_opcode : N;
  h_mask : option mkey;
  h_len : N
}.

(** header.rs:35-70 [write_header].  The writer here is always a [Vec<u8>]
    (ws/dataframe.rs:80-81), whose writes cannot fail, so the model returns the
    bytes written. *)
Definition write_header (h : dfheader) : result bytes ws_error :=
  if 0xF <? h_opcode h then Err (DataFrameError "Invalid data frame opcode")
  else if (8 <=? h_opcode h) && (126 <=? h_len h)
  then Err (DataFrameError "Control frame length too long")
  else
    let byte0 := n2b (N.lor (h_flags h) (h_opcode h)) in
    let byte1 :=
      n2b (N.lor (match h_mask h with Some _ => 0x80 | None => 0x00 end)
                 (if h_len h <=? 125 then h_len h mod 256
                  else if h_len h <=? 65535 then 126 else 127)) in
    let ext :=
      if (126 <=? h_len h) && (h_len h <=? 65535) then be16 (h_len h mod 65536)
      else if 65535 <? h_len h then be64 (h_len h) else [] in
    let key := match h_mask h with Some k => key_bytes k | None => [] end in
    Ok ([byte0; byte1] ++ ext ++ key).

(** header.rs:73-132 [read_header], for any reader [R] given by its [read_exact]
    (byteorder's [read_u8/u16/u64] are [read_exact] of 1, 2, 8 bytes). *)
Section ReadHeader.
  Variable R : Type.
  Variable read_exact : N -> R -> result bytes io_kind * R.

  (** [reader.read_u8()?] / [read_u16::<BigEndian>()?] / [read_u64::<BigEndian>()?] *)
  Definition read_uint (n : N) (r : R) : result N ws_error * R :=
    match read_exact n r with
    | (Ok l, r') => (Ok (of_be l), r')
    | (Err k, r') => (Err (of_io k), r')
    | (Panic, r') => (Panic, r')
    | (OutOfFuel, r') => (OutOfFuel, r')
    end.

  (** header.rs:83-100 *)
  Definition read_len (l7 : N) (r : R) : result N ws_error * R :=
    if l7 <=? 125 then (Ok l7, r)
    else if l7 =? 126 then
      sbind (read_uint 2 r) (fun len r =>
        if len <=? 125 then (Err (DataFrameError "Invalid data frame length"), r)
        else (Ok len, r))
    else if l7 =? 127 then
      sbind (read_uint 8 r) (fun len r =>
        if len <=? 65535 then (Err (DataFrameError "Invalid data frame length"), r)
        else (Ok len, r))
    else (Panic, r) (* unreachable!() *).

  (** header.rs:115-124 *)
  Definition read_mask (byte1 : N) (r : R) : result (option mkey) ws_error * R :=
    if N.land byte1 0x80 =? 0x80 then
      sbind (read_uint 1 r) (fun a r =>
      sbind (read_uint 1 r) (fun b r =>
      sbind (read_uint 1 r) (fun c r =>
      sbind (read_uint 1 r) (fun d r =>
        (Ok (Some (mk_key (n2b a) (n2b b) (n2b c) (n2b d))), r)))))
    else (Ok None, r).

  Definition read_header (r : R) : result dfheader ws_error * R :=
    sbind (read_uint 1 r) (fun byte0 r =>
    sbind (read_uint 1 r) (fun byte1 r =>
    let flags := fl_truncate byte0 in
    let opcode := N.land byte0 0x0F in
    sbind (read_len (N.land byte1 0x7F) r) (fun len r =>
    if (8 <=? opcode) && (126 <=? len)
    then (Err (DataFrameError "Control frame length too long"), r)
    else if (8 <=? opcode) && negb (fl_contains flags FIN)
    then (Err (ProtocolError "Illegal fragmented control frame"), r)
    else
    sbind (read_mask byte1 r) (fun mask r =>
    (Ok (mk_header flags opcode mask len), r))))).
End ReadHeader.
Arguments read_uint {R}.
Arguments read_len {R}.
Arguments read_mask {R}.
Arguments read_header {R}.
