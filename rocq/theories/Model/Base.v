(** Basic types of the model: bytes, numbers, results and errors. *)
From Coq Require Import NArith String List.
From Coq.Strings Require Import Byte.
Import ListNotations.
Local Open Scope N_scope.

(** A [u8].  [b2n]/[n2b] are the casts between [u8] and larger integers:
    [b as u64] and [n as u8] (truncation modulo 256). *)
Definition b2n (b : byte) : N := Byte.to_N b.
Definition n2b (n : N) : byte :=
  match Byte.of_N (n mod 256) with Some b => b | None => x00 end.

(** Bitwise xor on [u8]. *)
Definition bxor (a b : byte) : byte := n2b (N.lxor (b2n a) (b2n b)).

(** [Vec<u8>], [&[u8]], [String], [BytesMut] contents.  Strings are their UTF-8 bytes. *)
Definition bytes := list byte.

(** Length of a vector or slice, [usize]/[u64] in the code.
    Simplification: unbounded [N]; [usize] is 64 bits and no vector exceeds it. *)
Definition llen {A : Type} (l : list A) : N := N.of_nat (List.length l).

(** [take n l]: the first [n] elements; [drop n l]: the others.
    (Slicing [&l[..n]] and [&l[n..]].) *)
Fixpoint take {A : Type} (n : N) (l : list A) : list A :=
  match l with
  | [] => []
  | x :: l' => if n =? 0 then [] else x :: take (n - 1) l'
  end.
Fixpoint drop {A : Type} (n : N) (l : list A) : list A :=
  match l with
  | [] => []
  | x :: l' => if n =? 0 then l else drop (n - 1) l'
  end.

(** ASCII literals. *)
Definition str (s : string) : bytes := list_byte_of_string s.

(** [std::io::ErrorKind], the kinds the code distinguishes or produces. *)
Inductive io_kind : Type :=
| UnexpectedEof
| Interrupted
| WouldBlock
| InvalidData
| WriteZero
| ConnectionReset
| OtherKind (code : N).

(** websocket-base/src/result.rs:27-40 [WebSocketError].
    [Other] carries a boxed error; the model keeps a tag. *)
Inductive ws_error : Type :=
| ProtocolError (msg : string)
| DataFrameError (msg : string)
| NoDataAvailable
| IoError (k : io_kind)
| Utf8Error
| OtherError (tag : string).

(** websocket-base/src/result.rs:67-74 [From<io::Error> for WebSocketError]. *)
Definition of_io (k : io_kind) : ws_error :=
  match k with
  | UnexpectedEof => NoDataAvailable
  | _ => IoError k
  end.

(** [Result<A, E>] plus the two ways a modelled function may fail to return:
    a Rust panic, and exhaustion of the fuel the model gives to a loop. *)
Inductive result (A E : Type) : Type :=
| Ok (a : A)
| Err (e : E)
| Panic
| OutOfFuel.
Arguments Ok {A E} a.
Arguments Err {A E} e.
Arguments Panic {A E}.
Arguments OutOfFuel {A E}.

(** [expr.map_err(From::from)?] for a [Result<A, io::Error>] used where a
    [WebSocketResult] is expected. *)
Definition io_to_ws {A : Type} (r : result A io_kind) : result A ws_error :=
  match r with
  | Ok a => Ok a
  | Err k => Err (of_io k)
  | Panic => Panic
  | OutOfFuel => OutOfFuel
  end.

(** The [?] operator. *)
Definition rbind {A B E : Type} (r : result A E) (f : A -> result B E) : result B E :=
  match r with
  | Ok a => f a
  | Err e => Err e
  | Panic => Panic
  | OutOfFuel => OutOfFuel
  end.

(** The [?] operator on a computation that also threads a state (a reader or a
    buffer passed as [&mut]). *)
Definition sbind {S A B E : Type} (r : result A E * S)
  (f : A -> S -> result B E * S) : result B E * S :=
  match r with
  | (Ok a, s) => f a s
  | (Err e, s) => (Err e, s)
  | (Panic, s) => (Panic, s)
  | (OutOfFuel, s) => (OutOfFuel, s)
  end.

(** [u16]/[u64] to and from big-endian bytes (byteorder [BigEndian]). *)
Definition be16 (n : N) : bytes := [n2b (n / 256); n2b n].
Definition be64 (n : N) : bytes :=
  [n2b (n / 2^56); n2b (n / 2^48); n2b (n / 2^40); n2b (n / 2^32);
   n2b (n / 2^24); n2b (n / 2^16); n2b (n / 2^8); n2b n].
Definition of_be (l : bytes) : N :=
  fold_left (fun acc b => acc * 256 + b2n b) l 0.

(** [u32::MAX], [isize::MAX] on a 64-bit target. *)
Definition u32_max : N := 4294967295.
Definition isize_max : N := 9223372036854775807.
