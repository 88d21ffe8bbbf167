(** websocket-base/src/ws/util/mask.rs *)
From Coq Require Import NArith String Bool List.
From Coq.Strings Require Import Byte.
From Verif.Model Require Import Base Io Header.
Import ListNotations.
Local Open Scope N_scope.

(** [mask.iter().cycle()]: the stream of key bytes, as the remaining current
    round plus the full key. *)
Fixpoint mask_cycle (key cur : bytes) (data : bytes) : bytes :=
  match data with
  | [] => []
  | b :: data' =>
      match cur with
      | k :: cur' => bxor b k :: mask_cycle key cur' data'
      | [] =>
          match key with
          | k :: cur' => bxor b k :: mask_cycle key cur' data'
          | [] => []
          end
      end
  end.

(** mask.rs:47-54 [mask_data] *)
Definition mask_data (k : mkey) (data : bytes) : bytes :=
  mask_cycle (key_bytes k) (key_bytes k) data.

(** [self.key[self.pos]] (mask.rs:30); [pos] is always below 4. *)
Definition key_at (k : mkey) (pos : N) : byte :=
  nth (N.to_nat pos) (key_bytes k) x00.

(** mask.rs:28-32: the masked buffer and the new position. *)
Fixpoint masker_buf (k : mkey) (pos : N) (data : bytes) : bytes * N :=
  match data with
  | [] => ([], pos)
  | b :: data' =>
      let '(out, pos') := masker_buf k ((pos + 1) mod 4) data' in
      (bxor b (key_at k pos) :: out, pos')
  end.

(** mask.rs:8-12 [Masker], with the endpoint a transport. *)
Record masker : Type := mk_masker { m_key : mkey; m_pos : N; m_end : wstream }.

(** mask.rs:17-23 [Masker::new] *)
Definition masker_new (k : mkey) (w : wstream) : masker := mk_masker k 0 w.

(** mask.rs:27-34 [Masker::write]: masks everything, advances the position by the
    whole of [data], and returns what the endpoint's single [write] returns. *)
Definition masker_write (m : masker) (data : bytes) : result N io_kind * masker :=
  let '(buf, pos') := masker_buf (m_key m) (m_pos m) data in
  let '(r, w') := w_write buf (m_end m) in
  (r, mk_masker (m_key m) pos' w').

(** [Write::write_all] (std default) on a [Masker].  Fuel: one [write] call each. *)
Fixpoint masker_write_all (fuel : nat) (m : masker) (buf : bytes)
  : result unit io_kind * masker :=
  match buf with
  | [] => (Ok tt, m)
  | _ :: _ =>
      match fuel with
      | O => (OutOfFuel, m)
      | S fuel' =>
          match masker_write m buf with
          | (Ok n, m') =>
              if n =? 0 then (Err WriteZero, m')
              else masker_write_all fuel' m' (drop n buf)
          | (Err Interrupted, m') => masker_write_all fuel' m' buf
          | (Err k, m') => (Err k, m')
          | (Panic, m') => (Panic, m')
          | (OutOfFuel, m') => (OutOfFuel, m')
          end
      end
  end.

(** A sequence of [write_all] calls on a [Masker] (what [write_payload] does). *)
Fixpoint masker_write_list (m : masker) (l : list bytes) : result unit io_kind * masker :=
  match l with
  | [] => (Ok tt, m)
  | d :: l' =>
      match masker_write_all (S (length (w_script (m_end m)))) m d with
      | (Ok _, m') => masker_write_list m' l'
      | r => r
      end
  end.
