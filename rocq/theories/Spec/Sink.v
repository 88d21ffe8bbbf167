(** Programs using the asynchronous sink. *)
From Coq Require Import NArith List.
From Coq.Strings Require Import Byte.
From Verif.Model Require Import Base Io Header Mask Dataframe Message Codec Framed.
Import ListNotations.

(** What a task does with the sink: [start_send] a frame ([k] the masking key that will be
    drawn, [extra] what the allocator adds), or [poll_complete]. *)
Inductive sink_op : Type :=
| Send (d : dataframe_ops) (k : mkey) (extra : N)
| Flush.
Fixpoint sink_run (is_server : bool) (ops : list sink_op) (w : fwrite) : list spoll * fwrite :=
  match ops with
  | [] => ([], w)
  | op :: ops' =>
      let '(r, w1) := match op with
                      | Send d k extra => start_send is_server d k extra w
                      | Flush => poll_complete w
                      end in
      let '(rs, w2) := sink_run is_server ops' w1 in
      (r :: rs, w2)
  end.

(** The frames the sink took ([start_send] said ready), with their keys. *)
Fixpoint accepted (ops : list sink_op) (rs : list spoll) : list (dataframe_ops * mkey) :=
  match ops, rs with
  | Send d k _ :: ops', SReady :: rs' => (d, k) :: accepted ops' rs'
  | _ :: ops', _ :: rs' => accepted ops' rs'
  | _, _ => []
  end.

(** Every frame handed to the sink. *)
Fixpoint offered (ops : list sink_op) : list dataframe_ops :=
  match ops with
  | [] => []
  | Send d _ _ :: ops' => d :: offered ops'
  | Flush :: ops' => offered ops'
  end.
