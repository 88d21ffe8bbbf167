(** RFC 6455 sections 5.4-5.6: how messages are cut into frames.
    Nothing here uses the functions of the model, only its frame and message types. *)
From Coq Require Import NArith Bool List.
From Coq.Strings Require Import Byte.
From Verif.Model Require Import Base Header Dataframe Message Codec.
From Verif.Spec Require Import RfcFrame FrameSpec Unicode.
Import ListNotations.
Local Open Scope N_scope.

Definition size (l : list byte) : N := N.of_nat (length l).

(** A number below 256 as a byte. *)
Definition octet (n : N) : byte := match Byte.of_N n with Some b => b | None => x00 end.

(** Messages that fit what the types of the code allow ([String]s are well-formed
    UTF-8, status codes are 16 bit). *)
Definition typed (m : owned) : Prop :=
  match m with
  | OText s => well_formed (octets s)
  | OClose (Some c) => c_status c < 2 ^ 16 /\ well_formed (octets (c_reason c))
  | _ => True
  end.

(** The application data of a message. *)
Definition payload_of (m : owned) : list byte :=
  match m with
  | OText d | OBinary d | OPing d | OPong d => d
  | OClose None => []
  | OClose (Some c) => octet (c_status c / 256) :: octet (c_status c mod 256) :: c_reason c
  end.
Definition control_message (m : owned) : Prop :=
  match m with OText _ | OBinary _ => False | _ => True end.
Definition opcode_of (m : owned) : opcode :=
  match m with
  | OText _ => Text | OBinary _ => Binary | OClose _ => Close | OPing _ => Ping | OPong _ => Pong
  end.

(** The frame of a message that is not fragmented. *)
Definition whole_frame (m : owned) : dataframe :=
  mk_df true (false, false, false) (opcode_of m) (payload_of m).

(** ** What a receiver has to make of a sequence of frames *)

(** [fragments m fs]: the frames [fs] are the fragments of the data message [m]: the
    first says text or binary, the others are continuations, only the last is final,
    no reserved bit is used, the payloads concatenate to the message's. *)
Inductive continuations : list dataframe -> list byte -> Prop :=
| cont_last : forall d, continuations [mk_df true (false, false, false) Continuation d] d
| cont_more : forall d fs ds, continuations fs ds ->
    continuations (mk_df false (false, false, false) Continuation d :: fs) (d ++ ds).
Inductive fragments : owned -> list dataframe -> Prop :=
| frag_whole : forall m, ~ control_message m -> fragments m [whole_frame m]
| frag_many : forall m d fs ds, ~ control_message m -> continuations fs ds ->
    payload_of m = d ++ ds ->
    fragments m (mk_df false (false, false, false) (opcode_of m) d :: fs).

Definition control_opcode (o : opcode) : bool :=
  match o with
  | Close | Ping | Pong | Control1 | Control2 | Control3 | Control4 | Control5 => true
  | _ => false
  end.

(** [delivers pending fs ms pending']: with [pending] the data frames of an unfinished
    message, the frames [fs] deliver the messages [ms] and leave [pending']. *)
Inductive delivers : list dataframe -> list dataframe -> list owned -> list dataframe -> Prop :=
| del_nil : forall p, delivers p [] [] p
| del_control : forall p m fs ms p',
    control_message m -> typed m -> delivers p fs ms p' ->
    delivers p (whole_frame m :: fs) (m :: ms) p'
| del_fragment : forall p f fs ms p',
    f_finished f = false -> control_opcode (f_opcode f) = false ->
    (p = [] <-> f_opcode f <> Continuation) ->
    delivers (p ++ [f]) fs ms p' ->
    delivers p (f :: fs) ms p'
| del_message : forall p f fs m ms p',
    typed m -> fragments m (p ++ [f]) -> delivers [] fs ms p' ->
    delivers p (f :: fs) (m :: ms) p'.

(** ** Bytes on the wire *)

(** [on_wire masked fs l]: [l] is the concatenation of the RFC encodings of [fs], each
    masked with some key, or none masked. *)
Inductive on_wire (masked : bool) : list dataframe -> list byte -> Prop :=
| wire_nil : on_wire masked [] []
| wire_cons : forall f key w fs ws,
    match key with Some _ => true | None => false end = masked ->
    octets w = rfc_encode (rfc_of_frame f key) ->
    on_wire masked fs ws ->
    on_wire masked (f :: fs) (w ++ ws).

(** ** Limits *)

(** What an unfinished message costs: its payload and 64 bytes per frame. *)
Definition cost (fs : list dataframe) : N :=
  fold_right (fun f a => size (f_data f) + 64 + a) 0 fs.

(** Every frame is legal and within the frame limit; an unfinished message always
    has less than 2^20 frames and costs less than the message limit.  [p] are the
    frames of the message in progress.  (Frames no receiver keeps are skipped.) *)
Fixpoint under (max_msg : N) (p : list dataframe) (fs : list dataframe) : Prop :=
  match fs with
  | [] => True
  | f :: fs' =>
      let p' := p ++ [f] in
      if control_opcode (f_opcode f) then under max_msg p fs'
      else if match f_opcode f, p with
              | Continuation, [] => true
              | Continuation, _ => false
              | _, [] => false
              | _, _ => true
              end
      then under max_msg p fs' (* refused *)
      else if f_finished f then under max_msg [] fs'
      else N.of_nat (length p') < 2 ^ 20 /\ cost p' < max_msg /\ under max_msg p' fs'
  end.
Definition fits (max_df : N) (fs : list dataframe) : Prop :=
  Forall (fun f => rfc_legal (rfc_of_frame f None) /\ size (f_data f) <= max_df) fs.

(** ** Sessions: what a peer sends, fragment by fragment *)

(** A data message, cut in fragments; the list before each later fragment are the
    control messages sent between the fragments. *)
Record cut_message : Type := {
  cm_text : bool;
  cm_first : list byte;
  cm_more : list (list owned * list byte)
}.
Inductive item : Type := IControl (m : owned) | IData (c : cut_message).

Definition cm_payload (c : cut_message) : list byte :=
  cm_first c ++ concat (map snd (cm_more c)).
Definition cm_message (c : cut_message) : owned :=
  if cm_text c then OText (cm_payload c) else OBinary (cm_payload c).
Fixpoint more_frames (l : list (list owned * list byte)) : list dataframe :=
  match l with
  | [] => []
  | (cs, d) :: l' =>
      map whole_frame cs
      ++ mk_df (match l' with [] => true | _ => false end) (false, false, false) Continuation d
      :: more_frames l'
  end.
Definition item_frames (i : item) : list dataframe :=
  match i with
  | IControl m => [whole_frame m]
  | IData c =>
      mk_df (match cm_more c with [] => true | _ => false end) (false, false, false)
        (if cm_text c then Text else Binary) (cm_first c)
      :: more_frames (cm_more c)
  end.
Definition item_delivered (i : item) : list owned :=
  match i with
  | IControl m => [m]
  | IData c => concat (map fst (cm_more c)) ++ [cm_message c]
  end.

Definition control_ok (m : owned) : Prop :=
  control_message m /\ typed m /\ size (payload_of m) <= 125.
(** The fragments except the last. *)
Definition open_fragments (c : cut_message) : list (list byte) :=
  removelast (cm_first c :: map snd (cm_more c)).
Definition cut_ok (max_df max_msg : N) (c : cut_message) : Prop :=
  Forall (fun d => size d <= max_df) (cm_first c :: map snd (cm_more c)) /\
  Forall (fun m => control_ok m /\ size (payload_of m) <= max_df) (concat (map fst (cm_more c))) /\
  N.of_nat (length (open_fragments c)) < 2 ^ 20 /\
  fold_right (fun d a => size d + 64 + a) 0 (open_fragments c) < max_msg.
Definition item_ok (max_df max_msg : N) (i : item) : Prop :=
  match i with
  | IControl m => control_ok m /\ size (payload_of m) <= max_df
  | IData c => typed (cm_message c) /\ cut_ok max_df max_msg c
  end.

(** Limits are at most [u32::MAX]. *)
Definition capped (n : N) : N := N.min n 4294967295.
(** A server receives masked frames, a client unmasked ones. *)
Definition receives_masked (c : context) : bool :=
  match c with CtxServer => true | CtxClient => false end.

(** A message a peer may send in one frame. *)
Definition sendable (max_df : N) (m : owned) : Prop :=
  typed m /\ size (payload_of m) <= max_df /\ (control_message m -> size (payload_of m) <= 125).

(** What an application can build with the constructors, the strings being UTF-8. *)
Definition built (m : message) : Prop :=
  (m_opcode m = TText -> m_status m = None /\ well_formed (octets (m_payload m))) /\
  (m_opcode m = TClose -> (exists st, m_status m = Some st /\ well_formed (octets (m_payload m)))
                          \/ (m_status m = None /\ m_payload m = [])) /\
  (m_opcode m <> TClose -> m_status m = None).

(** Payload octets held in frames. *)
Definition retained (fs : list dataframe) : N :=
  fold_right (fun f a => size (f_data f) + a) 0 fs.

(** ** Frames that must be refused *)

(** [illegal_next p f]: with [p] the frames of the message in progress, frame [f] must
    be refused. *)
Definition uses_rsv (f : dataframe) : Prop := f_reserved f <> (false, false, false).
Inductive illegal_next : list dataframe -> dataframe -> Prop :=
| ill_continuation : forall f, f_opcode f = Continuation -> illegal_next [] f
| ill_interrupted : forall p f, p <> [] -> control_opcode (f_opcode f) = false ->
    f_opcode f <> Continuation -> illegal_next p f
| ill_control_rsv : forall p f, control_opcode (f_opcode f) = true -> uses_rsv f ->
    illegal_next p f
| ill_control_opcode : forall p f, control_opcode (f_opcode f) = true ->
    f_opcode f <> Close -> f_opcode f <> Ping -> f_opcode f <> Pong -> illegal_next p f
| ill_data_rsv : forall p f, control_opcode (f_opcode f) = false -> f_finished f = true ->
    Exists uses_rsv (p ++ [f]) -> illegal_next p f
| ill_data_opcode : forall p f g gs, control_opcode (f_opcode f) = false -> f_finished f = true ->
    p ++ [f] = g :: gs -> control_opcode (f_opcode g) = false ->
    f_opcode g <> Text -> f_opcode g <> Binary -> illegal_next p f.
