(** Histories of API calls on one converter: the vocabulary of the properties that quantify over histories. *)
From Coq Require Import ZArith List Bool Reals.
From Flocq Require Import Core IEEE754.BinarySingleNaN.
From Verif Require Import Base Types Api Heap Callback HoldSpec.
Import ListNotations.
Local Open Scope Z_scope.

Section Hist.
  Variable CS : Type.
  Variable cb : callback_t CS.
  Variable dummy : Z.

  (** A call, with the contents of the caller's memory at that moment (the caller may change it between calls). *)
  Inductive api_call :=
  | A_process (d : option SRC_DATA) (m : mem)
  | A_read (fuel : nat) (ratio : f64) (frames data : Z) (cs : CS) (m : mem)
  | A_set_ratio (r : f64)
  | A_reset
  | A_get_channels
  | A_error.

  Inductive api_result :=
  | R_process (e : Z) (d : option SRC_DATA) (m : mem)
  | R_read (n : Z) (cs : CS) (m : mem)
  | R_code (e : Z).

  Definition keep (st : SRC_STATE) (o : option SRC_STATE) : SRC_STATE := match o with Some s => s | None => st end.

  Definition api_step (st : SRC_STATE) (c : api_call) : outcome (api_result * SRC_STATE) :=
    match c with
    | A_process d m =>
        do (e, so, d', m') <- src_process (Some st) d m ; Ok (R_process e d' m', keep st so)
    | A_read fuel ratio frames data cs m =>
        do (n, so, cs', m') <- src_callback_read CS cb dummy fuel (Some st) ratio frames data cs m ;
        Ok (R_read n cs' m', keep st so)
    | A_set_ratio r => let (e, so) := src_set_ratio (Some st) r in Ok (R_code e, keep st so)
    | A_reset => do (e, so) <- src_reset (Some st) ; Ok (R_code e, keep st so)
    | A_get_channels => Ok (R_code (src_get_channels (Some st)), st)
    | A_error => Ok (R_code (src_error (Some st)), st)
    end.

  Fixpoint api_run (st : SRC_STATE) (cs : list api_call) : outcome (list api_result * SRC_STATE) :=
    match cs with
    | [] => Ok ([], st)
    | c :: rest =>
        do (r, st1) <- api_step st c ;
        do (rs, st2) <- api_run st1 rest ;
        Ok (r :: rs, st2)
    end.
End Hist.
Arguments A_process {CS} d m.
Arguments A_read {CS} fuel ratio frames data cs m.
Arguments A_set_ratio {CS} r.
Arguments A_reset {CS}.
Arguments A_get_channels {CS}.
Arguments A_error {CS}.
Arguments R_process {CS} e d m.
Arguments R_read {CS} n cs m.
Arguments R_code {CS} e.

(** A number in [1/256, 256]. *)
Definition in_range (r : f64) : Prop := is_finite r = true /\ (/ 256 <= B2R r <= 256)%R.

(** The first region ends before the second starts, or the other way round (an empty region at the very address of a
    non-empty one counts as overlapping). *)
Definition apart (a la b lb : Z) : Prop := (a < b /\ a + la <= b) \/ b + lb <= a.

(** A legal src_process request for a converter with [ch] channels: non-negative counts, a valid ratio, buffers that are
    mapped over exactly the announced length, do not overlap and lie in the address space.  2^50 samples is more than
    the 47-bit user address space of x86-64 can hold. *)
Definition valid_call (ch : Z) (d : SRC_DATA) (m : mem) : Prop :=
  0 <= input_frames d /\ 0 <= output_frames d /\
  input_frames d * ch <= 2 ^ 50 /\ output_frames d * ch <= 2 ^ 50 /\
  in_range (src_ratio d) /\
  (0 < input_frames d -> data_in d <> 0) /\ (0 < output_frames d -> data_out d <> 0) /\
  0 <= data_in d <= 2 ^ 60 /\ 0 <= data_out d <= 2 ^ 60 /\
  writable m (data_in d) ch (input_frames d) /\ writable m (data_out d) ch (output_frames d) /\
  apart (data_in d) (input_frames d * ch) (data_out d) (output_frames d * ch).

(** A legal history: every src_process request is legal, src_set_ratio is not given a NaN. *)
Definition valid_op {CS} (ch : Z) (c : api_call CS) : Prop :=
  match c with
  | A_process (Some d) m => valid_call ch d m
  | A_process None _ => True
  | A_set_ratio r => is_nan r = false
  | _ => True
  end.

(** What a reply to a src_process request must look like: success, honest frame counts, exactly the reported frames
    written, the rest of SRC_DATA untouched. *)
Definition honest_reply (ch : Z) (d : SRC_DATA) (m : mem) (e : Z) (d' : SRC_DATA) (m' : mem) : Prop :=
  e = 0 /\ d' = set_counts d (input_frames_used d') (output_frames_gen d') /\
  0 <= input_frames_used d' <= input_frames d /\ 0 <= output_frames_gen d' <= output_frames d /\
  exists value, wrote m m' (data_out d) ch (output_frames_gen d') value.

Definition honest {CS} (ch : Z) (c : api_call CS) (r : api_result CS) : Prop :=
  match c, r with
  | A_process (Some d) m, R_process e (Some d') m' => honest_reply ch d m e d' m'
  | A_process (Some _) _, _ => False
  | A_process None _, R_process e None _ => e <> 0
  | A_process None _, _ => False
  | _, _ => True
  end.

(** What happened during a stream: calls of src_process with request and reply, calls of src_set_ratio. *)
Inductive event := Ev_call (d d' : SRC_DATA) | Ev_ratio (r : f64).

(** ** Streaming: a caller feeding a stream X block by block.  Each call presents frames o, o+1, .. of X, where o is the
    number of frames consumed so far; what it did not consume is presented again.  The log records requests and replies;
    [out] is the concatenation of everything that was written. *)
Section Streaming.
  Variables (ch : Z) (X : stream) (allowed : f64 -> Prop) (legal : Z -> SRC_DATA -> mem -> Prop).
  Inductive streaming : SRC_STATE -> Z -> list event -> list f32 -> SRC_STATE -> Z -> Prop :=
  | S_done st o : streaming st o [] [] st o
  | S_call st o d m e st1 d1 m1 chunk log out st2 o2 :
      valid_call ch d m -> holds m (data_in d) ch (input_frames d) X o -> allowed (src_ratio d) -> legal o d m ->
      src_process (Some st) (Some d) m = Ok (e, Some st1, Some d1, m1) ->
      mread_n m1 (data_out d) (Z.to_nat (output_frames_gen d1 * ch)) = Ok chunk ->
      streaming st1 (o + input_frames_used d1) log out st2 o2 ->
      streaming st o (Ev_call d d1 :: log) (chunk ++ out) st2 o2
  | S_ratio st o r st1 log out st2 o2 :
      in_range r -> allowed r -> src_set_ratio (Some st) r = (0, Some st1) ->
      streaming st1 o log out st2 o2 ->
      streaming st o (Ev_ratio r :: log) out st2 o2.
End Streaming.

(** Number of the first frame that was never presented. *)
Fixpoint presented (o : Z) (log : list event) : Z :=
  match log with
  | [] => o
  | Ev_call d d' :: r => Z.max (o + input_frames d) (presented (o + input_frames_used d') r)
  | Ev_ratio _ :: r => presented o r
  end.

(** Number of frames that were produced. *)
Fixpoint total_gen (log : list event) : Z :=
  match log with
  | [] => 0
  | Ev_call _ d' :: r => output_frames_gen d' + total_gen r
  | Ev_ratio _ :: r => total_gen r
  end.

(** What the caller asked for (without the replies). *)
Definition requests (log : list event) : list (SRC_DATA + f64) :=
  map (fun e => match e with Ev_call d _ => inl d | Ev_ratio r => inr r end) log.

(** Frame k, channel c of an interleaved list of samples. *)
Definition sample (ch : Z) (out : list f32) (k c : Z) : option f32 := nth_error out (Z.to_nat (k * ch + c)).

(** [out] consists of [g] whole frames, frame k being [Y k]. *)
Definition is_frames (ch : Z) (out : list f32) (g : Z) (Y : Z -> Z -> f32) : Prop :=
  zlen out = g * ch /\
  forall k c, 0 <= k < g -> 0 <= c < ch -> sample ch out k c = Some (Y k c).

(** The stream as the converter sees it: the first frame also stands in for everything before it. *)
Definition from0 (X : stream) : stream := fun i => X (Z.max 0 i).

(** Requests linear interpolation handles without looking before data_in: no input, three frames or more, or the frame
    before data_in is readable, is the previous frame of the stream and is not overwritten. *)
Definition lin_legal (kd : kind) (ch : Z) (X : stream) (o : Z) (d : SRC_DATA) (m : mem) : Prop :=
  match kd with
  | Zoh => True
  | Lin => input_frames d = 0 \/ 3 <= input_frames d \/
           (holds m (data_in d - ch) ch 1 (from0 X) (o - 1) /\
            disjoint_ranges (data_in d - ch) ch (data_out d) (output_frames d * ch))
  end.

(** Block sizes for which linear interpolation never looks before data_in, whatever the converter did before. *)
Definition lin_room (kd : kind) (n : Z) : Prop := match kd with Zoh => True | Lin => n = 0 \/ 3 <= n end.
Definition op_room {CS} (kd : kind) (c : api_call CS) : Prop :=
  match c with A_process (Some d) _ => lin_room kd (input_frames d) | _ => True end.

(** ** Converters as the caller gets them *)
Definition type_of (kd : kind) : Z := match kd with Zoh => SRC_ZERO_ORDER_HOLD | Lin => SRC_LINEAR end.

(** [st] is a converter just handed out by src_new (in any build, with any heap). *)
Definition created (ty ch : Z) (st : SRC_STATE) : Prop :=
  exists bld orc h c h', src_new bld orc ty ch h = Ok (0, Some c, h') /\ st = c_state c.

(** [st] is the state after a legal history [cs] of a new converter. *)
Definition after_history (kd : kind) (ch : Z) (st : SRC_STATE) : Prop :=
  exists (CS : Type) (cb : callback_t CS) dummy st0 cs rs,
    created (type_of kd) ch st0 /\ Forall (valid_op ch) cs /\
    api_run CS cb dummy st0 cs = Ok (rs, st).

(** At the start of a stream: new, or reset after a legal history. *)
Definition at_start (kd : kind) (ch : Z) (st : SRC_STATE) : Prop :=
  created (type_of kd) ch st \/ exists st0, after_history kd ch st0 /\ src_reset (Some st0) = Ok (0, Some st).

(** The int arithmetic of zero-order hold and linear (channels * whole frames per step, at most 257) stays in range. *)
Definition channels_fit (ch : Z) : Prop := ch * 258 <= 2 ^ 31 - 1.
