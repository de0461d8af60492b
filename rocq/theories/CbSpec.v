(** Vocabulary of the properties about the callback interface. *)
From Coq Require Import ZArith List Bool.
From Flocq Require Import Core IEEE754.BinarySingleNaN.
From Verif Require Import Base Types Api Heap Callback ApiHist HoldSpec SincApi.
Import ListNotations.
Local Open Scope Z_scope.

(** The memory the callback may hand out is mapped. *)
Definition mapped (pool : Z -> Prop) (m : mem) : Prop := forall a, pool a -> m a <> None.

(** What a callback may return: a pointer in the address space and a count; if the count is positive, NULL or a block of
    that many frames of the pool.  Negative counts and NULL with a positive count are allowed. *)
Definition block_in (pool : Z -> Prop) (ch p n : Z) : Prop :=
  0 <= p <= 2 ^ 60 /\
  (n <= 0 \/ p = 0 \/ (n * ch <= 2 ^ 50 /\ p + n * ch <= 2 ^ 60 /\ forall i, 0 <= i < n * ch -> pool (p + i))).

Section Contract.
  Variables (CS : Type) (cb : callback_t CS) (dummy : Z).

  (** The contract of the callback: when called with its pool mapped it unmaps nothing and returns a block of the pool.
      (If it does not set the pointer, the library uses the address of its own [dummy].) *)
  Definition proper (pool : Z -> Prop) (ch : Z) : Prop :=
    forall f ud cs m, mapped pool m ->
      let '(_, m', ptr, n) := cb f ud cs m in
      (forall a, m a <> None -> m' a <> None) /\
      block_in pool ch (match ptr with Some p => p | None => dummy end) n.

  (** The callback never reports an error by a negative count. *)
  Definition nonnegative : Prop := forall f ud cs m, let '(_, _, _, n) := cb f ud cs m in 0 <= n.

  (** The callback does not write at address a. *)
  Definition leaves_alone (a : Z) : Prop := forall f ud cs m, let '(_, m', _, _) := cb f ud cs m in m' a = m a.

  (** [ended] holds once the callback has returned 0. *)
  Definition marks_end (ended : CS -> Prop) : Prop :=
    forall f ud cs m, let '(cs', _, _, n) := cb f ud cs m in (n = 0 -> ended cs') /\ (ended cs -> ended cs').

  (** A legal request: the output buffer is NULL or mapped, the ratio is not a NaN (anything else is allowed). *)
  Definition legal_read (pool : Z -> Prop) (ch : Z) (ratio : f64) (frames data : Z) (m : mem) : Prop :=
    frames <= 0 \/
    (is_nan ratio = false /\ frames * ch <= 2 ^ 50 /\ 0 <= data /\ data + frames * ch <= 2 ^ 60 /\
     (data = 0 \/ writable m data ch frames) /\ mapped pool m).

  Definition legal_cb_op (pool : Z -> Prop) (ch : Z) (c : api_call CS) : Prop :=
    match c with
    | A_read _ ratio frames data _ m => legal_read pool ch ratio frames data m
    | A_set_ratio r => is_nan r = false
    | _ => True
    end.

  (** [st] is the state after a legal history of a converter for which [made] held. *)
  Definition cb_after (made : SRC_STATE -> Prop) (pool : Z -> Prop) (ch : Z) (st : SRC_STATE) : Prop :=
    exists st0 cs rs, made st0 /\ Forall (legal_cb_op pool ch) cs /\ api_run CS cb dummy st0 cs = Ok (rs, st).

  (** After it has reported the end ([ended]) the callback keeps returning 0. *)
  Definition stays_ended (ended : CS -> Prop) : Prop :=
    forall f ud cs m, ended cs -> let '(_, _, _, n) := cb f ud cs m in n = 0.

  (** No block has 2^31 samples or more. *)
  Definition int_blocks (ch : Z) : Prop := forall f ud cs m, let '(_, _, _, n) := cb f ud cs m in n * ch < 2 ^ 31.

  (** A converter in use, together with the state of its callback: reads thread the callback's state, a reset may go
      with a restart of the data. *)
  Inductive session (made : SRC_STATE -> Prop) (pool : Z -> Prop) (ch : Z) : SRC_STATE -> CS -> Prop :=
  | S_new st cs : made st -> session made pool ch st cs
  | S_read fuel st ratio frames data cs m n st' cs' m' : session made pool ch st cs -> legal_read pool ch ratio frames data m ->
      src_callback_read CS cb dummy fuel (Some st) ratio frames data cs m = Ok (n, Some st', cs', m') -> session made pool ch st' cs'
  | S_ratio st cs r e st' : session made pool ch st cs -> is_nan r = false -> src_set_ratio (Some st) r = (e, Some st') -> session made pool ch st' cs
  | S_reset st cs e st' cs' : session made pool ch st cs -> src_reset (Some st) = Ok (e, Some st') -> session made pool ch st' cs'.
End Contract.

(** [st] is a converter just handed out by src_callback_new (in any build, with any heap). *)
Definition cb_created (ty ch : Z) (st : SRC_STATE) : Prop :=
  exists bld orc func ud h c h', src_callback_new bld orc func ty ch ud h = Ok (0, Some c, h') /\ st = c_state c.

(** The same for a sinc converter with coefficient table [t]. *)
Definition sinc_cb_new (t : Z * list f32) (ch : Z) (st : SRC_STATE) : Prop :=
  exists bld orc func ty ud h c h', sinc_table bld ty = Some t /\ src_callback_new bld orc func ty ch ud h = Ok (0, Some c, h') /\ st = c_state c.

(** A converter told of the end of its input, with room for [room] > 0 more frames, produced none; it is left as [st']. *)
Definition ran_dry (ch : Z) (ratio : f64) (room : Z) (st' : SRC_STATE) (m' : mem) : Prop :=
  exists s d m s2 d2, valid_call ch d m /\ src_process (Some s) (Some d) m = Ok (0, Some s2, Some d2, m') /\
    end_of_input d = 1 /\ src_ratio d = ratio /\ output_frames d = room /\ output_frames_gen d2 = 0 /\
    st' = set_saved (set_mode s2 MODE_CALLBACK) (input_frames d - input_frames_used d2) (data_in d + input_frames_used d2 * ch).

(** What a call of src_callback_read that asked for [frames] frames at [data] may do: it returns between 0 and [frames];
    the only addresses it writes are those of the frames it returns (at most those of the buffer if it fails), apart from
    what the callback writes; a return of less than was asked for is 0 and an error recorded in src_error, or the callback
    reported the end of its data during this call and the converter has nothing left to produce. *)
Definition read_ok (CS : Type) (cb : callback_t CS) (ch : Z) (ratio : f64) (frames data : Z) (st : SRC_STATE) (m : mem)
    (n : Z) (st' : SRC_STATE) (cs' : CS) (m' : mem) : Prop :=
  0 <= n <= Z.max 0 frames /\
  (exists w, 0 <= w <= Z.max 0 frames /\ (0 < n -> w = n) /\
     forall a, leaves_alone CS cb a -> ~ (data <= a < data + w * ch) -> m' a = m a) /\
  (n < frames -> (n = 0 /\ src_error (Some st') <> 0) \/
     ((forall ended, marks_end CS cb ended -> ended cs') /\ ran_dry ch ratio (frames - n) st' m')) /\
  (0 < n -> src_error (Some st') = src_error (Some st) \/ src_error (Some st') = 0).
