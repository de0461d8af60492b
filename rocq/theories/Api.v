(** Model of the public API on one converter, /repo/src/samplerate.c (creation and destruction are in Heap.v,
    src_callback_read in Callback.v). *)
From Coq Require Import ZArith List Bool String.
From Verif Require Import Base Types Common Zoh Linear Sinc SincCopies.
Import ListNotations.
Local Open Scope Z_scope.

(** state->vt->const_process and vari_process: every vtable has the same function in both slots
    (src_zoh.c:39-46, src_linear.c:41-48, src_sinc.c:88-131). *)
Definition vt_process (state : SRC_STATE) : SRC_DATA -> mem -> outcome proc_result :=
  match st_vt state with
  | VT_zoh => zoh_vari_process state
  | VT_linear => linear_vari_process state
  | VT_sinc_mono => sinc_mono_vari_process state
  | VT_sinc_stereo => sinc_stereo_vari_process state
  | VT_sinc_quad => sinc_quad_vari_process state
  | VT_sinc_hex => sinc_hex_vari_process state
  | VT_sinc_multi => sinc_multichan_vari_process state
  end.

(** src_zoh.c:221-233 zoh_reset and src_linear.c:232-244 linear_reset *)
Definition hold_reset (state : SRC_STATE) : outcome SRC_STATE :=
  match st_priv state with
  | P_null => Ok state
  | P_sinc _ => Fault F_oob
  | P_hold p =>
      do lv <- blit (h_last_value p) 0 (repeat fzero (Z.to_nat (st_channels state))) ;
      Ok (set_priv state (P_hold (mkHold false (h_in_count p) (h_in_used p) (h_out_count p) (h_out_gen p) lv)))
  end.

(** src_sinc.c:311-328 sinc_reset *)
Definition sinc_reset (state : SRC_STATE) : outcome SRC_STATE :=
  match st_priv state with
  | P_null => Ok state
  | P_hold _ => Fault F_oob
  | P_sinc s => do s' <- sinc_reset_priv s (st_channels state) ; Ok (set_priv state (P_sinc s'))
  end.

(** state->vt->reset *)
Definition vt_reset (state : SRC_STATE) : outcome SRC_STATE :=
  match st_vt state with
  | VT_zoh | VT_linear => hold_reset state
  | _ => sinc_reset state
  end.

(** Pointer arithmetic: addresses are float slots of a 64-bit address space. *)
Definition ptr_add (a n : Z) : outcome Z :=
  if (0 <=? a + n) && (a + n <? 2 ^ 62) then Ok (a + n) else Fault F_overflow.

(** samplerate.c:109-125, the overlap test (in and out counts already clamped to be non-negative). *)
Definition overlap_test (channels : Z) (data : SRC_DATA) : outcome bool :=
  if data_in data <? data_out data then
    do n <- long_op (input_frames data * channels) ;
    do e <- ptr_add (data_in data) n ;
    Ok (data_out data <? e)
  else
    do n <- long_op (output_frames data * channels) ;
    do e <- ptr_add (data_out data) n ;
    Ok (data_in data <? e).

(** samplerate.c:84-143 src_process.  [None] is a NULL pointer.  The SRC_DATA struct is updated in place, so the
    result contains its final contents also on errors. *)
Definition src_process (state : option SRC_STATE) (data : option SRC_DATA) (m : mem)
    : outcome (Z * option SRC_STATE * option SRC_DATA * mem) :=
  match state with
  | None => Ok (SRC_ERR_BAD_STATE, state, data, m)
  | Some st =>
      if negb (is_process (st_mode st)) then Ok (SRC_ERR_BAD_MODE, state, data, m) else
      match data with
      | None => Ok (SRC_ERR_BAD_DATA, state, data, m)
      | Some d =>
          (* 98-100 *)
          if ((data_in d =? 0) && (0 <? input_frames d)) || ((data_out d =? 0) && (0 <? output_frames d))
          then Ok (SRC_ERR_BAD_DATA_PTR, state, data, m) else
          (* 103-104 *)
          if is_bad_src_ratio (src_ratio d) then Ok (SRC_ERR_BAD_SRC_RATIO, state, data, m) else
          (* 106-109 *)
          let d1 := set_frames d (if input_frames d <? 0 then 0 else input_frames d)
                                 (if output_frames d <? 0 then 0 else output_frames d) in
          do ov <- overlap_test (st_channels st) d1 ;
          if ov then Ok (SRC_ERR_DATA_OVERLAP, state, Some d1, m) else
          (* 127-129 *)
          let d2 := set_counts d1 0 0 in
          (* 131-133 *)
          let st1 := if dlt (st_last_ratio st) (ddiv done_ (d_of_Z SRC_MAX_RATIO))
                     then set_ratio st (src_ratio d2) else st in
          (* 135-139; both branches call the same function *)
          do (e, st2, d3, m') <-
            (if dlt (dabs (dsub (st_last_ratio st1) (src_ratio d2))) (lit_1em 15)
             then vt_process st1 d2 m     (* const_process *)
             else vt_process st1 d2 m)    (* vari_process *) ;
          Ok (e, Some st2, Some d3, m')
      end
  end.

(** samplerate.c:240-252 src_set_ratio *)
Definition src_set_ratio (state : option SRC_STATE) (new_ratio : f64) : Z * option SRC_STATE :=
  match state with
  | None => (SRC_ERR_BAD_STATE, None)
  | Some st =>
      if is_bad_src_ratio new_ratio then (SRC_ERR_BAD_SRC_RATIO, state)
      else (SRC_ERR_NO_ERROR, Some (set_ratio st new_ratio))
  end.

(** samplerate.c:254-261 src_get_channels *)
Definition src_get_channels (state : option SRC_STATE) : Z :=
  match state with None => - SRC_ERR_BAD_STATE | Some st => st_channels st end.

(** samplerate.c:263-280 src_reset *)
Definition src_reset (state : option SRC_STATE) : outcome (Z * option SRC_STATE) :=
  match state with
  | None => Ok (SRC_ERR_BAD_STATE, None)
  | Some st =>
      do st1 <- vt_reset st ;
      let st2 := set_error (set_saved (set_ratio (set_position st1 dzero) dzero) 0 0) SRC_ERR_NO_ERROR in
      Ok (SRC_ERR_NO_ERROR, Some st2)
  end.

(** samplerate.c:323-330 src_is_valid_ratio *)
Definition src_is_valid_ratio (ratio : f64) : Z := if is_bad_src_ratio ratio then 0 else 1.

(** samplerate.c:336-341 src_error *)
Definition src_error (state : option SRC_STATE) : Z :=
  match state with Some st => st_error st | None => SRC_ERR_NO_ERROR end.

(** ** String tables *)
Local Open Scope string_scope.

(** src_sinc.c:167-184 sinc_get_name *)
Definition sinc_get_name (src_enum : Z) : option string :=
  if (src_enum =? SRC_SINC_BEST_QUALITY)%Z then Some "Best Sinc Interpolator"
  else if (src_enum =? SRC_SINC_MEDIUM_QUALITY)%Z then Some "Medium Sinc Interpolator"
  else if (src_enum =? SRC_SINC_FASTEST)%Z then Some "Fastest Sinc Interpolator"
  else None.

(** src_sinc.c:186-204 sinc_get_description *)
Definition sinc_get_description (src_enum : Z) : option string :=
  if (src_enum =? SRC_SINC_FASTEST)%Z then Some "Band limited sinc interpolation, fastest, 97dB SNR, 80% BW."
  else if (src_enum =? SRC_SINC_MEDIUM_QUALITY)%Z then Some "Band limited sinc interpolation, medium quality, 121dB SNR, 90% BW."
  else if (src_enum =? SRC_SINC_BEST_QUALITY)%Z then Some "Band limited sinc interpolation, best quality, 144dB SNR, 96% BW."
  else None.

(** src_zoh.c:147-163 *)
Definition zoh_get_name (src_enum : Z) : option string :=
  if (src_enum =? SRC_ZERO_ORDER_HOLD)%Z then Some "ZOH Interpolator" else None.
Definition zoh_get_description (src_enum : Z) : option string :=
  if (src_enum =? SRC_ZERO_ORDER_HOLD)%Z then Some "Zero order hold interpolator, very fast, poor quality." else None.

(** src_linear.c:158-174 *)
Definition linear_get_name (src_enum : Z) : option string :=
  if (src_enum =? SRC_LINEAR)%Z then Some "Linear Interpolator" else None.
Definition linear_get_description (src_enum : Z) : option string :=
  if (src_enum =? SRC_LINEAR)%Z then Some "Linear interpolator, very fast, poor quality." else None.

(** samplerate.c:286-300 src_get_name *)
Definition src_get_name (converter_type : Z) : option string :=
  match sinc_get_name converter_type with
  | Some d => Some d
  | None => match zoh_get_name converter_type with
            | Some d => Some d
            | None => match linear_get_name converter_type with Some d => Some d | None => None end
            end
  end.

(** samplerate.c:302-316 src_get_description *)
Definition src_get_description (converter_type : Z) : option string :=
  match sinc_get_description converter_type with
  | Some d => Some d
  | None => match zoh_get_description converter_type with
            | Some d => Some d
            | None => match linear_get_description converter_type with Some d => Some d | None => None end
            end
  end.

(** samplerate.c:343-403 src_strerror (SRC_MAX_RATIO_STR is "256", common.h:58) *)
Definition src_strerror (error : Z) : option string :=
  if (error =? SRC_ERR_NO_ERROR)%Z then Some "No error."
  else if (error =? SRC_ERR_MALLOC_FAILED)%Z then Some "Malloc failed."
  else if (error =? SRC_ERR_BAD_STATE)%Z then Some "SRC_STATE pointer is NULL."
  else if (error =? SRC_ERR_BAD_DATA)%Z then Some "SRC_DATA pointer is NULL."
  else if (error =? SRC_ERR_BAD_DATA_PTR)%Z then Some "SRC_DATA->data_out or SRC_DATA->data_in is NULL."
  else if (error =? SRC_ERR_NO_PRIVATE)%Z then Some "Internal error. No private data."
  else if (error =? SRC_ERR_BAD_SRC_RATIO)%Z then Some "SRC ratio outside [1/256, 256] range."
  else if (error =? SRC_ERR_BAD_SINC_STATE)%Z then Some "src_process() called without reset after end_of_input."
  else if (error =? SRC_ERR_BAD_PROC_PTR)%Z then Some "Internal error. No process pointer."
  else if (error =? SRC_ERR_SHIFT_BITS)%Z then Some "Internal error. SHIFT_BITS too large."
  else if (error =? SRC_ERR_FILTER_LEN)%Z then Some "Internal error. Filter length too large."
  else if (error =? SRC_ERR_BAD_CONVERTER)%Z then Some "Bad converter number."
  else if (error =? SRC_ERR_BAD_CHANNEL_COUNT)%Z then Some "Channel count must be >= 1."
  else if (error =? SRC_ERR_SINC_BAD_BUFFER_LEN)%Z then Some "Internal error. Bad buffer length. Please report this."
  else if (error =? SRC_ERR_SIZE_INCOMPATIBILITY)%Z then Some "Internal error. Input data / internal buffer size difference. Please report this."
  else if (error =? SRC_ERR_BAD_PRIV_PTR)%Z then Some "Internal error. Private pointer is NULL. Please report this."
  else if (error =? SRC_ERR_DATA_OVERLAP)%Z then Some "Input and output data arrays overlap."
  else if (error =? SRC_ERR_BAD_CALLBACK)%Z then Some "Supplied callback function pointer is NULL."
  else if (error =? SRC_ERR_BAD_MODE)%Z then Some "Calling mode differs from initialisation mode (ie process v callback)."
  else if (error =? SRC_ERR_NULL_CALLBACK)%Z then Some "Callback function pointer is NULL in src_callback_read ()."
  else if (error =? SRC_ERR_NO_VARIABLE_RATIO)%Z then Some "This converter only allows constant conversion ratios."
  else if (error =? SRC_ERR_SINC_PREPARE_DATA_BAD_LEN)%Z then Some "Internal error : Bad length in prepare_data ()."
  else if (error =? SRC_ERR_BAD_INTERNAL_STATE)%Z then Some "Error : Someone is trampling on my internal state."
  else if (error =? SRC_ERR_MAX_ERROR)%Z then Some "Placeholder. No error defined for this error number."
  else None.
