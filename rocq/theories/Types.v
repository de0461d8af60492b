(** Data types of the model: error codes, SRC_DATA, SRC_STATE and the private converter data. *)
From Coq Require Import ZArith List Bool.
From Verif Require Import Base.
Import ListNotations.
Local Open Scope Z_scope.

(** common.h:106-135  enum SRC_ERROR *)
Definition SRC_ERR_NO_ERROR := 0.
Definition SRC_ERR_MALLOC_FAILED := 1.
Definition SRC_ERR_BAD_STATE := 2.
Definition SRC_ERR_BAD_DATA := 3.
Definition SRC_ERR_BAD_DATA_PTR := 4.
Definition SRC_ERR_NO_PRIVATE := 5.
Definition SRC_ERR_BAD_SRC_RATIO := 6.
Definition SRC_ERR_BAD_PROC_PTR := 7.
Definition SRC_ERR_SHIFT_BITS := 8.
Definition SRC_ERR_FILTER_LEN := 9.
Definition SRC_ERR_BAD_CONVERTER := 10.
Definition SRC_ERR_BAD_CHANNEL_COUNT := 11.
Definition SRC_ERR_SINC_BAD_BUFFER_LEN := 12.
Definition SRC_ERR_SIZE_INCOMPATIBILITY := 13.
Definition SRC_ERR_BAD_PRIV_PTR := 14.
Definition SRC_ERR_BAD_SINC_STATE := 15.
Definition SRC_ERR_DATA_OVERLAP := 16.
Definition SRC_ERR_BAD_CALLBACK := 17.
Definition SRC_ERR_BAD_MODE := 18.
Definition SRC_ERR_NULL_CALLBACK := 19.
Definition SRC_ERR_NO_VARIABLE_RATIO := 20.
Definition SRC_ERR_SINC_PREPARE_DATA_BAD_LEN := 21.
Definition SRC_ERR_BAD_INTERNAL_STATE := 22.
Definition SRC_ERR_MAX_ERROR := 23.

(** common.h:100-104 enum SRC_MODE *)
Inductive src_mode := MODE_PROCESS | MODE_CALLBACK.
Definition is_process (m : src_mode) : bool := match m with MODE_PROCESS => true | MODE_CALLBACK => false end.

(** include/samplerate.h: enum of converter types. *)
Definition SRC_SINC_BEST_QUALITY := 0.
Definition SRC_SINC_MEDIUM_QUALITY := 1.
Definition SRC_SINC_FASTEST := 2.
Definition SRC_ZERO_ORDER_HOLD := 3.
Definition SRC_LINEAR := 4.

(** include/samplerate.h: struct SRC_DATA.  Pointers are addresses in [mem] (float slots), 0 = NULL. *)
Record SRC_DATA := mkData {
  data_in : Z; data_out : Z;
  input_frames : Z; output_frames : Z;
  input_frames_used : Z; output_frames_gen : Z;
  end_of_input : Z;
  src_ratio : f64
}.

(** src_zoh.c:31-37 ZOH_DATA and src_linear.c:33-39 LINEAR_DATA have the same fields. The magic marker is never read. *)
Record hold_data := mkHold {
  h_dirty : bool;
  h_in_count : Z; h_in_used : Z; h_out_count : Z; h_out_gen : Z;
  h_last_value : list f32
}.

(** src_sinc.c:56-75 SINC_FILTER.  [s_coeffs] stands for the table the coeffs pointer refers to;
    [s_buffer] is the heap array of b_len + channels floats.  The magic marker is never read.
    left_calc/right_calc are scratch memory, always overwritten before being read (src_sinc.c:1017,1040), so they
    are parameters of the model of calc_output_multi (SincCopies.v), which does not depend on their contents. *)
Record sinc_data := mkSinc {
  s_in_count : Z; s_in_used : Z; s_out_count : Z; s_out_gen : Z;
  s_coeff_half_len : Z; s_index_inc : Z;
  s_src_ratio : f64; s_input_index : f64;
  s_coeffs : list f32;
  s_b_current : Z; s_b_end : Z; s_b_real_end : Z; s_b_len : Z;
  s_buffer : list f32
}.

(** Which vtable state->vt points to (src_zoh.c:39, src_linear.c:41, src_sinc.c:88-131). *)
Inductive vtable :=
| VT_zoh | VT_linear
| VT_sinc_mono | VT_sinc_stereo | VT_sinc_quad | VT_sinc_hex | VT_sinc_multi.

(** state->private_data: NULL or one of the private structures. *)
Inductive priv_ptr :=
| P_null
| P_hold (h : hold_data)
| P_sinc (s : sinc_data).

(** common.h:155-175 struct SRC_STATE_tag.  Function pointers and user data are opaque numbers, 0 = NULL. *)
Record SRC_STATE := mkState {
  st_vt : vtable;
  st_last_ratio : f64; st_last_position : f64;
  st_error : Z; st_channels : Z; st_mode : src_mode;
  st_callback : Z; st_user_data : Z;
  st_saved_frames : Z; st_saved_data : Z;
  st_priv : priv_ptr
}.

(** Field updates. *)
Definition set_counts (d : SRC_DATA) (used gen : Z) : SRC_DATA :=
  mkData (data_in d) (data_out d) (input_frames d) (output_frames d) used gen (end_of_input d) (src_ratio d).
Definition set_frames (d : SRC_DATA) (i o : Z) : SRC_DATA :=
  mkData (data_in d) (data_out d) i o (input_frames_used d) (output_frames_gen d) (end_of_input d) (src_ratio d).
Definition set_eoi (d : SRC_DATA) (e : Z) : SRC_DATA :=
  mkData (data_in d) (data_out d) (input_frames d) (output_frames d) (input_frames_used d) (output_frames_gen d) e (src_ratio d).

Definition set_ratio (s : SRC_STATE) (r : f64) : SRC_STATE :=
  mkState (st_vt s) r (st_last_position s) (st_error s) (st_channels s) (st_mode s)
          (st_callback s) (st_user_data s) (st_saved_frames s) (st_saved_data s) (st_priv s).
Definition set_position (s : SRC_STATE) (p : f64) : SRC_STATE :=
  mkState (st_vt s) (st_last_ratio s) p (st_error s) (st_channels s) (st_mode s)
          (st_callback s) (st_user_data s) (st_saved_frames s) (st_saved_data s) (st_priv s).
Definition set_error (s : SRC_STATE) (e : Z) : SRC_STATE :=
  mkState (st_vt s) (st_last_ratio s) (st_last_position s) e (st_channels s) (st_mode s)
          (st_callback s) (st_user_data s) (st_saved_frames s) (st_saved_data s) (st_priv s).
Definition set_mode (s : SRC_STATE) (m : src_mode) : SRC_STATE :=
  mkState (st_vt s) (st_last_ratio s) (st_last_position s) (st_error s) (st_channels s) m
          (st_callback s) (st_user_data s) (st_saved_frames s) (st_saved_data s) (st_priv s).
Definition set_callback (s : SRC_STATE) (f u : Z) : SRC_STATE :=
  mkState (st_vt s) (st_last_ratio s) (st_last_position s) (st_error s) (st_channels s) (st_mode s)
          f u (st_saved_frames s) (st_saved_data s) (st_priv s).
Definition set_saved (s : SRC_STATE) (frames data : Z) : SRC_STATE :=
  mkState (st_vt s) (st_last_ratio s) (st_last_position s) (st_error s) (st_channels s) (st_mode s)
          (st_callback s) (st_user_data s) frames data (st_priv s).
Definition set_priv (s : SRC_STATE) (p : priv_ptr) : SRC_STATE :=
  mkState (st_vt s) (st_last_ratio s) (st_last_position s) (st_error s) (st_channels s) (st_mode s)
          (st_callback s) (st_user_data s) (st_saved_frames s) (st_saved_data s) p.

(** What a process function returns: error code, new state, new SRC_DATA, new memory. *)
Definition proc_result : Type := Z * SRC_STATE * SRC_DATA * mem.
