(** Properties C07-C12: arguments, error codes, modes, creation. *)
From Coq Require Import ZArith List Bool String.
From Flocq Require Import IEEE754.BinarySingleNaN.
From Verif Require Import Base Types Sinc Api Heap Callback HoldSpec ApiHist HoldCore HoldRamp HoldProcess HoldStream HoldValue HoldMain
  ApiSpec ApiFacts ApiThms LifeSpec HeapFacts LifeFacts LifeThms ApiCases.
Import ListNotations.
Local Open Scope Z_scope.

(** C07, for every double that is not a NaN ([in_range r]: finite and 1/256 <= r <= 256). *)
Theorem C07_valid_ratio_partial : forall r, is_nan r = false ->
  (src_is_valid_ratio r = 1 <-> in_range r) /\ (src_is_valid_ratio r = 0 <-> ~ in_range r).
Proof. exact valid_ratio_thm. Qed.
Print Assumptions C07_valid_ratio_partial.
Theorem C07_set_ratio_partial : forall st r, is_nan r = false ->
  (in_range r -> src_set_ratio (Some st) r = (0, Some (set_ratio st r))) /\
  (~ in_range r -> src_set_ratio (Some st) r = (SRC_ERR_BAD_SRC_RATIO, Some st)).
Proof. exact set_ratio_thm. Qed.
Print Assumptions C07_set_ratio_partial.
Theorem C07_process_partial : forall st d m, is_nan (src_ratio d) = false -> st_mode st = MODE_PROCESS ->
  (0 < input_frames d -> data_in d <> 0) -> (0 < output_frames d -> data_out d <> 0) ->
  (~ in_range (src_ratio d) -> src_process (Some st) (Some d) m = Ok (SRC_ERR_BAD_SRC_RATIO, Some st, Some d, m)) /\
  (in_range (src_ratio d) -> forall e so dop m', src_process (Some st) (Some d) m = Ok (e, so, dop, m') ->
     e <> SRC_ERR_BAD_SRC_RATIO).
Proof. exact process_ratio_thm. Qed.
Print Assumptions C07_process_partial.
Theorem C07_callback_read_partial : forall CS (cb : callback_t CS) dummy fuel st ratio frames data cs m,
  is_nan ratio = false -> 0 < frames -> st_mode st = MODE_CALLBACK -> st_callback st <> 0 ->
  (~ in_range ratio -> src_callback_read CS cb dummy fuel (Some st) ratio frames data cs m =
                       Ok (0, Some (set_error st SRC_ERR_BAD_SRC_RATIO), cs, m)) /\
  (in_range ratio -> forall n so cs' m',
     src_callback_read CS cb dummy fuel (Some st) ratio frames data cs m = Ok (n, so, cs', m') ->
     src_error so = SRC_ERR_BAD_SRC_RATIO -> st_error st = SRC_ERR_BAD_SRC_RATIO).
Proof. exact @read_ratio_thm. Qed.
Print Assumptions C07_callback_read_partial.
Example C07_case : in_range (d_of_Z 2) /\ is_nan (d_of_Z 300) = false /\ ~ in_range (d_of_Z 300) /\
  is_nan (B754_infinity false : f64) = false /\ ~ in_range (B754_infinity false : f64).
Proof. exact c07_case. Qed.

(** NaN is accepted, and the call then reports -2^31 frames used. *)
Theorem C07_nan_refuted :
  (exists bld orc h c h', src_new bld orc SRC_ZERO_ORDER_HOLD 1 h = Ok (0, Some c, h') /\ nan_conv = c_state c) /\
  is_nan (src_ratio nan_data) = true /\
  src_is_valid_ratio nan64 = 1 /\ (forall st, src_set_ratio (Some st) nan64 = (0, Some (set_ratio st nan64))) /\
  match src_process (Some nan_conv) (Some nan_data) nan_mem with
  | Ok (e, _, Some d, _) => e = 0 /\ input_frames_used d = - 2 ^ 31
  | _ => False
  end.
Proof. exact (conj nan_created (conj eq_refl nan_thm)). Qed.
Print Assumptions C07_nan_refuted.

(** C08: the first violated condition decides; nothing changes (a negative frame count may be replaced by 0). *)
Theorem C08_refused : forall state data m e,
  (forall st d, state = Some st -> data = Some d -> 0 <= st_channels st /\ addressable (st_channels st) d) ->
  first_violated state data e ->
  exists data', src_process state data m = Ok (e, state, data', m) /\
    (data' = data \/ (e = SRC_ERR_DATA_OVERLAP /\ data' = option_map clamped data)).
Proof. exact refused_thm. Qed.
Print Assumptions C08_refused.
Theorem C08_only_when_violated : forall state data m e state' data' m',
  (forall st d, state = Some st -> data = Some d -> 0 <= st_channels st /\ addressable (st_channels st) d) ->
  src_process state data m = Ok (e, state', data', m') -> In e refusal_order -> first_violated state data e.
Proof. exact accepted_thm. Qed.
Print Assumptions C08_only_when_violated.
Theorem C08_no_later_effect : forall CS (cb : callback_t CS) dummy st d m e d' m' st1 cs,
  api_step CS cb dummy st (A_process d m) = Ok (R_process e d' m', st1) -> In e refusal_order ->
  st1 = st /\ m' = m /\
  api_run CS cb dummy st (A_process d m :: cs) =
  (do (rs, st2) <- api_run CS cb dummy st cs ; Ok (R_process e d' m' :: rs, st2)).
Proof. exact refused_later. Qed.
Print Assumptions C08_no_later_effect.
Example C08_case : addressable 2 overlap_data /\ first_violated (Some (ex_conv Zoh 2)) (Some overlap_data) SRC_ERR_DATA_OVERLAP.
Proof. exact c08_case. Qed.

(** C09 *)
Theorem C09_overlap : forall st d m, st_mode st = MODE_PROCESS -> 0 < st_channels st -> addressable (st_channels st) d ->
  0 <= input_frames d -> 0 <= output_frames d ->
  is_nan (src_ratio d) = false -> in_range (src_ratio d) ->
  (0 < input_frames d -> data_in d <> 0) -> (0 < output_frames d -> data_out d <> 0) ->
  ((exists a, data_in d <= a < data_in d + input_frames d * st_channels st /\
              data_out d <= a < data_out d + output_frames d * st_channels st) ->
   src_process (Some st) (Some d) m = Ok (SRC_ERR_DATA_OVERLAP, Some st, Some d, m)) /\
  (0 < input_frames d -> 0 < output_frames d ->
   (forall a, data_in d <= a < data_in d + input_frames d * st_channels st ->
              data_out d <= a < data_out d + output_frames d * st_channels st -> False) ->
   forall e so dop m', src_process (Some st) (Some d) m = Ok (e, so, dop, m') -> e <> SRC_ERR_DATA_OVERLAP).
Proof. exact overlap_thm. Qed.
Print Assumptions C09_overlap.
Example C09_case : addressable 2 overlap_data /\ in_range (src_ratio overlap_data) /\
  (exists a, data_in overlap_data <= a < data_in overlap_data + input_frames overlap_data * 2 /\
             data_out overlap_data <= a < data_out overlap_data + output_frames overlap_data * 2).
Proof. exact c09_case. Qed.

(** C10: [life md st]: st is reached by any history, with clones, from a converter created for mode md. *)
Theorem C10_process_mode : forall st CS (cb : callback_t CS) dummy fuel ratio frames data cs m, life MODE_PROCESS st -> 0 < frames ->
  exists st', src_callback_read CS cb dummy fuel (Some st) ratio frames data cs m = Ok (0, Some st', cs, m) /\
              src_error (Some st') = SRC_ERR_BAD_MODE.
Proof. exact process_mode_thm. Qed.
Print Assumptions C10_process_mode.
Theorem C10_no_callback : forall CS (cb cb' : callback_t CS) dummy cs st, life MODE_PROCESS st ->
  api_run CS cb dummy st cs = api_run CS cb' dummy st cs.
Proof. exact no_callback_thm. Qed.
Print Assumptions C10_no_callback.
Theorem C10_callback_mode : forall st d m, life MODE_CALLBACK st ->
  src_process (Some st) d m = Ok (SRC_ERR_BAD_MODE, Some st, d, m).
Proof. exact callback_mode_thm. Qed.
Print Assumptions C10_callback_mode.
Example C10_case : life MODE_PROCESS (set_ratio (ex_conv Zoh 2) (d_of_Z 2)) /\ life MODE_CALLBACK cb_conv.
Proof. exact c10_case. Qed.

(** C11 *)
Theorem C11_names : forall z, (src_get_name z <> None <-> 0 <= z <= 4) /\ (src_get_description z <> None <-> 0 <= z <= 4) /\
  (src_strerror z <> None <-> 0 <= z <= 23).
Proof. exact (fun z => conj (name_thm z) (conj (description_thm z) (strerror_thm z))). Qed.
Print Assumptions C11_names.
Theorem C11_distinct : forall a b s,
  (src_strerror a = Some s -> src_strerror b = Some s -> a = b) /\
  (src_get_name a = Some s -> src_get_name b = Some s -> a = b) /\
  (src_get_description a = Some s -> src_get_description b = Some s -> a = b).
Proof. exact strings_distinct_thm. Qed.
Print Assumptions C11_distinct.
Theorem C11_every_code :
  (forall state data m e so dop m', src_process state data m = Ok (e, so, dop, m') -> has_string e) /\
  (forall state r e so, src_set_ratio state r = (e, so) -> has_string e) /\
  (forall state e so, src_reset state = Ok (e, so) -> has_string e) /\
  (forall bld orc ty ch h e c h', src_new bld orc ty ch h = Ok (e, c, h') -> has_string e) /\
  (forall bld orc f ty ch ud h e c h', src_callback_new bld orc f ty ch ud h = Ok (e, c, h') -> has_string e) /\
  (forall orc c h e c' h', src_clone orc c h = Ok (e, c', h') -> has_string e) /\
  (forall bld orc d ty ch h m e d' h' m', src_simple bld orc d ty ch h m = Ok (e, d', h', m') -> has_string e) /\
  (forall md st, life md st -> has_string (src_error (Some st))).
Proof. exact code_strings_thm. Qed.
Print Assumptions C11_every_code.
Example C11_case : src_strerror 23 = Some "Error : Supplied buffer is too short."%string -> has_string 23.
Proof. exact (fun H => ex_intro _ _ H). Qed.

(** C12.  [build_ok]: the compiled-in sinc tables have sane sizes; [known]: a converter type of this build. *)
Theorem C12_created : forall bld orc ty ch h, heap_ok h -> build_ok bld -> known bld ty -> 1 <= ch ->
  (is_sinc bld ty -> ch <= MAX_CHANNELS) ->
  exists h',
   (src_new bld orc ty ch h = Ok (SRC_ERR_MALLOC_FAILED, None, h') /\ some_failed orc h h') \/
   (exists c, src_new bld orc ty ch h = Ok (0, Some c, h') /\ ~ some_failed orc h h' /\ src_get_channels (Some (c_state c)) = ch).
Proof. exact c12_created. Qed.
Print Assumptions C12_created.
Theorem C12_callback_created : forall bld orc func ty ch ud h, func <> 0 -> heap_ok h -> build_ok bld -> known bld ty -> 1 <= ch ->
  (is_sinc bld ty -> ch <= MAX_CHANNELS) ->
  exists h',
   (src_callback_new bld orc func ty ch ud h = Ok (SRC_ERR_MALLOC_FAILED, None, h') /\ some_failed orc h h') \/
   (exists c, src_callback_new bld orc func ty ch ud h = Ok (0, Some c, h') /\ ~ some_failed orc h h' /\
      src_get_channels (Some (c_state c)) = ch).
Proof. exact c12_callback_created. Qed.
Print Assumptions C12_callback_created.
Theorem C12_refusals_partial : forall bld orc ty ch h,
  (~ known bld ty -> src_new bld orc ty ch h = Ok (SRC_ERR_BAD_CONVERTER, None, h)) /\
  (is_sinc bld ty -> MAX_CHANNELS < ch -> src_new bld orc ty ch h = Ok (SRC_ERR_BAD_CHANNEL_COUNT, None, h)) /\
  (forall ud, src_callback_new bld orc 0 ty ch ud h = Ok (SRC_ERR_BAD_CALLBACK, None, h)).
Proof. exact c12_refusals. Qed.
Print Assumptions C12_refusals_partial.
Theorem C12_exactly_when_zero : forall bld orc ty ch h e c h',
  (src_new bld orc ty ch h = Ok (e, c, h') -> e = 0 <-> c <> None) /\
  (forall func ud, src_callback_new bld orc func ty ch ud h = Ok (e, c, h') -> e = 0 <-> c <> None).
Proof. exact c12_exactly. Qed.
Print Assumptions C12_exactly_when_zero.
Example C12_case : heap_ok (mkHeap 5 [2; 4]) /\ build_ok small_build /\ known small_build SRC_SINC_FASTEST /\
  known small_build SRC_ZERO_ORDER_HOLD /\ ~ known small_build 7 /\ is_sinc small_build SRC_SINC_FASTEST.
Proof. exact c12_case. Qed.

(** A channel count below 1 does not give BAD_CHANNEL_COUNT: it fails an assertion. *)
Theorem C12_no_channels_refuted : forall bld orc ty ch h, known bld ty -> ch <= 0 -> src_new bld orc ty ch h = Fault F_assert.
Proof. exact new_none. Qed.
Print Assumptions C12_no_channels_refuted.
