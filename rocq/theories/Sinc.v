(** Model of the sinc converters, /repo/src/src_sinc.c.

    The C code has five copies of the process function (mono 430-521, stereo 586-676, quad 742-832, hex 897-987, multi
    1062-1152) and of its calc_output helper, differing in the channel number 1/2/4/6/[channels] and in a few places of the
    mono copy.  [SincCopies.v] contains the model of each copy; it is what [Api.v] calls.  Here is the common form they are
    proved equal to ([SincCopiesEq.v]): [nch] is the channel number written in the copy, [channels] is state->channels, [mono]
    selects the deviations of the mono copy.  The fixed-point helpers, prepare_data, sinc_reset and the buffer length are used
    by all copies. *)
From Coq Require Import ZArith List Bool.
From Flocq Require Import Core IEEE754.BinarySingleNaN.
From Verif Require Import Base Types Common.
Import ListNotations.
Local Open Scope Z_scope.

(** src_sinc.c:28-30 *)
Definition SHIFT_BITS := 12.
Definition FP_ONE : f64 := d_of_Z 4096.
Definition INV_FP_ONE : f64 := ddiv done_ FP_ONE.
(** src_sinc.c:33-37 *)
Definition MAX_CHANNELS := 128.

(** src_sinc.c:133-136 *)
Definition double_to_fp (x : f64) : Z := psf_lrint (dmul x FP_ONE).
(** src_sinc.c:138-141: x << 12 on int32_t; undefined if the result does not fit or x is negative. *)
Definition int_to_fp (x : Z) : outcome Z := if x <? 0 then Fault F_overflow else int_op (x * 4096).
(** src_sinc.c:143-146 (arithmetic shift) *)
Definition fp_to_int (x : Z) : Z := x / 4096.
(** src_sinc.c:148-151 *)
Definition fp_fraction_part (x : Z) : Z := x mod 4096.
(** src_sinc.c:153-156 *)
Definition fp_to_double (x : Z) : f64 := dmul (d_of_Z (fp_fraction_part x)) INV_FP_ONE.
(** int division: INT_MIN / -1 overflows *)
Definition int_div (a b : Z) : outcome Z := if b =? 0 then Fault F_div0 else int_op (Z.quot a b).
(** src_sinc.c:158-162 *)
Definition int_div_ceil (divident divisor : Z) : outcome Z :=
  if (0 <=? divident) && (0 <? divisor)
  then do s <- int_op (divident + (divisor - 1)) ; c_div s divisor
  else Fault F_assert.

(** Setters for the filter structure. *)
Definition s_set_counts (s : sinc_data) (ic iu oc og : Z) : sinc_data :=
  mkSinc ic iu oc og (s_coeff_half_len s) (s_index_inc s) (s_src_ratio s) (s_input_index s) (s_coeffs s)
         (s_b_current s) (s_b_end s) (s_b_real_end s) (s_b_len s) (s_buffer s).
Definition s_set_current (s : sinc_data) (c : Z) : sinc_data :=
  mkSinc (s_in_count s) (s_in_used s) (s_out_count s) (s_out_gen s) (s_coeff_half_len s) (s_index_inc s)
         (s_src_ratio s) (s_input_index s) (s_coeffs s) c (s_b_end s) (s_b_real_end s) (s_b_len s) (s_buffer s).
Definition s_set_out_gen (s : sinc_data) (og : Z) : sinc_data :=
  s_set_counts s (s_in_count s) (s_in_used s) (s_out_count s) og.
Definition s_set_buf (s : sinc_data) (iu cur e re : Z) (buf : list f32) : sinc_data :=
  mkSinc (s_in_count s) iu (s_out_count s) (s_out_gen s) (s_coeff_half_len s) (s_index_inc s)
         (s_src_ratio s) (s_input_index s) (s_coeffs s) cur e re (s_b_len s) buf.

(** icoeff = coeffs [indx] + fraction * (coeffs [indx + 1] - coeffs [indx]) ;
    The table entries are floats: the subtraction is a float subtraction, the rest is double (src_sinc.c:397, 418). *)
Definition interp_coeff (coeffs : list f32) (filter_index : Z) : outcome f64 :=
  let fraction := fp_to_double filter_index in
  let indx := fp_to_int filter_index in
  do c0 <- zget coeffs indx ;
  do c1 <- zget coeffs (indx + 1) ;
  Ok (dadd (d_of_f c0) (dmul fraction (d_of_f (fsub c1 c0)))).

(** for (ch...) acc [ch] += icoeff * buffer [data_index + ch] ; *)
Fixpoint accumulate (icoeff : f64) (buffer : list f32) (data_index : Z) (acc : list f64) : outcome (list f64) :=
  match acc with
  | [] => Ok []
  | a :: rest =>
      do x <- zget buffer data_index ;
      do rest' <- accumulate icoeff buffer (data_index + 1) rest ;
      Ok (dadd a (dmul icoeff (d_of_f x)) :: rest')
  end.

(** The assert on the coefficient index.  [weak] is the right half of the mono version (416), which does not assert 0 <= indx. *)
Definition coeff_asserts (weak : bool) (s : sinc_data) (indx : Z) : bool :=
  if weak then indx <? s_coeff_half_len s + 2
  else (0 <=? indx) && (indx + 1 <? s_coeff_half_len s + 2).
(** The two asserts on the data index. *)
Definition data_asserts (s : sinc_data) (nch data_index : Z) : bool :=
  ((0 <=? data_index) && (data_index + nch - 1 <? s_b_len s))
  && (data_index + nch - 1 <? s_b_end s).

(** Left half: while (filter_index >= 0). *)
Fixpoint left_loop (fuel : nat) (s : sinc_data) (nch increment filter_index data_index : Z) (acc : list f64)
    : outcome (list f64) :=
  match fuel with
  | O => Fault F_fuel
  | S f =>
      if filter_index <? 0 then Ok acc
      else
        check coeff_asserts false s (fp_to_int filter_index) else F_assert ;
        do icoeff <- interp_coeff (s_coeffs s) filter_index ;
        check data_asserts s nch data_index else F_assert ;
        do acc' <- accumulate icoeff (s_buffer s) data_index acc ;
        do fi <- int_op (filter_index - increment) ;
        do di <- int_op (data_index + nch) ;
        left_loop f s nch increment fi di acc'
  end.

(** Right half: do ... while (filter_index > 0). *)
Fixpoint right_loop (fuel : nat) (mono : bool) (s : sinc_data) (nch increment filter_index data_index : Z) (acc : list f64)
    : outcome (list f64) :=
  match fuel with
  | O => Fault F_fuel
  | S f =>
      check coeff_asserts mono s (fp_to_int filter_index) else F_assert ;
      do icoeff <- interp_coeff (s_coeffs s) filter_index ;
      check data_asserts s nch data_index else F_assert ;
      do acc' <- accumulate icoeff (s_buffer s) data_index acc ;
      do fi <- int_op (filter_index - increment) ;
      do di <- int_op (data_index - nch) ;
      if 0 <? fi then right_loop f mono s nch increment fi di acc' else Ok acc'
  end.

(** left_calc and right_calc (src_sinc.c:71) have room for MAX_CHANNELS values; the memset of the copy for many channels
    (1017, 1040) writes [nch] of them. *)
Definition in_scratch (nch : Z) : bool := (0 <=? nch) && (nch <=? MAX_CHANNELS).

(** The values left [ch] and right [ch].  calc_output_single 370-428, _stereo 523-584, _quad 678-740, _hex 834-895,
    _multi 989-1060. *)
Definition calc_left (s : sinc_data) (nch channels increment start_filter_index : Z) : outcome (list f64) :=
  do max_filter_index <- int_to_fp (s_coeff_half_len s) ;
  do d <- int_op (max_filter_index - start_filter_index) ;
  do coeff_count <- int_div d increment ;
  do prod <- int_op (coeff_count * increment) ;
  do filter_index <- int_op (start_filter_index + prod) ;
  do cc <- int_op (channels * coeff_count) ;
  do data_index <- int_op (s_b_current s - cc) ;
  do (fi, di) <-
    (if data_index <? 0 then
       do steps <- int_div_ceil (- data_index) nch ;
       do max_steps <- int_div_ceil filter_index increment ;
       if steps <=? max_steps then
         do p <- int_op (increment * steps) ;
         do fi <- int_op (filter_index - p) ;
         do q <- int_op (steps * nch) ;
         do di <- int_op (data_index + q) ;
         Ok (fi, di)
       else Fault F_assert
     else Ok (filter_index, data_index)) ;
  check in_scratch nch else F_oob ;
  left_loop (S (S (Z.to_nat (fi / increment)))) s nch increment fi di (repeat dzero (Z.to_nat nch)).

Definition calc_right (mono : bool) (s : sinc_data) (nch channels increment start_filter_index : Z) : outcome (list f64) :=
  do max_filter_index <- int_to_fp (s_coeff_half_len s) ;
  do filter_index0 <- int_op (increment - start_filter_index) ;
  do d <- int_op (max_filter_index - filter_index0) ;
  do coeff_count <- int_div d increment ;
  do prod <- int_op (coeff_count * increment) ;
  do filter_index <- int_op (filter_index0 + prod) ;
  do data_index <-
    (if mono then do b <- int_op (s_b_current s + 1) ; int_op (b + coeff_count)
     else do c1 <- int_op (1 + coeff_count) ; do cc <- int_op (channels * c1) ; int_op (s_b_current s + cc)) ;
  check in_scratch nch else F_oob ;
  right_loop (S (S (Z.to_nat (filter_index / increment)))) mono s nch increment filter_index data_index
             (repeat dzero (Z.to_nat nch)).

(** output [ch] = (float) (scale * (left [ch] + right [ch]))  (500-501 mono; 582-583, 738-739, 893-894, 1056-1057) *)
Definition calc_output (mono : bool) (s : sinc_data) (nch channels increment start_filter_index : Z) (scale : f64)
    : outcome (list f32) :=
  do ls <- calc_left s nch channels increment start_filter_index ;
  do rs <- calc_right mono s nch channels increment start_filter_index ;
  Ok (map (fun lr => f_of_d (dmul scale (dadd (fst lr) (snd lr)))) (combine ls rs)).

(** Store consecutive samples. *)
Fixpoint mwrite_list (m : mem) (addr : Z) (xs : list f32) : outcome mem :=
  match xs with
  | [] => Ok m
  | x :: r => do m' <- mwrite m addr x ; mwrite_list m' (addr + 1) r
  end.

(** memmove (buffer, buffer + b_current - half, (half + len) * sizeof) ; b_current = half ; b_end = b_current + len ;
    with len = b_end - b_current: src_sinc.c:1181-1186 and 1212-1217. *)
Definition move_down (s : sinc_data) (half : Z) : outcome sinc_data :=
  do len <- int_op (s_b_end s - s_b_current s) ;
  do n <- int_op (half + len) ;
  do part <- slice (s_buffer s) (s_b_current s - half) n ;
  do buf <- blit (s_buffer s) 0 part ;
  do e <- int_op (half + len) ;
  Ok (s_set_buf s (s_in_used s) half e (s_b_real_end s) buf).

(** The three cases of src_sinc.c:1167-1190: new filter and the number of samples [len] there is room for. *)
Definition prepare_room (s : sinc_data) (channels half : Z) : outcome (sinc_data * Z) :=
  if s_b_current s =? 0 then
    do h2 <- int_op (2 * half) ;
    do len <- int_op (s_b_len s - h2) ;
    Ok (s_set_buf s (s_in_used s) half half (s_b_real_end s) (s_buffer s), len)
  else
    do e1 <- int_op (s_b_end s + half) ;
    do e2 <- int_op (e1 + channels) ;
    if e2 <? s_b_len s then
      do l <- int_op (s_b_len s - s_b_current s - half) ;
      Ok (s, Z.max l 0)
    else
      do s1 <- move_down s half ;
      do l <- int_op (s_b_len s1 - s_b_current s1 - half) ;
      Ok (s1, Z.max l 0).

(** src_sinc.c:1203-1228: the end-of-input part. *)
Definition prepare_end (s : sinc_data) (half : Z) : outcome sinc_data :=
  do free <- int_op (s_b_len s - s_b_end s) ;
  do h5 <- int_op (half + 5) ;
  do s1 <- (if free <? h5 then move_down s half else Ok s) ;
  do e <- int_op (s_b_end s1 + h5) ;
  let len := if (h5 <? 0) || (s_b_len s1 <? e) then s_b_len s1 - s_b_end s1 else h5 in
  if len <? 0 then Fault F_oob (* memset with a huge size_t *)
  else
  do buf <- blit (s_buffer s1) (s_b_end s1) (repeat fzero (Z.to_nat len)) ;
  do e' <- int_op (s_b_end s1 + len) ;
  Ok (s_set_buf s1 (s_in_used s1) (s_b_current s1) e' (s_b_end s1) buf).

(** src_sinc.c:1157-1231 prepare_data *)
Definition prepare_data (s : sinc_data) (channels : Z) (data : SRC_DATA) (half : Z) (m : mem) : outcome (Z * sinc_data) :=
  if 0 <=? s_b_real_end s then Ok (SRC_ERR_NO_ERROR, s)
  else if data_in data =? 0 then Ok (SRC_ERR_NO_ERROR, s)
  else
    do (s1, room) <- prepare_room s channels half ;
    (* 1192-1193 *)
    do rest <- long_op (s_in_count s1 - s_in_used s1) ;
    let len0 := Z.min (wrap_int rest) room in
    do r <- c_rem len0 channels ;
    let len := len0 - r in
    do e <- int_op (s_b_end s1 + len) ;
    if (len <? 0) || (s_b_len s1 <? e) then Ok (SRC_ERR_SINC_PREPARE_DATA_BAD_LEN, s1)
    else
      do xs <- mread_n m (data_in data + s_in_used s1) (Z.to_nat len) ;
      do buf <- blit (s_buffer s1) (s_b_end s1) xs ;
      let s2 := s_set_buf s1 (s_in_used s1 + len) (s_b_current s1) e (s_b_real_end s1) buf in
      do h2 <- int_op (2 * half) ;
      do avail <- int_op (s_b_end s2 - s_b_current s2) ;
      if (s_in_used s2 =? s_in_count s2) && (avail <? h2) && negb (end_of_input data =? 0)
      then do s3 <- prepare_end s2 half ; Ok (SRC_ERR_NO_ERROR, s3)
      else Ok (SRC_ERR_NO_ERROR, s2).

(** b_current = (b_current + channels * psf_lrint (input_index - rem)) % b_len ; input_index = rem
    (465-467 and 506-509 mono, and the same lines of the other copies) *)
Definition sinc_advance (s : sinc_data) (channels : Z) (input_index : f64) : outcome (sinc_data * f64) :=
  let rem := fmod_one input_index in
  do p <- int_op (channels * psf_lrint (dsub input_index rem)) ;
  do c <- int_op (s_b_current s + p) ;
  do c' <- c_rem c (s_b_len s) ;
  Ok (s_set_current s c', rem).

(** samples_in_hand = (b_end - b_current + b_len) % b_len *)
Definition samples_in_hand (s : sinc_data) : outcome Z :=
  do d <- int_op (s_b_end s - s_b_current s) ;
  do d' <- int_op (d + s_b_len s) ;
  c_rem d' (s_b_len s).

(** b_current + input_index + terminate > b_real_end  (mono, 488); >= in the other copies (644, 800, 955, 1120). *)
Definition at_end (mono : bool) (s : sinc_data) (input_index terminate : f64) : bool :=
  (0 <=? s_b_real_end s) &&
  let x := dadd (dadd (d_of_Z (s_b_current s)) input_index) terminate in
  if mono then dgt x (d_of_Z (s_b_real_end s)) else dge x (d_of_Z (s_b_real_end s)).

(** The main loop: 472-510 mono, 628-665, 784-821, 939-976, 1104-1141.
    Result: error code, filter, state->error, input_index, src_ratio, memory.  [err] is state->error. *)
Fixpoint sinc_loop (fuel : nat) (mono : bool) (nch channels half : Z) (data : SRC_DATA) (last_ratio terminate : f64)
    (s : sinc_data) (err : Z) (input_index ratio : f64) (m : mem)
    : outcome (Z * sinc_data * Z * f64 * f64 * mem) :=
  match fuel with
  | O => Fault F_fuel
  | S f =>
      if s_out_gen s <? s_out_count s then
        do sih <- samples_in_hand s ;
        (* reload the buffer *)
        do (s1, err1, stop) <-
          (if sih <=? half then
             do (e, s') <- prepare_data s channels data half m ;
             if negb (e =? 0) then Ok (s', e, true)
             else
               do sih' <- samples_in_hand s' ;
               Ok (s', 0, sih' <=? half)
           else Ok (s, err, false)) ;
        if stop then
          (* error return (state->error != 0), or break (state->error == 0) *)
          Ok (err1, s1, err1, input_index, ratio, m)
        else if at_end mono s1 input_index terminate then Ok (0, s1, err1, input_index, ratio, m)
        else
          let ratio' := ramp_ratio (lit_1em 10) last_ratio (src_ratio data) (s_out_gen s1) (s_out_count s1) ratio in
          let inc := d_of_Z (s_index_inc s1) in
          let float_increment := dmul inc (if dlt ratio' done_ then ratio' else done_) in
          let increment := double_to_fp float_increment in
          let start_filter_index := double_to_fp (dmul input_index float_increment) in
          do out <- calc_output mono s1 nch (if mono then nch else channels) increment start_filter_index (ddiv float_increment inc) ;
          do m' <- mwrite_list m (data_out data + s_out_gen s1) out ;
          do og <- long_op (s_out_gen s1 + nch) ;
          do (s2, idx) <- sinc_advance (s_set_out_gen s1 og) channels (next_index input_index ratio') ;
          sinc_loop f mono nch channels half data last_ratio terminate s2 err1 idx ratio' m'
      else Ok (0, s, err, input_index, ratio, m)
  end.

(** MIN (a, b), common.h:66-68 *)
Definition dmin (a b : f64) : f64 := if dlt a b then a else b.

(** half_filter_chan_len: 456-461 mono (612-617, 768-773, 923-928, 1088-1093). *)
Definition half_filter_len (s : sinc_data) (channels : Z) (last_ratio target : f64) : outcome Z :=
  let count0 := ddiv (dadd (d_of_Z (s_coeff_half_len s)) (d_of_Z 2)) (d_of_Z (s_index_inc s)) in
  let mn := dmin last_ratio target in
  let count := if dlt mn done_ then ddiv count0 mn else count0 in
  do h <- int_op (psf_lrint count + 1) ;
  int_op (channels * h).

(** sinc_*_vari_process: 430-521, 586-676, 742-832, 897-987, 1062-1152. *)
Definition sinc_process (mono : bool) (nch : Z) (state : SRC_STATE) (data : SRC_DATA) (m : mem) : outcome proc_result :=
  match st_priv state with
  | P_null => Ok (SRC_ERR_NO_PRIVATE, state, data, m)
  | P_hold _ => Fault F_oob  (* type confusion: never happens, the vtable fixes the type *)
  | P_sinc filter =>
      let channels := st_channels state in
      do in_count <- long_op (input_frames data * channels) ;
      do out_count <- long_op (output_frames data * channels) ;
      let s0 := s_set_counts filter in_count 0 out_count 0 in
      let last_ratio := st_last_ratio state in
      if is_bad_src_ratio last_ratio then Ok (SRC_ERR_BAD_INTERNAL_STATE, set_priv state (P_sinc s0), data, m)
      else
      do half <- half_filter_len s0 channels last_ratio (src_ratio data) ;
      do (s1, idx) <- sinc_advance s0 channels (st_last_position state) ;
      let terminate := dadd (ddiv done_ last_ratio) (lit_1em 20) in
      do (e, s2, err, idx2, r2, m2) <-
         sinc_loop (S (Z.to_nat out_count)) mono nch channels half data last_ratio terminate
                   s1 (st_error state) idx last_ratio m ;
      if negb (e =? 0) then Ok (e, set_priv (set_error state err) (P_sinc s2), data, m2)
      else
      do used <- c_div (s_in_used s2) channels ;
      do gen <- c_div (s_out_gen s2) channels ;
      Ok (SRC_ERR_NO_ERROR,
          set_priv (set_ratio (set_position (set_error state err) idx2) r2) (P_sinc s2),
          set_counts data used gen, m2)
  end.

(** The bit pattern 0xAAAAAAAA as a float (src_sinc.c:327). *)
Definition guard_value : f32 := binary_normalize 24 128 _ _ mode_NE (- 0xAAAAAA) (-65) true.

(** src_sinc.c:311-328 sinc_reset, on the private data. *)
Definition sinc_reset_priv (s : sinc_data) (channels : Z) : outcome sinc_data :=
  do b1 <- blit (s_buffer s) 0 (repeat fzero (Z.to_nat (s_b_len s))) ;
  do b2 <- blit b1 (s_b_len s) (repeat guard_value (Z.to_nat channels)) ;
  Ok (mkSinc (s_in_count s) (s_in_used s) (s_out_count s) (s_out_gen s) (s_coeff_half_len s) (s_index_inc s)
             dzero dzero (s_coeffs s) 0 0 (-1) (s_b_len s) b2).

(** src_sinc.c:243-246: b_len *)
Definition sinc_b_len (coeff_half_len index_inc channels : Z) : outcome Z :=
  let x := dadd (dmul (ddiv (dadd (d_of_Z coeff_half_len) (d_of_Z 2)) (d_of_Z index_inc)) (d_of_Z SRC_MAX_RATIO)) done_ in
  do b3 <- int_op (3 * psf_lrint x) ;
  do b <- int_op (Z.max b3 4096 * channels) ;
  int_op (b + 1).
