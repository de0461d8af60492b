(** The five copies of the sinc process function and their five calc_output helpers, /repo/src/src_sinc.c, each
    written out on its own as in the C code.  [SincCopiesEq.v] proves that they are instances of the common form
    [sinc_process] of [Sinc.v], which the other proofs use.

    An overflow in the index expression of an assert is reported as a failed assert: it can only happen when the index is
    beyond the end of the buffer. *)
From Coq Require Import ZArith List Bool.
From Flocq Require Import Core IEEE754.BinarySingleNaN.
From Verif Require Import Base Types Common Sinc.
Import ListNotations.
Local Open Scope Z_scope.

(** for (ch = 0 ; ch < n ; ch++) body *)
Fixpoint for_loop {S : Type} (n : nat) (ch : Z) (body : Z -> S -> outcome S) (s : S) : outcome S :=
  match n with
  | O => Ok s
  | Datatypes.S k => do s' <- body ch s ; for_loop k (ch + 1) body s'
  end.

(** ** Mono *)

(** src_sinc.c:393-404 *)
Fixpoint single_left (fuel : nat) (filter : sinc_data) (increment filter_index data_index : Z) (left_ : f64) : outcome f64 :=
  match fuel with
  | O => Fault F_fuel
  | S f =>
      if 0 <=? filter_index then
        let fraction := fp_to_double filter_index in
        let indx := fp_to_int filter_index in
        check (0 <=? indx) && (indx + 1 <? s_coeff_half_len filter + 2) else F_assert ;
        do c0 <- zget (s_coeffs filter) indx ;
        do c1 <- zget (s_coeffs filter) (indx + 1) ;
        let icoeff := dadd (d_of_f c0) (dmul fraction (d_of_f (fsub c1 c0))) in
        check (0 <=? data_index) && (data_index <? s_b_len filter) else F_assert ;
        check data_index <? s_b_end filter else F_assert ;
        do x <- zget (s_buffer filter) data_index ;
        let left_ := dadd left_ (dmul icoeff (d_of_f x)) in
        do filter_index <- int_op (filter_index - increment) ;
        do data_index <- int_op (data_index + 1) ;
        single_left f filter increment filter_index data_index left_
      else Ok left_
  end.

(** src_sinc.c:413-425 *)
Fixpoint single_right (fuel : nat) (filter : sinc_data) (increment filter_index data_index : Z) (right_ : f64) : outcome f64 :=
  match fuel with
  | O => Fault F_fuel
  | S f =>
      let fraction := fp_to_double filter_index in
      let indx := fp_to_int filter_index in
      check indx <? s_coeff_half_len filter + 2 else F_assert ;
      do c0 <- zget (s_coeffs filter) indx ;
      do c1 <- zget (s_coeffs filter) (indx + 1) ;
      let icoeff := dadd (d_of_f c0) (dmul fraction (d_of_f (fsub c1 c0))) in
      check (0 <=? data_index) && (data_index <? s_b_len filter) else F_assert ;
      check data_index <? s_b_end filter else F_assert ;
      do x <- zget (s_buffer filter) data_index ;
      let right_ := dadd right_ (dmul icoeff (d_of_f x)) in
      do filter_index <- int_op (filter_index - increment) ;
      do data_index <- int_op (data_index - 1) ;
      if 0 <? filter_index then single_right f filter increment filter_index data_index right_ else Ok right_
  end.

(** src_sinc.c:370-428 *)
Definition calc_output_single (filter : sinc_data) (increment start_filter_index : Z) : outcome f64 :=
  do max_filter_index <- int_to_fp (s_coeff_half_len filter) ;
  (* the left half *)
  do d <- int_op (max_filter_index - start_filter_index) ;
  do coeff_count <- int_div d increment ;
  do p <- int_op (coeff_count * increment) ;
  do filter_index <- int_op (start_filter_index + p) ;
  do data_index <- int_op (s_b_current filter - coeff_count) ;
  (* 385-391 *)
  do (filter_index, data_index) <-
    (if data_index <? 0 then
       do steps <- int_op (- data_index) ;
       do most <- int_div_ceil filter_index increment ;
       check steps <=? most else F_assert ;
       do p <- int_op (increment * steps) ;
       do filter_index <- int_op (filter_index - p) ;
       do data_index <- int_op (data_index + steps) ;
       Ok (filter_index, data_index)
     else Ok (filter_index, data_index)) ;
  do left_ <- single_left (S (S (Z.to_nat (filter_index / increment)))) filter increment filter_index data_index dzero ;
  (* the right half *)
  do filter_index <- int_op (increment - start_filter_index) ;
  do d <- int_op (max_filter_index - filter_index) ;
  do coeff_count <- int_div d increment ;
  do p <- int_op (coeff_count * increment) ;
  do filter_index <- int_op (filter_index + p) ;
  do b <- int_op (s_b_current filter + 1) ;
  do data_index <- int_op (b + coeff_count) ;
  do right_ <- single_right (S (S (Z.to_nat (filter_index / increment)))) filter increment filter_index data_index dzero ;
  Ok (dadd left_ right_).

(** src_sinc.c:472-510, the main loop: error code, filter, state->error, input_index, src_ratio, memory. *)
Fixpoint mono_loop (fuel : nat) (state : SRC_STATE) (data : SRC_DATA) (half_filter_chan_len : Z) (terminate : f64)
    (filter : sinc_data) (err : Z) (input_index ratio : f64) (m : mem) : outcome (Z * sinc_data * Z * f64 * f64 * mem) :=
  match fuel with
  | O => Fault F_fuel
  | S f =>
      if s_out_gen filter <? s_out_count filter then
        do d <- int_op (s_b_end filter - s_b_current filter) ;
        do d <- int_op (d + s_b_len filter) ;
        do samples_in_hand <- c_rem d (s_b_len filter) ;
        do (filter, err, stop) <-
          (if samples_in_hand <=? half_filter_chan_len then
             do (e, filter) <- prepare_data filter (st_channels state) data half_filter_chan_len m ;
             if negb (e =? 0) then Ok (filter, e, true)  (* return state->error *)
             else
               do d <- int_op (s_b_end filter - s_b_current filter) ;
               do d <- int_op (d + s_b_len filter) ;
               do samples_in_hand <- c_rem d (s_b_len filter) ;
               Ok (filter, 0, samples_in_hand <=? half_filter_chan_len)  (* break *)
           else Ok (filter, err, false)) ;
        if stop then Ok (err, filter, err, input_index, ratio, m)
        else if (0 <=? s_b_real_end filter) &&
                dgt (dadd (dadd (d_of_Z (s_b_current filter)) input_index) terminate) (d_of_Z (s_b_real_end filter))
        then Ok (0, filter, err, input_index, ratio, m)
        else
          let ratio :=
            if (0 <? s_out_count filter) && dgt (dabs (dsub (st_last_ratio state) (src_ratio data))) (lit_1em 10)
            then dadd (st_last_ratio state)
                      (ddiv (dmul (d_of_Z (s_out_gen filter)) (dsub (src_ratio data) (st_last_ratio state))) (d_of_Z (s_out_count filter)))
            else ratio in
          let float_increment := dmul (d_of_Z (s_index_inc filter)) (if dlt ratio done_ then ratio else done_) in
          let increment := double_to_fp float_increment in
          let start_filter_index := double_to_fp (dmul input_index float_increment) in
          do x <- calc_output_single filter increment start_filter_index ;
          do m <- mwrite m (data_out data + s_out_gen filter) (f_of_d (dmul (ddiv float_increment (d_of_Z (s_index_inc filter))) x)) ;
          do og <- long_op (s_out_gen filter + 1) ;
          let filter := s_set_out_gen filter og in
          let input_index := dadd input_index (ddiv done_ ratio) in
          let rem := fmod_one input_index in
          do p <- int_op (st_channels state * psf_lrint (dsub input_index rem)) ;
          do c <- int_op (s_b_current filter + p) ;
          do c <- c_rem c (s_b_len filter) ;
          mono_loop f state data half_filter_chan_len terminate (s_set_current filter c) err rem ratio m
      else Ok (0, filter, err, input_index, ratio, m)
  end.

(** src_sinc.c:430-521 *)
Definition sinc_mono_vari_process (state : SRC_STATE) (data : SRC_DATA) (m : mem) : outcome proc_result :=
  match st_priv state with
  | P_null => Ok (SRC_ERR_NO_PRIVATE, state, data, m)
  | P_hold _ => Fault F_oob  (* type confusion: never happens, the vtable fixes the type *)
  | P_sinc filter =>
      do in_count <- long_op (input_frames data * st_channels state) ;
      do out_count <- long_op (output_frames data * st_channels state) ;
      let filter := s_set_counts filter in_count 0 out_count 0 in
      let ratio := st_last_ratio state in
      if is_bad_src_ratio ratio then Ok (SRC_ERR_BAD_INTERNAL_STATE, set_priv state (P_sinc filter), data, m)
      else
      let count := ddiv (dadd (d_of_Z (s_coeff_half_len filter)) (d_of_Z 2)) (d_of_Z (s_index_inc filter)) in
      let count :=
        if dlt (dmin (st_last_ratio state) (src_ratio data)) done_
        then ddiv count (dmin (st_last_ratio state) (src_ratio data)) else count in
      do h <- int_op (psf_lrint count + 1) ;
      do half_filter_chan_len <- int_op (st_channels state * h) ;
      let input_index := st_last_position state in
      let rem := fmod_one input_index in
      do p <- int_op (st_channels state * psf_lrint (dsub input_index rem)) ;
      do c <- int_op (s_b_current filter + p) ;
      do c <- c_rem c (s_b_len filter) ;
      let filter := s_set_current filter c in
      let terminate := dadd (ddiv done_ ratio) (lit_1em 20) in
      do (e, filter, err, input_index, ratio, m) <-
        mono_loop (S (Z.to_nat out_count)) state data half_filter_chan_len terminate filter (st_error state) rem ratio m ;
      if negb (e =? 0) then Ok (e, set_priv (set_error state err) (P_sinc filter), data, m)
      else
      do used <- c_div (s_in_used filter) (st_channels state) ;
      do gen <- c_div (s_out_gen filter) (st_channels state) ;
      Ok (SRC_ERR_NO_ERROR,
          set_priv (set_ratio (set_position (set_error state err) input_index) ratio) (P_sinc filter),
          set_counts data used gen, m)
  end.

(** ** Stereo *)

(** src_sinc.c:546-558 *)
Fixpoint stereo_left (fuel : nat) (filter : sinc_data) (increment filter_index data_index : Z) (left_ : list f64) : outcome (list f64) :=
  match fuel with
  | O => Fault F_fuel
  | S f =>
      if 0 <=? filter_index then
        let fraction := fp_to_double filter_index in
        let indx := fp_to_int filter_index in
        check (0 <=? indx) && (indx + 1 <? s_coeff_half_len filter + 2) else F_assert ;
        do c0 <- zget (s_coeffs filter) indx ;
        do c1 <- zget (s_coeffs filter) (indx + 1) ;
        let icoeff := dadd (d_of_f c0) (dmul fraction (d_of_f (fsub c1 c0))) in
        check (0 <=? data_index) && (data_index + 1 <? s_b_len filter) else F_assert ;
        check data_index + 1 <? s_b_end filter else F_assert ;
        do left_ <- for_loop 2 0 (fun ch left_ =>
          do x <- zget (s_buffer filter) (data_index + ch) ;
          do a <- zget left_ ch ;
          zset left_ ch (dadd a (dmul icoeff (d_of_f x)))) left_ ;
        do filter_index <- int_op (filter_index - increment) ;
        do data_index <- int_op (data_index + 2) ;
        stereo_left f filter increment filter_index data_index left_
      else Ok left_
  end.

(** src_sinc.c:567-580 *)
Fixpoint stereo_right (fuel : nat) (filter : sinc_data) (increment filter_index data_index : Z) (right_ : list f64) : outcome (list f64) :=
  match fuel with
  | O => Fault F_fuel
  | S f =>
      let fraction := fp_to_double filter_index in
      let indx := fp_to_int filter_index in
      check (0 <=? indx) && (indx + 1 <? s_coeff_half_len filter + 2) else F_assert ;
      do c0 <- zget (s_coeffs filter) indx ;
      do c1 <- zget (s_coeffs filter) (indx + 1) ;
      let icoeff := dadd (d_of_f c0) (dmul fraction (d_of_f (fsub c1 c0))) in
      check (0 <=? data_index) && (data_index + 1 <? s_b_len filter) else F_assert ;
      check data_index + 1 <? s_b_end filter else F_assert ;
      do right_ <- for_loop 2 0 (fun ch right_ =>
        do x <- zget (s_buffer filter) (data_index + ch) ;
        do a <- zget right_ ch ;
        zset right_ ch (dadd a (dmul icoeff (d_of_f x)))) right_ ;
      do filter_index <- int_op (filter_index - increment) ;
      do data_index <- int_op (data_index - 2) ;
      if 0 <? filter_index then stereo_right f filter increment filter_index data_index right_ else Ok right_
  end.

(** src_sinc.c:523-584.  [output] is the address data_out + out_gen. *)
Definition calc_output_stereo (filter : sinc_data) (channels increment start_filter_index : Z) (scale : f64) (output : Z) (m : mem) : outcome mem :=
  do max_filter_index <- int_to_fp (s_coeff_half_len filter) ;
  (* the left half *)
  do d <- int_op (max_filter_index - start_filter_index) ;
  do coeff_count <- int_div d increment ;
  do p <- int_op (coeff_count * increment) ;
  do filter_index <- int_op (start_filter_index + p) ;
  do cc <- int_op (channels * coeff_count) ;
  do data_index <- int_op (s_b_current filter - cc) ;
  (* 538-544 *)
  do (filter_index, data_index) <-
    (if data_index <? 0 then
       do steps <- int_div_ceil (- data_index) 2 ;
       do most <- int_div_ceil filter_index increment ;
       check steps <=? most else F_assert ;
       do p <- int_op (increment * steps) ;
       do filter_index <- int_op (filter_index - p) ;
       do q <- int_op (steps * 2) ;
       do data_index <- int_op (data_index + q) ;
       Ok (filter_index, data_index)
     else Ok (filter_index, data_index)) ;
  let left_ := [dzero; dzero] in
  do left_ <- stereo_left (S (S (Z.to_nat (filter_index / increment)))) filter increment filter_index data_index left_ ;
  (* the right half *)
  do filter_index <- int_op (increment - start_filter_index) ;
  do d <- int_op (max_filter_index - filter_index) ;
  do coeff_count <- int_div d increment ;
  do p <- int_op (coeff_count * increment) ;
  do filter_index <- int_op (filter_index + p) ;
  do c1 <- int_op (1 + coeff_count) ;
  do cc <- int_op (channels * c1) ;
  do data_index <- int_op (s_b_current filter + cc) ;
  let right_ := [dzero; dzero] in
  do right_ <- stereo_right (S (S (Z.to_nat (filter_index / increment)))) filter increment filter_index data_index right_ ;
  for_loop 2 0 (fun ch m =>
    do l <- zget left_ ch ;
    do r <- zget right_ ch ;
    mwrite m (output + ch) (f_of_d (dmul scale (dadd l r)))) m.

(** src_sinc.c:628-665, the main loop: error code, filter, state->error, input_index, src_ratio, memory. *)
Fixpoint stereo_loop (fuel : nat) (state : SRC_STATE) (data : SRC_DATA) (half_filter_chan_len : Z) (terminate : f64)
    (filter : sinc_data) (err : Z) (input_index ratio : f64) (m : mem) : outcome (Z * sinc_data * Z * f64 * f64 * mem) :=
  match fuel with
  | O => Fault F_fuel
  | S f =>
      if s_out_gen filter <? s_out_count filter then
        do d <- int_op (s_b_end filter - s_b_current filter) ;
        do d <- int_op (d + s_b_len filter) ;
        do samples_in_hand <- c_rem d (s_b_len filter) ;
        do (filter, err, stop) <-
          (if samples_in_hand <=? half_filter_chan_len then
             do (e, filter) <- prepare_data filter (st_channels state) data half_filter_chan_len m ;
             if negb (e =? 0) then Ok (filter, e, true)  (* return state->error *)
             else
               do d <- int_op (s_b_end filter - s_b_current filter) ;
               do d <- int_op (d + s_b_len filter) ;
               do samples_in_hand <- c_rem d (s_b_len filter) ;
               Ok (filter, 0, samples_in_hand <=? half_filter_chan_len)  (* break *)
           else Ok (filter, err, false)) ;
        if stop then Ok (err, filter, err, input_index, ratio, m)
        else if (0 <=? s_b_real_end filter) &&
                dge (dadd (dadd (d_of_Z (s_b_current filter)) input_index) terminate) (d_of_Z (s_b_real_end filter))
        then Ok (0, filter, err, input_index, ratio, m)
        else
          let ratio :=
            if (0 <? s_out_count filter) && dgt (dabs (dsub (st_last_ratio state) (src_ratio data))) (lit_1em 10)
            then dadd (st_last_ratio state)
                      (ddiv (dmul (d_of_Z (s_out_gen filter)) (dsub (src_ratio data) (st_last_ratio state))) (d_of_Z (s_out_count filter)))
            else ratio in
          let float_increment := dmul (d_of_Z (s_index_inc filter)) (if dlt ratio done_ then ratio else done_) in
          let increment := double_to_fp float_increment in
          let start_filter_index := double_to_fp (dmul input_index float_increment) in
          do m <- calc_output_stereo filter (st_channels state) increment start_filter_index
                    (ddiv float_increment (d_of_Z (s_index_inc filter))) (data_out data + s_out_gen filter) m ;
          do og <- long_op (s_out_gen filter + 2) ;
          let filter := s_set_out_gen filter og in
          let input_index := dadd input_index (ddiv done_ ratio) in
          let rem := fmod_one input_index in
          do p <- int_op (st_channels state * psf_lrint (dsub input_index rem)) ;
          do c <- int_op (s_b_current filter + p) ;
          do c <- c_rem c (s_b_len filter) ;
          stereo_loop f state data half_filter_chan_len terminate (s_set_current filter c) err rem ratio m
      else Ok (0, filter, err, input_index, ratio, m)
  end.

(** src_sinc.c:586-676 *)
Definition sinc_stereo_vari_process (state : SRC_STATE) (data : SRC_DATA) (m : mem) : outcome proc_result :=
  match st_priv state with
  | P_null => Ok (SRC_ERR_NO_PRIVATE, state, data, m)
  | P_hold _ => Fault F_oob  (* type confusion: never happens, the vtable fixes the type *)
  | P_sinc filter =>
      do in_count <- long_op (input_frames data * st_channels state) ;
      do out_count <- long_op (output_frames data * st_channels state) ;
      let filter := s_set_counts filter in_count 0 out_count 0 in
      let ratio := st_last_ratio state in
      if is_bad_src_ratio ratio then Ok (SRC_ERR_BAD_INTERNAL_STATE, set_priv state (P_sinc filter), data, m)
      else
      let count := ddiv (dadd (d_of_Z (s_coeff_half_len filter)) (d_of_Z 2)) (d_of_Z (s_index_inc filter)) in
      let count :=
        if dlt (dmin (st_last_ratio state) (src_ratio data)) done_
        then ddiv count (dmin (st_last_ratio state) (src_ratio data)) else count in
      do h <- int_op (psf_lrint count + 1) ;
      do half_filter_chan_len <- int_op (st_channels state * h) ;
      let input_index := st_last_position state in
      let rem := fmod_one input_index in
      do p <- int_op (st_channels state * psf_lrint (dsub input_index rem)) ;
      do c <- int_op (s_b_current filter + p) ;
      do c <- c_rem c (s_b_len filter) ;
      let filter := s_set_current filter c in
      let terminate := dadd (ddiv done_ ratio) (lit_1em 20) in
      do (e, filter, err, input_index, ratio, m) <-
        stereo_loop (S (Z.to_nat out_count)) state data half_filter_chan_len terminate filter (st_error state) rem ratio m ;
      if negb (e =? 0) then Ok (e, set_priv (set_error state err) (P_sinc filter), data, m)
      else
      do used <- c_div (s_in_used filter) (st_channels state) ;
      do gen <- c_div (s_out_gen filter) (st_channels state) ;
      Ok (SRC_ERR_NO_ERROR,
          set_priv (set_ratio (set_position (set_error state err) input_index) ratio) (P_sinc filter),
          set_counts data used gen, m)
  end.

(** ** Four channels *)

(** src_sinc.c:701-713 *)
Fixpoint quad_left (fuel : nat) (filter : sinc_data) (increment filter_index data_index : Z) (left_ : list f64) : outcome (list f64) :=
  match fuel with
  | O => Fault F_fuel
  | S f =>
      if 0 <=? filter_index then
        let fraction := fp_to_double filter_index in
        let indx := fp_to_int filter_index in
        check (0 <=? indx) && (indx + 1 <? s_coeff_half_len filter + 2) else F_assert ;
        do c0 <- zget (s_coeffs filter) indx ;
        do c1 <- zget (s_coeffs filter) (indx + 1) ;
        let icoeff := dadd (d_of_f c0) (dmul fraction (d_of_f (fsub c1 c0))) in
        check (0 <=? data_index) && (data_index + 3 <? s_b_len filter) else F_assert ;
        check data_index + 3 <? s_b_end filter else F_assert ;
        do left_ <- for_loop 4 0 (fun ch left_ =>
          do x <- zget (s_buffer filter) (data_index + ch) ;
          do a <- zget left_ ch ;
          zset left_ ch (dadd a (dmul icoeff (d_of_f x)))) left_ ;
        do filter_index <- int_op (filter_index - increment) ;
        do data_index <- int_op (data_index + 4) ;
        quad_left f filter increment filter_index data_index left_
      else Ok left_
  end.

(** src_sinc.c:722-736 *)
Fixpoint quad_right (fuel : nat) (filter : sinc_data) (increment filter_index data_index : Z) (right_ : list f64) : outcome (list f64) :=
  match fuel with
  | O => Fault F_fuel
  | S f =>
      let fraction := fp_to_double filter_index in
      let indx := fp_to_int filter_index in
      check (0 <=? indx) && (indx + 1 <? s_coeff_half_len filter + 2) else F_assert ;
      do c0 <- zget (s_coeffs filter) indx ;
      do c1 <- zget (s_coeffs filter) (indx + 1) ;
      let icoeff := dadd (d_of_f c0) (dmul fraction (d_of_f (fsub c1 c0))) in
      check (0 <=? data_index) && (data_index + 3 <? s_b_len filter) else F_assert ;
      check data_index + 3 <? s_b_end filter else F_assert ;
      do right_ <- for_loop 4 0 (fun ch right_ =>
        do x <- zget (s_buffer filter) (data_index + ch) ;
        do a <- zget right_ ch ;
        zset right_ ch (dadd a (dmul icoeff (d_of_f x)))) right_ ;
      do filter_index <- int_op (filter_index - increment) ;
      do data_index <- int_op (data_index - 4) ;
      if 0 <? filter_index then quad_right f filter increment filter_index data_index right_ else Ok right_
  end.

(** src_sinc.c:678-740.  [output] is the address data_out + out_gen. *)
Definition calc_output_quad (filter : sinc_data) (channels increment start_filter_index : Z) (scale : f64) (output : Z) (m : mem) : outcome mem :=
  do max_filter_index <- int_to_fp (s_coeff_half_len filter) ;
  (* the left half *)
  do d <- int_op (max_filter_index - start_filter_index) ;
  do coeff_count <- int_div d increment ;
  do p <- int_op (coeff_count * increment) ;
  do filter_index <- int_op (start_filter_index + p) ;
  do cc <- int_op (channels * coeff_count) ;
  do data_index <- int_op (s_b_current filter - cc) ;
  (* 693-699 *)
  do (filter_index, data_index) <-
    (if data_index <? 0 then
       do steps <- int_div_ceil (- data_index) 4 ;
       do most <- int_div_ceil filter_index increment ;
       check steps <=? most else F_assert ;
       do p <- int_op (increment * steps) ;
       do filter_index <- int_op (filter_index - p) ;
       do q <- int_op (steps * 4) ;
       do data_index <- int_op (data_index + q) ;
       Ok (filter_index, data_index)
     else Ok (filter_index, data_index)) ;
  let left_ := [dzero; dzero; dzero; dzero] in
  do left_ <- quad_left (S (S (Z.to_nat (filter_index / increment)))) filter increment filter_index data_index left_ ;
  (* the right half *)
  do filter_index <- int_op (increment - start_filter_index) ;
  do d <- int_op (max_filter_index - filter_index) ;
  do coeff_count <- int_div d increment ;
  do p <- int_op (coeff_count * increment) ;
  do filter_index <- int_op (filter_index + p) ;
  do c1 <- int_op (1 + coeff_count) ;
  do cc <- int_op (channels * c1) ;
  do data_index <- int_op (s_b_current filter + cc) ;
  let right_ := [dzero; dzero; dzero; dzero] in
  do right_ <- quad_right (S (S (Z.to_nat (filter_index / increment)))) filter increment filter_index data_index right_ ;
  for_loop 4 0 (fun ch m =>
    do l <- zget left_ ch ;
    do r <- zget right_ ch ;
    mwrite m (output + ch) (f_of_d (dmul scale (dadd l r)))) m.

(** src_sinc.c:784-821, the main loop: error code, filter, state->error, input_index, src_ratio, memory. *)
Fixpoint quad_loop (fuel : nat) (state : SRC_STATE) (data : SRC_DATA) (half_filter_chan_len : Z) (terminate : f64)
    (filter : sinc_data) (err : Z) (input_index ratio : f64) (m : mem) : outcome (Z * sinc_data * Z * f64 * f64 * mem) :=
  match fuel with
  | O => Fault F_fuel
  | S f =>
      if s_out_gen filter <? s_out_count filter then
        do d <- int_op (s_b_end filter - s_b_current filter) ;
        do d <- int_op (d + s_b_len filter) ;
        do samples_in_hand <- c_rem d (s_b_len filter) ;
        do (filter, err, stop) <-
          (if samples_in_hand <=? half_filter_chan_len then
             do (e, filter) <- prepare_data filter (st_channels state) data half_filter_chan_len m ;
             if negb (e =? 0) then Ok (filter, e, true)  (* return state->error *)
             else
               do d <- int_op (s_b_end filter - s_b_current filter) ;
               do d <- int_op (d + s_b_len filter) ;
               do samples_in_hand <- c_rem d (s_b_len filter) ;
               Ok (filter, 0, samples_in_hand <=? half_filter_chan_len)  (* break *)
           else Ok (filter, err, false)) ;
        if stop then Ok (err, filter, err, input_index, ratio, m)
        else if (0 <=? s_b_real_end filter) &&
                dge (dadd (dadd (d_of_Z (s_b_current filter)) input_index) terminate) (d_of_Z (s_b_real_end filter))
        then Ok (0, filter, err, input_index, ratio, m)
        else
          let ratio :=
            if (0 <? s_out_count filter) && dgt (dabs (dsub (st_last_ratio state) (src_ratio data))) (lit_1em 10)
            then dadd (st_last_ratio state)
                      (ddiv (dmul (d_of_Z (s_out_gen filter)) (dsub (src_ratio data) (st_last_ratio state))) (d_of_Z (s_out_count filter)))
            else ratio in
          let float_increment := dmul (d_of_Z (s_index_inc filter)) (if dlt ratio done_ then ratio else done_) in
          let increment := double_to_fp float_increment in
          let start_filter_index := double_to_fp (dmul input_index float_increment) in
          do m <- calc_output_quad filter (st_channels state) increment start_filter_index
                    (ddiv float_increment (d_of_Z (s_index_inc filter))) (data_out data + s_out_gen filter) m ;
          do og <- long_op (s_out_gen filter + 4) ;
          let filter := s_set_out_gen filter og in
          let input_index := dadd input_index (ddiv done_ ratio) in
          let rem := fmod_one input_index in
          do p <- int_op (st_channels state * psf_lrint (dsub input_index rem)) ;
          do c <- int_op (s_b_current filter + p) ;
          do c <- c_rem c (s_b_len filter) ;
          quad_loop f state data half_filter_chan_len terminate (s_set_current filter c) err rem ratio m
      else Ok (0, filter, err, input_index, ratio, m)
  end.

(** src_sinc.c:742-832 *)
Definition sinc_quad_vari_process (state : SRC_STATE) (data : SRC_DATA) (m : mem) : outcome proc_result :=
  match st_priv state with
  | P_null => Ok (SRC_ERR_NO_PRIVATE, state, data, m)
  | P_hold _ => Fault F_oob  (* type confusion: never happens, the vtable fixes the type *)
  | P_sinc filter =>
      do in_count <- long_op (input_frames data * st_channels state) ;
      do out_count <- long_op (output_frames data * st_channels state) ;
      let filter := s_set_counts filter in_count 0 out_count 0 in
      let ratio := st_last_ratio state in
      if is_bad_src_ratio ratio then Ok (SRC_ERR_BAD_INTERNAL_STATE, set_priv state (P_sinc filter), data, m)
      else
      let count := ddiv (dadd (d_of_Z (s_coeff_half_len filter)) (d_of_Z 2)) (d_of_Z (s_index_inc filter)) in
      let count :=
        if dlt (dmin (st_last_ratio state) (src_ratio data)) done_
        then ddiv count (dmin (st_last_ratio state) (src_ratio data)) else count in
      do h <- int_op (psf_lrint count + 1) ;
      do half_filter_chan_len <- int_op (st_channels state * h) ;
      let input_index := st_last_position state in
      let rem := fmod_one input_index in
      do p <- int_op (st_channels state * psf_lrint (dsub input_index rem)) ;
      do c <- int_op (s_b_current filter + p) ;
      do c <- c_rem c (s_b_len filter) ;
      let filter := s_set_current filter c in
      let terminate := dadd (ddiv done_ ratio) (lit_1em 20) in
      do (e, filter, err, input_index, ratio, m) <-
        quad_loop (S (Z.to_nat out_count)) state data half_filter_chan_len terminate filter (st_error state) rem ratio m ;
      if negb (e =? 0) then Ok (e, set_priv (set_error state err) (P_sinc filter), data, m)
      else
      do used <- c_div (s_in_used filter) (st_channels state) ;
      do gen <- c_div (s_out_gen filter) (st_channels state) ;
      Ok (SRC_ERR_NO_ERROR,
          set_priv (set_ratio (set_position (set_error state err) input_index) ratio) (P_sinc filter),
          set_counts data used gen, m)
  end.

(** ** Six channels *)

(** src_sinc.c:857-869 *)
Fixpoint hex_left (fuel : nat) (filter : sinc_data) (increment filter_index data_index : Z) (left_ : list f64) : outcome (list f64) :=
  match fuel with
  | O => Fault F_fuel
  | S f =>
      if 0 <=? filter_index then
        let fraction := fp_to_double filter_index in
        let indx := fp_to_int filter_index in
        check (0 <=? indx) && (indx + 1 <? s_coeff_half_len filter + 2) else F_assert ;
        do c0 <- zget (s_coeffs filter) indx ;
        do c1 <- zget (s_coeffs filter) (indx + 1) ;
        let icoeff := dadd (d_of_f c0) (dmul fraction (d_of_f (fsub c1 c0))) in
        check (0 <=? data_index) && (data_index + 5 <? s_b_len filter) else F_assert ;
        check data_index + 5 <? s_b_end filter else F_assert ;
        do left_ <- for_loop 6 0 (fun ch left_ =>
          do x <- zget (s_buffer filter) (data_index + ch) ;
          do a <- zget left_ ch ;
          zset left_ ch (dadd a (dmul icoeff (d_of_f x)))) left_ ;
        do filter_index <- int_op (filter_index - increment) ;
        do data_index <- int_op (data_index + 6) ;
        hex_left f filter increment filter_index data_index left_
      else Ok left_
  end.

(** src_sinc.c:878-891 *)
Fixpoint hex_right (fuel : nat) (filter : sinc_data) (increment filter_index data_index : Z) (right_ : list f64) : outcome (list f64) :=
  match fuel with
  | O => Fault F_fuel
  | S f =>
      let fraction := fp_to_double filter_index in
      let indx := fp_to_int filter_index in
      check (0 <=? indx) && (indx + 1 <? s_coeff_half_len filter + 2) else F_assert ;
      do c0 <- zget (s_coeffs filter) indx ;
      do c1 <- zget (s_coeffs filter) (indx + 1) ;
      let icoeff := dadd (d_of_f c0) (dmul fraction (d_of_f (fsub c1 c0))) in
      check (0 <=? data_index) && (data_index + 5 <? s_b_len filter) else F_assert ;
      check data_index + 5 <? s_b_end filter else F_assert ;
      do right_ <- for_loop 6 0 (fun ch right_ =>
        do x <- zget (s_buffer filter) (data_index + ch) ;
        do a <- zget right_ ch ;
        zset right_ ch (dadd a (dmul icoeff (d_of_f x)))) right_ ;
      do filter_index <- int_op (filter_index - increment) ;
      do data_index <- int_op (data_index - 6) ;
      if 0 <? filter_index then hex_right f filter increment filter_index data_index right_ else Ok right_
  end.

(** src_sinc.c:834-895.  [output] is the address data_out + out_gen. *)
Definition calc_output_hex (filter : sinc_data) (channels increment start_filter_index : Z) (scale : f64) (output : Z) (m : mem) : outcome mem :=
  do max_filter_index <- int_to_fp (s_coeff_half_len filter) ;
  (* the left half *)
  do d <- int_op (max_filter_index - start_filter_index) ;
  do coeff_count <- int_div d increment ;
  do p <- int_op (coeff_count * increment) ;
  do filter_index <- int_op (start_filter_index + p) ;
  do cc <- int_op (channels * coeff_count) ;
  do data_index <- int_op (s_b_current filter - cc) ;
  (* 849-855 *)
  do (filter_index, data_index) <-
    (if data_index <? 0 then
       do steps <- int_div_ceil (- data_index) 6 ;
       do most <- int_div_ceil filter_index increment ;
       check steps <=? most else F_assert ;
       do p <- int_op (increment * steps) ;
       do filter_index <- int_op (filter_index - p) ;
       do q <- int_op (steps * 6) ;
       do data_index <- int_op (data_index + q) ;
       Ok (filter_index, data_index)
     else Ok (filter_index, data_index)) ;
  let left_ := [dzero; dzero; dzero; dzero; dzero; dzero] in
  do left_ <- hex_left (S (S (Z.to_nat (filter_index / increment)))) filter increment filter_index data_index left_ ;
  (* the right half *)
  do filter_index <- int_op (increment - start_filter_index) ;
  do d <- int_op (max_filter_index - filter_index) ;
  do coeff_count <- int_div d increment ;
  do p <- int_op (coeff_count * increment) ;
  do filter_index <- int_op (filter_index + p) ;
  do c1 <- int_op (1 + coeff_count) ;
  do cc <- int_op (channels * c1) ;
  do data_index <- int_op (s_b_current filter + cc) ;
  let right_ := [dzero; dzero; dzero; dzero; dzero; dzero] in
  do right_ <- hex_right (S (S (Z.to_nat (filter_index / increment)))) filter increment filter_index data_index right_ ;
  for_loop 6 0 (fun ch m =>
    do l <- zget left_ ch ;
    do r <- zget right_ ch ;
    mwrite m (output + ch) (f_of_d (dmul scale (dadd l r)))) m.

(** src_sinc.c:939-976, the main loop: error code, filter, state->error, input_index, src_ratio, memory. *)
Fixpoint hex_loop (fuel : nat) (state : SRC_STATE) (data : SRC_DATA) (half_filter_chan_len : Z) (terminate : f64)
    (filter : sinc_data) (err : Z) (input_index ratio : f64) (m : mem) : outcome (Z * sinc_data * Z * f64 * f64 * mem) :=
  match fuel with
  | O => Fault F_fuel
  | S f =>
      if s_out_gen filter <? s_out_count filter then
        do d <- int_op (s_b_end filter - s_b_current filter) ;
        do d <- int_op (d + s_b_len filter) ;
        do samples_in_hand <- c_rem d (s_b_len filter) ;
        do (filter, err, stop) <-
          (if samples_in_hand <=? half_filter_chan_len then
             do (e, filter) <- prepare_data filter (st_channels state) data half_filter_chan_len m ;
             if negb (e =? 0) then Ok (filter, e, true)  (* return state->error *)
             else
               do d <- int_op (s_b_end filter - s_b_current filter) ;
               do d <- int_op (d + s_b_len filter) ;
               do samples_in_hand <- c_rem d (s_b_len filter) ;
               Ok (filter, 0, samples_in_hand <=? half_filter_chan_len)  (* break *)
           else Ok (filter, err, false)) ;
        if stop then Ok (err, filter, err, input_index, ratio, m)
        else if (0 <=? s_b_real_end filter) &&
                dge (dadd (dadd (d_of_Z (s_b_current filter)) input_index) terminate) (d_of_Z (s_b_real_end filter))
        then Ok (0, filter, err, input_index, ratio, m)
        else
          let ratio :=
            if (0 <? s_out_count filter) && dgt (dabs (dsub (st_last_ratio state) (src_ratio data))) (lit_1em 10)
            then dadd (st_last_ratio state)
                      (ddiv (dmul (d_of_Z (s_out_gen filter)) (dsub (src_ratio data) (st_last_ratio state))) (d_of_Z (s_out_count filter)))
            else ratio in
          let float_increment := dmul (d_of_Z (s_index_inc filter)) (if dlt ratio done_ then ratio else done_) in
          let increment := double_to_fp float_increment in
          let start_filter_index := double_to_fp (dmul input_index float_increment) in
          do m <- calc_output_hex filter (st_channels state) increment start_filter_index
                    (ddiv float_increment (d_of_Z (s_index_inc filter))) (data_out data + s_out_gen filter) m ;
          do og <- long_op (s_out_gen filter + 6) ;
          let filter := s_set_out_gen filter og in
          let input_index := dadd input_index (ddiv done_ ratio) in
          let rem := fmod_one input_index in
          do p <- int_op (st_channels state * psf_lrint (dsub input_index rem)) ;
          do c <- int_op (s_b_current filter + p) ;
          do c <- c_rem c (s_b_len filter) ;
          hex_loop f state data half_filter_chan_len terminate (s_set_current filter c) err rem ratio m
      else Ok (0, filter, err, input_index, ratio, m)
  end.

(** src_sinc.c:897-987 *)
Definition sinc_hex_vari_process (state : SRC_STATE) (data : SRC_DATA) (m : mem) : outcome proc_result :=
  match st_priv state with
  | P_null => Ok (SRC_ERR_NO_PRIVATE, state, data, m)
  | P_hold _ => Fault F_oob  (* type confusion: never happens, the vtable fixes the type *)
  | P_sinc filter =>
      do in_count <- long_op (input_frames data * st_channels state) ;
      do out_count <- long_op (output_frames data * st_channels state) ;
      let filter := s_set_counts filter in_count 0 out_count 0 in
      let ratio := st_last_ratio state in
      if is_bad_src_ratio ratio then Ok (SRC_ERR_BAD_INTERNAL_STATE, set_priv state (P_sinc filter), data, m)
      else
      let count := ddiv (dadd (d_of_Z (s_coeff_half_len filter)) (d_of_Z 2)) (d_of_Z (s_index_inc filter)) in
      let count :=
        if dlt (dmin (st_last_ratio state) (src_ratio data)) done_
        then ddiv count (dmin (st_last_ratio state) (src_ratio data)) else count in
      do h <- int_op (psf_lrint count + 1) ;
      do half_filter_chan_len <- int_op (st_channels state * h) ;
      let input_index := st_last_position state in
      let rem := fmod_one input_index in
      do p <- int_op (st_channels state * psf_lrint (dsub input_index rem)) ;
      do c <- int_op (s_b_current filter + p) ;
      do c <- c_rem c (s_b_len filter) ;
      let filter := s_set_current filter c in
      let terminate := dadd (ddiv done_ ratio) (lit_1em 20) in
      do (e, filter, err, input_index, ratio, m) <-
        hex_loop (S (Z.to_nat out_count)) state data half_filter_chan_len terminate filter (st_error state) rem ratio m ;
      if negb (e =? 0) then Ok (e, set_priv (set_error state err) (P_sinc filter), data, m)
      else
      do used <- c_div (s_in_used filter) (st_channels state) ;
      do gen <- c_div (s_out_gen filter) (st_channels state) ;
      Ok (SRC_ERR_NO_ERROR,
          set_priv (set_ratio (set_position (set_error state err) input_index) ratio) (P_sinc filter),
          set_counts data used gen, m)
  end.

(** ** Any other number of channels *)

(** src_sinc.c:1019-1032 *)
Fixpoint multi_left (fuel : nat) (filter : sinc_data) (channels increment filter_index data_index : Z) (left_ : list f64) : outcome (list f64) :=
  match fuel with
  | O => Fault F_fuel
  | S f =>
      if 0 <=? filter_index then
        let fraction := fp_to_double filter_index in
        let indx := fp_to_int filter_index in
        check (0 <=? indx) && (indx + 1 <? s_coeff_half_len filter + 2) else F_assert ;
        do c0 <- zget (s_coeffs filter) indx ;
        do c1 <- zget (s_coeffs filter) (indx + 1) ;
        let icoeff := dadd (d_of_f c0) (dmul fraction (d_of_f (fsub c1 c0))) in
        check (0 <=? data_index) && (data_index + channels - 1 <? s_b_len filter) else F_assert ;
        check data_index + channels - 1 <? s_b_end filter else F_assert ;
        do left_ <- for_loop (Z.to_nat channels) 0 (fun ch left_ =>
          do x <- zget (s_buffer filter) (data_index + ch) ;
          do a <- zget left_ ch ;
          zset left_ ch (dadd a (dmul icoeff (d_of_f x)))) left_ ;
        do filter_index <- int_op (filter_index - increment) ;
        do data_index <- int_op (data_index + channels) ;
        multi_left f filter channels increment filter_index data_index left_
      else Ok left_
  end.

(** src_sinc.c:1041-1054 *)
Fixpoint multi_right (fuel : nat) (filter : sinc_data) (channels increment filter_index data_index : Z) (right_ : list f64) : outcome (list f64) :=
  match fuel with
  | O => Fault F_fuel
  | S f =>
      let fraction := fp_to_double filter_index in
      let indx := fp_to_int filter_index in
      check (0 <=? indx) && (indx + 1 <? s_coeff_half_len filter + 2) else F_assert ;
      do c0 <- zget (s_coeffs filter) indx ;
      do c1 <- zget (s_coeffs filter) (indx + 1) ;
      let icoeff := dadd (d_of_f c0) (dmul fraction (d_of_f (fsub c1 c0))) in
      check (0 <=? data_index) && (data_index + channels - 1 <? s_b_len filter) else F_assert ;
      check data_index + channels - 1 <? s_b_end filter else F_assert ;
      do right_ <- for_loop (Z.to_nat channels) 0 (fun ch right_ =>
        do x <- zget (s_buffer filter) (data_index + ch) ;
        do a <- zget right_ ch ;
        zset right_ ch (dadd a (dmul icoeff (d_of_f x)))) right_ ;
      do filter_index <- int_op (filter_index - increment) ;
      do data_index <- int_op (data_index - channels) ;
      if 0 <? filter_index then multi_right f filter channels increment filter_index data_index right_ else Ok right_
  end.

(** src_sinc.c:989-1060.  [output] is the address data_out + out_gen.
    [left_calc] and [right_calc] are the two arrays of MAX_CHANNELS doubles in the filter structure (71). *)
Definition calc_output_multi (filter : sinc_data) (left_calc right_calc : list f64) (increment start_filter_index channels : Z) (scale : f64) (output : Z) (m : mem) : outcome mem :=
  do max_filter_index <- int_to_fp (s_coeff_half_len filter) ;
  (* the left half *)
  do d <- int_op (max_filter_index - start_filter_index) ;
  do coeff_count <- int_div d increment ;
  do p <- int_op (coeff_count * increment) ;
  do filter_index <- int_op (start_filter_index + p) ;
  do cc <- int_op (channels * coeff_count) ;
  do data_index <- int_op (s_b_current filter - cc) ;
  (* 1009-1015 *)
  do (filter_index, data_index) <-
    (if data_index <? 0 then
       do steps <- int_div_ceil (- data_index) channels ;
       do most <- int_div_ceil filter_index increment ;
       check steps <=? most else F_assert ;
       do p <- int_op (increment * steps) ;
       do filter_index <- int_op (filter_index - p) ;
       do q <- int_op (steps * channels) ;
       do data_index <- int_op (data_index + q) ;
       Ok (filter_index, data_index)
     else Ok (filter_index, data_index)) ;
  check 0 <=? channels else F_oob ;
  do left_ <- blit left_calc 0 (repeat dzero (Z.to_nat channels)) ;  (* memset *)
  do left_ <- multi_left (S (S (Z.to_nat (filter_index / increment)))) filter channels increment filter_index data_index left_ ;
  (* the right half *)
  do filter_index <- int_op (increment - start_filter_index) ;
  do d <- int_op (max_filter_index - filter_index) ;
  do coeff_count <- int_div d increment ;
  do p <- int_op (coeff_count * increment) ;
  do filter_index <- int_op (filter_index + p) ;
  do c1 <- int_op (1 + coeff_count) ;
  do cc <- int_op (channels * c1) ;
  do data_index <- int_op (s_b_current filter + cc) ;
  check 0 <=? channels else F_oob ;
  do right_ <- blit right_calc 0 (repeat dzero (Z.to_nat channels)) ;  (* memset *)
  do right_ <- multi_right (S (S (Z.to_nat (filter_index / increment)))) filter channels increment filter_index data_index right_ ;
  for_loop (Z.to_nat channels) 0 (fun ch m =>
    do l <- zget left_ ch ;
    do r <- zget right_ ch ;
    mwrite m (output + ch) (f_of_d (dmul scale (dadd l r)))) m.

(** What left_calc and right_calc contain before a call does not matter (lemma [multi_eq] of SincCopiesEq.v); they start as zeros (calloc, 214). *)
Definition scratch : list f64 := repeat dzero (Z.to_nat MAX_CHANNELS).

(** src_sinc.c:1104-1141, the main loop: error code, filter, state->error, input_index, src_ratio, memory. *)
Fixpoint multi_loop (fuel : nat) (state : SRC_STATE) (data : SRC_DATA) (half_filter_chan_len : Z) (terminate : f64)
    (filter : sinc_data) (err : Z) (input_index ratio : f64) (m : mem) : outcome (Z * sinc_data * Z * f64 * f64 * mem) :=
  match fuel with
  | O => Fault F_fuel
  | S f =>
      if s_out_gen filter <? s_out_count filter then
        do d <- int_op (s_b_end filter - s_b_current filter) ;
        do d <- int_op (d + s_b_len filter) ;
        do samples_in_hand <- c_rem d (s_b_len filter) ;
        do (filter, err, stop) <-
          (if samples_in_hand <=? half_filter_chan_len then
             do (e, filter) <- prepare_data filter (st_channels state) data half_filter_chan_len m ;
             if negb (e =? 0) then Ok (filter, e, true)  (* return state->error *)
             else
               do d <- int_op (s_b_end filter - s_b_current filter) ;
               do d <- int_op (d + s_b_len filter) ;
               do samples_in_hand <- c_rem d (s_b_len filter) ;
               Ok (filter, 0, samples_in_hand <=? half_filter_chan_len)  (* break *)
           else Ok (filter, err, false)) ;
        if stop then Ok (err, filter, err, input_index, ratio, m)
        else if (0 <=? s_b_real_end filter) &&
                dge (dadd (dadd (d_of_Z (s_b_current filter)) input_index) terminate) (d_of_Z (s_b_real_end filter))
        then Ok (0, filter, err, input_index, ratio, m)
        else
          let ratio :=
            if (0 <? s_out_count filter) && dgt (dabs (dsub (st_last_ratio state) (src_ratio data))) (lit_1em 10)
            then dadd (st_last_ratio state)
                      (ddiv (dmul (d_of_Z (s_out_gen filter)) (dsub (src_ratio data) (st_last_ratio state))) (d_of_Z (s_out_count filter)))
            else ratio in
          let float_increment := dmul (d_of_Z (s_index_inc filter)) (if dlt ratio done_ then ratio else done_) in
          let increment := double_to_fp float_increment in
          let start_filter_index := double_to_fp (dmul input_index float_increment) in
          do m <- calc_output_multi filter scratch scratch increment start_filter_index (st_channels state)
                    (ddiv float_increment (d_of_Z (s_index_inc filter))) (data_out data + s_out_gen filter) m ;
          do og <- long_op (s_out_gen filter + st_channels state) ;
          let filter := s_set_out_gen filter og in
          let input_index := dadd input_index (ddiv done_ ratio) in
          let rem := fmod_one input_index in
          do p <- int_op (st_channels state * psf_lrint (dsub input_index rem)) ;
          do c <- int_op (s_b_current filter + p) ;
          do c <- c_rem c (s_b_len filter) ;
          multi_loop f state data half_filter_chan_len terminate (s_set_current filter c) err rem ratio m
      else Ok (0, filter, err, input_index, ratio, m)
  end.

(** src_sinc.c:1062-1152 *)
Definition sinc_multichan_vari_process (state : SRC_STATE) (data : SRC_DATA) (m : mem) : outcome proc_result :=
  match st_priv state with
  | P_null => Ok (SRC_ERR_NO_PRIVATE, state, data, m)
  | P_hold _ => Fault F_oob  (* type confusion: never happens, the vtable fixes the type *)
  | P_sinc filter =>
      do in_count <- long_op (input_frames data * st_channels state) ;
      do out_count <- long_op (output_frames data * st_channels state) ;
      let filter := s_set_counts filter in_count 0 out_count 0 in
      let ratio := st_last_ratio state in
      if is_bad_src_ratio ratio then Ok (SRC_ERR_BAD_INTERNAL_STATE, set_priv state (P_sinc filter), data, m)
      else
      let count := ddiv (dadd (d_of_Z (s_coeff_half_len filter)) (d_of_Z 2)) (d_of_Z (s_index_inc filter)) in
      let count :=
        if dlt (dmin (st_last_ratio state) (src_ratio data)) done_
        then ddiv count (dmin (st_last_ratio state) (src_ratio data)) else count in
      do h <- int_op (psf_lrint count + 1) ;
      do half_filter_chan_len <- int_op (st_channels state * h) ;
      let input_index := st_last_position state in
      let rem := fmod_one input_index in
      do p <- int_op (st_channels state * psf_lrint (dsub input_index rem)) ;
      do c <- int_op (s_b_current filter + p) ;
      do c <- c_rem c (s_b_len filter) ;
      let filter := s_set_current filter c in
      let terminate := dadd (ddiv done_ ratio) (lit_1em 20) in
      do (e, filter, err, input_index, ratio, m) <-
        multi_loop (S (Z.to_nat out_count)) state data half_filter_chan_len terminate filter (st_error state) rem ratio m ;
      if negb (e =? 0) then Ok (e, set_priv (set_error state err) (P_sinc filter), data, m)
      else
      do used <- c_div (s_in_used filter) (st_channels state) ;
      do gen <- c_div (s_out_gen filter) (st_channels state) ;
      Ok (SRC_ERR_NO_ERROR,
          set_priv (set_ratio (set_position (set_error state err) input_index) ratio) (P_sinc filter),
          set_counts data used gen, m)
  end.
