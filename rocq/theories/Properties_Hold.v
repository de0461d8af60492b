(** Properties C16-C27 and C38 for the zero-order-hold and linear converters.  Nothing but statements.

    [created ty ch st]: st was handed out by src_new.  [at_start kd ch st]: new, or reset after any legal history.
    [streaming ch X allowed legal st o log out st' o']: the caller feeds the stream X to the converter block by block (any
    block sizes and output room; interleaved with src_set_ratio), the log lists requests and replies, out is everything
    that was written.  [channels_fit ch]: at most 8323072 channels. *)
From Coq Require Import ZArith Reals List Lia Lra.
From Flocq Require Import Core IEEE754.BinarySingleNaN.
From Verif Require Import Base Types Api Heap Callback HoldSpec ApiHist HoldCore HoldRamp HoldProcess HoldStream HoldValue HoldMain HoldHuge HoldThms HoldCases RunCases.
Import ListNotations.
Local Open Scope Z_scope.

(** C16: no history of legal calls faults (a fault is any access outside the mapped memory, any arithmetic overflow,
    any failed assertion, any non-termination).  The memory of each call need only map the announced buffers. *)
Theorem C16_zoh_memory_safe :
  forall ch st, created SRC_ZERO_ORDER_HOLD ch st -> channels_fit ch ->
  forall CS (cb : callback_t CS) dummy cs, Forall (valid_op ch) cs ->
  exists rs st', api_run CS cb dummy st cs = Ok (rs, st').
Proof. exact thm_C16_zoh_memory_safe. Qed.
Example C16_case : created SRC_ZERO_ORDER_HOLD 2 (ex_conv Zoh 2) /\ channels_fit 2 /\
  Forall (valid_op (CS := unit) 2) [A_process (Some (ex_data (d_of_Z 2))) ex_mem; A_reset; A_set_ratio (d_of_Z 2)].
Proof.
  split; [apply (ex_created Zoh)|]. split; [unfold channels_fit; lia|].
  constructor; [apply ex_valid, two_range|]. constructor; [exact I|]. constructor; [reflexivity|constructor].
Qed.
Print Assumptions C16_zoh_memory_safe.

(** Beyond that channel count the property fails: with 2^23 channels a legal call overflows an int. *)
Theorem C16_huge_channel_count_refuted :
  created SRC_ZERO_ORDER_HOLD huge (ex_conv Zoh huge) /\ valid_call huge huge_data huge_mem /\
  src_process (Some (ex_conv Zoh huge)) (Some huge_data) huge_mem = Fault F_overflow.
Proof. exact (conj huge_created (conj huge_valid huge_overflow)). Qed.
Print Assumptions C16_huge_channel_count_refuted.

(** C17: the same for linear, provided no block has exactly one or two frames. *)
Theorem C17_linear_memory_safe_partial :
  forall ch st, created SRC_LINEAR ch st -> channels_fit ch ->
  forall CS (cb : callback_t CS) dummy cs, Forall (valid_op ch) cs -> Forall (op_room Lin) cs ->
  exists rs st', api_run CS cb dummy st cs = Ok (rs, st').
Proof. exact thm_C17_linear_memory_safe_partial. Qed.
Example C17_case : created SRC_LINEAR 2 (ex_conv Lin 2) /\ channels_fit 2 /\
  Forall (valid_op (CS := unit) 2) [A_process (Some (ex_data (d_of_Z 2))) ex_mem] /\
  Forall (op_room (CS := unit) Lin) [A_process (Some (ex_data (d_of_Z 2))) ex_mem].
Proof.
  split; [apply (ex_created Lin)|]. split; [unfold channels_fit; lia|].
  split; (constructor; [|constructor]); [apply ex_valid, two_range|]. cbn. lia.
Qed.
Print Assumptions C17_linear_memory_safe_partial.

(** With a one-frame block the full property fails on the very first call: the sample before data_in is read. *)
Theorem C17_linear_one_frame_block_refuted :
  created SRC_LINEAR 1 (ex_conv Lin 1) /\ valid_call 1 one_frame one_mem /\
  src_process (Some (ex_conv Lin 1)) (Some one_frame) one_mem = Fault F_oob.
Proof. exact lin_reads_before. Qed.
Print Assumptions C17_linear_one_frame_block_refuted.

(** C18 (zero-order hold and linear; sinc is in Properties_Sinc): in every legal history, with blocks of any size, each
    src_process that returns is honest: success, counts in range, exactly the reported frames of the output buffer
    written, everything else of the caller's memory and of SRC_DATA as before.  (C16 and C17 say when it returns.) *)
Theorem C18_hold_counts_honest :
  forall kd ch st, created (type_of kd) ch st -> channels_fit ch ->
  forall CS (cb : callback_t CS) dummy cs rs st', Forall (valid_op ch) cs -> api_run CS cb dummy st cs = Ok (rs, st') ->
  Forall2 (honest ch) cs rs.
Proof. exact thm_C18_hold_counts_honest. Qed.
Example C18_hold_case : forall kd, created (type_of kd) 2 (ex_conv kd 2) /\ channels_fit 2 /\
  Forall (valid_op (CS := unit) 2) [A_process (Some (ex_data (d_of_Z 2))) ex_mem; A_set_ratio done_].
Proof.
  intros kd. split; [apply ex_created|]. split; [unfold channels_fit; lia|].
  constructor; [apply ex_valid, two_range|]. constructor; [reflexivity|constructor].
Qed.
Print Assumptions C18_hold_counts_honest.

(** C19: after any legal history the converter's ratio is 0 (no call yet) or in [1/256, 256], and no call returned an
    error ([honest] says the code is 0); in particular never BAD_INTERNAL_STATE. *)
Theorem C19_hold_ratio_valid :
  forall kd ch st, created (type_of kd) ch st -> channels_fit ch ->
  forall CS (cb : callback_t CS) dummy cs rs st', Forall (valid_op ch) cs -> api_run CS cb dummy st cs = Ok (rs, st') ->
  Forall2 (honest ch) cs rs /\ (st_last_ratio st' = dzero \/ in_range (st_last_ratio st')).
Proof. exact thm_C19_hold_ratio_valid. Qed.
Print Assumptions C19_hold_ratio_valid.

(** ... and during a call every ratio of the ramp is in range too. *)
Theorem C19_ramp_valid :
  forall last new ch frames k, in_range last -> in_range new -> 0 < ch -> Z.of_nat k < frames -> frames * ch <= 2 ^ 50 ->
  in_range (ramp last new ch frames k).
Proof. exact thm_C19_ramp_valid. Qed.
Example C19_ramp_case : in_range (d_of_Z 2) /\ in_range done_.
Proof. split; [exact two_range|exact one_range]. Qed.
Print Assumptions C19_ramp_valid.

(** C20: from every state a legal history can reach, every legal call of zero-order hold returns, and with input and room
    it consumes a frame or produces one. *)
Theorem C20_zoh_progress :
  forall ch st d m, after_history Zoh ch st -> channels_fit ch -> valid_call ch d m ->
  exists st' d' m', src_process (Some st) (Some d) m = Ok (0, Some st', Some d', m') /\
    (0 < input_frames d -> 0 < output_frames d -> 0 < input_frames_used d' \/ 0 < output_frames_gen d').
Proof. exact thm_C20_zoh_progress. Qed.
Print Assumptions C20_zoh_progress.

(** Linear: no legal call runs for ever, and a call with input and room that returns has consumed a frame or produced one.
    Not covered: that a call with a block of one or two frames returns (it may fault, C17). *)
Theorem C20_linear_progress_partial :
  forall ch st d m, after_history Lin ch st -> channels_fit ch -> valid_call ch d m ->
  src_process (Some st) (Some d) m <> Fault F_fuel /\
  forall e st' d' m', src_process (Some st) (Some d) m = Ok (e, Some st', Some d', m') ->
    e = 0 /\ (0 < input_frames d -> 0 < output_frames d -> 0 < input_frames_used d' \/ 0 < output_frames_gen d').
Proof. exact thm_C20_linear_progress_partial. Qed.
Example C20_case : forall kd, after_history kd 2 (ex_conv kd 2) /\ valid_call 2 (ex_data (d_of_Z 2)) ex_mem.
Proof.
  intros kd. split; [|apply ex_valid, two_range].
  exists unit, (fun _ _ _ m => (tt, m, None, 0)), 0, (ex_conv kd 2), [], [].
  repeat split; try constructor. apply ex_created.
Qed.
Print Assumptions C20_linear_progress_partial.

(** C21: every output frame of zero-order hold is input frame [idx k], bit for bit; idx never decreases and never points
    at a frame that has not been presented. *)
Theorem C21_zoh_verbatim_in_order :
  forall ch X st log out st' o', at_start Zoh ch st -> channels_fit ch ->
  streaming ch X in_range (fun _ _ _ => True) st 0 log out st' o' ->
  exists idx, (forall j k, 0 <= j <= k -> k < total_gen log -> idx j <= idx k) /\
    (forall k, 0 <= k < total_gen log -> 0 <= idx k < presented 0 log) /\
    is_frames ch out (total_gen log) (fun k c => X (idx k) c).
Proof. exact zoh_verbatim. Qed.
Example C21_case : exists log out st' o',
  streaming 2 ex_stream (eq (d_of_Z 2)) (lin_legal Zoh 2 ex_stream) (ex_conv Zoh 2) 0 log out st' o' /\ total_gen log = 9.
Proof. exact (ex_run Zoh). Qed.
Print Assumptions C21_zoh_verbatim_in_order.

(** C22: every output frame of linear is the interpolation of two adjacent input frames (the first frame doubles as its
    own predecessor) at a fraction in [0,1). *)
Theorem C22_linear_adjacent_frames_partial :
  forall ch X st log out st' o', at_start Lin ch st -> channels_fit ch ->
  streaming ch X in_range (lin_legal Lin ch X) st 0 log out st' o' ->
  exists idx t, (forall k, 0 <= k < total_gen log ->
      0 <= idx k < presented 0 log /\ is_finite (t k) = true /\ (0 <= B2R (t k) < 1)%R) /\
    is_frames ch out (total_gen log) (fun k c => interpolate (X (Z.max 0 (idx k - 1)) c) (X (idx k) c) (t k)).
Proof. exact lin_adjacent. Qed.
Example C22_case : exists log out st' o',
  streaming 2 ex_stream (eq (d_of_Z 2)) (lin_legal Lin 2 ex_stream) (ex_conv Lin 2) 0 log out st' o' /\ total_gen log = 8.
Proof. exact (ex_run Lin). Qed.
Print Assumptions C22_linear_adjacent_frames_partial.

(** Interpolation of finite samples is finite and lies between them (no overshoot, not even by rounding); so a constant
    signal stays constant. *)
Theorem C22_no_overshoot :
  forall (a b : f32) (t : f64), is_finite a = true -> is_finite b = true -> is_finite t = true -> (0 <= B2R t < 1)%R ->
  is_finite (interpolate a b t) = true /\
  (Rmin (B2R a) (B2R b) <= B2R (interpolate a b t) <= Rmax (B2R a) (B2R b))%R.
Proof. exact interpolate_range. Qed.
Example C22_no_overshoot_case : is_finite (f_of_Z 5) = true /\ is_finite dzero = true /\ (0 <= B2R dzero < 1)%R.
Proof. split; [reflexivity|]. split; [reflexivity|]. cbn. lra. Qed.
Print Assumptions C22_no_overshoot.

Theorem C22_constant_stays_constant_partial :
  forall ch X st log out st' o', at_start Lin ch st -> channels_fit ch ->
  (forall i j c, X i c = X j c) -> (forall i c, is_finite (X i c) = true) ->
  streaming ch X in_range (lin_legal Lin ch X) st 0 log out st' o' ->
  exists Y, is_frames ch out (total_gen log) Y /\
    forall k c, 0 <= k < total_gen log -> is_finite (Y k c) = true /\ B2R (Y k c) = B2R (X 0 c).
Proof. exact thm_C22_constant. Qed.
Example C22_constant_case : exists log out st' o',
  streaming 2 (fun _ _ => f_of_Z 3) in_range (lin_legal Lin 2 (fun _ _ => f_of_Z 3)) (ex_conv Lin 2) 0 log out st' o' /\ total_gen log = 8.
Proof. exact threes_run. Qed.
Print Assumptions C22_constant_stays_constant_partial.

(** C23, C24: at constant ratio r the output is a prefix of one fixed frame sequence, frame k being taken at position
    pos_at k = k steps of 1/r from 0 (with double rounding); so any two ways of cutting the stream agree. *)
Theorem C23_zoh_block_independent :
  forall ch X r st log out st' o', at_start Zoh ch st -> channels_fit ch -> in_range r ->
  streaming ch X (eq r) (fun _ _ _ => True) st 0 log out st' o' ->
  is_frames ch out (total_gen log) (fun k c => zoh_value (from0 X) (pos_at (0, dzero) (fun _ => r) (Z.to_nat k)) c).
Proof. exact thm_C23_zoh_block_independent. Qed.
Print Assumptions C23_zoh_block_independent.

Theorem C23_zoh_same_prefix :
  forall ch X r st1 log1 out1 st1' o1 st2 log2 out2 st2' o2,
  at_start Zoh ch st1 -> at_start Zoh ch st2 -> channels_fit ch -> in_range r ->
  streaming ch X (eq r) (fun _ _ _ => True) st1 0 log1 out1 st1' o1 ->
  streaming ch X (eq r) (fun _ _ _ => True) st2 0 log2 out2 st2' o2 ->
  total_gen log1 <= total_gen log2 -> exists rest, out2 = out1 ++ rest.
Proof. exact thm_C23_zoh_same_prefix. Qed.
Example C23_case : exists log1 out1 st1 o1 log2 out2 st2 o2, at_start Zoh 2 (ex_conv Zoh 2) /\
  streaming 2 (numbered 2) (eq (d_of_Z 2)) (fun _ _ _ => True) (ex_conv Zoh 2) 0 log1 out1 st1 o1 /\
  streaming 2 (numbered 2) (eq (d_of_Z 2)) (fun _ _ _ => True) (ex_conv Zoh 2) 0 log2 out2 st2 o2 /\
  0 < total_gen log1 /\ total_gen log1 < total_gen log2.
Proof. exact (cuts_case Zoh). Qed.
Print Assumptions C23_zoh_same_prefix.

(** C24: [lin_legal] excludes one- and two-frame blocks, except when the frame before data_in is readable and is the
    previous frame of the stream (a caller walking through one long buffer). *)
Theorem C24_linear_block_independent_partial :
  forall ch X r st log out st' o', at_start Lin ch st -> channels_fit ch -> in_range r ->
  streaming ch X (eq r) (lin_legal Lin ch X) st 0 log out st' o' ->
  is_frames ch out (total_gen log) (fun k c => lin_value (from0 X) (pos_at (0, dzero) (fun _ => r) (Z.to_nat k)) c).
Proof. exact thm_C24_linear_block_independent_partial. Qed.
Print Assumptions C24_linear_block_independent_partial.

Theorem C24_linear_same_prefix_partial :
  forall ch X r st1 log1 out1 st1' o1 st2 log2 out2 st2' o2,
  at_start Lin ch st1 -> at_start Lin ch st2 -> channels_fit ch -> in_range r ->
  streaming ch X (eq r) (lin_legal Lin ch X) st1 0 log1 out1 st1' o1 ->
  streaming ch X (eq r) (lin_legal Lin ch X) st2 0 log2 out2 st2' o2 ->
  total_gen log1 <= total_gen log2 -> exists rest, out2 = out1 ++ rest.
Proof. exact thm_C24_linear_same_prefix_partial. Qed.
Example C24_case : exists log1 out1 st1 o1 log2 out2 st2 o2, at_start Lin 2 (ex_conv Lin 2) /\
  streaming 2 (numbered 2) (eq (d_of_Z 2)) (lin_legal Lin 2 (numbered 2)) (ex_conv Lin 2) 0 log1 out1 st1 o1 /\
  streaming 2 (numbered 2) (eq (d_of_Z 2)) (lin_legal Lin 2 (numbered 2)) (ex_conv Lin 2) 0 log2 out2 st2 o2 /\
  0 < total_gen log1 /\ total_gen log1 < total_gen log2.
Proof. exact (cuts_case Lin). Qed.
Print Assumptions C24_linear_same_prefix_partial.

(** With a one-frame block the property fails: the sample that happens to lie before data_in comes out. *)
Theorem C24_linear_one_frame_block_refuted :
  (forall junk, valid_call 1 one_frame (leak_mem junk) /\ holds (leak_mem junk) 100 1 1 (fun _ _ => f_of_Z 1) 0) /\
  option_map B2SF (out_at (src_process (Some (ex_conv Lin 1)) (Some one_frame) (leak_mem (f_of_Z 5))) 200) = Some (B2SF (f_of_Z 5)) /\
  option_map B2SF (out_at (src_process (Some (ex_conv Lin 1)) (Some one_frame) (leak_mem (f_of_Z 7))) 200) = Some (B2SF (f_of_Z 7)).
Proof. exact (conj lin_leaks lin_leak_values). Qed.
Print Assumptions C24_linear_one_frame_block_refuted.

(** C25 (zero-order hold and linear): the same requests on two streams such that channel c of the first carries the same as
    channel c' of the second give the same replies (all frame counts) and the same samples on these channels.  With c' = c: what
    the other channels carry does not matter; otherwise: which channel it is does not matter either. *)
Theorem C25_hold_channels_isolated_partial :
  forall kd ch X X' c c' st log out st1 o1 log' out' st1' o1',
  at_start kd ch st -> channels_fit ch -> 0 <= c < ch -> 0 <= c' < ch -> (forall i, X i c = X' i c') ->
  streaming ch X in_range (lin_legal kd ch X) st 0 log out st1 o1 ->
  streaming ch X' in_range (lin_legal kd ch X') st 0 log' out' st1' o1' ->
  requests log = requests log' ->
  log = log' /\ forall k, 0 <= k < total_gen log -> sample ch out k c = sample ch out' k c'.
Proof. exact thm_C25_hold_channels_isolated_partial. Qed.
Example C25_hold_case : forall kd, (exists log out st1 o1 log' out' st1' o1',
  streaming 2 ex_stream in_range (lin_legal kd 2 ex_stream) (ex_conv kd 2) 0 log out st1 o1 /\
  streaming 2 ex_moved in_range (lin_legal kd 2 ex_moved) (ex_conv kd 2) 0 log' out' st1' o1' /\
  requests log = requests log' /\ 0 < total_gen log) /\ (forall i, ex_stream i 0 = ex_moved i 1) /\ ex_stream 0 1 <> ex_moved 0 0.
Proof. exact moved_case. Qed.
Print Assumptions C25_hold_channels_isolated_partial.

(** C26: at ratio 1 zero-order hold is a one-frame delay with the first frame repeated, bit for bit. *)
Theorem C26_zoh_unity :
  forall ch X r st log out st' o', at_start Zoh ch st -> channels_fit ch -> in_range r -> B2R r = 1%R ->
  streaming ch X (eq r) (fun _ _ _ => True) st 0 log out st' o' ->
  is_frames ch out (total_gen log) (fun k c => X (Z.max 0 (k - 1)) c).
Proof. exact thm_C26_zoh_unity. Qed.
Example C26_zoh_case : exists log out st' o', at_start Zoh 2 (ex_conv Zoh 2) /\ B2R done_ = 1%R /\
  streaming 2 (numbered 2) (eq done_) (fun _ _ _ => True) (ex_conv Zoh 2) 0 log out st' o' /\ total_gen log = 10.
Proof. exact (unity_case Zoh). Qed.
Print Assumptions C26_zoh_unity.

(** Linear does the same on finite samples, except that a negative zero comes out positive. *)
Theorem C26_linear_unity_partial :
  forall ch X r st log out st' o', at_start Lin ch st -> channels_fit ch -> in_range r -> B2R r = 1%R ->
  (forall i c, is_finite (X i c) = true) -> (forall i c, X i c <> B754_zero true) ->
  streaming ch X (eq r) (lin_legal Lin ch X) st 0 log out st' o' ->
  is_frames ch out (total_gen log) (fun k c => X (Z.max 0 (k - 1)) c).
Proof. exact thm_C26_linear_unity_partial. Qed.
Example C26_linear_case : (exists log out st' o', at_start Lin 2 (ex_conv Lin 2) /\ B2R done_ = 1%R /\
  streaming 2 (numbered 2) (eq done_) (lin_legal Lin 2 (numbered 2)) (ex_conv Lin 2) 0 log out st' o' /\ total_gen log = 9) /\
  forall i c, is_finite (numbered 2 i c) = true /\ numbered 2 i c <> B754_zero true.
Proof. exact (conj (unity_case Lin) (numbered_fine 2)). Qed.
Print Assumptions C26_linear_unity_partial.

Theorem C26_linear_negative_zero_refuted :
  valid_call 1 nz_data nz_mem /\ nz_mem 100 = Some (B754_zero true) /\ nz_mem 101 = Some (B754_zero true) /\
  out_at (src_process (Some (ex_conv Lin 1)) (Some nz_data) nz_mem) 201 = Some (B754_zero false).
Proof. exact (conj nz_valid (conj eq_refl (conj eq_refl lin_negative_zero))). Qed.
Print Assumptions C26_linear_negative_zero_refuted.

(** C27: in a call that asks for N frames at a new ratio, output k moves on by 1/rho(k), where rho(k) is
    last + k(new-last)/N up to 2^-42, stays between the two ratios and starts at exactly the ratio left by the previous
    call (the call's own ratio if there was none); the converter remembers the last one used. *)
Theorem C27_ramp_partial :
  forall kd ch X st log out st1 o1 d m e st2 d2 m2,
  at_start kd ch st -> channels_fit ch -> streaming ch X in_range (lin_legal kd ch X) st 0 log out st1 o1 ->
  valid_call ch d m -> holds m (data_in d) ch (input_frames d) X o1 -> lin_legal kd ch X o1 d m ->
  src_process (Some st1) (Some d) m = Ok (e, Some st2, Some d2, m2) ->
  let last := if Beqb (st_last_ratio st1) dzero then src_ratio d else st_last_ratio st1 in
  exists rho,
    (forall k, Z.of_nat k < output_frames d ->
       in_range (rho k) /\
       (Rmin (B2R last) (B2R (src_ratio d)) <= B2R (rho k) <= Rmax (B2R last) (B2R (src_ratio d)))%R /\
       (Rabs (B2R (rho k) - (B2R last + IZR (Z.of_nat k) * (B2R (src_ratio d) - B2R last) / IZR (output_frames d)))
          <= / IZR (2 ^ 42))%R) /\
    (0 < output_frames d -> rho O = last) /\
    wrote m m2 (data_out d) ch (output_frames_gen d2)
          (fun k c => value kd (from0 X) (pos_at (stream_pos st1 o1) rho (Z.to_nat k)) c) /\
    stream_pos st2 (o1 + input_frames_used d2) = pos_at (stream_pos st1 o1) rho (Z.to_nat (output_frames_gen d2)) /\
    st_last_ratio st2 = match Z.to_nat (output_frames_gen d2) with O => last | S j => rho j end.
Proof. exact ramp_in_call. Qed.
Example C27_case : exists st' d' m',
  src_process (Some (ex_conv Lin 2)) (Some (ex_data (d_of_Z 2))) ex_mem = Ok (0, Some st', Some d', m').
Proof. exact (ex_call Lin (d_of_Z 2) two_range). Qed.
Print Assumptions C27_ramp_partial.

Theorem C27_same_ratio_unchanged_partial :
  forall kd ch X st log out st1 o1 d m e st2 d2 m2,
  at_start kd ch st -> channels_fit ch -> streaming ch X in_range (lin_legal kd ch X) st 0 log out st1 o1 ->
  valid_call ch d m -> holds m (data_in d) ch (input_frames d) X o1 -> lin_legal kd ch X o1 d m ->
  src_process (Some st1) (Some d) m = Ok (e, Some st2, Some d2, m2) ->
  st_last_ratio st1 = src_ratio d -> st_last_ratio st2 = src_ratio d.
Proof. exact same_ratio_call. Qed.
Print Assumptions C27_same_ratio_unchanged_partial.

(** src_set_ratio sets exactly the ratio the next call starts from. *)
Theorem C27_set_ratio :
  forall st r, in_range r -> exists st', src_set_ratio (Some st) r = (0, Some st') /\
  st_last_ratio st' = r /\ st_last_position st' = st_last_position st /\ st_priv st' = st_priv st.
Proof. exact thm_C27_set_ratio. Qed.
Example C27_set_ratio_case : in_range (d_of_Z 2).
Proof. exact two_range. Qed.
Print Assumptions C27_set_ratio.

(** C38: after N input frames have been presented at constant ratio r and the last call had output room to spare, the
    number G of frames produced differs from r*N by at most (r+1)(1 + G/2^52). *)
Theorem C38_zoh_output_length :
  forall ch X r N st log out st1 o1 d m e st2 d2 m2,
  at_start Zoh ch st -> channels_fit ch -> in_range r ->
  streaming ch X (eq r) (fun _ _ _ => True) st 0 log out st1 o1 ->
  presented 0 log <= N ->
  valid_call ch d m -> holds m (data_in d) ch (input_frames d) X o1 -> src_ratio d = r ->
  o1 + input_frames d = N ->
  src_process (Some st1) (Some d) m = Ok (e, Some st2, Some d2, m2) ->
  output_frames_gen d2 < output_frames d ->
  let G := IZR (total_gen log + output_frames_gen d2) in
  (Rabs (G - B2R r * IZR N) <= (B2R r + 1) * (1 + G * / IZR (2 ^ 52)))%R.
Proof. exact thm_C38_zoh_output_length. Qed.
Print Assumptions C38_zoh_output_length.

Theorem C38_linear_output_length_partial :
  forall ch X r N st log out st1 o1 d m e st2 d2 m2,
  at_start Lin ch st -> channels_fit ch -> in_range r ->
  streaming ch X (eq r) (lin_legal Lin ch X) st 0 log out st1 o1 ->
  presented 0 log <= N ->
  valid_call ch d m -> holds m (data_in d) ch (input_frames d) X o1 -> src_ratio d = r -> lin_legal Lin ch X o1 d m ->
  o1 + input_frames d = N ->
  src_process (Some st1) (Some d) m = Ok (e, Some st2, Some d2, m2) ->
  output_frames_gen d2 < output_frames d ->
  let G := IZR (total_gen log + output_frames_gen d2) in
  (Rabs (G - B2R r * IZR N) <= (B2R r + 1) * (1 + G * / IZR (2 ^ 52)))%R.
Proof. exact (length_bound Lin). Qed.
Example C38_case : forall kd, exists st' d' m',
  src_process (Some (ex_conv kd 2)) (Some (ex_data (d_of_Z 2))) ex_mem = Ok (0, Some st', Some d', m') /\
  valid_call 2 (ex_data (d_of_Z 2)) ex_mem /\ holds ex_mem 100 2 4 ex_stream 0 /\
  gen_of (src_process (Some (ex_conv kd 2)) (Some (ex_data (d_of_Z 2))) ex_mem) < 16.
Proof.
  intros kd. destruct (ex_call kd (d_of_Z 2) two_range) as (st' & d' & m' & E). exists st', d', m'.
  split; [exact E|]. split; [apply ex_valid, two_range|]. split; [apply ex_holds|].
  destruct kd; vm_compute; reflexivity.
Qed.
Print Assumptions C38_linear_output_length_partial.
