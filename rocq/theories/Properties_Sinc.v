(** Properties of the sinc converters (C18-C20, C25, C27, C31-C35, C41, C42, C45), and what C34 and C35 say about zero-order hold and
    linear.  Nothing but statements.

    [sinc_new t ch st]: st was handed out by src_new for a sinc type with coefficient table t.  [sinc_start t ch st]: new, or
    reset after any legal history.  [sinc_streaming ch X allowed st o log out st' o']: the caller feeds the stream X block by
    block, all calls succeed; whoever announces the end of the input has presented all of X (X is zero beyond).
    [table_fit t]: the table fits the index arithmetic; true of the tables in the source. *)
From Coq Require Import ZArith Reals List Lia Lra.
From Flocq Require Import Core IEEE754.BinarySingleNaN.
From Verif Require Import Base Types Common Api Heap Callback HoldSpec ApiHist HoldCore HoldRamp HoldValue HoldMain SincSpec SincApi SincHist SincStream
  SincMain SincLen SincPair SincTables SincThms SincCases SincRuns Sinc SincCopies SincSame.
Import ListNotations.
Local Open Scope Z_scope.

(** The hypothesis on the table holds for every table of the library. *)
Example tables_fit : table_fit fastest_table /\ table_fit mid_qual_table /\ forall coeffs, zlen coeffs = 340239 -> table_fit (2381, coeffs).
Proof. exact (conj fastest_fit (conj mid_qual_fit high_qual_fit)). Qed.
Example new_converters : sinc_new fastest_table 1 (fast_new 1) /\ sinc_new fastest_table 2 (fast_new 2).
Proof. exact (conj new1 new2). Qed.

(** C18: in every legal history every reply of a sinc converter is honest (or it is the error C32 is about). *)
Theorem C18_sinc_counts_honest :
  forall t ch st, table_fit t -> sinc_new t ch st ->
  forall CS (cb : callback_t CS) dummy cs rs st', Forall (valid_op ch) cs -> api_run CS cb dummy st cs = Ok (rs, st') ->
  Forall2 (truthful ch) cs rs.
Proof. exact sinc_honest. Qed.
Example C18_sinc_case : Forall (valid_op 1) (flush 100) /\ run 1 (flush 100) = inl [(0, 20, 0); (0, 0, 20)].
Proof. exact (conj (flush_valid 100 ltac:(lia)) (proj2 flush_runs)). Qed.
Print Assumptions C18_sinc_counts_honest.

(** C19: the converter's ratio is 0 (no call yet) or in [1/256, 256] after any legal history, during a call every ratio of
    the ramp is, and no call returns BAD_INTERNAL_STATE. *)
Theorem C19_sinc_ratio_valid :
  forall t ch st, table_fit t -> sinc_new t ch st ->
  forall CS (cb : callback_t CS) dummy cs rs st', Forall (valid_op ch) cs -> api_run CS cb dummy st cs = Ok (rs, st') ->
  (st_last_ratio st' = dzero \/ in_range (st_last_ratio st')) /\ Forall2 (never SRC_ERR_BAD_INTERNAL_STATE) cs rs.
Proof. exact sinc_ratio_valid. Qed.
Print Assumptions C19_sinc_ratio_valid.

Theorem C19_sinc_ramp_valid :
  forall last new ch frames k, in_range last -> in_range new -> 0 < ch -> Z.of_nat k < frames -> frames * ch <= 2 ^ 50 ->
  in_range (sinc_ramp last new ch frames k).
Proof. exact sinc_ramp_valid. Qed.
Example C19_sinc_ramp_case : in_range done_ /\ in_range (part 256).
Proof. exact (conj one_range (part_range 256 ltac:(lia))). Qed.
Print Assumptions C19_sinc_ramp_valid.

(** C20: no legal history runs on for ever: it ends, normally or with a fault (an abort or a bad access, see the
    counterexamples under C31; so "always returns" is not covered). *)
Theorem C20_sinc_returns_partial :
  forall t ch st, table_fit t -> sinc_new t ch st ->
  forall CS (cb : callback_t CS) dummy cs, Forall (valid_op ch) cs -> api_run CS cb dummy st cs <> Fault F_fuel.
Proof. exact sinc_returns. Qed.
Example C20_sinc_case : sinc_new fastest_table 2 (fast_new 2) /\ Forall (valid_op 2) drops.
Proof. exact (conj new2 drops_valid). Qed.
Print Assumptions C20_sinc_returns_partial.

(** C27: the k-th of N requested frames uses a ratio rho(k) within 2^-33 of last + k(new-last)/N, between the two, the first
    exactly the previous one; its value is the filter at the position reached by steps of 1/rho, over all of the stream that
    the converter still holds ([depth] frames to the left). *)
Theorem C27_sinc_ramp :
  forall inc coeffs ch X st log out st1 o1 d m st2 d2 m2, table_fit (inc, coeffs) -> sinc_start (inc, coeffs) ch st ->
  (forall i k, i < 0 -> X i k = fzero) -> sinc_streaming ch X in_range st 0 log out st1 o1 ->
  valid_call ch d m -> holds m (data_in d) ch (input_frames d) X o1 ->
  (end_of_input d <> 0 -> forall i c, o1 + input_frames d <= i -> X i c = fzero) ->
  src_process (Some st1) (Some d) m = Ok (0, Some st2, Some d2, m2) ->
  let last := if Beqb (st_last_ratio st1) dzero then src_ratio d else st_last_ratio st1 in
  exists rho depth,
    (forall k, Z.of_nat k < output_frames d ->
       in_range (rho k) /\
       (Rmin (B2R last) (B2R (src_ratio d)) <= B2R (rho k) <= Rmax (B2R last) (B2R (src_ratio d)))%R /\
       (Rabs (B2R (rho k) - (B2R last + IZR (Z.of_nat k) * (B2R (src_ratio d) - B2R last) / IZR (output_frames d)))
          <= / IZR (2 ^ 33))%R) /\
    (0 < output_frames d -> rho O = last) /\
    wrote m m2 (data_out d) ch (output_frames_gen d2)
          (fun k c => sinc_sample inc coeffs (fun i => X i c) (depth (Z.to_nat k)) (pos_at (sinc_position st1 o1) rho (Z.to_nat k)) (rho (Z.to_nat k))) /\
    sinc_position st2 (o1 + input_frames_used d2) = pos_at (sinc_position st1 o1) rho (Z.to_nat (output_frames_gen d2)) /\
    st_last_ratio st2 = match Z.to_nat (output_frames_gen d2) with O => last | S j => rho j end.
Proof. exact sinc_ramp_in_call. Qed.
Example C27_sinc_case : exists log out st1 st2 d2 m2, sinc_start fastest_table 1 (fast_new 1) /\ sinc_streaming 1 (stretch 30) (eq done_) (fast_new 1) 0 log out st1 25 /\
  valid_call 1 (request (d_of_Z 2) 4 2 0) ones /\ holds ones 100 1 4 (stretch 30) 25 /\
  src_process (Some st1) (Some (request (d_of_Z 2) 4 2 0)) ones = Ok (0, Some st2, Some d2, m2) /\ total_gen log = 1 /\ output_frames_gen d2 = 2.
Proof. exact ramp_run. Qed.
Print Assumptions C27_sinc_ramp.

Theorem C27_sinc_same_ratio :
  forall inc coeffs ch X st log out st1 o1 d m st2 d2 m2, table_fit (inc, coeffs) -> sinc_start (inc, coeffs) ch st ->
  (forall i k, i < 0 -> X i k = fzero) -> sinc_streaming ch X in_range st 0 log out st1 o1 ->
  valid_call ch d m -> holds m (data_in d) ch (input_frames d) X o1 ->
  (end_of_input d <> 0 -> forall i c, o1 + input_frames d <= i -> X i c = fzero) ->
  src_process (Some st1) (Some d) m = Ok (0, Some st2, Some d2, m2) ->
  st_last_ratio st1 = src_ratio d -> st_last_ratio st2 = src_ratio d.
Proof. exact sinc_same_ratio. Qed.
Example C27_sinc_same_case : exists log out st1 st2 d2 m2, sinc_start fastest_table 1 (fast_new 1) /\
  sinc_streaming 1 (stretch 60) (eq (part 2)) (fast_new 1) 0 log out st1 0 /\
  valid_call 1 (request (part 2) 60 1 0) ones /\ holds ones 100 1 60 (stretch 60) 0 /\ st_last_ratio st1 = part 2 /\
  src_process (Some st1) (Some (request (part 2) 60 1 0)) ones = Ok (0, Some st2, Some d2, m2) /\ output_frames_gen d2 = 1.
Proof. exact same_run. Qed.
Print Assumptions C27_sinc_same_ratio.

(** C31: no access outside the buffers, no failed assertion, no overflow, no endless loop in any [tame] history: the end of
    the input is never announced; or all ratios are at least 1/191 and (with several channels) no lower ratio below 1 is used after
    the end of the input; or there is one channel and one ratio.  Missing: ratios below 1/191 with an announced end of
    input, and ratio drops after the end of the input with several channels; both can fault, see below. *)
Theorem C31_sinc_memory_safe_partial :
  forall t ch st, table_fit t -> sinc_new t ch st ->
  forall CS (cb : callback_t CS) dummy cs, Forall (valid_op ch) cs -> tame ch cs ->
  exists rs st', api_run CS cb dummy st cs = Ok (rs, st') /\ Forall2 (truthful ch) cs rs.
Proof. exact sinc_tame_history. Qed.
Example C31_case : Forall (valid_op 1) (flush 100) /\ tame 1 (flush 100).
Proof.
  split; [exact (flush_valid 100 ltac:(lia))|]. right; right. split; [reflexivity|]. exists done_.
  constructor; [reflexivity|constructor; [reflexivity|constructor]].
Qed.
Print Assumptions C31_sinc_memory_safe_partial.

(** Mono, ratio 1 without input, then ratio 1/256: prepare_data moves data from before the start of its buffer. *)
Theorem C31_buffer_underflow_refuted :
  sinc_new fastest_table 1 (fast_new 1) /\ Forall (valid_op 1) falls /\ run 1 falls = inr F_oob.
Proof. exact (conj new1 (conj falls_valid falls_run)). Qed.
Print Assumptions C31_buffer_underflow_refuted.

(** Stereo, the end of the input announced at ratio 4, then ratio 0.46498: an assertion fails. *)
Theorem C31_assertion_refuted :
  sinc_new fastest_table 2 (fast_new 2) /\ Forall (valid_op 2) drops /\ run 2 drops = inr F_assert.
Proof. exact (conj new2 (conj drops_valid drops_run)). Qed.
Print Assumptions C31_assertion_refuted.

(** C32: requests of fewer than 2^31 samples never get an error code. *)
Theorem C32_sinc_no_internal_error_partial :
  forall t ch st, table_fit t -> sinc_new t ch st ->
  forall CS (cb : callback_t CS) dummy cs rs st', Forall (valid_op ch) cs -> api_run CS cb dummy st cs = Ok (rs, st') ->
  Forall2 (fun c r => match c, r with
                      | A_process (Some d) _, R_process e _ _ => input_frames d * ch < 2 ^ 31 -> e = 0
                      | _, _ => True
                      end) cs rs.
Proof. exact sinc_errors. Qed.
Example C32_case : Forall (valid_op 1) (flush 100) /\ run 1 (flush 100) = inl [(0, 20, 0); (0, 0, 20)].
Proof. exact (conj (flush_valid 100 ltac:(lia)) (proj2 flush_runs)). Qed.
Print Assumptions C32_sinc_no_internal_error_partial.

Theorem C32_huge_request_refuted :
  sinc_new fastest_table 1 (fast_new 1) /\ Forall (valid_op 1) huge /\ run 1 huge = inl [(SRC_ERR_SINC_PREPARE_DATA_BAD_LEN, 0, 0)].
Proof. exact (conj new1 (conj huge_valid huge_run)). Qed.
Print Assumptions C32_huge_request_refuted.

(** C33: at constant ratio r, output frame k on channel c is the filter [sinc_value] applied to channel c of the zero-extended
    stream at the position reached by k steps of 1/r: the same function for every way of cutting the stream. *)
Theorem C33_sinc_convolution :
  forall inc coeffs ch X r st log out st' o', table_fit (inc, coeffs) -> sinc_start (inc, coeffs) ch st ->
  (forall i k, i < 0 -> X i k = fzero) -> in_range r -> sinc_streaming ch X (eq r) st 0 log out st' o' ->
  is_frames ch out (total_gen log) (fun k c => sinc_value inc coeffs (fun i => X i c) (pos_at (0, dzero) (fun _ => r) (Z.to_nat k)) r).
Proof. exact sinc_convolution. Qed.
Example C33_case : exists log out st' o',
  sinc_streaming 2 seven (eq (part 4)) (fast_new 2) 0 log out st' o' /\ total_gen log = 2.
Proof. exact (seven_stream 2 2 ltac:(lia) works2). Qed.
Print Assumptions C33_sinc_convolution.

Theorem C33_sinc_same_prefix :
  forall inc coeffs ch X r st1 log1 out1 st1' o1 st2 log2 out2 st2' o2, table_fit (inc, coeffs) ->
  sinc_start (inc, coeffs) ch st1 -> sinc_start (inc, coeffs) ch st2 -> (forall i k, i < 0 -> X i k = fzero) -> in_range r ->
  sinc_streaming ch X (eq r) st1 0 log1 out1 st1' o1 -> sinc_streaming ch X (eq r) st2 0 log2 out2 st2' o2 ->
  total_gen log1 <= total_gen log2 -> exists rest, out2 = out1 ++ rest.
Proof. exact sinc_same_prefix. Qed.
Print Assumptions C33_sinc_same_prefix.

(** C34: equal only up to rounding: about two frames for sinc (ratio at least 1/191), about 2(r+1) for the others. *)
Theorem C34_sinc_channel_counts_partial :
  forall t t' ch ch' r N G G', table_fit t -> table_fit t' -> in_range r -> (/ 191 <= B2R r)%R ->
  sinc_converted t ch r N G -> sinc_converted t' ch' r N G' ->
  (Rabs (IZR G - IZR G') <= 2 + (B2R r + 1) * (/ IZR (2 ^ 19) + (IZR G + IZR G') / IZR (2 ^ 52)))%R.
Proof. exact sinc_channel_counts. Qed.
Print Assumptions C34_sinc_channel_counts_partial.

Theorem C34_hold_channel_counts_partial :
  forall kd ch ch' r N G G', channels_fit ch -> channels_fit ch' -> in_range r ->
  converted kd ch r N G -> converted kd ch' r N G' ->
  (Rabs (IZR G - IZR G') <= (B2R r + 1) * (2 + (IZR G + IZR G') / IZR (2 ^ 52)))%R.
Proof. exact hold_channel_counts. Qed.
Print Assumptions C34_hold_channel_counts_partial.

(** Seven frames at ratio 1/4 with the fastest sinc converter: one frame in mono, two in stereo. *)
Theorem C34_sinc_refuted : sinc_converted fastest_table 1 (part 4) 7 1 /\ sinc_converted fastest_table 2 (part 4) 7 2.
Proof. exact sinc_counts_differ. Qed.
Print Assumptions C34_sinc_refuted.

(** Zero-order hold, two frames at ratio 5/2: six frames with one channel, five with three.  Linear, nine frames at ratio 5/9:
    five and six. *)
Theorem C34_hold_refuted :
  (converted Zoh 1 (quotient 5 2) 2 6 /\ converted Zoh 3 (quotient 5 2) 2 5) /\
  (converted Lin 1 (quotient 5 9) 9 5 /\ converted Lin 3 (quotient 5 9) 9 6).
Proof. exact hold_counts_differ. Qed.
Print Assumptions C34_hold_refuted.

(** C35: an empty last block (data_in not NULL) makes a sinc converter produce the rest: afterwards the number of frames
    fits all of the input. *)
Theorem C35_sinc_flush_partial :
  forall inc coeffs ch X r st log out st1 N d m st2 d2 m2, table_fit (inc, coeffs) -> sinc_start (inc, coeffs) ch st ->
  (forall i k, i < 0 -> X i k = fzero) -> (forall i c, N <= i -> X i c = fzero) -> in_range r -> (/ 191 <= B2R r)%R ->
  sinc_streaming ch X (eq r) st 0 log out st1 N ->
  valid_call ch d m -> input_frames d = 0 -> end_of_input d <> 0 -> data_in d <> 0 -> src_ratio d = r ->
  src_process (Some st1) (Some d) m = Ok (0, Some st2, Some d2, m2) -> output_frames_gen d2 < output_frames d ->
  let G := IZR (total_gen log + output_frames_gen d2) in
  (Rabs (G - B2R r * IZR N) <= 1 + (B2R r + 1) * (/ IZR (2 ^ 20) + G / IZR (2 ^ 52)))%R.
Proof. exact sinc_flush. Qed.
Example C35_sinc_case : exists log out st1 st2 d2 m2,
  sinc_start fastest_table 1 (fast_new 1) /\ sinc_streaming 1 (stretch 7) (eq (part 4)) (fast_new 1) 0 log out st1 7 /\ ends_at 7 0 log /\
  valid_call 1 (request (part 4) 0 5 1) ones /\ holds ones 100 1 0 (stretch 7) 7 /\
  src_process (Some st1) (Some (request (part 4) 0 5 1)) ones = Ok (0, Some st2, Some d2, m2) /\ output_frames_gen d2 = 1.
Proof. exact (end_run 7 0 7 1 ltac:(lia)). Qed.
Print Assumptions C35_sinc_flush_partial.

(** With data_in = NULL nothing comes out: 20 frames at ratio 1, then an empty last block. *)
Theorem C35_null_flush_refuted :
  sinc_new fastest_table 1 (fast_new 1) /\ Forall (valid_op 1) (flush 0) /\ run 1 (flush 0) = inl [(0, 20, 0); (0, 0, 0)] /\
  run 1 (flush 100) = inl [(0, 20, 0); (0, 0, 20)].
Proof. exact (conj new1 (conj (flush_valid 0 ltac:(lia)) flush_runs)). Qed.
Print Assumptions C35_null_flush_refuted.

(** Zero-order hold and linear produce the rest with any data_in, NULL included (the empty call is legal for linear too; the
    calls before it are as in C24). *)
Theorem C35_hold_flush_partial :
  forall kd ch X r st log out st1 N d m e st2 d2 m2, at_start kd ch st -> channels_fit ch -> in_range r ->
  streaming ch X (eq r) (lin_legal kd ch X) st 0 log out st1 N -> presented 0 log <= N ->
  valid_call ch d m -> input_frames d = 0 -> src_ratio d = r ->
  src_process (Some st1) (Some d) m = Ok (e, Some st2, Some d2, m2) -> output_frames_gen d2 < output_frames d ->
  let G := IZR (total_gen log + output_frames_gen d2) in
  (Rabs (G - B2R r * IZR N) <= (B2R r + 1) * (1 + G * / IZR (2 ^ 52)))%R.
Proof. exact hold_flush. Qed.
Example C35_hold_case : forall p, 0 <= p <= 200 -> Forall (valid_op 1) (flush p).
Proof. exact flush_valid. Qed.
Print Assumptions C35_hold_flush_partial.

(** C41: a conversion at constant ratio r >= 1/191 of N frames, cut in any way and ended by a call that announces the end of
    the input and leaves output room, gives r*N frames up to one frame and rounding. *)
Theorem C41_sinc_output_length :
  forall t ch r N G, table_fit t -> in_range r -> (/ 191 <= B2R r)%R -> sinc_converted t ch r N G ->
  (Rabs (IZR G - B2R r * IZR N) <= 1 + (B2R r + 1) * (/ IZR (2 ^ 20) + IZR G / IZR (2 ^ 52)))%R.
Proof. exact sinc_converted_length. Qed.
Example C41_case : sinc_converted fastest_table 2 (part 4) 7 2 /\ in_range (part 4) /\ (/ 191 <= B2R (part 4))%R.
Proof. split; [exact (proj2 sinc_counts_differ)|]. split; [exact (part_range 4 ltac:(lia))|]. vm_compute. lra. Qed.
Print Assumptions C41_sinc_output_length.

(** C42: under the same conditions a call that leaves output room unused has consumed all of its input. *)
Theorem C42_sinc_takes_all_input :
  forall inc coeffs ch X r N st log out st1 o1 d m st2 d2 m2,
  table_fit (inc, coeffs) -> sinc_start (inc, coeffs) ch st -> (forall i k, i < 0 -> X i k = fzero) ->
  in_range r -> (/ 191 <= B2R r)%R -> sinc_streaming ch X (eq r) st 0 log out st1 o1 ->
  ends_at N 0 log -> o1 + input_frames d <= N -> (end_of_input d <> 0 -> o1 + input_frames d = N) ->
  valid_call ch d m -> holds m (data_in d) ch (input_frames d) X o1 -> src_ratio d = r ->
  (end_of_input d <> 0 -> forall i c, o1 + input_frames d <= i -> X i c = fzero) ->
  data_in d <> 0 -> input_frames d * ch < 2 ^ 31 ->
  src_process (Some st1) (Some d) m = Ok (0, Some st2, Some d2, m2) ->
  output_frames_gen d2 < output_frames d -> input_frames_used d2 = input_frames d.
Proof. exact sinc_takes_all. Qed.
Example C42_case : exists log out st1 st2 d2 m2,
  sinc_start fastest_table 1 (fast_new 1) /\ sinc_streaming 1 (stretch 8) (eq (part 4)) (fast_new 1) 0 log out st1 4 /\ ends_at 8 0 log /\
  valid_call 1 (request (part 4) 4 5 1) ones /\ holds ones 100 1 4 (stretch 8) 4 /\
  src_process (Some st1) (Some (request (part 4) 4 5 1)) ones = Ok (0, Some st2, Some d2, m2) /\ output_frames_gen d2 = 2.
Proof. exact (end_run 4 4 8 2 ltac:(lia)). Qed.
Print Assumptions C42_sinc_takes_all_input.

(** C25 (sinc): the same requests on two streams such that channel c of the first carries the same as channel c' of the second
    give the same replies (all frame counts) and the same samples on these channels. *)
Theorem C25_sinc_channels_isolated :
  forall t ch X X' c c' st log out st1 o1 log' out' st1' o1', table_fit t -> sinc_start t ch st -> 0 <= c < ch -> 0 <= c' < ch ->
  (forall i, X i c = X' i c') -> (forall i k, i < 0 -> X i k = fzero) -> (forall i k, i < 0 -> X' i k = fzero) ->
  sinc_streaming ch X in_range st 0 log out st1 o1 -> sinc_streaming ch X' in_range st 0 log' out' st1' o1' ->
  requests log = requests log' ->
  log = log' /\ forall k, 0 <= k < total_gen log -> sample ch out k c = sample ch out' k c'.
Proof. exact channels_isolated. Qed.
Example C25_sinc_case : (exists log out st1 o1 log' out' st1' o1',
  sinc_streaming 2 seven in_range (fast_new 2) 0 log out st1 o1 /\ sinc_streaming 2 skewed in_range (fast_new 2) 0 log' out' st1' o1' /\
  requests log = requests log' /\ total_gen log = 2) /\ (forall i, seven i 0 = skewed i 0) /\ seven 3 1 <> skewed 3 1.
Proof. split; [exact channels_case|]. split; [reflexivity|]. apply ones_twos. Qed.
Print Assumptions C25_sinc_channels_isolated.

(** C45: the unrolled routines for 2, 4 and 6 channels do exactly what the routine for any number of channels does, faults
    included. *)
Theorem C45_unrolled_same_partial :
  forall st d m,
  (st_channels st = 2 -> sinc_stereo_vari_process st d m = sinc_multichan_vari_process st d m) /\
  (st_channels st = 4 -> sinc_quad_vari_process st d m = sinc_multichan_vari_process st d m) /\
  (st_channels st = 6 -> sinc_hex_vari_process st d m = sinc_multichan_vari_process st d m).
Proof. exact (fun st d m => conj (stereo_same st d m) (conj (quad_same st d m) (hex_same st d m))). Qed.
Example C45_case :
  (st_channels (ready 1) = 1 /\ st_channels (ready 2) = 2 /\ st_channels (ready 4) = 4 /\ st_channels (ready 6) = 6) /\
  generated (sinc_stereo_vari_process (ready 2) (request done_ 3 10 1) ones) = Some (0, 3, 3) /\
  generated (sinc_quad_vari_process (ready 4) (request done_ 3 10 1) ones) = Some (0, 3, 3) /\
  generated (sinc_hex_vari_process (ready 6) (request done_ 3 10 1) ones) = Some (0, 3, 3).
Proof. exact (conj ready_channels same_cases). Qed.
Print Assumptions C45_unrolled_same_partial.

(** The mono routine does the same while the end of the input is not announced (unless one of the two faults: their asserts
    differ). *)
Theorem C45_mono_same_partial :
  forall st d m f r r', st_channels st = 1 -> st_priv st = P_sinc f -> s_b_real_end f < 0 -> end_of_input d = 0 ->
  sinc_mono_vari_process st d m = Ok r -> sinc_multichan_vari_process st d m = Ok r' -> r = r'.
Proof. exact (fun st d m f r r' C P N L => mono_same st d m f C P N L r r'). Qed.
Example C45_mono_case : open_filter (st_priv (ready 1)) = true /\
  generated (sinc_mono_vari_process (ready 1) (request done_ 22 10 0) ones) = Some (0, 22, 2) /\
  generated (sinc_multichan_vari_process (ready 1) (request done_ 22 10 0) ones) = Some (0, 22, 2).
Proof. exact mono_case. Qed.
Print Assumptions C45_mono_same_partial.

(** At the end of the input they differ: three frames at ratio 1 give three frames, or two. *)
Theorem C45_mono_end_refuted :
  generated (sinc_mono_vari_process (ready 1) (request done_ 3 10 1) ones) = Some (0, 3, 3) /\
  generated (sinc_multichan_vari_process (ready 1) (request done_ 3 10 1) ones) = Some (0, 3, 2).
Proof. exact mono_differs. Qed.
Print Assumptions C45_mono_end_refuted.
