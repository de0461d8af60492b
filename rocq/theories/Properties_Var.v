(** Properties C52 and C53: changing speeds.  Nothing but statements.

    [follows], [reached], [from_on], [table_reach], [wander], [covers]: VarSpec.v.  [on_line], [ideal_sinc], [within]: AccSpec.v. *)
From Coq Require Import ZArith Reals List.
From Flocq Require Import Core IEEE754.BinarySingleNaN.
From Verif Require Import Base Types Api ApiHist HoldSpec HoldCore HoldRamp HoldMain HoldCases SincSpec SincApi SincStream SincTables SincCases AccSpec VarSpec VarThms GainMain GainCases AccCases LocCases VarCases VarEndSpec VarEnd VarEndCases.
Import ListNotations.
Local Open Scope Z_scope.

(** ** C52: whatever ratios the caller names, set in between and repeats, there is one ratio for each output frame, on the straight line from request to
    request, and frame k is the input at the sum of 1 / ratio over the frames before it. *)
Theorem C52_zoh_speeds :
  forall ch X st log out st1 o1, at_start Zoh ch st -> channels_fit ch -> streaming ch X in_range (fun _ _ _ => True) st 0 log out st1 o1 ->
  exists rho, follows (/ IZR (2 ^ 42)) None log rho /\
  forall k c, 0 <= k < total_gen log -> 0 <= c < ch -> exists u t, reached rho k u t /\ sample ch out k c = Some (X (Z.max 0 (u - 1)) c).
Proof. exact zoh_varied. Qed.

(** Linear.  (Blocks as in C24.) *)
Theorem C52_linear_speeds_partial :
  forall ch X (A : f32) st log out st1 o1, at_start Lin ch st -> channels_fit ch -> within ch X A ->
  streaming ch X in_range (lin_legal Lin ch X) st 0 log out st1 o1 ->
  exists rho, follows (/ IZR (2 ^ 42)) None log rho /\
  forall k c, 0 <= k < total_gen log -> 0 <= c < ch -> exists u t y, reached rho k u t /\ sample ch out k c = Some y /\ is_finite y = true /\
    (Rabs (B2R y - on_line (B2R (X (Z.max 0 (u - 1)) c)) (B2R (X (Z.max 0 u) c)) t) <= / 16000000 * Rabs (B2R A) + / IZR (2 ^ 149))%R.
Proof. exact lin_varied. Qed.
(** Ratio 1 is set, then 2 is requested. *)
Example C52_hold_case : forall kd, within 2 (whole zig) (f_of_Z 100) /\ exists log out st1 o1,
  streaming 2 (whole zig) in_range (lin_legal kd 2 (whole zig)) (ex_conv kd 2) 0 log out st1 o1 /\
  requests log = [inr done_; inl (ex_data (d_of_Z 2))] /\ total_gen log = 5.
Proof. exact hold_swept. Qed.

(** Sinc, ratios from 1 upwards. *)
Theorem C52_sinc_speeds_up_partial :
  forall inc coeffs ch X (A : f32) st log out st1 o1, (inc, coeffs) = fastest_table \/ (inc, coeffs) = mid_qual_table ->
  sinc_start (inc, coeffs) ch st -> within ch X A -> (6 * Rabs (B2R A) < IZR (2 ^ 128))%R -> (forall i j, i < 0 -> X i j = fzero) ->
  sinc_streaming ch X (fun r => (1 <= B2R r <= 256)%R) st 0 log out st1 o1 ->
  exists rho, follows (/ IZR (2 ^ 33)) None log rho /\
  forall k c, 0 <= k < total_gen log -> 0 <= c < ch -> exists u t y, reached rho k u (B2R t) /\ is_finite t = true /\
    sample ch out k c = Some y /\ is_finite y = true /\
    (Rabs (B2R y - ideal_sinc inc coeffs (fun i => B2R (X i c)) (u, t) (rho (Z.to_nat k))) <= 6 / 10000000 * Rabs (B2R A) + / IZR (2 ^ 149))%R.
Proof. exact sinc_varied_up. Qed.

(** Sinc, any ratios.  A filter that has just become longer may miss frames that were dropped while it was shorter: what it sees begins at some frame [cut],
    never later than the frames it would need at the highest ratio.  At frames whose filter is no longer than that nothing is missed. *)
Theorem C52_sinc_speeds_partial :
  forall inc coeffs ch X lo hi (A : f32) st log out st1 o1, (inc, coeffs) = fastest_table \/ (inc, coeffs) = mid_qual_table ->
  sinc_start (inc, coeffs) ch st -> in_range hi -> within ch X A -> (6 * Rabs (B2R A) < IZR (2 ^ 128))%R -> (forall i j, i < 0 -> X i j = fzero) ->
  sinc_streaming ch X (fun r => (lo <= B2R r <= B2R hi)%R) st 0 log out st1 o1 ->
  exists rho, follows (/ IZR (2 ^ 33)) None log rho /\
  forall k c, 0 <= k < total_gen log -> 0 <= c < ch -> exists u t y cut, reached rho k u (B2R t) /\ is_finite t = true /\
    sample ch out k c = Some y /\ is_finite y = true /\ cut < u - table_reach inc coeffs hi /\
    (Rabs (B2R y - ideal_sinc inc coeffs (from_on cut (fun i => B2R (X i c))) (u, t) (rho (Z.to_nat k))) <= 6 / 10000000 * Rabs (B2R A) + / IZR (2 ^ 149))%R /\
    (table_reach inc coeffs (rho (Z.to_nat k)) <= table_reach inc coeffs hi ->
     (Rabs (B2R y - ideal_sinc inc coeffs (fun i => B2R (X i c)) (u, t) (rho (Z.to_nat k))) <= 6 / 10000000 * Rabs (B2R A) + / IZR (2 ^ 149))%R) /\
    in_range (rho (Z.to_nat k)) /\ (lo <= B2R (rho (Z.to_nat k)) <= B2R hi)%R.
Proof. exact sinc_varied. Qed.
(** Ratio 2 is set, then 1 is requested. *)
Example C52_sinc_case : within 1 (blip 3 9 fzero) one /\ (6 * Rabs (B2R one) < IZR (2 ^ 128))%R /\
  exists log out st1 o1, sinc_streaming 1 (blip 3 9 fzero) (fun r => (1 <= B2R r <= B2R (d_of_Z 2))%R) (fast_new 1) 0 log out st1 o1 /\
    requests log = [inr (d_of_Z 2); inl (request done_ 30 3 1)] /\ total_gen log = 3.
Proof. exact sinc_eased. Qed.

Print Assumptions C52_zoh_speeds.
Print Assumptions C52_linear_speeds_partial.
Print Assumptions C52_sinc_speeds_up_partial.
Print Assumptions C52_sinc_speeds_partial.

(** ** C53: when N frames have been presented and the last call had output room to spare, the steps of the output frames add up to N, up to one input frame. *)
Theorem C53_zoh_duration :
  forall ch X N st log out st1 o1 d m e st2 d2 m2,
  at_start Zoh ch st -> channels_fit ch -> streaming ch X in_range (fun _ _ _ => True) st 0 log out st1 o1 -> presented 0 log <= N ->
  valid_call ch d m -> holds m (data_in d) ch (input_frames d) X o1 -> o1 + input_frames d = N ->
  src_process (Some st1) (Some d) m = Ok (e, Some st2, Some d2, m2) -> output_frames_gen d2 < output_frames d ->
  exists rho, follows (/ IZR (2 ^ 42)) None (log ++ [Ev_call d d2]) rho /\ covers rho (total_gen log + output_frames_gen d2) N 1 1.
Proof. exact zoh_duration. Qed.

(** Linear.  (Blocks as in C24.) *)
Theorem C53_linear_duration_partial :
  forall ch X N st log out st1 o1 d m e st2 d2 m2,
  at_start Lin ch st -> channels_fit ch -> streaming ch X in_range (lin_legal Lin ch X) st 0 log out st1 o1 -> presented 0 log <= N ->
  valid_call ch d m -> holds m (data_in d) ch (input_frames d) X o1 -> lin_legal Lin ch X o1 d m -> o1 + input_frames d = N ->
  src_process (Some st1) (Some d) m = Ok (e, Some st2, Some d2, m2) -> output_frames_gen d2 < output_frames d ->
  exists rho, follows (/ IZR (2 ^ 42)) None (log ++ [Ev_call d d2]) rho /\ covers rho (total_gen log + output_frames_gen d2) N 1 1.
Proof. exact (hold_duration Lin). Qed.
(** Ratio 1 is set, then 4 frames are presented at ratio 2: 5 frames, of 16 asked for. *)
Example C53_hold_case : forall kd, exists st1 st2 d2 m2,
  streaming 2 (whole zig) in_range (lin_legal kd 2 (whole zig)) (ex_conv kd 2) 0 [Ev_ratio done_] [] st1 0 /\
  valid_call 2 (ex_data (d_of_Z 2)) (mem_of (whole zig)) /\ holds (mem_of (whole zig)) 100 2 4 (whole zig) 0 /\ lin_legal kd 2 (whole zig) 0 (ex_data (d_of_Z 2)) (mem_of (whole zig)) /\
  (exists e, src_process (Some st1) (Some (ex_data (d_of_Z 2))) (mem_of (whole zig)) = Ok (e, Some st2, Some d2, m2)) /\ output_frames_gen d2 = 5.
Proof. exact hold_duration_case. Qed.

(** Sinc, ratios from 1 upwards: the end of the input is signalled with the last call (and with earlier ones, if they had all the rest); all the input is taken. *)
Theorem C53_sinc_duration_up_partial :
  forall inc coeffs ch X N st log out st1 o1 d m st2 d2 m2,
  table_fit (inc, coeffs) -> sinc_start (inc, coeffs) ch st -> (forall i k, i < 0 -> X i k = fzero) ->
  sinc_streaming ch X (fun r => (1 <= B2R r <= 256)%R) st 0 log out st1 o1 ->
  ends_at N 0 log ->
  valid_call ch d m -> holds m (data_in d) ch (input_frames d) X o1 -> (1 <= B2R (src_ratio d))%R -> end_of_input d <> 0 ->
  (forall i c, N <= i -> X i c = fzero) -> data_in d <> 0 -> input_frames d * ch < 2 ^ 31 -> o1 + input_frames d = N ->
  src_process (Some st1) (Some d) m = Ok (0, Some st2, Some d2, m2) -> output_frames_gen d2 < output_frames d ->
  input_frames_used d2 = input_frames d /\
  exists rho, follows (/ IZR (2 ^ 33)) None (log ++ [Ev_call d d2]) rho /\ covers rho (total_gen log + output_frames_gen d2) N (1 + / IZR (2 ^ 20)) 0.
Proof. exact sinc_duration. Qed.
(** Ratio 2 is set, then 2 frames are presented at ratio 1: 3 frames, of 9 asked for. *)
Example C53_sinc_case : exists st1 st2 d2 m2,
  sinc_streaming 1 (blip 0 2 fzero) (fun r => (1 <= B2R r <= 256)%R) (fast_new 1) 0 [Ev_ratio (d_of_Z 2)] [] st1 0 /\
  valid_call 1 (request done_ 2 9 1) (spread (blip 0 2 fzero)) /\ holds (spread (blip 0 2 fzero)) 100 1 2 (blip 0 2 fzero) 0 /\ (1 <= B2R done_)%R /\
  (forall i c, 2 <= i -> blip 0 2 fzero i c = fzero) /\
  src_process (Some st1) (Some (request done_ 2 9 1)) (spread (blip 0 2 fzero)) = Ok (0, Some st2, Some d2, m2) /\ output_frames_gen d2 = 3.
Proof. exact sinc_duration_case. Qed.

(** Sinc, ratios from lo >= 1/191 upwards that stay the same once the end of the input is announced, if all the input was taken.
    Not covered: ratios below 1/191 (where the zeros at the end may not fit into the buffer) and ratios changing after the end (C31). *)
Theorem C53_sinc_duration_partial :
  forall inc coeffs ch X N lo r st log out st1 o1 d m st2 d2 m2,
  table_fit (inc, coeffs) -> sinc_start (inc, coeffs) ch st -> (forall i k, i < 0 -> X i k = fzero) -> (/ 191 <= lo)%R ->
  sinc_streaming ch X (fun x => (lo <= B2R x)%R) st 0 log out st1 o1 -> ends_at N 0 log -> settles r log ->
  valid_call ch d m -> holds m (data_in d) ch (input_frames d) X o1 -> src_ratio d = r -> (lo <= B2R r)%R -> end_of_input d <> 0 ->
  (forall i c, N <= i -> X i c = fzero) -> data_in d <> 0 -> input_frames d * ch < 2 ^ 31 -> o1 + input_frames d = N ->
  src_process (Some st1) (Some d) m = Ok (0, Some st2, Some d2, m2) -> output_frames_gen d2 < output_frames d -> input_frames_used d2 = input_frames d ->
  exists rho, follows (/ IZR (2 ^ 33)) None (log ++ [Ev_call d d2]) rho /\ covers rho (total_gen log + output_frames_gen d2) N (/ lo + / IZR (2 ^ 20)) 0.
Proof. exact sinc_duration_any. Qed.
(** Ratio 1 is set, then 8 frames are presented at ratio 1/2: 7 frames, of 20 asked for. *)
Example C53_sinc_slowing_case : exists st1 st2 d2 m2,
  sinc_streaming 1 (blip 0 8 fzero) (fun x => (/ 2 <= B2R x)%R) (fast_new 1) 0 [Ev_ratio done_] [] st1 0 /\ settles (part 2) [Ev_ratio done_] /\ ends_at 8 0 [Ev_ratio done_] /\
  valid_call 1 (request (part 2) 8 20 1) (spread (blip 0 8 fzero)) /\ holds (spread (blip 0 8 fzero)) 100 1 8 (blip 0 8 fzero) 0 /\ (/ 2 <= B2R (part 2))%R /\
  (forall i c, 8 <= i -> blip 0 8 fzero i c = fzero) /\
  src_process (Some st1) (Some (request (part 2) 8 20 1)) (spread (blip 0 8 fzero)) = Ok (0, Some st2, Some d2, m2) /\ output_frames_gen d2 = 7 /\ input_frames_used d2 = 8.
Proof. exact slowing_case. Qed.

(** Sinc, any ratios: never more than what was taken in. *)
Theorem C53_sinc_at_most_partial :
  forall inc coeffs ch X st log out st1 o1, table_fit (inc, coeffs) -> sinc_start (inc, coeffs) ch st -> (forall i j, i < 0 -> X i j = fzero) ->
  sinc_streaming ch X in_range st 0 log out st1 o1 ->
  exists rho, follows (/ IZR (2 ^ 33)) None log rho /\ forall k, 0 <= k < total_gen log -> (travelled rho (Z.to_nat k) <= IZR o1 + wander rho k)%R.
Proof. exact sinc_at_most. Qed.

Print Assumptions C53_zoh_duration.
Print Assumptions C53_linear_duration_partial.
Print Assumptions C53_sinc_duration_up_partial.
Print Assumptions C53_sinc_duration_partial.
Print Assumptions C53_sinc_at_most_partial.
