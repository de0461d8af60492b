(** Property C39: how large the samples of a sinc converter are, and what becomes of a constant signal.  Nothing but statements.

    [sinc_streaming], [sinc_start], [sample]: as in Properties_Sinc.v.  [pos_at (0, dzero) (fun _ => r) k]: the input position of
    output frame k at ratio r, as whole frames and a fraction. *)
From Coq Require Import ZArith Reals List.
From Flocq Require Import Core IEEE754.BinarySingleNaN.
From Verif Require Import Base Types Api ApiHist HoldSpec LifeSpec SincSpec SincApi SincTables SincCases GainMain GainThms GainCases.
Import ListNotations.
Local Open Scope Z_scope.

(** Any ratios, changing at will: no sample exceeds six times the largest input.  Missing: inputs so large that six times as
    much is no float. *)
Theorem C39_bounded_partial :
  forall t ch X (A : f32) st log out st' o', t = fastest_table \/ t = mid_qual_table -> sinc_start t ch st ->
  (forall i k, i < 0 -> X i k = fzero) ->
  (forall i c, 0 <= c < ch -> is_finite (X i c) = true /\ (Rabs (B2R (X i c)) <= Rabs (B2R A))%R) ->
  (6 * Rabs (B2R A) < IZR (2 ^ 128))%R -> sinc_streaming ch X in_range st 0 log out st' o' ->
  Forall (fun y => is_finite y = true /\ (Rabs (B2R y) <= 6 * Rabs (B2R A))%R) out.
Proof. exact bounded. Qed.
Example C39_bounded_case : sinc_start fastest_table 2 (fast_new 2) /\ (forall i k, i < 0 -> skewed i k = fzero) /\
  (forall i c, is_finite (skewed i c) = true /\ (Rabs (B2R (skewed i c)) <= Rabs (B2R (f_of_Z 2)))%R) /\
  (6 * Rabs (B2R (f_of_Z 2)) < IZR (2 ^ 128))%R /\
  exists log out st' o', sinc_streaming 2 skewed in_range (fast_new 2) 0 log out st' o' /\ total_gen log = 2.
Proof. exact skewed_bounded. Qed.
Print Assumptions C39_bounded_partial.

(** 60 frames of FLT_MAX: the second output frame is not finite. *)
Theorem C39_overflow_refuted : sinc_start fastest_table 1 (fast_new 1) /\ (forall i k, i < 0 -> plateau flt_max i k = fzero) /\
  (forall i k, is_finite (plateau flt_max i k) = true /\ (Rabs (B2R (plateau flt_max i k)) <= Rabs (B2R flt_max))%R) /\
  exists log out st' o' y, sinc_streaming 1 (plateau flt_max) in_range (fast_new 1) 0 log out st' o' /\ sample 1 out 1 0 = Some y /\ is_finite y = false.
Proof. exact plateau_overflows. Qed.
Print Assumptions C39_overflow_refuted.

(** Constant ratio: wherever the input is constant over the width of the filter, the output is that constant, up to one part in
    200, and up to 3 parts in a million when not reducing the rate.  (2^-149 is the smallest float.)  Missing: constants above
    2^127. *)
Theorem C39_unit_gain_partial :
  forall inc coeffs ch X r (A : f32) st log out st' o' k c, (inc, coeffs) = fastest_table \/ (inc, coeffs) = mid_qual_table ->
  sinc_start (inc, coeffs) ch st -> (forall i j, i < 0 -> X i j = fzero) -> in_range r ->
  sinc_streaming ch X (eq r) st 0 log out st' o' -> 0 <= k < total_gen log -> 0 <= c < ch ->
  is_finite A = true -> (Rabs (B2R A) <= IZR (2 ^ 127))%R ->
  let p := fst (pos_at (0, dzero) (fun _ => r) (Z.to_nat k)) in
  (forall i, (IZR (Z.abs (i - p)) <= IZR (zlen coeffs) / (IZR inc * Rmin 1 (B2R r)) + 4)%R -> X i c = A) ->
  exists y, sample ch out k c = Some y /\ is_finite y = true /\
    (Rabs (B2R y - B2R A) <= / 200 * Rabs (B2R A) + / IZR (2 ^ 149))%R /\
    ((1 <= B2R r)%R -> (Rabs (B2R y - B2R A) <= 3 / 1000000 * Rabs (B2R A) + / IZR (2 ^ 149))%R).
Proof. exact unit_gain. Qed.
Example C39_unit_gain_case : sinc_start fastest_table 1 (fast_new 1) /\ (forall i k, i < 0 -> plateau one i k = fzero) /\
  (exists log out st' o', sinc_streaming 1 (plateau one) (eq done_) (fast_new 1) 0 log out st' o' /\ total_gen log = 60) /\
  fst (pos_at (0, dzero) (fun _ => done_) 30) = 30 /\
  (forall i, (IZR (Z.abs (i - 30)) <= IZR 2464 / (IZR 128 * Rmin 1 (B2R done_)) + 4)%R -> plateau one i 0 = one).
Proof. exact plateau_case. Qed.
Print Assumptions C39_unit_gain_partial.

(** Every sub-sample position: the value at any position (a whole frame and a fraction in [0,1)), at any ratio. *)
Theorem C39_every_position_partial :
  forall inc coeffs x pos r (A : f32), (inc, coeffs) = fastest_table \/ (inc, coeffs) = mid_qual_table -> in_range r ->
  is_finite (snd pos) = true -> Bsign (snd pos) = false -> (0 <= B2R (snd pos) < 1)%R ->
  is_finite A = true -> (Rabs (B2R A) <= IZR (2 ^ 127))%R ->
  (forall i, (IZR (Z.abs (i - fst pos)) <= IZR (zlen coeffs) / (IZR inc * Rmin 1 (B2R r)) + 4)%R -> x i = A) ->
  let y := sinc_value inc coeffs x pos r in
  is_finite y = true /\ (Rabs (B2R y - B2R A) <= / 200 * Rabs (B2R A) + / IZR (2 ^ 149))%R /\
  ((1 <= B2R r)%R -> (Rabs (B2R y - B2R A) <= 3 / 1000000 * Rabs (B2R A) + / IZR (2 ^ 149))%R).
Proof. exact every_position. Qed.
(** A step at frame 100, at two thirds of the way from frame 40 to 41. *)
Example C39_position_case : in_range done_ /\ is_finite two_thirds = true /\ Bsign two_thirds = false /\ (0 <= B2R two_thirds < 1)%R /\
  forall i, (IZR (Z.abs (i - 40)) <= IZR 2464 / (IZR 128 * Rmin 1 (B2R done_)) + 4)%R -> (if i <? 100 then one else fzero) = one.
Proof. exact step_case. Qed.
Print Assumptions C39_every_position_partial.
