(** Property C49: the sinc converters convolve with a continuous kernel.  Nothing but statements.

    [convolved], [kernel]: KernSpec.v.  [within], [near_place]: AccSpec.v. *)
From Coq Require Import ZArith Reals List.
From Flocq Require Import Core IEEE754.BinarySingleNaN.
From Verif Require Import Base Types Api ApiHist HoldSpec HoldCore HoldRamp HoldMain SincSpec SincApi SincStream SincTables SincCases AccSpec KernSpec GainCases AccCases KernTables KernCases.
Import ListNotations.
Local Open Scope Z_scope.

(** Constant ratio r: output frame k is the convolution of the stream with the kernel, at a position that does not drift from k / r.
    Missing: inputs so large that the output may overflow. *)
Theorem C49_sinc_kernel_partial :
  forall inc coeffs ch X r (A : f32) st log out st1 o1 k c, (inc, coeffs) = fastest_table \/ (inc, coeffs) = mid_qual_table ->
  sinc_start (inc, coeffs) ch st -> in_range r -> within ch X A -> (6 * Rabs (B2R A) < IZR (2 ^ 128))%R -> (forall i j, i < 0 -> X i j = fzero) ->
  sinc_streaming ch X (eq r) st 0 log out st1 o1 -> 0 <= k < total_gen log -> 0 <= c < ch ->
  exists u t y, near_place r k u t /\ sample ch out k c = Some y /\ is_finite y = true /\
  forall width, (IZR (zlen coeffs) / (IZR inc * Rmin 1 (B2R r)) + 4 <= INR width)%R ->
  let error := Rabs (B2R y - convolved inc coeffs (fun i => B2R (X i c)) u t (Rmin 1 (B2R r)) width) in
  (error <= (21 + 12 / Rmin 1 (B2R r)) / 1000000 * Rabs (B2R A) + / IZR (2 ^ 149))%R /\
  ((1 <= B2R r)%R -> (error <= 13 / 1000000 * Rabs (B2R A) + / IZR (2 ^ 149))%R).
Proof. exact sinc_convolved. Qed.
(** A plateau of ones at ratio 1, and 24 frames on either side. *)
Example C49_case : within 1 (plateau one) one /\ (6 * Rabs (B2R one) < IZR (2 ^ 128))%R /\
  (exists log out st' o', sinc_streaming 1 (plateau one) (eq done_) (fast_new 1) 0 log out st' o' /\ total_gen log = 60) /\
  (IZR (zlen (snd fastest_table)) / (IZR (fst fastest_table) * Rmin 1 (B2R done_)) + 4 <= INR 24)%R.
Proof. exact kernel_case. Qed.
(** A tent. *)
Example C49_kernel : kernel [f_of_Z 2; f_of_Z 1; fzero] (/ 2) = (3 / 2)%R.
Proof. exact tent_kernel. Qed.
Print Assumptions C49_sinc_kernel_partial.
