(** Property C59: what is heard comes out.  Nothing but statements.

    [tones], [loudness], [up_to]: ToneSpec.v.  [within], [near_place]: AccSpec.v. *)
From Coq Require Import ZArith Reals List.
From Flocq Require Import Core IEEE754.BinarySingleNaN.
From Verif Require Import Base Types Api ApiHist HoldSpec HoldCore HoldRamp HoldMain SincSpec SincApi SincStream SincTables SincCases AccSpec GainCases ToneSpec ToneThms ToneCases.
Import ListNotations.
Local Open Scope Z_scope.

(** SRC_SINC_FASTEST at a constant ratio r >= 1: where the 40 frames around the place of output frame k are samples, to within d, of a sum of
    tones up to 2 radians per frame (64 % of half the sampling rate), the output sample is the value of the same sum of tones between the frames.
    Nothing else of the stream matters, but for its largest sample: A. *)
Theorem C59_tones :
  forall ch X r (A : f32) st log out st1 o1 k c,
  sinc_start fastest_table ch st -> in_range r -> (1 <= B2R r)%R -> within ch X A -> (6 * Rabs (B2R A) < IZR (2 ^ 128))%R -> (forall i j, i < 0 -> X i j = fzero) ->
  sinc_streaming ch X (eq r) st 0 log out st1 o1 -> 0 <= k < total_gen log -> 0 <= c < ch ->
  exists u t y, near_place r k u t /\ sample ch out k c = Some y /\ is_finite y = true /\
  forall sound d, up_to 2 sound -> (forall i, u - 19 <= i <= u + 20 -> (Rabs (B2R (X i c) - tones sound (IZR i)) <= d)%R) ->
  (Rabs (B2R y - tones sound (IZR u + t)) <= 3 / 20000 * loudness sound + 2 * d + 13 / 1000000 * Rabs (B2R A) + / IZR (2 ^ 149))%R.
Proof. exact tones_through. Qed.
(** 1, 0, -1, 0, 1, ..: a quarter of the sampling rate. *)
Example C59_case : sinc_start fastest_table 1 (fast_new 1) /\ (1 <= B2R done_)%R /\ within 1 quarters one /\ (6 * Rabs (B2R one) < IZR (2 ^ 128))%R /\ (forall i j, i < 0 -> quarters i j = fzero) /\
  (exists log out st' o', sinc_streaming 1 quarters (eq done_) (fast_new 1) 0 log out st' o' /\ total_gen log = 60) /\
  up_to 2 [(1, PI / 2, 0)%R] /\ loudness [(1, PI / 2, 0)%R] = 1%R /\ forall i, 0 <= i < 60 -> (Rabs (B2R (quarters i 0%Z) - tones [(1, PI / 2, 0)%R] (IZR i)) <= 0)%R.
Proof. exact quarter_case. Qed.
Print Assumptions C59_tones.
