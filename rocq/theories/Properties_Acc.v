(** Properties C47 and C48: superposition; accuracy against the real-valued filter, without drift.  Nothing but statements.

    [mixed a b X Y Z]: Z = a X + b Y.  [within ch X A]: finite samples, none larger than A in magnitude.  [near_place r k u t]: the
    position u + t is k / r up to one unit in 2^52 per frame.  [on_line], [ideal_sinc]: AccSpec.v. *)
From Coq Require Import ZArith Reals List.
From Flocq Require Import Core IEEE754.BinarySingleNaN.
From Verif Require Import Base Types Api ApiHist HoldSpec HoldCore HoldRamp HoldMain HoldCases SincSpec SincApi SincStream SincTables SincCases AccSpec GainCases AccThms AccCases.
Import ListNotations.
Local Open Scope Z_scope.

(** ** C47: converting a mix is mixing the converted.  Zero-order hold: exactly. *)
Theorem C47_zoh_superposition :
  forall ch a b X Y Z st log out st1 o1 log' out' st1' o1' log'' out'' st1'' o1'',
  at_start Zoh ch st -> channels_fit ch -> mixed a b X Y Z ->
  streaming ch X in_range (fun _ _ _ => True) st 0 log out st1 o1 -> streaming ch Y in_range (fun _ _ _ => True) st 0 log' out' st1' o1' ->
  streaming ch Z in_range (fun _ _ _ => True) st 0 log'' out'' st1'' o1'' -> requests log = requests log' -> requests log = requests log'' ->
  log = log' /\ log = log'' /\ forall k c, 0 <= k < total_gen log -> 0 <= c < ch -> exists x y z,
    sample ch out k c = Some x /\ sample ch out' k c = Some y /\ sample ch out'' k c = Some z /\ (B2R z = a * B2R x + b * B2R y)%R.
Proof. exact zoh_mixed. Qed.

(** Linear: up to the rounding to float.  (Blocks as in C24.) *)
Theorem C47_linear_superposition_partial :
  forall ch a b X Y Z (Ax Ay Az : f32) st log out st1 o1 log' out' st1' o1' log'' out'' st1'' o1'',
  at_start Lin ch st -> channels_fit ch -> mixed a b X Y Z -> within ch X Ax -> within ch Y Ay -> within ch Z Az ->
  streaming ch X in_range (lin_legal Lin ch X) st 0 log out st1 o1 -> streaming ch Y in_range (lin_legal Lin ch Y) st 0 log' out' st1' o1' ->
  streaming ch Z in_range (lin_legal Lin ch Z) st 0 log'' out'' st1'' o1'' -> requests log = requests log' -> requests log = requests log'' ->
  log = log' /\ log = log'' /\ forall k c, 0 <= k < total_gen log -> 0 <= c < ch -> exists x y z,
    sample ch out k c = Some x /\ sample ch out' k c = Some y /\ sample ch out'' k c = Some z /\
    (Rabs (B2R z - (a * B2R x + b * B2R y)) <=
     / 16000000 * (Rabs (B2R Az) + Rabs a * Rabs (B2R Ax) + Rabs b * Rabs (B2R Ay)) + (1 + Rabs a + Rabs b) / IZR (2 ^ 149))%R.
Proof. exact lin_mixed. Qed.
Example C47_hold_case : forall kd, mixed 2 (-3) (whole zig) (whole pan) (whole both) /\
  within 2 (whole zig) (f_of_Z 100) /\ within 2 (whole pan) (f_of_Z 100) /\ within 2 (whole both) (f_of_Z 100) /\
  exists log out st1 o1 log' out' st1' o1' log'' out'' st1'' o1'',
  streaming 2 (whole zig) in_range (lin_legal kd 2 (whole zig)) (ex_conv kd 2) 0 log out st1 o1 /\
  streaming 2 (whole pan) in_range (lin_legal kd 2 (whole pan)) (ex_conv kd 2) 0 log' out' st1' o1' /\
  streaming 2 (whole both) in_range (lin_legal kd 2 (whole both)) (ex_conv kd 2) 0 log'' out'' st1'' o1'' /\
  requests log = requests log' /\ requests log = requests log'' /\ 0 < total_gen log.
Proof. exact mixed_case. Qed.

(** Sinc: up to rounding, as long as nothing overflows. *)
Theorem C47_sinc_superposition_partial :
  forall t ch a b X Y Z (Ax Ay Az : f32) st log out st1 o1 log' out' st1' o1' log'' out'' st1'' o1'',
  t = fastest_table \/ t = mid_qual_table -> sinc_start t ch st -> mixed a b X Y Z -> within ch X Ax -> within ch Y Ay -> within ch Z Az ->
  (6 * Rabs (B2R Ax) < IZR (2 ^ 128))%R -> (6 * Rabs (B2R Ay) < IZR (2 ^ 128))%R -> (6 * Rabs (B2R Az) < IZR (2 ^ 128))%R ->
  (forall i c, i < 0 -> X i c = fzero) -> (forall i c, i < 0 -> Y i c = fzero) -> (forall i c, i < 0 -> Z i c = fzero) ->
  sinc_streaming ch X in_range st 0 log out st1 o1 -> sinc_streaming ch Y in_range st 0 log' out' st1' o1' ->
  sinc_streaming ch Z in_range st 0 log'' out'' st1'' o1'' -> requests log = requests log' -> requests log = requests log'' ->
  log = log' /\ log = log'' /\ forall k c, 0 <= k < total_gen log -> 0 <= c < ch -> exists x y z,
    sample ch out k c = Some x /\ sample ch out' k c = Some y /\ sample ch out'' k c = Some z /\
    (Rabs (B2R z - (a * B2R x + b * B2R y)) <=
     3 / 10000000 * (Rabs (B2R Az) + Rabs a * Rabs (B2R Ax) + Rabs b * Rabs (B2R Ay)) + (1 + Rabs a + Rabs b) / IZR (2 ^ 149))%R.
Proof. exact sinc_mixed. Qed.
Example C47_sinc_case : mixed 2 3 seven skewed brewed /\ within 2 seven (f_of_Z 100) /\ within 2 skewed (f_of_Z 100) /\ within 2 brewed (f_of_Z 100) /\
  (6 * Rabs (B2R (f_of_Z 100)) < IZR (2 ^ 128))%R /\
  exists log out st1 o1 log' out' st1' o1' log'' out'' st1'' o1'',
  sinc_streaming 2 seven in_range (fast_new 2) 0 log out st1 o1 /\ sinc_streaming 2 skewed in_range (fast_new 2) 0 log' out' st1' o1' /\
  sinc_streaming 2 brewed in_range (fast_new 2) 0 log'' out'' st1'' o1'' /\
  requests log = requests log' /\ requests log = requests log'' /\ total_gen log = 2.
Proof. exact brewed_case. Qed.

(** ** C48: constant ratio r: output frame k is the filter, in real arithmetic, at a position that does not drift from k / r. *)
Theorem C48_zoh_accurate :
  forall ch X r st log out st1 o1 k c, at_start Zoh ch st -> channels_fit ch -> in_range r ->
  streaming ch X (eq r) (fun _ _ _ => True) st 0 log out st1 o1 -> 0 <= k < total_gen log -> 0 <= c < ch ->
  exists u t, near_place r k u t /\ sample ch out k c = Some (X (Z.max 0 (u - 1)) c).
Proof. exact zoh_placed. Qed.

(** Linear.  (Blocks as in C24.) *)
Theorem C48_linear_accurate_partial :
  forall ch X r (A : f32) st log out st1 o1 k c, at_start Lin ch st -> channels_fit ch -> in_range r -> within ch X A ->
  streaming ch X (eq r) (lin_legal Lin ch X) st 0 log out st1 o1 -> 0 <= k < total_gen log -> 0 <= c < ch ->
  exists u t y, near_place r k u t /\ sample ch out k c = Some y /\ is_finite y = true /\
    (Rabs (B2R y - on_line (B2R (X (Z.max 0 (u - 1)) c)) (B2R (X (Z.max 0 u) c)) t) <= / 16000000 * Rabs (B2R A) + / IZR (2 ^ 149))%R.
Proof. exact lin_placed. Qed.
Example C48_hold_case : forall kd, within 2 (whole zig) (f_of_Z 100) /\ exists log out st1 o1,
  streaming 2 (whole zig) (eq (d_of_Z 2)) (lin_legal kd 2 (whole zig)) (ex_conv kd 2) 0 log out st1 o1 /\ total_gen log = match kd with Zoh => 9 | Lin => 8 end.
Proof. exact placed_case. Qed.

(** Sinc.  Missing: inputs so large that the output may overflow. *)
Theorem C48_sinc_accurate_partial :
  forall inc coeffs ch X r (A : f32) st log out st1 o1 k c, (inc, coeffs) = fastest_table \/ (inc, coeffs) = mid_qual_table ->
  sinc_start (inc, coeffs) ch st -> in_range r -> within ch X A -> (6 * Rabs (B2R A) < IZR (2 ^ 128))%R -> (forall i j, i < 0 -> X i j = fzero) ->
  sinc_streaming ch X (eq r) st 0 log out st1 o1 -> 0 <= k < total_gen log -> 0 <= c < ch ->
  exists u t y, near_place r k u (B2R t) /\ is_finite t = true /\ sample ch out k c = Some y /\ is_finite y = true /\
    (Rabs (B2R y - ideal_sinc inc coeffs (fun i => B2R (X i c)) (u, t) r) <= 6 / 10000000 * Rabs (B2R A) + / IZR (2 ^ 149))%R.
Proof. exact sinc_placed. Qed.
Example C48_sinc_case : within 1 (plateau one) one /\ (6 * Rabs (B2R one) < IZR (2 ^ 128))%R /\
  exists log out st' o', sinc_streaming 1 (plateau one) (eq done_) (fast_new 1) 0 log out st' o' /\ total_gen log = 60.
Proof. exact plateau_placed. Qed.
Print Assumptions C47_zoh_superposition.
Print Assumptions C47_linear_superposition_partial.
Print Assumptions C47_sinc_superposition_partial.
Print Assumptions C48_zoh_accurate.
Print Assumptions C48_linear_accurate_partial.
Print Assumptions C48_sinc_accurate_partial.
