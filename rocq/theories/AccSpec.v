(** The converters in real arithmetic, as a yardstick for the rounding errors of the library (C48).

    The positions and the table index with its 12 fractional bits are those of HoldSpec.v and SincSpec.v; the samples and
    weights are real numbers and nothing is rounded. *)
From Coq Require Import ZArith Reals List.
From Flocq Require Import Core IEEE754.BinarySingleNaN.
From Verif Require Import Base HoldSpec LifeSpec SincSpec.
Import ListNotations.
Local Open Scope R_scope.

(** The point at q (0 to 1) on the line from a to b. *)
Definition on_line (a b q : R) : R := a + q * (b - a).

(** g 0 + .. + g (n-1) *)
Fixpoint sum_to (g : Z -> R) (n : nat) : R := match n with O => 0 | S k => sum_to g k + g (Z.of_nat k) end.

(** The table at index f / 4096. *)
Definition table_at (coeffs : list f32) (f : Z) : R :=
  on_line (B2R (nth (Z.to_nat (f / 4096)) coeffs fzero)) (B2R (nth (Z.to_nat (f / 4096 + 1)) coeffs fzero)) (IZR (f mod 4096) / 4096).

(** The sample of a sinc converter at a position. *)
Definition ideal_sinc (increment : Z) (coeffs : list f32) (x : Z -> R) (pos : position) (ratio : f64) : R :=
  let inc := fixed_point (table_step increment ratio) in
  let last := ((zlen coeffs - 2) * 4096)%Z in
  let first := fixed_point (Bmult mode_NE (snd pos) (table_step increment ratio)) in
  let p := if (first =? inc)%Z then (fst pos + 1)%Z else fst pos in
  let t := if (first =? inc)%Z then 0%Z else first in
  Rmin 1 (B2R ratio) *
  (sum_to (fun i => table_at coeffs (t + i * inc) * x (p - i)%Z) (Z.to_nat ((last - t) / inc + 1)) +
   sum_to (fun i => table_at coeffs (inc - t + i * inc) * x (p + 1 + i)%Z) (Z.to_nat ((last + t) / inc))).

(** Z is a X + b Y, sample by sample. *)
Definition mixed (a b : R) (X Y Z : stream) : Prop := forall i c, B2R (Z i c) = a * B2R (X i c) + b * B2R (Y i c).
(** Finite samples, none larger than A. *)
Definition within (ch : Z) (X : stream) (A : f32) : Prop := forall i c, (0 <= c < ch)%Z -> is_finite (X i c) = true /\ Rabs (B2R (X i c)) <= Rabs (B2R A).
(** The place u + t of output frame k is k / r, up to one unit in 2^52 per frame. *)
Definition near_place (r : f64) (k : Z) (u : Z) (t : R) : Prop :=
  0 <= t < 1 /\ Rabs (IZR u + t - IZR k / B2R r) <= IZR k * (1 + / B2R r) / IZR (2 ^ 52).
