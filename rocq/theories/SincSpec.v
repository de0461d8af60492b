(** What the sinc converters should compute, independent of the ring buffer and the loops of the model.

    An output at position p + t (whole frame p, fraction t in [0,1)) is a weighted sum of the input frames around p.
    The weights are read off the coefficient table by linear interpolation; the table is indexed with 12 fractional bits.
    Input frames before the start and after the end of the stream are zero. *)
From Coq Require Import ZArith List Bool.
From Flocq Require Import Core IEEE754.BinarySingleNaN.
From Verif Require Import Base HoldSpec LifeSpec.
Import ListNotations.
Local Open Scope Z_scope.

(** A coefficient table that also fits the index arithmetic of the process functions: not too long for the resolution of
    its index at the smallest ratio, 256 * length / increment is not exactly between two integers, and the filter reaches
    at least four frames to each side.  The tables of the library satisfy it (see SincTables.v). *)
Definition table_fit (t : Z * list f32) : Prop :=
  table_ok t /\
  let '(increment, coeffs) := t in
  300 * zlen coeffs <= (1024 + increment) * (16 * increment - 1) /\
  (512 * zlen coeffs) mod (2 * increment) <> increment /\ 4 * increment <= zlen coeffs.

(** The nearest integer. *)
Definition nearest (x : f64) : Z := Btrunc (Bnearbyint mode_NE x).

(** The weight at table index f / 4096. *)
Definition weight (coeffs : list f32) (f : Z) : f64 :=
  let c0 := nth (Z.to_nat (f / 4096)) coeffs fzero in
  let c1 := nth (Z.to_nat (f / 4096 + 1)) coeffs fzero in
  Bplus mode_NE (d_of_f c0)
    (Bmult mode_NE (Bmult mode_NE (d_of_Z (f mod 4096)) (Bdiv mode_NE (d_of_Z 1) (d_of_Z 4096)))
                   (d_of_f (Bminus mode_NE c1 c0))).

(** a + w (n-1) * x (n-1) + .. + w 0 * x 0, added up in this order. *)
Fixpoint weigh (w : Z -> f64) (x : Z -> f32) (n : nat) (a : f64) : f64 :=
  match n with
  | O => a
  | S k => weigh w x k (Bplus mode_NE a (Bmult mode_NE (w (Z.of_nat k)) (d_of_f (x (Z.of_nat k)))))
  end.

(** Distance of two neighbouring frames in the table: the increment, scaled down when the output rate is lower. *)
Definition table_step (increment : Z) (ratio : f64) : f64 :=
  Bmult mode_NE (d_of_Z increment) (if Bltb ratio (d_of_Z 1) then ratio else d_of_Z 1).
Definition fixed_point (x : f64) : Z := nearest (Bmult mode_NE x (d_of_Z 4096)).

(** The output at position p + t.  Sample x.(p - i) contributes with the weight at distance i + t (left wing), sample
    x.(p + 1 + i) with the weight at distance i + 1 - t (right wing), as far as the table reaches; t is rounded to the
    index resolution and may round up to the next frame.  [depth]: how many frames before p are available. *)
Definition sinc_sample (increment : Z) (coeffs : list f32) (x : Z -> f32) (depth : Z) (pos : position) (ratio : f64) : f32 :=
  let step := table_step increment ratio in
  let inc := fixed_point step in
  let last := (zlen coeffs - 2) * 4096 in
  let first := fixed_point (Bmult mode_NE (snd pos) step) in
  let up := first =? inc in
  let p := if up then fst pos + 1 else fst pos in
  let d := if up then depth + 1 else depth in
  let t := if up then 0 else first in
  let left := weigh (fun i => weight coeffs (t + i * inc)) (fun i => x (p - i)) (Z.to_nat (Z.min ((last - t) / inc) d + 1)) dzero in
  let right := weigh (fun i => weight coeffs (inc - t + i * inc)) (fun i => x (p + 1 + i)) (Z.to_nat ((last + t) / inc)) dzero in
  f_of_d (Bmult mode_NE (Bdiv mode_NE step (d_of_Z increment)) (Bplus mode_NE left right)).

(** The same with everything before p available (frames before the start of the stream are zero). *)
Definition sinc_value (increment : Z) (coeffs : list f32) (x : Z -> f32) (pos : position) (ratio : f64) : f32 :=
  let step := table_step increment ratio in
  let inc := fixed_point step in
  let last := (zlen coeffs - 2) * 4096 in
  let first := fixed_point (Bmult mode_NE (snd pos) step) in
  let p := if first =? inc then fst pos + 1 else fst pos in
  let t := if first =? inc then 0 else first in
  let left := weigh (fun i => weight coeffs (t + i * inc)) (fun i => x (p - i)) (Z.to_nat ((last - t) / inc + 1)) dzero in
  let right := weigh (fun i => weight coeffs (inc - t + i * inc)) (fun i => x (p + 1 + i)) (Z.to_nat ((last + t) / inc)) dzero in
  f_of_d (Bmult mode_NE (Bdiv mode_NE step (d_of_Z increment)) (Bplus mode_NE left right)).

(** The ratio used for output k of a call that asks for [frames] frames: like [HoldSpec.ramp], but differences up to 1e-10
    are ignored. *)
Definition sinc_ramp (last new : f64) (channels frames : Z) (k : nat) : f64 :=
  if Bleb (Babs (Bminus mode_NE last new)) (Bdiv mode_NE (d_of_Z 1) (d_of_Z 10000000000)) then last
  else Bplus mode_NE last
         (Bdiv mode_NE (Bmult mode_NE (d_of_Z (Z.of_nat k * channels)) (Bminus mode_NE new last))
                       (d_of_Z (frames * channels))).
