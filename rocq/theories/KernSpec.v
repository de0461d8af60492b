(** Textbook resampling (C49): the convolution of the stream with a kernel, a function of a real variable.

    The kernel is the piecewise linear function through the coefficients.  Nothing of the library's index arithmetic occurs here. *)
From Coq Require Import ZArith Reals List.
From Flocq Require Import Core IEEE754.BinarySingleNaN.
From Verif Require Import Base AccSpec.
Import ListNotations.
Local Open Scope R_scope.

(** The kernel at s >= 0, in table entries.  It ends at the last entry but one. *)
Definition kernel (coeffs : list f32) (s : R) : R :=
  if Rle_dec s (IZR (zlen coeffs - 2)) then
    on_line (B2R (nth (Z.to_nat (Zfloor s)) coeffs fzero)) (B2R (nth (Z.to_nat (Zfloor s + 1)) coeffs fzero)) (s - IZR (Zfloor s))
  else 0.

(** The stream convolved with the kernel at position u + t (0 <= t < 1): [width] frames to the left, u, u - 1, .., and to the right, u + 1,
    u + 2, ..  The kernel is stretched by 1 / scale, and scaled to compensate. *)
Definition convolved (increment : Z) (coeffs : list f32) (x : Z -> R) (u : Z) (t scale : R) (width : nat) : R :=
  scale *
  (sum_to (fun i => kernel coeffs (IZR increment * scale * (IZR i + t)) * x (u - i)%Z) width +
   sum_to (fun i => kernel coeffs (IZR increment * scale * (IZR i + 1 - t)) * x (u + 1 + i)%Z) width).
