(** Speeds that change in the course of a stream (C52).

    The caller names a ratio with every request and can set one in between.  Every output frame is made at a ratio of its
    own: within a request the ratio moves in a straight line from the one last used to the one named. *)
From Coq Require Import ZArith Reals List.
From Flocq Require Import Core IEEE754.BinarySingleNaN.
From Verif Require Import Base Types ApiHist SincSpec.
Import ListNotations.
Local Open Scope R_scope.

(** rho 0 .. rho (g-1) begin at [start] and go straight for [new], which frame number n would have, up to eps. *)
Definition ramped (eps : R) (start new : f64) (n : Z) (g : nat) (rho : nat -> f64) : Prop :=
  (forall k, (k < g)%nat ->
     in_range (rho k) /\ Rmin (B2R start) (B2R new) <= B2R (rho k) <= Rmax (B2R start) (B2R new) /\
     Rabs (B2R (rho k) - (B2R start + INR k * (B2R new - B2R start) / IZR n)) <= eps) /\
  ((0 < g)%nat -> rho O = start).

(** rho k is the ratio of output frame k of the whole history; [last] is the ratio in force before it, if there is one. *)
Fixpoint follows (eps : R) (last : option f64) (log : list event) (rho : nat -> f64) : Prop :=
  match log with
  | [] => True
  | Ev_call d d' :: rest =>
      let start := match last with Some r => r | None => src_ratio d end in
      let g := Z.to_nat (output_frames_gen d') in
      ramped eps start (src_ratio d) (output_frames d) g rho /\
      follows eps (Some (match g with O => start | S j => rho j end)) rest (fun k => rho (g + k)%nat)
  | Ev_ratio r :: rest => follows eps (Some r) rest rho
  end.

(** The input frames that k output frames cover, one step of 1 / ratio for each, and the rounding of those steps. *)
Fixpoint travelled (rho : nat -> f64) (k : nat) : R := match k with O => 0 | S j => travelled rho j + / B2R (rho j) end.
Definition reached (rho : nat -> f64) (k : Z) (u : Z) (t : R) : Prop :=
  0 <= t < 1 /\ Rabs (IZR u + t - travelled rho (Z.to_nat k)) <= (IZR k + travelled rho (Z.to_nat k)) / IZR (2 ^ 52).

(** x with everything before frame [cut] silenced. *)
Definition from_on (cut : Z) (x : Z -> R) : Z -> R := fun i => if (i <? cut)%Z then 0 else x i.

(** How many frames before its place the filter for ratio r looks at. *)
Definition table_reach (increment : Z) (coeffs : list f32) (r : f64) : Z :=
  ((zlen coeffs - 2) * 4096 / fixed_point (table_step increment r))%Z.

(** The rounding of the place of frame k. *)
Definition wander (rho : nat -> f64) (k : Z) : R := (IZR k + travelled rho (Z.to_nat k)) / IZR (2 ^ 52).
(** G output frames cover N input frames: the place of the next frame is at most a short of N, that of every one that was made at most b beyond. *)
Definition covers (rho : nat -> f64) (G N : Z) (a b : R) : Prop :=
  IZR N - a <= travelled rho (Z.to_nat G) + wander rho G /\
  forall k, (0 <= k < G)%Z -> travelled rho (Z.to_nat k) <= IZR N + b + wander rho k.
