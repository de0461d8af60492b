(** Locality (C50) and time invariance (C51). *)
From Coq Require Import ZArith Reals.
From Flocq Require Import Core IEEE754.BinarySingleNaN.
From Verif Require Import Base HoldSpec.
Local Open Scope R_scope.

(** Channel c of X is channel c' of Y in all frames up to [width] away from place [p]. *)
Definition alike_near (X Y : stream) (c c' : Z) (p width : R) : Prop := forall i, Rabs (IZR i - p) <= width -> X i c = Y i c'.
(** How far the place of output frame k may be off. *)
Definition slack (r : f64) (k : Z) : R := IZR k * (1 + / B2R r) / IZR (2 ^ 52).

(** Y is X, D frames later. *)
Definition delayed (D : Z) (X Y : stream) : Prop := forall i c, Y (i + D)%Z c = X i c.
(** One output frame further is a / 2^e input frames further (e at most 40). *)
Definition dyadic (r : f64) (a e : Z) : Prop := (0 <= e <= 40)%Z /\ / B2R r = IZR a / IZR (2 ^ e).
