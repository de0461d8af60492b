(** Sounds made of tones (C59): sums of cosines of the real time, in frames. *)
From Coq Require Import ZArith Reals List.
Import ListNotations.
Local Open Scope R_scope.

(** Amplitude, frequency in radians per frame, phase. *)
Definition tone : Type := R * R * R.
Fixpoint tones (l : list tone) (time : R) : R := match l with [] => 0 | (a, w, f) :: l => a * cos (w * time + f) + tones l time end.
Fixpoint loudness (l : list tone) : R := match l with [] => 0 | (a, _, _) :: l => Rabs a + loudness l end.
(** No frequency above w; half the sampling rate is PI. *)
Definition up_to (w : R) (l : list tone) : Prop := Forall (fun '(_, v, _) => Rabs v <= w) l.
