(** Vocabulary for C57 and C58: the varispeed player. *)
From Coq Require Import ZArith Reals List.
From Flocq Require Import Core IEEE754.BinarySingleNaN.
From Verif Require Import Base Types Api Heap ApiHist HoldSpec SincSpec SincApi CbSpec.
Import ListNotations.
Local Open Scope Z_scope.

(** The file of N frames, played over and over; silence before. *)
Definition looped (F : stream) (N : Z) : stream := fun i c => if i <? 0 then fzero else F (i mod N) c.

(** libm's sin: a number of [-1, 1] near the sine of its argument. *)
Definition sine_ok (sine : f64 -> f64) : Prop := forall x, is_finite x = true ->
  is_finite (sine x) = true /\ (Rabs (B2R (sine x)) <= 1)%R /\ (Rabs (B2R (sine x) - sin (B2R x)) <= / IZR (2 ^ 50))%R.

(** The speed in block k: 1 - sin (2 pi k / 20000) / 2, up to 1/1000000. *)
Definition speed_near (k : nat) (r : f64) : Prop :=
  in_range r /\ (1 / 2 <= B2R r <= 3 / 2)%R /\ (Rabs (B2R r - (1 - sin (2 * PI * INR k / 20000) / 2)) <= / 1000000)%R.
Definition speeds_near (speeds : list f64) : Prop := forall k r, nth_error speeds k = Some r -> speed_near k r.

(** The two arrays of the program: data.sf.buffer (4096 floats) and the buffer of the audio loop (2048 floats). *)
Definition vs_arrays (m : mem) (buffer samples : Z) : Prop :=
  0 < buffer /\ 0 < samples /\ buffer + 4096 <= 2 ^ 60 /\ samples + 2048 <= 2 ^ 60 /\ (buffer + 4096 <= samples \/ samples + 2048 <= buffer) /\
  (forall j, 0 <= j < 4096 -> m (buffer + j) <> None) /\ (forall j, 0 <= j < 2048 -> m (samples + j) <> None).

(** 1.5 *)
Definition top_speed : f64 := ddiv (d_of_Z 3) (d_of_Z 2).
(** The speeds the player names; the requests it makes, one of 64 frames for each speed. *)
Definition speedy (r : f64) : Prop := (1 / 2 <= B2R r <= B2R top_speed)%R.
Definition at_speeds (speeds : list f64) : list (f64 * Z + f64) := map (fun r => inl (r, 64)) speeds.

(** The converters: a sinc converter with a proper table, or one of the other two. *)
Definition a_converter (bld : build) (ty : Z) : Prop :=
  (exists t, sinc_table bld ty = Some t /\ table_fit t) \/ ty = SRC_ZERO_ORDER_HOLD \/ ty = SRC_LINEAR.

(** What the reads of the player make of the stream X. *)
Definition converts (bld : build) (ty ch : Z) (X : stream) (log : list event) (given : list f32) : Prop :=
  match sinc_table bld ty with
  | Some t => exists T T' o, sinc_new t ch T /\ sinc_streaming ch X speedy T 0 log given T' o
  | None => exists T T' o kd, ty = type_of kd /\ created ty ch T /\ streaming ch X speedy (lin_legal kd ch X) T 0 log given T' o
  end.
