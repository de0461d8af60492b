(** What the zero-order-hold and linear converters should compute, independent of the loops of the model.

    A stream position is a number of whole frames plus a fraction in [0,1).  Output k is taken at position k; the next
    position is 1/ratio further on, with the rounding of double arithmetic written out.  Frame -1 stands for the frame
    before the block (or, at the start of a stream, a copy of frame 0). *)
From Coq Require Import ZArith List Bool.
From Flocq Require Import Core IEEE754.BinarySingleNaN.
From Verif Require Import Base.
Import ListNotations.
Local Open Scope Z_scope.

Definition position : Type := Z * f64.

Definition fraction (x : f64) : f64 := Bminus mode_NE x (d_of_Z (Btrunc x)).
Definition split_pos (x : f64) : position := (Btrunc x, fraction x).

Definition move (p : position) (ratio : f64) : position :=
  let x := Bplus mode_NE (snd p) (Bdiv mode_NE (d_of_Z 1) ratio) in
  (fst p + Btrunc x, fraction x).

(** Position of output k when output j moves on by ratio [ratio j]. *)
Fixpoint pos_at (p0 : position) (ratio : nat -> f64) (k : nat) : position :=
  match k with
  | O => p0
  | S j => move (pos_at p0 ratio j) (ratio j)
  end.

(** The ratio used for output k of a call that asks for [frames] frames. *)
Definition ramp (last new : f64) (channels frames : Z) (k : nat) : f64 :=
  if Beqb last new then last
  else Bplus mode_NE last
         (Bdiv mode_NE (Bmult mode_NE (d_of_Z (Z.of_nat k * channels)) (Bminus mode_NE new last))
                       (d_of_Z (frames * channels))).

(** A multichannel stream: frame number, channel -> sample. *)
Definition stream := Z -> Z -> f32.

Definition zoh_value (X : stream) (p : position) (c : Z) : f32 := X (fst p - 1) c.

(** Linear interpolation, in double precision, rounded to float once at the end. *)
Definition interpolate (a b : f32) (t : f64) : f32 :=
  f_of_d (Bplus mode_NE (d_of_f a) (Bmult mode_NE t (Bminus mode_NE (d_of_f b) (d_of_f a)))).
Definition lin_value (X : stream) (p : position) (c : Z) : f32 :=
  interpolate (X (fst p - 1) c) (X (fst p) c) (snd p).

(** Memory contents: [n] interleaved frames at address [a] hold frames [first .. first+n) of X. *)
Definition holds (m : mem) (a : Z) (channels n : Z) (X : stream) (first : Z) : Prop :=
  forall i c, 0 <= i < n -> 0 <= c < channels -> m (a + (i * channels + c)) = Some (X (first + i) c).

(** [n] frames at address [a] are accessible. *)
Definition writable (m : mem) (a : Z) (channels n : Z) : Prop :=
  forall j, 0 <= j < n * channels -> m (a + j) <> None.

(** [m'] is [m] with exactly the [g] frames at [a] overwritten by [value k c] (frame k, channel c). *)
Definition wrote (m m' : mem) (a : Z) (channels g : Z) (value : Z -> Z -> f32) : Prop :=
  (forall k c, 0 <= k < g -> 0 <= c < channels -> m' (a + (k * channels + c)) = Some (value k c)) /\
  (forall b, ~ (a <= b < a + g * channels) -> m' b = m b).

(** Two address ranges do not overlap. *)
Definition disjoint_ranges (a la b lb : Z) : Prop := a + la <= b \/ b + lb <= a.

(** ** One call of a converter *)
Inductive kind := Zoh | Lin.

Definition value (kd : kind) (X : stream) (p : position) (c : Z) : f32 :=
  match kd with Zoh => zoh_value X p c | Lin => lin_value X p c end.

(** Can an output frame at position p be made from n input frames?  In exact arithmetic: u + t <= n for the zero-order
    hold, u + t < n for linear; here with the rounding of the double computation u * channels + channels * t. *)
Definition avail (kd : kind) (channels n : Z) (p : position) : bool :=
  let reached := Bplus mode_NE (d_of_Z (fst p * channels)) (Bmult mode_NE (d_of_Z channels) (snd p)) in
  match kd with
  | Zoh => Bleb reached (d_of_Z (n * channels))
  | Lin => Bltb reached (d_of_Z (n * channels))
  end.

(** Length of the longest run av 0, .., av (g-1) of available outputs, at most [room]. *)
Fixpoint served (av : nat -> bool) (room : nat) : nat :=
  match room with
  | O => O
  | S r => if av O then S (served (fun k => av (S k)) r) else O
  end.
