(** What the clients of tests/streaming_test.c and tests/termination_test.c may expect (C60, C62). *)
From Coq Require Import ZArith Reals.
From Flocq Require Import Core IEEE754.BinarySingleNaN.
From Verif Require Import Base HoldSpec.
Local Open Scope Z_scope.

(** The two arrays: N input frames holding X, room for L output frames, not touching (if the input comes first there is at least
    one sample between them). *)
Definition two_arrays (m : mem) (X : stream) (N L input output : Z) : Prop :=
  0 < input <= 2 ^ 59 /\ 0 < output <= 2 ^ 59 /\ (input + N < output \/ output + L <= input) /\
  (forall i, 0 <= i < N -> m (input + i) = Some (X i 0)) /\ (forall j, 0 <= j < L -> m (output + j) <> None).

(** Blocks of [B] frames fit into both arrays, ints can count them. *)
Definition block_fits (B N L : Z) : Prop := 1 <= B /\ B <= N < 2 ^ 31 /\ B <= L < 2 ^ 31.

(** The output array is longer than the conversion of N frames at ratio r can get. *)
Definition room_for (r : f64) (N L : Z) : Prop := (B2R r * IZR N + (B2R r + 1) * (1 + / IZR (2 ^ 20)) < IZR L)%R.

(** What the client of tests/termination_test.c needs (C62): lengths that ints can count, an output array of L frames and a limit of
    K frames that the conversion of N frames cannot reach or exceed. *)
Definition term_sizes (r : f64) (N K T L : Z) : Prop :=
  5 <= N <= 2 ^ 30 /\ 5 <= L <= 2 ^ 30 /\ 0 <= T <= 2 ^ 20 /\ room_for r N L /\ room_for r N (K + 1).

(** The [g] samples at [output] are Y; nothing else has changed. *)
Definition converted_to (m0 m : mem) (output g : Z) (Y : Z -> f32) : Prop :=
  (forall k, 0 <= k < g -> m (output + k) = Some (Y k)) /\ (forall a, ~ (output <= a < output + g) -> m a = m0 a).
