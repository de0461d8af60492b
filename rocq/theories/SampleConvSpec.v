(** What the sample-format converters should do, in terms of real numbers only (independent of the model). *)
From Coq Require Import ZArith List Reals.
From Flocq Require Import Core IEEE754.BinarySingleNaN.
From Verif Require Import Base.
Local Open Scope Z_scope.

(** Clipping to an interval. *)
Definition clip (lo hi z : Z) : Z := Z.max lo (Z.min hi z).

(** [is_conv_to lo hi k x n]: n is the integer nearest to 2^k * x (ties to even), clipped to [lo,hi];
    infinities go to the ends.  Says nothing about NaN. *)
Definition is_conv_to (lo hi k : Z) (x : f32) (n : Z) : Prop :=
  match x with
  | B754_nan => True
  | B754_infinity s => n = if s then lo else hi
  | _ => n = clip lo hi (ZnearestE (IZR (2 ^ k) * B2R x))
  end.

(** The build-time flags describe the conversion instruction [lr] truthfully: in range it rounds to nearest;
    where the flag claims that the CPU clips, it does. *)
Definition truthful (clips_pos clips_neg : bool) (lr : f64 -> Z) : Prop :=
  (forall x, is_finite x = true -> (- 2 ^ 31 <= ZnearestE (B2R x) <= 2 ^ 31 - 1) -> lr x = ZnearestE (B2R x)) /\
  (clips_pos = true ->
     lr (B754_infinity false) = 2 ^ 31 - 1 /\
     forall x, is_finite x = true -> 2 ^ 31 - 1 < ZnearestE (B2R x) -> lr x = 2 ^ 31 - 1) /\
  (clips_neg = true ->
     lr (B754_infinity true) = - 2 ^ 31 /\
     forall x, is_finite x = true -> ZnearestE (B2R x) < - 2 ^ 31 -> lr x = - 2 ^ 31).

(** What an array converter may do: element i of the output is related to element i of the input for i < len, every
    other element of the output array is as before. *)
Definition array_post {A B} (rel : A -> B -> Prop) (inp : list A) (out : list B) (len : Z) (out' : list B) : Prop :=
  length out' = length out /\
  forall i : nat,
    (Z.of_nat i < len -> exists x y, nth_error inp i = Some x /\ nth_error out' i = Some y /\ rel x y) /\
    (len <= Z.of_nat i -> nth_error out' i = nth_error out i).

(** The two arrays have at least [len] elements. *)
Definition room {A B} (inp : list A) (out : list B) (len : Z) : Prop :=
  len <= Z.of_nat (length inp) /\ len <= Z.of_nat (length out).
