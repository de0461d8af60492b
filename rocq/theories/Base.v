(** Base layer of the model: outcomes, C integers, IEEE floats.

    The C code is modelled for an LP64 x86-64 build with SSE2 arithmetic (the default of
    /repo/src/common.h:17-18 on x86-64): [double] and [float] expressions are evaluated in their own
    format, each operation rounded to nearest-even (no x87 excess precision, no FMA contraction,
    no -ffast-math).  NaN payloads are not modelled (one NaN per format). *)
From Coq Require Import ZArith List Bool Lia.
From Flocq Require Import Core IEEE754.BinarySingleNaN.
Import ListNotations.
Local Open Scope Z_scope.

(** ** Outcomes

    Everything the C standard leaves undefined, every failed [assert] and exhausted loop fuel is a
    distinct outcome. *)
Inductive fault :=
| F_oob       (* access outside the object / unmapped address *)
| F_overflow  (* signed integer overflow or out-of-range shift *)
| F_div0      (* integer division by zero *)
| F_null      (* NULL dereference *)
| F_assert    (* assert () failed: the process aborts (undefined continuation under NDEBUG) *)
| F_fuel.     (* the loop did not finish within the given fuel *)

Inductive outcome (A : Type) :=
| Ok (a : A)
| Fault (f : fault).
Arguments Ok {A} a.
Arguments Fault {A} f.

Definition bind {A B} (x : outcome A) (k : A -> outcome B) : outcome B :=
  match x with
  | Ok a => k a
  | Fault f => Fault f
  end.

Declare Scope outcome_scope.
Delimit Scope outcome_scope with outcome.
Notation "'do' x <- e ; k" := (bind e (fun x => k))
  (at level 200, x pattern, e at level 100, k at level 200) : outcome_scope.
Notation "'check' b 'else' f ; k" := (if b then k else Fault f)
  (at level 200, b at level 100, f at level 100, k at level 200) : outcome_scope.
Open Scope outcome_scope.

(** ** C integers (LP64: int is 32 bits, long is 64 bits). *)
Definition int_min : Z := - 2 ^ 31.
Definition int_max : Z := 2 ^ 31 - 1.
Definition long_min : Z := - 2 ^ 63.
Definition long_max : Z := 2 ^ 63 - 1.
Definition in_int (z : Z) : bool := (int_min <=? z) && (z <=? int_max).
Definition in_long (z : Z) : bool := (long_min <=? z) && (z <=? long_max).

(** Signed arithmetic: overflow is undefined behaviour. *)
Definition int_op (z : Z) : outcome Z := if in_int z then Ok z else Fault F_overflow.
Definition long_op (z : Z) : outcome Z := if in_long z then Ok z else Fault F_overflow.

(** Conversion long -> int: implementation-defined, two's complement truncation on every supported compiler. *)
Definition wrap_int (z : Z) : Z := (z + 2 ^ 31) mod 2 ^ 32 - 2 ^ 31.
(** Conversion int -> short, same remark. *)
Definition wrap_short (z : Z) : Z := (z + 2 ^ 15) mod 2 ^ 16 - 2 ^ 15.

(** C's truncating division and remainder. *)
Definition c_div (a b : Z) : outcome Z := if b =? 0 then Fault F_div0 else Ok (Z.quot a b).
Definition c_rem (a b : Z) : outcome Z := if b =? 0 then Fault F_div0 else Ok (Z.rem a b).

(** ** IEEE formats *)
#[global] Instance Hprec64 : Prec_gt_0 53 := eq_refl.
#[global] Instance Hmax64 : Prec_lt_emax 53 1024 := eq_refl.
#[global] Instance Hprec32 : Prec_gt_0 24 := eq_refl.
#[global] Instance Hmax32 : Prec_lt_emax 24 128 := eq_refl.

Definition f64 := binary_float 53 1024.
Definition f32 := binary_float 24 128.

Definition dadd (x y : f64) : f64 := Bplus mode_NE x y.
Definition dsub (x y : f64) : f64 := Bminus mode_NE x y.
Definition dmul (x y : f64) : f64 := Bmult mode_NE x y.
Definition ddiv (x y : f64) : f64 := Bdiv mode_NE x y.
Definition dabs (x : f64) : f64 := Babs x.
Definition dlt (x y : f64) : bool := Bltb x y.
Definition dle (x y : f64) : bool := Bleb x y.
Definition dgt (x y : f64) : bool := Bltb y x.
Definition dge (x y : f64) : bool := Bleb y x.

Definition fmul (x y : f32) : f32 := Bmult mode_NE x y.
Definition fge (x y : f32) : bool := Bleb y x.
Definition fle (x y : f32) : bool := Bleb x y.
Definition fsub (x y : f32) : f32 := Bminus mode_NE x y.

(** Conversion of an integer (int or long) to floating point, rounded to nearest. *)
Definition d_of_Z (n : Z) : f64 := binary_normalize 53 1024 _ _ mode_NE n 0 false.
Definition f_of_Z (n : Z) : f32 := binary_normalize 24 128 _ _ mode_NE n 0 false.

(** (double) x for a float x, and (float) x for a double x. *)
Definition d_of_f (x : f32) : f64 :=
  match x with
  | B754_zero s => B754_zero s
  | B754_infinity s => B754_infinity s
  | B754_nan => B754_nan
  | B754_finite s m e _ => binary_normalize 53 1024 _ _ mode_NE (cond_Zopp s (Zpos m)) e s
  end.
Definition f_of_d (x : f64) : f32 :=
  match x with
  | B754_zero s => B754_zero s
  | B754_infinity s => B754_infinity s
  | B754_nan => B754_nan
  | B754_finite s m e _ => binary_normalize 24 128 _ _ mode_NE (cond_Zopp s (Zpos m)) e s
  end.

Definition dzero : f64 := B754_zero false.
Definition done_ : f64 := d_of_Z 1.
Definition fzero : f32 := B754_zero false.

(** Round to nearest integer, ties to even (0 for infinities and NaN; the callers below test for those). *)
Definition d_nearest (x : f64) : Z := Btrunc (Bnearbyint mode_NE x).
Definition f_nearest (x : f32) : Z := Btrunc (Bnearbyint mode_NE x).

(** common.h:212-215 [psf_lrint] = cvtsd2si, and common.h:204-207 [psf_lrintf] = cvtss2si:
    round to nearest-even; NaN, infinities and out-of-range values give the "integer indefinite" value
    0x80000000 = INT_MIN. *)
Definition psf_lrint (x : f64) : Z :=
  if is_finite x && in_int (d_nearest x) then d_nearest x else int_min.
Definition psf_lrintf (x : f32) : Z :=
  if is_finite x && in_int (f_nearest x) then f_nearest x else int_min.

(** common.h:234-243 [fmod_one]:  res = x - psf_lrint (x);  if (res < 0.0) return res + 1.0;  return res. *)
Definition fmod_one (x : f64) : f64 :=
  let res := dsub x (d_of_Z (psf_lrint x)) in
  if dlt res dzero then dadd res done_ else res.

(** common.h:57 SRC_MAX_RATIO *)
Definition SRC_MAX_RATIO : Z := 256.

(** common.h:245-248 [is_bad_src_ratio]: (ratio < (1.0 / SRC_MAX_RATIO) || ratio > (1.0 * SRC_MAX_RATIO)) *)
Definition is_bad_src_ratio (ratio : f64) : bool :=
  dlt ratio (ddiv done_ (d_of_Z SRC_MAX_RATIO)) || dgt ratio (dmul done_ (d_of_Z SRC_MAX_RATIO)).

(** Decimal literals 1e-k: the double nearest to 10^-k.  10^k is exactly representable for k <= 22, so the
    correctly rounded quotient 1/10^k is that double. *)
Definition lit_1em (k : Z) : f64 := ddiv done_ (d_of_Z (10 ^ k)).

(** ** Lists indexed by Z: reading or writing outside is [F_oob]. *)
Definition zlen {A} (l : list A) : Z := Z.of_nat (length l).

Definition zget {A} (l : list A) (i : Z) : outcome A :=
  if i <? 0 then Fault F_oob
  else match nth_error l (Z.to_nat i) with
       | Some x => Ok x
       | None => Fault F_oob
       end.

Definition zset {A} (l : list A) (i : Z) (x : A) : outcome (list A) :=
  if (i <? 0) || (zlen l <=? i) then Fault F_oob
  else Ok (firstn (Z.to_nat i) l ++ x :: skipn (Z.to_nat i + 1) l).

(** [slice l off n] = n elements from off; [blit l off src] overwrites l from off with src (memcpy/memmove/memset). *)
Definition slice {A} (l : list A) (off n : Z) : outcome (list A) :=
  if (off <? 0) || (n <? 0) || (zlen l <? off + n) then Fault F_oob
  else Ok (firstn (Z.to_nat n) (skipn (Z.to_nat off) l)).

Definition blit {A} (l : list A) (off : Z) (src : list A) : outcome (list A) :=
  if (off <? 0) || (zlen l <? off + zlen src) then Fault F_oob
  else Ok (firstn (Z.to_nat off) l ++ src ++ skipn (Z.to_nat off + length src) l).

(** ** The caller's memory: a flat map from addresses (counted in float-sized slots) to samples.
    [None] = not accessible.  Address 0 is NULL and is never mapped (see [wf_mem]). *)
Definition mem := Z -> option f32.

Definition mread (m : mem) (a : Z) : outcome f32 :=
  match m a with Some x => Ok x | None => Fault F_oob end.

Definition mwrite (m : mem) (a : Z) (x : f32) : outcome mem :=
  match m a with
  | Some _ => Ok (fun b => if b =? a then Some x else m b)
  | None => Fault F_oob
  end.

(** Read [n] consecutive slots. *)
Fixpoint mread_n (m : mem) (a : Z) (n : nat) : outcome (list f32) :=
  match n with
  | O => Ok []
  | S k => do x <- mread m a ; do l <- mread_n m (a + 1) k ; Ok (x :: l)
  end.
