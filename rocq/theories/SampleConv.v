(** Model of the four sample-format array converters, /repo/src/samplerate.c:427-483. *)
From Coq Require Import ZArith List Bool.
From Flocq Require Import Core IEEE754.BinarySingleNaN.
From Verif Require Import Base.
Import ListNotations.
Local Open Scope Z_scope.

(** The shape shared by the four loops [for (int i = 0 ; i < len ; i++) out [i] = f (in [i])]
    (samplerate.c:430, 440, 455, 466).  [n] is the number of iterations left. Arrays are objects with bounds:
    leaving them is a fault.  Simplification: [in] and [out] are distinct objects (they have different C types). *)
Fixpoint conv_loop {A B} (f : A -> B) (inp : list A) (out : list B) (i : Z) (n : nat) : outcome (list B) :=
  match n with
  | O => Ok out
  | S k =>
      do x <- zget inp i ;
      do out' <- zset out i (f x) ;
      conv_loop f inp out' (i + 1) k
  end.

(** samplerate.c:431  out [i] = (float) (in [i] / (1.0 * 0x8000)) *)
Definition short_to_float (s : Z) : f32 :=
  f_of_d (ddiv (d_of_Z s) (dmul done_ (d_of_Z 0x8000))).

(** samplerate.c:441-448 (the cast (short) of an int truncates) *)
Definition float_to_short (x : f32) : Z :=
  let scaled_value := fmul x (f_of_Z 32768) in
  if fge scaled_value (f_of_Z 32767) then 32767
  else if fle scaled_value (f_of_Z (-32768)) then -32768
  else wrap_short (psf_lrintf scaled_value).

(** samplerate.c:456  out [i] = (float) (in [i] / (8.0 * 0x10000000)) *)
Definition int_to_float (n : Z) : f32 :=
  f_of_d (ddiv (d_of_Z n) (dmul (d_of_Z 8) (d_of_Z 0x10000000))).

(** samplerate.c:467-480.  [clips_pos], [clips_neg] are the build-time macros CPU_CLIPS_POSITIVE/NEGATIVE;
    [lr] is the target's [psf_lrint] ([Base.psf_lrint] on x86-64). *)
Definition float_to_int_gen (clips_pos clips_neg : bool) (lr : f64 -> Z) (x : f32) : Z :=
  let scaled_value := dmul (d_of_f x) (dmul (d_of_Z 8) (d_of_Z 0x10000000)) in
  if negb clips_pos && dge scaled_value (dmul done_ (d_of_Z 0x7FFFFFFF)) then 0x7fffffff
  else if negb clips_neg && dle scaled_value (dmul (d_of_Z (-8)) (d_of_Z 0x10000000)) then -1 - 0x7fffffff
  else lr scaled_value.

(** samplerate.c:427-435 *)
Definition src_short_to_float_array (inp : list Z) (out : list f32) (len : Z) : outcome (list f32) :=
  conv_loop short_to_float inp out 0 (Z.to_nat len).
(** samplerate.c:437-450 *)
Definition src_float_to_short_array (inp : list f32) (out : list Z) (len : Z) : outcome (list Z) :=
  conv_loop float_to_short inp out 0 (Z.to_nat len).
(** samplerate.c:452-460 *)
Definition src_int_to_float_array (inp : list Z) (out : list f32) (len : Z) : outcome (list f32) :=
  conv_loop int_to_float inp out 0 (Z.to_nat len).
(** samplerate.c:462-483 *)
Definition src_float_to_int_array (clips_pos clips_neg : bool) (lr : f64 -> Z)
    (inp : list f32) (out : list Z) (len : Z) : outcome (list Z) :=
  conv_loop (float_to_int_gen clips_pos clips_neg lr) inp out 0 (Z.to_nat len).
