(** Code fragments that occur verbatim in several process functions. *)
From Coq Require Import ZArith List Bool.
From Verif Require Import Base Types.
Import ListNotations.
Local Open Scope Z_scope.

(** if (out_count > 0 && fabs (last_ratio - target) > threshold)
        src_ratio = last_ratio + out_gen * (target - last_ratio) / out_count ;
    src_zoh.c:89-90 and 108-109, src_linear.c:91-92 and 111-112 (threshold SRC_MIN_RATIO_DIFF = 1e-20, common.h:60);
    src_sinc.c:486-487 and the same lines of the other sinc variants (threshold 1e-10). *)
Definition ramp_ratio (threshold last_ratio target : f64) (out_gen out_count : Z) (src_ratio : f64) : f64 :=
  if (0 <? out_count) && dgt (dabs (dsub last_ratio target)) threshold
  then dadd last_ratio (ddiv (dmul (d_of_Z out_gen) (dsub target last_ratio)) (d_of_Z out_count))
  else src_ratio.

(** rem = fmod_one (input_index) ;
    pos += channels * psf_lrint (input_index - rem) ;
    input_index = rem ;
    src_zoh.c:101-103 and 118-121, src_linear.c:104-106 and 129-132 ([pos] = priv->in_used, a long).
    channels * psf_lrint () is an int product. *)
Definition advance (channels pos : Z) (input_index : f64) : outcome (Z * f64) :=
  let rem := fmod_one input_index in
  do p <- int_op (channels * psf_lrint (dsub input_index rem)) ;
  do pos' <- long_op (pos + p) ;
  Ok (pos', rem).

(** input_index += 1.0 / src_ratio   (src_zoh.c:98,117; src_linear.c:101,128) *)
Definition next_index (input_index src_ratio : f64) : f64 := dadd input_index (ddiv done_ src_ratio).

(** for (ch = 0 ; ch < channels ; ch++) last_value [ch] = data_in [off + ch] ;
    (src_zoh.c:67-68 and 132-133, src_linear.c:69-70 and 143-144); [n] iterations are left. *)
Fixpoint load_frame (m : mem) (addr : Z) (lv : list f32) (ch : Z) (n : nat) : outcome (list f32) :=
  match n with
  | O => Ok lv
  | S k =>
      do x <- mread m (addr + ch) ;
      do lv' <- zset lv ch x ;
      load_frame m addr lv' (ch + 1) k
  end.

(** if (in_used > in_count)
    {   input_index += (in_used - in_count) / channels ;
        in_used = in_count ;
    }
    (src_zoh.c:124-127, src_linear.c:135-138) *)
Definition carry_over (channels in_count in_used : Z) (input_index : f64) : outcome (Z * f64) :=
  if in_count <? in_used then
    do diff <- long_op (in_used - in_count) ;
    do q <- c_div diff channels ;
    Ok (in_count, dadd input_index (d_of_Z q))
  else Ok (in_used, input_index).
