(** Rounding error bounds for binary64. *)
From Coq Require Import ZArith Reals Lia Lra Psatz.
From Flocq Require Import Core IEEE754.BinarySingleNaN.
From Verif Require Import Base FloatFacts.
Local Open Scope R_scope.

Lemma rnd64_err x e : (-1000 <= e)%Z -> Rabs x <= bpow radix2 e -> Rabs (rnd64 x - x) <= bpow radix2 (e - 53).
Proof.
  intros He Hx.
  assert (V : Valid_exp (FLT_exp (-1074) 53)) by (apply FLT_exp_valid; reflexivity).
  pose proof (error_le_half_ulp radix2 (FLT_exp (-1074) 53) (fun z => negb (Z.even z)) x) as H.
  eapply Rle_trans; [exact H|].
  assert (U : ulp radix2 (FLT_exp (-1074) 53) x <= ulp radix2 (FLT_exp (-1074) 53) (bpow radix2 e)).
  { apply ulp_le; [exact V|apply FLT_exp_monotone|]. rewrite (Rabs_pos_eq (bpow radix2 e)) by apply bpow_ge_0. exact Hx. }
  rewrite ulp_bpow in U. unfold FLT_exp in U at 2. rewrite Z.max_l in U by lia.
  replace (e - 53)%Z with (-1 + (e + 1 - 53))%Z by lia. rewrite bpow_plus. change (bpow radix2 (-1)) with (/ 2). lra.
Qed.

Lemma small_1000 x : Rabs x <= 1125899906842624 -> Rabs x <= bpow radix2 1000.
Proof.
  intros H. eapply Rle_trans; [exact H|]. change 1125899906842624 with (bpow radix2 50). apply bpow_le. lia.
Qed.
