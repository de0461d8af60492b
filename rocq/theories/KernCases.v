(** Concrete cases for C49. *)
From Coq Require Import ZArith Reals List Lia Lra.
From Flocq Require Import Core IEEE754.BinarySingleNaN.
From Verif Require Import Base FloatFacts Types Api ApiHist HoldSpec HoldCore HoldRamp HoldMain SincSpec SincApi SincStream SincTables SincCases AccSpec KernSpec GainCases AccCases.
Import ListNotations.
Local Open Scope Z_scope.

Lemma kernel_case : within 1 (plateau one) one /\ (6 * Rabs (B2R one) < IZR (2 ^ 128))%R /\
  (exists log out st' o', sinc_streaming 1 (plateau one) (eq done_) (fast_new 1) 0 log out st' o' /\ total_gen log = 60) /\
  (IZR (zlen (snd fastest_table)) / (IZR (fst fastest_table) * Rmin 1 (B2R done_)) + 4 <= INR 24)%R.
Proof.
  destruct plateau_placed as (A & B & C). split; [exact A|]. split; [exact B|]. split; [exact C|].
  destruct done_val as [V _]. rewrite V, Rmin_left, fastest_length by lra. change (fst fastest_table) with 128. cbn [INR]. lra.
Qed.
Lemma tent_kernel : kernel [f_of_Z 2; f_of_Z 1; fzero] (/ 2) = (3 / 2)%R.
Proof.
  unfold kernel. replace (Zfloor (/ 2)) with 0 by (symmetry; apply Zfloor_imp; cbn; lra). destruct (Rle_dec _ _) as [Q|Q]; [|exfalso; apply Q; cbn; lra].
  change (Z.to_nat 0) with 0%nat. change (Z.to_nat (0 + 1)) with 1%nat. cbn [nth]. unfold on_line.
  rewrite (proj1 (f_of_Z_val 2 ltac:(lia))), (proj1 (f_of_Z_val 1 ltac:(lia))). lra.
Qed.
