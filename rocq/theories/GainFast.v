(** The grid for the fastest table: steps from 239/4096 of the table increment to all of it. *)
From Coq Require Import ZArith List Bool.
From Verif Require Import GainGrid GainCheck GainUnits GainFastInts.
Local Open Scope Z_scope.

Definition fast_tree : tree (Z * Z) := plant 12 (pairs fast_ints).
Definition fast_bends : tree Z := plant 12 (bend_env fast_ints).
Lemma fast_lines_1 : lines fast_tree fast_bends (Z.to_nat 2000) 2464 20480 (goal_of 128) (goal_of 128 / 40000) (goal_of 128 * 46 / 10000) 88 (486 * 128) (239 * 128) = true.
Proof. vm_cast_no_check (eq_refl true). Qed.
Lemma fast_lines_2 : lines fast_tree fast_bends (Z.to_nat 2000) 2464 16384 (goal_of 128) (goal_of 128 / 40000) (goal_of 128 * 46 / 10000) 80 (989 * 128) (486 * 128) = true.
Proof. vm_cast_no_check (eq_refl true). Qed.
Lemma fast_lines_3 : lines fast_tree fast_bends (Z.to_nat 2000) 2464 16384 (goal_of 128) (goal_of 128 / 40000) (goal_of 128 * 46 / 10000) 88 (2013 * 128) (989 * 128) = true.
Proof. vm_cast_no_check (eq_refl true). Qed.
Lemma fast_lines_4 : lines fast_tree fast_bends (Z.to_nat 2000) 2464 16384 (goal_of 128) (goal_of 128 / 40000) (goal_of 128 * 46 / 10000) 96 (4096 * 128) (2013 * 128) = true.
Proof. vm_cast_no_check (eq_refl true). Qed.
(** The steps at ratios from 1: the table increment itself. *)
Lemma fast_line : line fast_tree (Z.to_nat 4000) (steps 2464 4096 (4096 * 128)) (4096 * 128) 4096 (goal_of 128) (goal_of 128 / 500000) (4096 * 128) 0 = true.
Proof. vm_cast_no_check (eq_refl true). Qed.
