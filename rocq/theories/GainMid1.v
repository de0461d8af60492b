(** The grid for the medium quality table: steps from 192/4096 to 412/4096 of the table increment. *)
From Coq Require Import ZArith List Bool.
From Verif Require Import GainGrid GainCheck GainUnits GainMidInts.
Local Open Scope Z_scope.

Definition mid_tree : tree (Z * Z) := plant 15 (pairs mid_ints).
Definition mid_bends : tree Z := plant 15 (bend_env mid_ints).
Lemma mid_lines_1 : lines mid_tree mid_bends (Z.to_nat 2000) 22438 53248 (goal_of 491) (goal_of 491 / 250000) (goal_of 491 * 48 / 10000) 184 (412 * 491) (192 * 491) = true.
Proof. vm_cast_no_check (eq_refl true). Qed.
