(** The grid for the medium quality table: steps from 886/4096 to 1905/4096 of the table increment. *)
From Coq Require Import ZArith List Bool.
From Verif Require Import GainGrid GainCheck GainUnits GainMid1.
Local Open Scope Z_scope.

Lemma mid_lines_3 : lines mid_tree mid_bends (Z.to_nat 2000) 22438 57344 (goal_of 491) (goal_of 491 / 250000) (goal_of 491 * 48 / 10000) 200 (1905 * 491) (886 * 491) = true.
Proof. vm_cast_no_check (eq_refl true). Qed.
