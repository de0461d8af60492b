(** The grid for the medium quality table: steps from 1905/4096 to 4096/4096 of the table increment. *)
From Coq Require Import ZArith List Bool.
From Verif Require Import GainGrid GainCheck GainUnits GainMid1.
Local Open Scope Z_scope.

Lemma mid_lines_4 : lines mid_tree mid_bends (Z.to_nat 2000) 22438 57344 (goal_of 491) (goal_of 491 / 250000) (goal_of 491 * 48 / 10000) 216 (4096 * 491) (1905 * 491) = true.
Proof. vm_cast_no_check (eq_refl true). Qed.
(** The steps at ratios from 1: the table increment itself. *)
Lemma mid_line : line mid_tree (Z.to_nat 4000) (steps 22438 4096 (4096 * 491)) (4096 * 491) 4096 (goal_of 491) (goal_of 491 / 5000000) (4096 * 491) 0 = true.
Proof. vm_cast_no_check (eq_refl true). Qed.
