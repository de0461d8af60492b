(** The grid for the medium quality table: steps from 412/4096 to 886/4096 of the table increment. *)
From Coq Require Import ZArith List Bool.
From Verif Require Import GainGrid GainCheck GainUnits GainMid1.
Local Open Scope Z_scope.

Lemma mid_lines_2 : lines mid_tree mid_bends (Z.to_nat 2000) 22438 65536 (goal_of 491) (goal_of 491 / 250000) (goal_of 491 * 48 / 10000) 216 (886 * 491) (412 * 491) = true.
Proof. vm_cast_no_check (eq_refl true). Qed.
