(** The checks for fastest_coeffs.h. *)
From Coq Require Import ZArith List Bool.
From Verif Require Import ToneTrig ToneCheck GainFastInts.
Local Open Scope Z_scope.

Lemma fast_sizes : size_check fast_ints 2026216348 480539449610066753435103232 = true. Proof. vm_cast_no_check (eq_refl true). Qed.
Lemma fast_fine_sizes : fine_size_check fast_ints 2100000000 = true. Proof. vm_cast_no_check (eq_refl true). Qed.
Lemma fast_defects : defect_check fast_ints 647400 = true. Proof. vm_cast_no_check (eq_refl true). Qed.
Lemma fast_tones : blocks 16 225000000000000000000000000000000 (rows fast_ints) (turn 60 base base) (turn 60 (squares 5 base) (squares 5 base)) base (squares 5 base) = true.
 Proof. vm_cast_no_check (eq_refl true). Qed.
Lemma fast_last : coef fast_ints 2463 = 0 /\ Z.abs (coef fast_ints 2462) <= 131. Proof. vm_compute. split; [reflexivity|discriminate]. Qed.
