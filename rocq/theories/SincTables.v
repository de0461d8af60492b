(** The coefficient tables in the source satisfy the hypotheses of the theorems about sinc converters. *)
From Coq Require Import ZArith List Bool Lia Floats.SpecFloat.
From Flocq Require Import Core IEEE754.BinarySingleNaN.
From Verif Require Import Base Types Heap LifeSpec SincSpec SincFastTable SincMidTable.
Import ListNotations.
Local Open Scope Z_scope.

(** A decimal constant m / 10^k: correctly rounded to double, then converted to coeff_t = float (src_sinc.c:41). *)
Definition of_decimal (x : Z * Z) : f32 :=
  let '(m, k) := x in
  match SFdiv 53 1024 (S754_finite (m <? 0) (Z.to_pos (Z.abs m)) 0) (S754_finite false (Z.to_pos (10 ^ k)) 0) with
  | S754_finite s q e => if m =? 0 then fzero else f_of_d (binary_normalize 53 1024 _ _ mode_NE (cond_Zopp s (Zpos q)) e s)
  | _ => fzero
  end.

(** fastest_coeffs.h and mid_qual_coeffs.h; high_qual_coeffs.h is not part of the repository snapshot. *)
Definition fastest_table : Z * list f32 := (fast_increment, map of_decimal fast_decimals).
Definition mid_qual_table : Z * list f32 := (mid_increment, map of_decimal mid_decimals).

Lemma fastest_length : zlen (snd fastest_table) = 2464.
Proof. unfold zlen, fastest_table, snd. rewrite map_length. vm_compute. reflexivity. Qed.
Lemma mid_qual_length : zlen (snd mid_qual_table) = 22438.
Proof. unfold zlen, mid_qual_table, snd. rewrite map_length. vm_compute. reflexivity. Qed.

Lemma fastest_fit : table_fit fastest_table.
Proof.
  assert (L := fastest_length). unfold fastest_table in *. cbn [snd] in L. unfold table_fit, table_ok. rewrite L.
  unfold fast_increment. repeat split; vm_compute; congruence.
Qed.
Lemma mid_qual_fit : table_fit mid_qual_table.
Proof.
  assert (L := mid_qual_length). unfold mid_qual_table in *. cbn [snd] in L. unfold table_fit, table_ok. rewrite L.
  unfold mid_increment. repeat split; vm_compute; congruence.
Qed.

(** Upstream's high_qual_coeffs.h has increment 2381 and 340239 coefficients: it would fit, whatever the values. *)
Lemma high_qual_fit coeffs : zlen coeffs = 340239 -> table_fit (2381, coeffs).
Proof. intros L. unfold table_fit, table_ok. rewrite L. repeat split; vm_compute; congruence. Qed.

(** The build of this repository: medium and fastest sinc (best quality is missing here). *)
Definition this_build : build := mkBuild None (Some mid_qual_table) (Some fastest_table).
