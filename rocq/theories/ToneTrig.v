(** Cosines and sines in fixed point, and their short Taylor sums. *)
From Coq Require Import ZArith Reals List Lia Lra Psatz.
Local Open Scope R_scope.

(** Short sums. *)
Definition cosP (q : R) : R := 1 - q * q / 2 + q * q * (q * q) / 24.
Definition sinP (q : R) : R := q - q * (q * q) / 6 + q * (q * q) * (q * q) / 120.
Lemma factR n : INR (fact (S n)) = INR (S n) * INR (fact n).
Proof. rewrite fact_simpl. apply mult_INR. Qed.
Ltac facts H := rewrite ?factR in H; cbn [INR] in H; change (INR (fact 0)) with 1 in H.
Lemma cosP_ok q : Rabs q <= 2 -> Rabs (cos q - cosP q) <= q ^ 6 / 720.
Proof.
  intros H. assert (H' : -2 <= q <= 2) by (unfold Rabs in H; destruct (Rcase_abs q); lra).
  destruct (pre_cos_bound q 1 (proj1 H') (proj2 H')) as [L U].
  change (2 * 1 + 1)%nat with 3%nat in L. change (2 * (1 + 1))%nat with 4%nat in U.
  unfold cos_approx, cos_term in L, U. cbn [sum_f_R0 Nat.mul Nat.add pow] in L, U. facts L. facts U.
  assert (N : 0 <= q * q) by nra. assert (N4 : q * q <= 4) by nra. unfold cosP. cbn [pow].
  set (v := q * q) in *. replace (q * (q * (q * (q * (q * (q * 1)))))) with (v * v * v) by (unfold v; ring).
  assert (L' : 1 - v / 2 + v * v / 24 - v * v * v / 720 <= cos q) by (eapply Rle_trans; [|exact L]; right; unfold v; field).
  assert (U' : cos q <= 1 - v / 2 + v * v / 24 - v * v * v / 720 + v * v * v * v / 40320) by (eapply Rle_trans; [exact U|]; right; unfold v; field).
  assert (0 <= v * v * v) by (apply Rmult_le_pos; nra). assert (v * v * v * v <= 4 * (v * v * v)) by nra. apply Rabs_le. lra.
Qed.
Lemma sinP_pos q : 0 <= q <= 2 -> Rabs (sin q - sinP q) <= q ^ 7 / 5040.
Proof.
  intros H'. destruct (pre_sin_bound q 1 (proj1 H') ltac:(lra)) as [L U].
  change (2 * 1 + 1)%nat with 3%nat in L. change (2 * (1 + 1))%nat with 4%nat in U.
  unfold sin_approx, sin_term in L, U. cbn [sum_f_R0 Nat.mul Nat.add pow] in L, U. facts L. facts U. unfold sinP. cbn [pow].
  set (v := q * q) in *. assert (N : 0 <= v) by (unfold v; nra). assert (N4 : v <= 4) by (unfold v; nra).
  replace (q * (q * (q * (q * (q * (q * (q * 1))))))) with (q * v * v * v) by (unfold v; ring).
  assert (L' : q - q * v / 6 + q * v * v / 120 - q * v * v * v / 5040 <= sin q) by (eapply Rle_trans; [|exact L]; right; unfold v; field).
  assert (U' : sin q <= q - q * v / 6 + q * v * v / 120 - q * v * v * v / 5040 + q * v * v * v * v / 362880) by (eapply Rle_trans; [exact U|]; right; unfold v; field).
  assert (0 <= q * v * v * v) by (repeat apply Rmult_le_pos; lra). assert (q * v * v * v * v <= 4 * (q * v * v * v)) by nra. apply Rabs_le. lra.
Qed.
Lemma sinP_ok q : Rabs q <= 2 -> Rabs (sin q - sinP q) <= Rabs q ^ 7 / 5040.
Proof.
  intros H. destruct (Rle_dec 0 q) as [P|P].
  - rewrite (Rabs_pos_eq q) in * by lra. apply sinP_pos. lra.
  - rewrite (Rabs_left q) in * by lra. replace (sin q - sinP q) with (- (sin (- q) - sinP (- q))) by (rewrite sin_neg; unfold sinP; field). rewrite Rabs_Ropp. apply sinP_pos. lra.
Qed.

(** Distance from the point of the unit circle at angle a. *)
Definition off (c s a : R) : R := dist_euc c s (cos a) (sin a).
Lemma off_pos c s a : 0 <= off c s a.
Proof. unfold off, dist_euc. apply sqrt_pos. Qed.
Lemma dist_parts x y x' y' : Rabs (x - x') <= dist_euc x y x' y' /\ Rabs (y - y') <= dist_euc x y x' y'.
Proof.
  unfold dist_euc. assert (0 <= Rsqr (x - x')) by apply Rle_0_sqr. assert (0 <= Rsqr (y - y')) by apply Rle_0_sqr.
  rewrite <- !sqrt_Rsqr_abs. split; apply sqrt_le_1_alt; lra.
Qed.
Lemma dist_sum x y x' y' : dist_euc x y x' y' <= Rabs (x - x') + Rabs (y - y').
Proof.
  unfold dist_euc. assert (P : 0 <= Rabs (x - x')) by apply Rabs_pos. assert (Q : 0 <= Rabs (y - y')) by apply Rabs_pos.
  rewrite <- (sqrt_Rsqr (Rabs (x - x') + Rabs (y - y'))) by lra. apply sqrt_le_1_alt. rewrite (Rsqr_abs (x - x')), (Rsqr_abs (y - y')). unfold Rsqr. nra.
Qed.
Lemma off_parts c s a e : off c s a <= e -> Rabs (c - cos a) <= e /\ Rabs (s - sin a) <= e.
Proof. intros H. destruct (dist_parts c s (cos a) (sin a)) as [P Q]. unfold off in H. lra. Qed.
(** Turning and scaling. *)
Lemma dist_mul x y x' y' c s : dist_euc (x * c - y * s) (x * s + y * c) (x' * c - y' * s) (x' * s + y' * c) = sqrt (c * c + s * s) * dist_euc x y x' y'.
Proof. unfold dist_euc. rewrite <- sqrt_mult_alt by nra. f_equal. unfold Rsqr. ring. Qed.
Lemma size_off c s a e : off c s a <= e -> sqrt (c * c + s * s) <= 1 + e.
Proof.
  intros H. pose proof (triangle c s 0 0 (cos a) (sin a)) as T. fold (off c s a) in T.
  assert (E : dist_euc c s 0 0 = sqrt (c * c + s * s)) by (unfold dist_euc; f_equal; unfold Rsqr; ring).
  assert (E1 : dist_euc (cos a) (sin a) 0 0 = 1).
  { unfold dist_euc. rewrite <- sqrt_1. f_equal. pose proof (sin2_cos2 a) as Q. unfold Rsqr in *. lra. }
  lra.
Qed.
Lemma off_mul c s a e c' s' b e' : off c s a <= e -> off c' s' b <= e' -> off (c * c' - s * s') (c * s' + s * c') (a + b) <= e * (1 + e') + e'.
Proof.
  intros H H'. unfold off. rewrite cos_plus, sin_plus.
  eapply Rle_trans; [apply (triangle _ _ _ _ (cos a * c' - sin a * s') (cos a * s' + sin a * c'))|]. apply Rplus_le_compat.
  - rewrite dist_mul. rewrite Rmult_comm. apply Rmult_le_compat; [apply off_pos|apply sqrt_pos|exact H|eapply size_off; exact H'].
  - assert (E : dist_euc (cos a * c' - sin a * s') (cos a * s' + sin a * c') (cos a * cos b - sin a * sin b) (sin a * cos b + cos a * sin b) = off c' s' b); [|rewrite E; exact H'].
    unfold off, dist_euc. f_equal. pose proof (sin2_cos2 a) as Q. unfold Rsqr in *.
    transitivity ((sin a * sin a + cos a * cos a) * ((c' - cos b) * (c' - cos b) + (s' - sin b) * (s' - sin b))); [ring|rewrite Q; ring].
Qed.

(** In fixed point with n fractional bits. *)
Definition unitb (n : Z) : R := IZR (2 ^ n).
Lemma unitb_pos n : (0 <= n)%Z -> 0 < unitb n.
Proof. intros H. apply IZR_lt. apply Z.pow_pos_nonneg; lia. Qed.
Definition around (n : Z) (z : Z * Z) (a e : R) : Prop := off (IZR (fst z) / unitb n) (IZR (snd z) / unitb n) a <= e.
Lemma around_weaken n z a e e' : around n z a e -> e <= e' -> around n z a e'.
Proof. unfold around. lra. Qed.
Lemma around_parts n z a e : around n z a e -> Rabs (IZR (fst z) / unitb n - cos a) <= e /\ Rabs (IZR (snd z) / unitb n - sin a) <= e.
Proof. apply off_parts. Qed.
Lemma shift_close x n : (0 <= n)%Z -> Rabs (IZR (Z.shiftr x n) - IZR x / unitb n) <= 1.
Proof.
  intros H. rewrite Z.shiftr_div_pow2 by exact H. pose proof (unitb_pos n H) as P. unfold unitb in *.
  assert (E : x = (2 ^ n * (x / 2 ^ n) + x mod 2 ^ n)%Z) by (apply Z.div_mod; apply Z.pow_nonzero; lia).
  assert (M : (0 <= x mod 2 ^ n < 2 ^ n)%Z) by (apply Z.mod_pos_bound; apply Z.pow_pos_nonneg; lia).
  destruct M as [M0 M1]. apply IZR_le in M0. apply IZR_lt in M1. rewrite E at 2. rewrite plus_IZR, mult_IZR.
  replace (IZR (x / 2 ^ n) - (IZR (2 ^ n) * IZR (x / 2 ^ n) + IZR (x mod 2 ^ n)) / IZR (2 ^ n)) with (- (IZR (x mod 2 ^ n) * / IZR (2 ^ n))) by (field; lra).
  assert (0 < / IZR (2 ^ n)) by (apply Rinv_0_lt_compat; exact P). assert (IZR (2 ^ n) * / IZR (2 ^ n) = 1) by (field; lra). apply Rabs_le. split; nra.
Qed.
Definition turn (n : Z) (z z' : Z * Z) : Z * Z :=
  (Z.shiftr (fst z * fst z' - snd z * snd z') n, Z.shiftr (fst z * snd z' + snd z * fst z') n).
Lemma around_turn n z a e z' b e' : (0 <= n)%Z -> around n z a e -> around n z' b e' -> around n (turn n z z') (a + b) (e * (1 + e') + e' + 2 / unitb n).
Proof.
  intros Hn H H'. unfold around in *. pose proof (off_mul _ _ _ _ _ _ _ _ H H') as M. pose proof (unitb_pos n Hn) as P.
  assert (I : 0 < / unitb n) by (apply Rinv_0_lt_compat; exact P). unfold off in *. unfold turn. cbn [fst snd].
  eapply Rle_trans; [apply (triangle _ _ _ _ (IZR (fst z) / unitb n * (IZR (fst z') / unitb n) - IZR (snd z) / unitb n * (IZR (snd z') / unitb n))
    (IZR (fst z) / unitb n * (IZR (snd z') / unitb n) + IZR (snd z) / unitb n * (IZR (fst z') / unitb n)))|].
  eapply Rle_trans; [apply Rplus_le_compat; [apply dist_sum|exact M]|]. rewrite Rplus_comm. apply Rplus_le_compat_l.
  assert (C : forall v w, IZR v = w * unitb n * unitb n -> Rabs (IZR (Z.shiftr v n) / unitb n - w) <= / unitb n).
  { intros v w E. pose proof (shift_close v n Hn) as S. rewrite E in S.
    replace (IZR (Z.shiftr v n) / unitb n - w) with ((IZR (Z.shiftr v n) - w * unitb n * unitb n / unitb n) * / unitb n) by (field; lra).
    rewrite Rabs_mult, (Rabs_pos_eq (/ unitb n)) by lra. rewrite <- (Rmult_1_l (/ unitb n)) at 2. apply Rmult_le_compat_r; lra. }
  eapply Rle_trans; [apply Rplus_le_compat; apply C|unfold Rdiv; lra].
  - rewrite minus_IZR, !mult_IZR. field. lra.
  - rewrite plus_IZR, !mult_IZR. field. lra.
Qed.
(** Fewer bits. *)
Definition coarse (m : Z) (z : Z * Z) : Z * Z := (Z.shiftr (fst z) m, Z.shiftr (snd z) m).
Lemma around_coarse n m z a e : (0 <= m <= n)%Z -> around n z a e -> around (n - m) (coarse m z) a (e + 2 / unitb (n - m)).
Proof.
  intros Hn H. unfold around in *. pose proof (unitb_pos (n - m) ltac:(lia)) as P. pose proof (unitb_pos m ltac:(lia)) as Pm.
  assert (I : 0 < / unitb (n - m)) by (apply Rinv_0_lt_compat; exact P).
  assert (E : unitb n = unitb (n - m) * unitb m) by (unfold unitb; rewrite <- mult_IZR, <- Z.pow_add_r by lia; f_equal; f_equal; lia).
  unfold off in *. unfold coarse. cbn [fst snd].
  eapply Rle_trans; [apply (triangle _ _ _ _ (IZR (fst z) / unitb n) (IZR (snd z) / unitb n))|].
  rewrite Rplus_comm. apply Rplus_le_compat; [exact H|]. eapply Rle_trans; [apply dist_sum|].
  assert (C : forall v, Rabs (IZR (Z.shiftr v m) / unitb (n - m) - IZR v / unitb n) <= / unitb (n - m)).
  { intros v. pose proof (shift_close v m ltac:(lia)) as S. rewrite E.
    replace (IZR (Z.shiftr v m) / unitb (n - m) - IZR v / (unitb (n - m) * unitb m)) with ((IZR (Z.shiftr v m) - IZR v / unitb m) * / unitb (n - m)) by (field; lra).
    rewrite Rabs_mult, (Rabs_pos_eq (/ unitb (n - m))) by lra. rewrite <- (Rmult_1_l (/ unitb (n - m))) at 2. apply Rmult_le_compat_r; lra. }
  pose proof (C (fst z)). pose proof (C (snd z)). unfold Rdiv in *. lra.
Qed.
