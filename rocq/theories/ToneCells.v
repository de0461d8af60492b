(** From every fourth position to all positions. *)
From Coq Require Import ZArith Reals List Bool Lia Lra Psatz.
From Verif Require Import AccSpec ToneTrig ToneCheck ToneSound ToneTable ToneSums.
Import ListNotations.
Local Open Scope R_scope.

(** ** Cubic interpolation of a cosine *)
Lemma lag_facts t : (0 <= t <= 12)%Z -> (lag0 t + lag1 t + lag2 t + lag3 t = 384 /\
  Z.abs (lag0 t) + Z.abs (lag1 t) + Z.abs (lag2 t) + Z.abs (lag3 t) <= 624 /\
  lag0 t * (0 - t) + lag1 t * (4 - t) + lag2 t * (8 - t) + lag3 t * (12 - t) = 0 /\
  lag0 t * (0 - t) ^ 2 + lag1 t * (4 - t) ^ 2 + lag2 t * (8 - t) ^ 2 + lag3 t * (12 - t) ^ 2 = 0 /\
  lag0 t * (0 - t) ^ 3 + lag1 t * (4 - t) ^ 3 + lag2 t * (8 - t) ^ 3 + lag3 t * (12 - t) ^ 3 = 0 /\
  Z.abs (lag0 t * (0 - t) ^ 4 + lag1 t * (4 - t) ^ 4 + lag2 t * (8 - t) ^ 4 + lag3 t * (12 - t) ^ 4) <= 98304 /\
  Z.abs (lag0 t * (0 - t) ^ 5 + lag1 t * (4 - t) ^ 5 + lag2 t * (8 - t) ^ 5 + lag3 t * (12 - t) ^ 5) <= 2359296)%Z.
Proof.
  intros H. assert (C : (t = 0 \/ t = 1 \/ t = 2 \/ t = 3 \/ t = 4 \/ t = 5 \/ t = 6 \/ t = 7 \/ t = 8 \/ t = 9 \/ t = 10 \/ t = 11 \/ t = 12)%Z) by lia.
  repeat (destruct C as [->|C]; [vm_compute; repeat split; discriminate|]). subst t. vm_compute. repeat split; discriminate.
Qed.
Definition lag_sum (t : Z) (f : R -> R) : R := IZR (lag0 t) * f (IZR (0 - t)) + IZR (lag1 t) * f (IZR (4 - t)) + IZR (lag2 t) * f (IZR (8 - t)) + IZR (lag3 t) * f (IZR (12 - t)).
Lemma lag_powers t n : lag_sum t (fun x => x ^ n) = IZR (lag0 t * (0 - t) ^ Z.of_nat n + lag1 t * (4 - t) ^ Z.of_nat n + lag2 t * (8 - t) ^ Z.of_nat n + lag3 t * (12 - t) ^ Z.of_nat n).
Proof. unfold lag_sum. rewrite !plus_IZR, !mult_IZR, <- !pow_IZR. reflexivity. Qed.
Lemma lag_close t f g e : (0 <= t <= 12)%Z -> (forall x, Rabs x <= 12 -> Rabs (f x - g x) <= e) -> Rabs (lag_sum t f - lag_sum t g) <= 624 * e.
Proof.
  intros Ht H. destruct (lag_facts t Ht) as (_ & S & _). apply IZR_le in S. rewrite !plus_IZR, !abs_IZR in S.
  assert (B : forall k, (0 <= k <= 12)%Z -> Rabs (IZR (k - t)) <= 12) by (intros k Hk; rewrite <- abs_IZR; apply IZR_le; lia).
  assert (P : 0 <= e) by (eapply Rle_trans; [apply Rabs_pos|apply (H 0); rewrite Rabs_R0; lra]).
  assert (T : forall l k, (0 <= k <= 12)%Z -> Rabs (IZR l * f (IZR (k - t)) - IZR l * g (IZR (k - t))) <= Rabs (IZR l) * e).
  { intros l k Hk. rewrite <- Rmult_minus_distr_l, Rabs_mult. apply Rmult_le_compat_l; [apply Rabs_pos|]. apply H, B, Hk. }
  pose proof (T (lag0 t) 0%Z ltac:(lia)) as T0. pose proof (T (lag1 t) 4%Z ltac:(lia)) as T1. pose proof (T (lag2 t) 8%Z ltac:(lia)) as T2. pose proof (T (lag3 t) 12%Z ltac:(lia)) as T3.
  unfold lag_sum. match goal with |- Rabs (?a + ?b + ?c + ?d - (?a' + ?b' + ?c' + ?d')) <= _ => replace (a + b + c + d - (a' + b' + c' + d')) with ((a - a') + (b - b') + (c - c') + (d - d')) by ring end.
  eapply Rle_trans; [apply Rabs_triang|]. eapply Rle_trans; [apply Rplus_le_compat_r, Rabs_triang|]. eapply Rle_trans; [apply Rplus_le_compat_r, Rplus_le_compat_r, Rabs_triang|].
  assert ((Rabs (IZR (lag0 t)) + Rabs (IZR (lag1 t)) + Rabs (IZR (lag2 t)) + Rabs (IZR (lag3 t))) * e <= 624 * e) by (apply Rmult_le_compat_r; lra). lra.
Qed.
Lemma lag_cos t w psi : (0 <= t <= 12)%Z -> Rabs w <= 2 -> Rabs (lag_sum t (fun d => cos (psi + w * (d / 128))) - 384 * cos psi) <= / 2000.
Proof.
  intros Ht Hw. set (c := w / 128).
  assert (Hc : Rabs c <= / 64). { unfold c, Rdiv. rewrite Rabs_mult, (Rabs_pos_eq (/ 128)) by lra. lra. }
  assert (E : Rabs (lag_sum t (fun d => cos (psi + w * (d / 128))) - lag_sum t (fun d => cos psi * cosP (c * d) - sin psi * sinP (c * d))) <= 624 * (/ 10000000)).
  { apply lag_close; [exact Ht|]. intros x Hx. replace (psi + w * (x / 128)) with (psi + c * x) by (unfold c; field). rewrite cos_plus.
    assert (Q : Rabs (c * x) <= 3 / 16) by (rewrite Rabs_mult; pose proof (Rabs_pos c); pose proof (Rabs_pos x); nra).
    pose proof (cosP_ok (c * x) ltac:(lra)) as PC. pose proof (sinP_ok (c * x) ltac:(lra)) as PS. set (b := c * x) in *.
    replace (cos psi * cos b - sin psi * sin b - (cos psi * cosP b - sin psi * sinP b)) with (cos psi * (cos b - cosP b) + - (sin psi * (sin b - sinP b))) by ring.
    eapply Rle_trans; [apply Rabs_triang|]. rewrite Rabs_Ropp, !Rabs_mult.
    assert (Rabs (cos psi) <= 1) by (apply Rabs_le; apply COS_bound). assert (Rabs (sin psi) <= 1) by (apply Rabs_le; apply SIN_bound).
    assert (B6 : b ^ 6 <= (3 / 16) ^ 6).
    { replace (b ^ 6) with (Rabs b ^ 6); [apply pow_incr; split; [apply Rabs_pos|exact Q]|]. rewrite RPow_abs, Rabs_pos_eq; [reflexivity|]. replace (b ^ 6) with (b ^ 3 * b ^ 3) by ring. nra. }
    assert (B7 : Rabs b ^ 7 <= (3 / 16) ^ 7) by (apply pow_incr; split; [apply Rabs_pos|exact Q]).
    assert (M : forall p q r, 0 <= q -> Rabs p <= 1 -> q <= r -> Rabs p * q <= r) by (intros p q r Q0 P1 QR; pose proof (Rabs_pos p); nra).
    pose proof (M _ _ _ (Rabs_pos (cos b - cosP b)) H PC). pose proof (M _ _ _ (Rabs_pos (sin b - sinP b)) H0 PS). cbn [pow] in B6, B7. cbn [pow] in *. lra. }
  destruct (lag_facts t Ht) as (S0 & _ & S1 & S2 & S3 & S4 & S5).
  assert (L0 := lag_powers t 0). assert (L1 := lag_powers t 1). assert (L2 := lag_powers t 2). assert (L3 := lag_powers t 3). assert (L4 := lag_powers t 4). assert (L5 := lag_powers t 5).
  change (Z.of_nat 0) with 0%Z in L0. change (Z.of_nat 1) with 1%Z in L1. change (Z.of_nat 2) with 2%Z in L2. change (Z.of_nat 3) with 3%Z in L3. change (Z.of_nat 4) with 4%Z in L4. change (Z.of_nat 5) with 5%Z in L5.
  rewrite !Z.pow_0_r, !Z.mul_1_r, S0 in L0. rewrite !Z.pow_1_r, S1 in L1. rewrite S2 in L2. rewrite S3 in L3.
  apply IZR_le in S4, S5. rewrite abs_IZR in S4, S5. rewrite <- L4 in S4. rewrite <- L5 in S5.
  assert (V : lag_sum t (fun d => cos psi * cosP (c * d) - sin psi * sinP (c * d)) =
    384 * cos psi + cos psi * (c ^ 4 / 24 * lag_sum t (fun x => x ^ 4)) - sin psi * (c ^ 5 / 120 * lag_sum t (fun x => x ^ 5))).
  { transitivity (cos psi * (lag_sum t (fun x => x ^ 0) - c ^ 2 / 2 * lag_sum t (fun x => x ^ 2) + c ^ 4 / 24 * lag_sum t (fun x => x ^ 4)) -
      sin psi * (c * lag_sum t (fun x => x ^ 1) - c ^ 3 / 6 * lag_sum t (fun x => x ^ 3) + c ^ 5 / 120 * lag_sum t (fun x => x ^ 5))).
    - unfold lag_sum, cosP, sinP. field.
    - rewrite L0, L1, L2, L3. field. }
  assert (C4 : Rabs (c ^ 4) <= (/ 64) ^ 4) by (rewrite <- RPow_abs; apply pow_incr; split; [apply Rabs_pos|exact Hc]).
  assert (C5 : Rabs (c ^ 5) <= (/ 64) ^ 5) by (rewrite <- RPow_abs; apply pow_incr; split; [apply Rabs_pos|exact Hc]).
  assert (B4 : Rabs (c ^ 4 / 24 * lag_sum t (fun x => x ^ 4)) <= (/ 64) ^ 4 / 24 * 98304).
  { rewrite Rabs_mult. unfold Rdiv. rewrite (Rabs_mult (c ^ 4)), (Rabs_pos_eq (/ 24)) by lra. pose proof (Rabs_pos (c ^ 4)).
    apply Rmult_le_compat; [apply Rmult_le_pos; lra|apply Rabs_pos|apply Rmult_le_compat_r; lra|exact S4]. }
  assert (B5 : Rabs (c ^ 5 / 120 * lag_sum t (fun x => x ^ 5)) <= (/ 64) ^ 5 / 120 * 2359296).
  { rewrite Rabs_mult. unfold Rdiv. rewrite (Rabs_mult (c ^ 5)), (Rabs_pos_eq (/ 120)) by lra. pose proof (Rabs_pos (c ^ 5)).
    apply Rmult_le_compat; [apply Rmult_le_pos; lra|apply Rabs_pos|apply Rmult_le_compat_r; lra|exact S5]. }
  set (X := c ^ 4 / 24 * _) in *. set (Y := c ^ 5 / 120 * _) in *.
  assert (W : Rabs (cos psi * X - sin psi * Y) <= Rabs X + Rabs Y). { pose proof (abs_trig 1 X psi Y) as A. rewrite !Rmult_1_l, Rabs_R1, Rmult_1_l in A. exact A. }
  rewrite V in E. replace (384 * cos psi + cos psi * X - sin psi * Y) with (384 * cos psi + (cos psi * X - sin psi * Y)) in E by ring.
  apply abs_inv in E. apply abs_inv in W. cbn [pow] in B4, B5. apply Rabs_le. lra.
Qed.

Section Table.
  Variable ints : list Z.
  Variables (lim size six eps def eps1 : Z).
  Hypothesis Hc : checked ints lim.
  Hypothesis Hs : size_check ints size six = true.
  Hypothesis He : IZR lim / IZR (2 ^ 55 * 120) / unitb 30 + 2 * (660 / 1073741824 * IZR size + IZR six / IZR (600 * 2 ^ 66)) <= IZR eps.
  Hypothesis Hd : defect_check ints def = true.
  Notation K q := (IZR (coef ints q)).
  Lemma fine_nth q : (0 <= q <= 128)%Z -> nth (Z.to_nat q) (fine_rows ints) [] = pick ints 20 q.
  Proof.
    intros H. unfold fine_rows. rewrite (nth_indep _ _ (pick ints 20 (Z.of_nat 0))) by (rewrite map_length, seq_length; lia).
    rewrite (map_nth (fun r => pick ints 20 (Z.of_nat r))). rewrite seq_nth by lia. f_equal. lia.
  Qed.
  Lemma first_node_ok r : (0 <= r <= 128)%Z -> exists l, first_node r = (4 * Z.of_nat l)%Z /\ (l <= 29)%nat /\ (0 <= r - first_node r <= 12)%Z.
  Proof.
    intros H. exists (Z.to_nat (Z.max 0 (Z.min 29 (r / 4 - 1)))). unfold first_node. assert (D := Z.div_mod r 4 ltac:(lia)). assert (M := Z.mod_pos_bound r 4 ltac:(lia)).
    rewrite Z2Nat.id by lia. repeat split; lia.
  Qed.
  Lemma mix_defect x a u r : (forall n, Rabs (x n) <= a) -> (0 <= r <= 128)%Z -> let b := first_node r in let t := (r - b)%Z in
    Rabs (384 * mix ints x u r - (IZR (lag0 t) * mix ints x u b + IZR (lag1 t) * mix ints x u (b + 4) + IZR (lag2 t) * mix ints x u (b + 8) + IZR (lag3 t) * mix ints x u (b + 12))) <= a * IZR def.
  Proof.
    intros Hx Hr b t. destruct (first_node_ok r Hr) as (l & El & Hl & Ht). fold b in El, Ht.
    assert (P : 0 <= a) by (eapply Rle_trans; [apply Rabs_pos|apply (Hx 0%Z)]).
    unfold defect_check in Hd. cbv zeta in Hd. rewrite forallb_forall in Hd. specialize (Hd (Z.to_nat r)). rewrite in_seq, Z2Nat.id in Hd by lia. specialize (Hd ltac:(lia)).
    apply Z.leb_le in Hd. fold b in Hd. rewrite !fine_nth in Hd by lia. fold t in Hd. apply IZR_le in Hd. rewrite plus_IZR, !defects_sum in Hd.
    set (F1 := sum_to _ 20) in Hd. set (F2 := sum_to _ 20) in Hd.
    eapply Rle_trans; [|apply Rmult_le_compat_l; [exact P|exact Hd]]. rewrite Rmult_plus_distr_l. unfold F1, F2. rewrite <- !sum_scale. unfold mix.
    match goal with |- Rabs (384 * (?A + ?B) - (_ * (?A0 + ?B0) + _ * (?A1 + ?B1) + _ * (?A2 + ?B2) + _ * (?A3 + ?B3))) <= _ =>
      replace (384 * (A + B) - (IZR (lag0 t) * (A0 + B0) + IZR (lag1 t) * (A1 + B1) + IZR (lag2 t) * (A2 + B2) + IZR (lag3 t) * (A3 + B3))) with
      ((384 * A - (IZR (lag0 t) * A0 + IZR (lag1 t) * A1 + IZR (lag2 t) * A2 + IZR (lag3 t) * A3)) + (384 * B - (IZR (lag0 t) * B0 + IZR (lag1 t) * B1 + IZR (lag2 t) * B2 + IZR (lag3 t) * B3))) by ring end.
    assert (L : forall (g : Z -> R) q0 q1 q2 q3 q4, (forall n, Rabs (g n) <= a) ->
      Rabs (384 * sum_to (fun i => K (q0 + 128 * i) * g i) 20 - (IZR (lag0 t) * sum_to (fun i => K (q1 + 128 * i) * g i) 20 + IZR (lag1 t) * sum_to (fun i => K (q2 + 128 * i) * g i) 20 +
        IZR (lag2 t) * sum_to (fun i => K (q3 + 128 * i) * g i) 20 + IZR (lag3 t) * sum_to (fun i => K (q4 + 128 * i) * g i) 20)) <=
      sum_to (fun i => a * Rabs (384 * K (q0 + 128 * i) - (IZR (lag0 t) * K (q1 + 128 * i) + IZR (lag1 t) * K (q2 + 128 * i) + IZR (lag2 t) * K (q3 + 128 * i) + IZR (lag3 t) * K (q4 + 128 * i)))) 20).
    { intros g q0 q1 q2 q3 q4 Hg.
      match goal with |- Rabs ?x <= _ => replace x with (sum_to (fun i => 1 * (384 * (K (q0 + 128 * i) * g i)) + -1 * (1 * (1 * (IZR (lag0 t) * (K (q1 + 128 * i) * g i) + IZR (lag1 t) * (K (q2 + 128 * i) * g i)) +
        1 * (IZR (lag2 t) * (K (q3 + 128 * i) * g i) + IZR (lag3 t) * (K (q4 + 128 * i) * g i))))) 20) by (rewrite sum_lin, !sum_scale, sum_lin, !sum_lin; ring) end.
      apply sum_bound. intros i _.
      match goal with |- Rabs ?x <= a * Rabs ?y => replace x with (g i * y) by ring end. rewrite Rabs_mult. apply Rmult_le_compat_r; [apply Rabs_pos|apply Hg]. }
    eapply Rle_trans; [apply Rabs_triang|]. apply Rplus_le_compat; apply L; intros n; apply Hx.
  Qed.
  Hypothesis H1 : (def + 624 * eps + 536871 <= 384 * eps1)%Z.
  Lemma every_pos a w f u r : Rabs w <= 2 -> (0 <= r <= 128)%Z -> Rabs (mix ints (sine a w f) u r - IZR (2 ^ 30) * at_pos a w f u r) <= Rabs a * IZR eps1.
  Proof.
    intros Hw Hr. destruct (first_node_ok r Hr) as (l & El & Hl & Ht). set (b := first_node r) in *. set (t := (r - b)%Z) in *.
    assert (Hx : forall n, Rabs (sine a w f n) <= Rabs a).
    { intros n. unfold sine. rewrite Rabs_mult. rewrite <- (Rmult_1_r (Rabs a)) at 2. apply Rmult_le_compat_l; [apply Rabs_pos|]. apply Rabs_le, COS_bound. }
    pose proof (mix_defect (sine a w f) (Rabs a) u r Hx Hr) as D. fold b in D. cbv zeta in D. fold t in D.
    pose proof (fun k (Hk : (k <= 32)%nat) => node ints lim size six eps Hc Hs He a w f u k Hw Hk) as N.
    pose proof (N l ltac:(lia)) as N0. pose proof (N (l + 1)%nat ltac:(lia)) as N1. pose proof (N (l + 2)%nat ltac:(lia)) as N2. pose proof (N (l + 3)%nat ltac:(lia)) as N3.
    replace (4 * Z.of_nat (l + 1))%Z with (b + 4)%Z in N1 by lia. replace (4 * Z.of_nat (l + 2))%Z with (b + 8)%Z in N2 by lia. replace (4 * Z.of_nat (l + 3))%Z with (b + 12)%Z in N3 by lia.
    rewrite <- El in N0. clear N.
    set (psi := w * (IZR u + IZR r / 128) + f). pose proof (lag_cos t w psi Ht Hw) as LC.
    assert (P : forall k, at_pos a w f u (b + k) = a * cos (psi + w * (IZR (k - t) / 128))).
    { intros k. unfold at_pos, psi. do 2 f_equal. unfold t. rewrite !minus_IZR, plus_IZR. field. }
    unfold lag_sum in LC. destruct (lag_facts t Ht) as (_ & S & _). apply IZR_le in S. rewrite !plus_IZR, !abs_IZR in S. apply IZR_le in H1. rewrite !plus_IZR, !mult_IZR in H1.
    replace (at_pos a w f u b) with (at_pos a w f u (b + 0)) in N0 by (f_equal; lia). rewrite !P in N0, N1, N2, N3. unfold at_pos. fold psi.
    set (m := mix ints (sine a w f) u r) in *. set (m0 := mix _ _ _ b) in *. set (m1 := mix _ _ _ (b + 4)) in *. set (m2 := mix _ _ _ (b + 8)) in *. set (m3 := mix _ _ _ (b + 12)) in *.
    set (c0 := cos (psi + w * (IZR (0 - t) / 128))) in *. set (c1 := cos (psi + w * (IZR (4 - t) / 128))) in *. set (c2 := cos (psi + w * (IZR (8 - t) / 128))) in *. set (c3 := cos (psi + w * (IZR (12 - t) / 128))) in *.
    set (g0 := IZR (lag0 t)) in *. set (g1 := IZR (lag1 t)) in *. set (g2 := IZR (lag2 t)) in *. set (g3 := IZR (lag3 t)) in *. change (IZR (2 ^ 30)) with 1073741824 in *.
    assert (Pa := Rabs_pos a). set (A := Rabs a) in *.
    assert (M : forall g x e, 0 <= e -> Rabs x <= e -> Rabs (g * x) <= Rabs g * e) by (intros; rewrite Rabs_mult; apply Rmult_le_compat_l; [apply Rabs_pos|assumption]).
    assert (Pe : 0 <= A * IZR eps) by (eapply Rle_trans; [apply Rabs_pos|exact N0]).
    pose proof (M g0 _ _ Pe N0) as M0. pose proof (M g1 _ _ Pe N1) as M1. pose proof (M g2 _ _ Pe N2) as M2. pose proof (M g3 _ _ Pe N3) as M3.
    assert (ME : (Rabs g0 + Rabs g1 + Rabs g2 + Rabs g3) * (A * IZR eps) <= 624 * (A * IZR eps)) by (apply Rmult_le_compat_r; assumption).
    assert (LA : Rabs (1073741824 * a * (g0 * c0 + g1 * c1 + g2 * c2 + g3 * c3 - 384 * cos psi)) <= A * 536871).
    { rewrite !Rabs_mult. fold A. rewrite (Rabs_pos_eq 1073741824) by lra. replace (A * 536871) with (1073741824 * A * (536871 / 1073741824)) by field.
      apply Rmult_le_compat_l; [nra|]. eapply Rle_trans; [exact LC|]. lra. }
    assert (EA : A * (IZR def + 624 * IZR eps + 536871) <= A * (384 * IZR eps1)) by (apply Rmult_le_compat_l; assumption).
    assert (G : Rabs (384 * (m - 1073741824 * (a * cos psi))) <= A * (384 * IZR eps1)).
    { replace (384 * (m - 1073741824 * (a * cos psi))) with ((384 * m - (g0 * m0 + g1 * m1 + g2 * m2 + g3 * m3)) +
        ((g0 * (m0 - 1073741824 * (a * c0)) + g1 * (m1 - 1073741824 * (a * c1)) + g2 * (m2 - 1073741824 * (a * c2)) + g3 * (m3 - 1073741824 * (a * c3))) +
        1073741824 * a * (g0 * c0 + g1 * c1 + g2 * c2 + g3 * c3 - 384 * cos psi))) by ring.
      eapply Rle_trans; [apply Rabs_triang|]. eapply Rle_trans; [apply Rplus_le_compat_l, Rabs_triang|].
      eapply Rle_trans; [apply Rplus_le_compat_l, Rplus_le_compat_r, Rabs_triang|]. eapply Rle_trans; [apply Rplus_le_compat_l, Rplus_le_compat_r, Rplus_le_compat_r, Rabs_triang|].
      eapply Rle_trans; [apply Rplus_le_compat_l, Rplus_le_compat_r, Rplus_le_compat_r, Rplus_le_compat_r, Rabs_triang|]. lra. }
    rewrite Rabs_mult, (Rabs_pos_eq 384) in G by lra. lra.
  Qed.
End Table.
