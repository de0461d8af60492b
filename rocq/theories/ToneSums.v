(** A tone through two rows of coefficients, at every one of the 128 positions between two frames. *)
From Coq Require Import ZArith Reals List Bool Lia Lra Psatz.
From Verif Require Import AccSpec ToneTrig ToneCheck ToneSound ToneTable.
Import ListNotations.
Local Open Scope R_scope.

(** ** Sums *)
Lemma sum_ext f g n : (forall i, (0 <= i < Z.of_nat n)%Z -> f i = g i) -> sum_to f n = sum_to g n.
Proof. induction n as [|n IH]; intros H; cbn [sum_to]; [reflexivity|]. rewrite IH by (intros i Hi; apply H; lia). rewrite H by lia. reflexivity. Qed.
Lemma sum_lin a b f g n : sum_to (fun i => a * f i + b * g i) n = a * sum_to f n + b * sum_to g n.
Proof. induction n as [|n IH]; cbn [sum_to]; [ring|]. rewrite IH. ring. Qed.
Lemma sum_scale a f n : sum_to (fun i => a * f i) n = a * sum_to f n.
Proof. induction n as [|n IH]; cbn [sum_to]; [ring|]. rewrite IH. ring. Qed.
Lemma sum_bound f g n : (forall i, (0 <= i < Z.of_nat n)%Z -> Rabs (f i) <= g i) -> Rabs (sum_to f n) <= sum_to g n.
Proof.
  induction n as [|n IH]; intros H; cbn [sum_to]; [rewrite Rabs_R0; lra|]. eapply Rle_trans; [apply Rabs_triang|].
  apply Rplus_le_compat; [apply IH; intros i Hi; apply H; lia|apply H; lia].
Qed.
Lemma sum_front f n : sum_to f (S n) = f 0%Z + sum_to (fun i => f (i + 1)%Z) n.
Proof.
  induction n as [|n IH]; [cbn [sum_to]; change (Z.of_nat 0) with 0%Z; ring|]. cbn [sum_to] in *. rewrite IH. rewrite Nat2Z.inj_succ.
  replace (Z.of_nat n + 1)%Z with (Z.succ (Z.of_nat n)) by lia. ring.
Qed.
Lemma sum_more f n m : (n <= m)%nat -> (forall i, (Z.of_nat n <= i < Z.of_nat m)%Z -> f i = 0) -> sum_to f m = sum_to f n.
Proof.
  intros L. induction L as [|m L IH]; intros H; [reflexivity|]. cbn [sum_to]. rewrite IH by (intros i Hi; apply H; lia). rewrite H by lia. ring.
Qed.

Section Table.
  Variable ints : list Z.
  Notation K q := (IZR (coef ints q)).
  Lemma wave_sum f n : forall q, wave f (pick ints n q) q = sum_to (fun i => K (q + 128 * i) * f (IZR (q + 128 * i))) n.
  Proof.
    induction n as [|n IH]; intros q; [reflexivity|]. cbn [pick wave]. rewrite IH, sum_front, Z.mul_0_r, Z.add_0_r. f_equal.
    apply sum_ext. intros i _. now replace (q + 128 + 128 * i)%Z with (q + 128 * (i + 1))%Z by lia.
  Qed.
  Lemma size_sum n : forall q, IZR (row_size (pick ints n q)) = sum_to (fun i => Rabs (K (q + 128 * i))) n.
  Proof.
    induction n as [|n IH]; intros q; [reflexivity|]. cbn [pick row_size]. rewrite plus_IZR, IH, sum_front, Z.mul_0_r, Z.add_0_r, abs_IZR. f_equal.
    apply sum_ext. intros i _. now replace (q + 128 + 128 * i)%Z with (q + 128 * (i + 1))%Z by lia.
  Qed.
  Lemma defects_sum t n : forall q q0 q1 q2 q3, IZR (defects t (pick ints n q) (pick ints n q0) (pick ints n q1) (pick ints n q2) (pick ints n q3)) =
    sum_to (fun i => Rabs (384 * K (q + 128 * i) - (IZR (lag0 t) * K (q0 + 128 * i) + IZR (lag1 t) * K (q1 + 128 * i) + IZR (lag2 t) * K (q2 + 128 * i) + IZR (lag3 t) * K (q3 + 128 * i)))) n.
  Proof.
    induction n as [|n IH]; intros q q0 q1 q2 q3; [reflexivity|]. cbn [pick defects]. rewrite plus_IZR, IH, sum_front, Z.mul_0_r, !Z.add_0_r. f_equal.
    - rewrite abs_IZR, minus_IZR, !plus_IZR, !mult_IZR. reflexivity.
    - apply sum_ext. intros i _. assert (S : forall y, (y + 128 + 128 * i)%Z = (y + 128 * (i + 1))%Z) by (intros; lia). rewrite !S. reflexivity.
  Qed.

  (** The output at position u + r / 128. *)
  Definition mix (x : Z -> R) (u r : Z) : R :=
    sum_to (fun i => K (r + 128 * i) * x (u - i)%Z) 20 + sum_to (fun i => K (128 - r + 128 * i) * x (u + 1 + i)%Z) 20.
  Definition sine (a w f : R) (n : Z) : R := a * cos (w * IZR n + f).
  Definition at_pos (a w f : R) (u r : Z) : R := a * cos (w * (IZR u + IZR r / 128) + f).
  Lemma mix_sine a w f u r : let p := pick ints 20 r in let q := pick ints 20 (128 - r) in let psi := w * (IZR u + IZR r / 128) + f in
    mix (sine a w f) u r = a * cos psi * (wave (cw w) p r + wave (cw w) q (128 - r)) - a * sin psi * (wave (sw w) q (128 - r) - wave (sw w) p r).
  Proof.
    intros p q psi. unfold p, q. rewrite !wave_sum. unfold mix.
    rewrite (sum_ext _ (fun i => (a * cos psi) * (K (r + 128 * i) * cw w (IZR (r + 128 * i))) + (a * sin psi) * (K (r + 128 * i) * sw w (IZR (r + 128 * i)))) 20).
    2:{ intros i _. unfold sine, cw, sw. replace (w * IZR (u - i) + f) with (psi - w * (IZR (r + 128 * i) / 128)) by (unfold psi; rewrite minus_IZR, plus_IZR, mult_IZR; field). rewrite cos_minus. ring. }
    rewrite (sum_ext (fun i => K (128 - r + 128 * i) * _) (fun i => (a * cos psi) * (K (128 - r + 128 * i) * cw w (IZR (128 - r + 128 * i))) + (- (a * sin psi)) * (K (128 - r + 128 * i) * sw w (IZR (128 - r + 128 * i)))) 20).
    2:{ intros i _. unfold sine, cw, sw. replace (w * IZR (u + 1 + i) + f) with (psi + w * (IZR (128 - r + 128 * i) / 128)) by (unfold psi; rewrite !plus_IZR, minus_IZR, mult_IZR; field). rewrite cos_plus. ring. }
    rewrite !sum_lin. ring.
  Qed.
  Variables (lim size six eps : Z).
  Hypothesis Hc : checked ints lim.
  Hypothesis Hs : size_check ints size six = true.
  Hypothesis He : IZR lim / IZR (2 ^ 55 * 120) / unitb 30 + 2 * (660 / 1073741824 * IZR size + IZR six / IZR (600 * 2 ^ 66)) <= IZR eps.
  Lemma abs_trig a b x y : Rabs (a * cos x * b - a * sin x * y) <= Rabs a * (Rabs b + Rabs y).
  Proof.
    assert (Rabs (cos x) <= 1) by (apply Rabs_le; apply COS_bound). assert (Rabs (sin x) <= 1) by (apply Rabs_le; apply SIN_bound).
    replace (a * cos x * b - a * sin x * y) with (a * (cos x * b + - (sin x * y))) by ring. rewrite Rabs_mult. apply Rmult_le_compat_l; [apply Rabs_pos|].
    eapply Rle_trans; [apply Rabs_triang|]. rewrite Rabs_Ropp, !Rabs_mult. pose proof (Rabs_pos b). pose proof (Rabs_pos y).
    apply Rplus_le_compat; (rewrite <- Rmult_1_l; apply Rmult_le_compat_r; assumption).
  Qed.
  Lemma node_up a w f u r : 0 <= w <= 2 -> (r <= 32)%nat -> Rabs (mix (sine a w f) u (4 * Z.of_nat r) - IZR (2 ^ 30) * at_pos a w f u (4 * Z.of_nat r)) <= Rabs a * IZR eps.
  Proof.
    intros Hw Hr. rewrite mix_sine. unfold at_pos. pose proof (table_point ints lim size six w r Hc Hs Hw Hr) as T. cbv zeta in T.
    replace (128 - 4 * Z.of_nat r)%Z with (4 * Z.of_nat (32 - r))%Z by lia.
    set (psi := w * (IZR u + IZR (4 * Z.of_nat r) / 128) + f). set (A := wave (cw w) _ _ + wave (cw w) _ _) in *. set (B := wave (sw w) _ _ - wave (sw w) _ _) in *.
    replace (a * cos psi * A - a * sin psi * B - IZR (2 ^ 30) * (a * cos psi)) with (a * cos psi * (A - IZR (2 ^ 30)) - a * sin psi * B) by ring.
    eapply Rle_trans; [apply abs_trig|]. apply Rmult_le_compat_l; [apply Rabs_pos|lra].
  Qed.
  Lemma node a w f u r : Rabs w <= 2 -> (r <= 32)%nat -> Rabs (mix (sine a w f) u (4 * Z.of_nat r) - IZR (2 ^ 30) * at_pos a w f u (4 * Z.of_nat r)) <= Rabs a * IZR eps.
  Proof.
    intros Hw Hr. destruct (Rle_dec 0 w) as [P|P]; [apply node_up; [rewrite Rabs_pos_eq in Hw by lra; lra|exact Hr]|].
    rewrite Rabs_left in Hw by lra. pose proof (node_up a (- w) (- f) u r ltac:(lra) Hr) as N.
    replace (at_pos a w f u (4 * Z.of_nat r)) with (at_pos a (- w) (- f) u (4 * Z.of_nat r)).
    2:{ unfold at_pos. f_equal. rewrite <- cos_neg. f_equal. ring. }
    replace (mix (sine a w f) u (4 * Z.of_nat r)) with (mix (sine a (- w) (- f)) u (4 * Z.of_nat r)); [exact N|].
    assert (E : forall n, sine a (- w) (- f) n = sine a w f n) by (intros n; unfold sine; f_equal; rewrite <- cos_neg; f_equal; ring).
    unfold mix. f_equal; apply sum_ext; intros i _; now rewrite E.
  Qed.
End Table.
