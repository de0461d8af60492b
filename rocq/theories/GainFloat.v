(** Rounding errors of the weighted sums of the sinc filters. *)
From Coq Require Import ZArith Reals List Bool Lia Lra Psatz.
From Flocq Require Import Core IEEE754.BinarySingleNaN Relative.
From Verif Require Import Base FloatFacts ErrFacts SincSpec SincFacts.
Local Open Scope R_scope.

Definition eps : R := / 9007199254740992.
Definition tiny : R := bpow radix2 (-900).
(** Zero, or at least as large as the smallest positive float. *)
Definition sized (M : R) : Prop := M = 0 \/ bpow radix2 (-149) <= M.

Lemma tiny_small : 0 < tiny <= / 1000000000000000000000000000000.
Proof.
  unfold tiny. split; [apply bpow_gt_0|]. apply Rle_trans with (bpow radix2 (-100)); [apply bpow_le; lia|].
  change (bpow radix2 (-100)) with (/ 1267650600228229401496703205376). lra.
Qed.
Lemma sized_pos M : sized M -> 0 <= M.
Proof. intros [->|H]; [lra|]. apply Rle_trans with (2 := H). apply bpow_ge_0. Qed.

Lemma rnd64_gen v : Rabs (rnd64 v - v) <= eps * Rabs v + bpow radix2 (-1053).
Proof.
  destruct (Rle_lt_dec (bpow radix2 (-1000)) (Rabs v)) as [H|H].
  - assert (A := rnd64_rel v H). unfold eps. assert (P := bpow_ge_0 radix2 (-1053)). lra.
  - assert (A := rnd64_err v (-1000) ltac:(lia) (Rlt_le _ _ H)). change (-1000 - 53)%Z with (-1053)%Z in A.
    assert (P := Rabs_pos v). unfold eps. assert (0 <= / 9007199254740992 * Rabs v) by nra. lra.
Qed.
Lemma rnd64_sized M K v : sized M -> Rabs v <= K * M -> Rabs (rnd64 v - v) <= (eps * K + tiny) * M.
Proof.
  intros [->|H] L.
  - rewrite !Rmult_0_r in *. assert (v = 0) as ->. { apply Rabs_le_inv in L. lra. } rewrite rnd64_0, Rminus_0_r, Rabs_R0. lra.
  - assert (A := rnd64_gen v). assert (B : bpow radix2 (-1053) <= tiny * M).
    { apply Rle_trans with (tiny * bpow radix2 (-149)).
      - unfold tiny. rewrite <- bpow_plus. apply bpow_le. lia.
      - apply Rmult_le_compat_l; [unfold tiny; apply bpow_ge_0|exact H]. }
    assert (C : eps * Rabs v <= eps * (K * M)) by (apply Rmult_le_compat_l; [unfold eps; lra|exact L]). lra.
Qed.
Lemma rnd32_err x e : (-125 <= e)%Z -> Rabs x <= bpow radix2 e -> Rabs (rnd32 x - x) <= bpow radix2 (e - 24).
Proof.
  intros He Hx. assert (V : Valid_exp (FLT_exp (-149) 24)) by (apply FLT_exp_valid; reflexivity).
  pose proof (error_le_half_ulp radix2 (FLT_exp (-149) 24) (fun z => negb (Z.even z)) x) as H.
  eapply Rle_trans; [exact H|].
  assert (U : ulp radix2 (FLT_exp (-149) 24) x <= ulp radix2 (FLT_exp (-149) 24) (bpow radix2 e)).
  { apply ulp_le; [exact V|apply FLT_exp_monotone|]. rewrite (Rabs_pos_eq (bpow radix2 e)) by apply bpow_ge_0. exact Hx. }
  rewrite ulp_bpow in U. unfold FLT_exp in U at 2. rewrite Z.max_l in U by lia.
  replace (e - 24)%Z with (-1 + (e + 1 - 24))%Z by lia. rewrite bpow_plus. change (bpow radix2 (-1)) with (/ 2). lra.
Qed.
Lemma rnd32_gen v : Rabs (rnd32 v - v) <= / 16777216 * Rabs v + bpow radix2 (-149).
Proof.
  destruct (Rle_lt_dec (bpow radix2 (-126)) (Rabs v)) as [H|H].
  - assert (A : Rabs (rnd32 v - v) <= / 2 * bpow radix2 (-24 + 1) * Rabs v).
    { apply (relative_error_N_FLT radix2 (-149) 24 eq_refl (fun z => negb (Z.even z)) v). eapply Rle_trans; [|exact H]. apply bpow_le. lia. }
    replace (/ 2 * bpow radix2 (-24 + 1)) with (/ 16777216) in A by (simpl; lra). assert (P := bpow_ge_0 radix2 (-149)). lra.
  - assert (A := rnd32_err v (-125) ltac:(lia)). change (-125 - 24)%Z with (-149)%Z in A.
    assert (B : Rabs v <= bpow radix2 (-125)) by (apply Rlt_le, Rlt_le_trans with (1 := H), bpow_le; lia).
    specialize (A B). assert (P := Rabs_pos v). lra.
Qed.
Lemma rnd32_sized M K v : sized M -> Rabs v <= K * M -> Rabs (rnd32 v - v) <= (/ 16777216 * K + 1) * M.
Proof.
  intros [->|H] L.
  - rewrite !Rmult_0_r in *. assert (v = 0) as ->. { apply Rabs_le_inv in L. lra. }
    unfold rnd32. rewrite round_0 by auto with typeclass_instances. rewrite Rminus_0_r, Rabs_R0. lra.
  - assert (A := rnd32_gen v). lra.
Qed.
Lemma sized_val (x : f32) : sized (Rabs (val x)).
Proof.
  destruct x as [s|s| |s m e H]; try (left; apply Rabs_R0). right. cbn [B2R].
  rewrite <- F2R_Zabs. replace (Z.abs (cond_Zopp s (Zpos m))) with (Zpos m) by (destruct s; reflexivity).
  assert (He : (-149 <= e)%Z).
  { unfold SpecFloat.bounded in H. apply andb_prop in H as [H _]. unfold SpecFloat.canonical_mantissa in H. apply Zeq_bool_eq in H.
    unfold SpecFloat.fexp, SpecFloat.emin in H. lia. }
  apply Rle_trans with (bpow radix2 e); [now apply bpow_le|]. apply bpow_le_F2R. reflexivity.
Qed.

(** ** Sums *)
Fixpoint rsum (g : Z -> R) (n : nat) : R := match n with O => 0 | S k => rsum g k + g (Z.of_nat k) end.
Lemma rsum_ext g h n : (forall i, (0 <= i < Z.of_nat n)%Z -> g i = h i) -> rsum g n = rsum h n.
Proof. induction n as [|n IH]; intros H; [reflexivity|]. cbn [rsum]. rewrite IH, H by (intros; try apply H; lia). reflexivity. Qed.
Lemma rsum_le g h n : (forall i, (0 <= i < Z.of_nat n)%Z -> g i <= h i) -> rsum g n <= rsum h n.
Proof. induction n as [|n IH]; intros H; [apply Rle_refl|]. cbn [rsum]. apply Rplus_le_compat; [apply IH; intros; apply H; lia|apply H; lia]. Qed.
Lemma rsum_abs g h n : (forall i, (0 <= i < Z.of_nat n)%Z -> Rabs (g i) <= h i) -> Rabs (rsum g n) <= rsum h n.
Proof.
  induction n as [|n IH]; intros H; cbn [rsum]; [rewrite Rabs_R0; apply Rle_refl|].
  eapply Rle_trans; [apply Rabs_triang|]. apply Rplus_le_compat; [apply IH; intros; apply H; lia|apply H; lia].
Qed.
Lemma rsum_const c n : rsum (fun _ => c) n = INR n * c.
Proof. induction n as [|n IH]; [simpl; ring|]. cbn [rsum]. rewrite IH, S_INR. ring. Qed.
Lemma rsum_scale c g n : rsum (fun i => c * g i) n = c * rsum g n.
Proof. induction n as [|n IH]; cbn [rsum]; [ring|]. rewrite IH. ring. Qed.
Lemma rsum_plus g h n : rsum (fun i => g i + h i) n = rsum g n + rsum h n.
Proof. induction n as [|n IH]; cbn [rsum]; [ring|]. rewrite IH. ring. Qed.
Lemma rsum_minus g h n : rsum (fun i => g i - h i) n = rsum g n - rsum h n.
Proof. induction n as [|n IH]; cbn [rsum]; [ring|]. rewrite IH. ring. Qed.

(** ** The sum the library computes *)
Definition slip : R := / 2199023255552.
Lemma slip_eps : eps * 2049 + (tiny + tiny) <= slip.
Proof. assert (T := tiny_small). unfold eps, slip. lra. Qed.
Lemma weigh_err M (w : Z -> f64) (x : Z -> f32) : sized M -> M <= bpow radix2 128 -> forall n,
  (forall i, (0 <= i < Z.of_nat n)%Z -> fin (w i) /\ Rabs (val (w i)) <= 1) ->
  (forall i, (0 <= i < Z.of_nat n)%Z -> fin (x i) /\ Rabs (val (x i)) <= M) ->
  forall a, fin a -> Rabs (val a) + (rsum (fun i => Rabs (val (w i))) n + INR n * slip) * M <= 2048 * M ->
  fin (weigh w x n a) /\ Rabs (val (weigh w x n a) - (val a + rsum (fun i => val (w i) * val (x i)) n)) <= INR n * slip * M.
Proof.
  intros HM UM. assert (PM := sized_pos M HM). assert (T := tiny_small).
  assert (Big : forall v, Rabs v <= 4096 * M -> Rabs v <= bpow radix2 1000).
  { intros v H. apply Rle_trans with (1 := H). apply Rle_trans with (bpow radix2 12 * bpow radix2 128).
    - change (bpow radix2 12) with 4096. lra.
    - rewrite <- bpow_plus. apply bpow_le. lia. }
  induction n as [|n IH]; intros Hw Hx a Fa B.
  - cbn [weigh rsum INR]. split; [exact Fa|]. rewrite Rplus_0_r. replace (val a - val a) with 0 by ring. rewrite Rabs_R0. lra.
  - cbn [weigh rsum] in *. rewrite S_INR in *.
    destruct (Hw (Z.of_nat n) ltac:(lia)) as [Fw Bw]. destruct (Hx (Z.of_nat n) ltac:(lia)) as [Fx Bx].
    set (wn := w (Z.of_nat n)) in *. set (xn := x (Z.of_nat n)) in *.
    destruct (d_of_f_val xn) as [Vx Fx']. assert (Fd : fin (d_of_f xn)) by (unfold fin; rewrite Fx'; exact Fx).
    assert (Pw := Rabs_pos (val wn)).
    assert (Bp : Rabs (val wn * val xn) <= Rabs (val wn) * M) by (rewrite Rabs_mult; apply Rmult_le_compat_l; [exact Pw|exact Bx]).
    assert (Bp1 : Rabs (val wn) * M <= 1 * M) by (apply Rmult_le_compat_r; lra).
    destruct (dmul_val wn (d_of_f xn) Fw Fd) as [Vp Fp]; [rewrite Vx; apply Big; lra|]. rewrite Vx in Vp.
    assert (Ep := rnd64_sized M 1 (val wn * val xn) HM ltac:(lra)). rewrite <- Vp in Ep.
    set (p := dmul wn (d_of_f xn)) in *. change (Bmult mode_NE wn (d_of_f xn)) with p.
    assert (Sn : 0 <= rsum (fun i => Rabs (val (w i))) n).
    { rewrite <- (Rmult_0_r (INR n)), <- rsum_const. apply rsum_le. intros; apply Rabs_pos. }
    assert (Se := slip_eps). assert (Pn := pos_INR n).
    assert (Ps : 0 < slip) by (unfold slip; lra).
    assert (Pe : 0 < eps) by (unfold eps; lra).
    set (W := rsum (fun i => Rabs (val (w i))) n) in *. set (c := INR n) in *.
    assert (Q1 : 0 <= W * M) by nra. assert (Q2 : 0 <= c * slip * M) by (apply Rmult_le_pos; [apply Rmult_le_pos; lra|lra]).
    assert (Q3 : (eps * 1 + tiny) * M <= slip * M) by (apply Rmult_le_compat_r; lra).
    assert (Bs : Rabs (val a + val p) <= 2048 * M).
    { assert (R1 := Rabs_triang (val a) (val p)). assert (R2 := Rabs_triang (val p - val wn * val xn) (val wn * val xn)).
      replace (val p - val wn * val xn + val wn * val xn) with (val p) in R2 by ring. lra. }
    destruct (dadd_val a p Fa Fp) as [Va' Fa']; [apply Big; lra|].
    assert (Es := rnd64_sized M 2048 (val a + val p) HM Bs). rewrite <- Va' in Es.
    set (a' := dadd a p) in *. change (Bplus mode_NE a p) with a'.
    assert (Step : Rabs (val a' - (val a + val wn * val xn)) <= slip * M).
    { replace (val a' - (val a + val wn * val xn)) with ((val a' - (val a + val p)) + (val p - val wn * val xn)) by ring.
      eapply Rle_trans; [apply Rabs_triang|]. apply Rle_trans with ((eps * 2049 + (tiny + tiny)) * M); [lra|apply Rmult_le_compat_r; lra]. }
    destruct (IH ltac:(intros; apply Hw; lia) ltac:(intros; apply Hx; lia) a' Fa') as [FR ER].
    { assert (R1 := Rabs_triang (val a' - (val a + val wn * val xn)) (val a + val wn * val xn)).
      assert (R2 := Rabs_triang (val a) (val wn * val xn)).
      replace (val a' - (val a + val wn * val xn) + (val a + val wn * val xn)) with (val a') in R1 by ring. lra. }
    split; [exact FR|].
    replace (val (weigh w x n a') - (val a + (rsum (fun i => val (w i) * val (x i)) n + val wn * val xn))) with
      ((val (weigh w x n a') - (val a' + rsum (fun i => val (w i) * val (x i)) n)) + (val a' - (val a + val wn * val xn))) by ring.
    eapply Rle_trans; [apply Rabs_triang|]. lra.
Qed.
