(** Output samples of a sinc converter: bounded for any input, unit gain for constant input. *)
From Coq Require Import ZArith Reals List Bool Lia Lra Psatz.
From Flocq Require Import Core IEEE754.BinarySingleNaN.
From Verif Require Import Base FloatFacts PosFacts ErrFacts Types HoldSpec HoldFacts HoldRamp HoldCore HoldValue HoldStream LifeSpec ApiHist Api SincSpec SincFacts SincApi SincProcess SincStream SincMain
  GainGrid GainCheck GainUnits GainFloat GainWeights GainBound.
Import ListNotations.
Local Open Scope R_scope.

Definition flt_max : f32 := @B754_finite 24 128 false 16777215 104 eq_refl.
Lemma flt_max_val : val flt_max = 16777215 / 16777216 * bpow radix2 128.
Proof.
  unfold flt_max. cbn [B2R]. unfold F2R. cbn [Fnum Fexp cond_Zopp]. change 128%Z with (24 + 104)%Z. rewrite bpow_plus.
  change (bpow radix2 24) with 16777216. lra.
Qed.
Lemma to_float (v : f64) : fin v -> Rabs (val v) <= 16777215 / 16777216 * bpow radix2 128 -> val (f_of_d v) = rnd32 (val v) /\ fin (f_of_d v).
Proof.
  intros F B. destruct (f_of_d_val_max v flt_max F) as (A1 & A2 & _); [|auto].
  rewrite (Rabs_pos_eq (val flt_max)); rewrite flt_max_val; [exact B|]. assert (P := bpow_ge_0 radix2 128). lra.
Qed.

Section Sample.
  Variables (inc : Z) (coeffs : list f32).
  Hypothesis Hg : table_gain (inc, coeffs).
  Let last := ((zlen coeffs - 2) * 4096)%Z.

  Lemma frac_first (ro : f64) (t : f64) : good_ratio ro -> frac t ->
    let I := fixed_point (table_step inc ro) in (16 * inc <= I <= 4096 * inc /\ 1 <= inc)%Z /\ (0 <= fixed_point (Bmult mode_NE t (table_step inc ro)) <= I)%Z.
  Proof.
    intros G Ft I. destruct (index_facts inc coeffs (gain_table inc coeffs Hg) ro t G Ft) as (_ & _ & A & B & _). destruct (gain_table inc coeffs Hg) as (C & _). unfold I in *. lia.
  Qed.

  (** The sample in the form of GainBound.v. *)
  Lemma sample_shape x depth pos ro : good_ratio ro -> frac (snd pos) ->
    exists p t, let I := fixed_point (table_step inc ro) in
      (p = fst pos \/ p = fst pos + 1)%Z /\ (0 <= t < I)%Z /\
      exists nl, (nl <= Z.to_nat ((last - t) / I + 1))%nat /\
      sinc_sample inc coeffs x depth pos ro = f_of_d (dmul (ddiv (table_step inc ro) (d_of_Z inc))
        (dadd (weigh (fun i => weight coeffs (t + i * I)) (fun i => x (p - i)%Z) nl dzero)
              (weigh (fun i => weight coeffs (I - t + i * I)) (fun i => x (p + 1 + i)%Z) (Z.to_nat ((last + t) / I)) dzero))).
  Proof.
    intros G Ft. destruct (frac_first ro (snd pos) G Ft) as [B0 B1]. unfold sinc_sample. fold last.
    set (I := fixed_point (table_step inc ro)) in *. set (first := fixed_point (Bmult mode_NE (snd pos) (table_step inc ro))) in *.
    destruct (Z.eqb_spec first I) as [E|E].
    - exists (fst pos + 1)%Z, 0%Z. split; [auto|]. split; [lia|]. eexists. split; [|reflexivity]. lia.
    - exists (fst pos), first. split; [auto|]. split; [lia|]. eexists. split; [|reflexivity]. lia.
  Qed.
  Lemma value_shape x pos ro : good_ratio ro -> frac (snd pos) ->
    exists p t, let I := fixed_point (table_step inc ro) in
      (p = fst pos \/ p = fst pos + 1)%Z /\ (0 <= t < I)%Z /\
      sinc_value inc coeffs x pos ro = f_of_d (dmul (ddiv (table_step inc ro) (d_of_Z inc))
        (dadd (weigh (fun i => weight coeffs (t + i * I)) (fun i => x (p - i)%Z) (Z.to_nat ((last - t) / I + 1)) dzero)
              (weigh (fun i => weight coeffs (I - t + i * I)) (fun i => x (p + 1 + i)%Z) (Z.to_nat ((last + t) / I)) dzero))).
  Proof.
    intros G Ft. destruct (frac_first ro (snd pos) G Ft) as [B0 B1]. unfold sinc_value. fold last.
    set (I := fixed_point (table_step inc ro)) in *. set (first := fixed_point (Bmult mode_NE (snd pos) (table_step inc ro))) in *.
    destruct (Z.eqb_spec first I) as [E|E].
    - exists (fst pos + 1)%Z, 0%Z. split; [auto|]. split; [lia|reflexivity].
    - exists (fst pos), first. split; [auto|]. split; [lia|reflexivity].
  Qed.
  Lemma left_reach I t nl i : (0 < I)%Z -> (0 <= i < Z.of_nat nl)%Z -> (nl <= Z.to_nat ((last - t) / I + 1))%nat -> (t + i * I <= last)%Z.
  Proof. intros HI Hi Hn. assert (i <= (last - t) / I)%Z by lia. assert (D := Z.mul_div_le (last - t) I HI). nia. Qed.
  Lemma right_reach I t i : (0 < I)%Z -> (0 <= i < Z.of_nat (Z.to_nat ((last + t) / I)))%Z -> (I - t + i * I <= last)%Z.
  Proof. intros HI Hi. assert (i + 1 <= (last + t) / I)%Z by lia. assert (D := Z.mul_div_le (last + t) I HI). nia. Qed.

  (** Six times the largest input. *)
  Lemma sample_bounded x depth pos ro M : good_ratio ro -> frac (snd pos) -> sized M -> 6 * M < bpow radix2 128 ->
    (forall i, fin (x i) /\ Rabs (val (x i)) <= M) ->
    fin (sinc_sample inc coeffs x depth pos ro) /\ Rabs (val (sinc_sample inc coeffs x depth pos ro)) <= 6 * M.
  Proof.
    intros G Ft HM UM Hx. destruct (sample_shape x depth pos ro G Ft) as (p & t & Hp & HtI & nl & Hn & E). rewrite E.
    destruct (frac_first ro (snd pos) G Ft) as [B0 _]. assert (PM := sized_pos M HM).
    set (I := fixed_point (table_step inc ro)) in *.
    destruct (sample_close inc coeffs Hg ro t nl (Z.to_nat ((last + t) / I)) (fun i => x (p - i)%Z) (fun i => x (p + 1 + i)%Z) M G HtI HM ltac:(lra)) as (F & A & B & _).
    { intros i Hi. split; [|apply Hx]. apply (left_reach I t nl); auto; lia. }
    { intros i Hi. split; [|apply Hx]. apply (right_reach I t); auto; lia. }
    fold I in F, A, B. set (v := dmul _ _) in *. set (ex := val _ / _ * _) in *.
    assert (Bv : Rabs (val v) <= 497 / 100 * M).
    { replace (val v) with ((val v - ex) + ex) by ring. eapply Rle_trans; [apply Rabs_triang|]. lra. }
    destruct (to_float v F) as [V F1]; [lra|]. split; [exact F1|]. rewrite V.
    assert (Er := rnd32_sized M (497 / 100) (val v) HM Bv).
    replace (rnd32 (val v)) with ((rnd32 (val v) - val v) + val v) by ring. eapply Rle_trans; [apply Rabs_triang|]. lra.
  Qed.
End Sample.

(** ** Constant input *)
Lemma zsum_tail g n q B : (0 <= B)%Z -> (forall i, Z.of_nat n <= i -> Z.abs (g i) <= B)%Z -> (forall i, Z.of_nat n + Z.of_nat q <= i -> g i = 0)%Z ->
  forall d, (Z.abs (zsum g (n + d) - zsum g n) <= Z.of_nat (Nat.min d q) * B)%Z.
Proof.
  intros HB Hs Hz. induction d as [|d IH]; [rewrite Nat.add_0_r; cbn; lia|]. replace (n + S d)%nat with (S (n + d)) by lia. cbn [zsum].
  destruct (Nat.le_gt_cases q d) as [Q|Q].
  - rewrite (Hz (Z.of_nat (n + d))) by lia. replace (Nat.min (S d) q) with (Nat.min d q) by lia. lia.
  - assert (A := Hs (Z.of_nat (n + d)) ltac:(lia)). replace (Nat.min d q) with d in IH by lia. replace (Nat.min (S d) q) with (S d) by lia. nia.
Qed.

Section Constant.
  Variables (inc : Z) (coeffs : list f32).
  Hypothesis Hg : table_gain (inc, coeffs).
  Let l := map units coeffs.
  Let L := zlen coeffs.
  Let last := ((zlen coeffs - 2) * 4096)%Z.
  Hypothesis Hend : (env l (L - 2) <= 134)%Z.

  (** The grid results for step I. *)
  Definition level (I : Z) (delta : R) : Prop :=
    exists N, forall n t, (N <= n)%nat -> (0 <= t <= I)%Z -> Rabs (IZR (total (entry l) n I t) * IZR I - IZR (goal_of inc)) <= delta * IZR (goal_of inc).

  Lemma l_length : Z.of_nat (length l) = L.
  Proof. unfold l, L, zlen. now rewrite map_length. Qed.

  Lemma plain_sum I t n : rsum (fun i => plain coeffs (t + i * I)) n = IZR (zsum (fun i => interp (entry l) (t + i * I)) n) / (4096 * one30).
  Proof.
    unfold plain. fold l. rewrite (rsum_ext _ (fun i => / (4096 * one30) * IZR (interp (entry l) (t + i * I)))) by (intros; unfold Rdiv; ring).
    rewrite rsum_scale, rsum_IZR. unfold Rdiv. ring.
  Qed.

  (** The wings the library sums up, against all of the table. *)
  Lemma wings_total I t N : (0 < I)%Z -> (0 <= t < I)%Z ->
    let nl := Z.to_nat ((last - t) / I + 1) in let nr := Z.to_nat ((last + t) / I) in
    (nl <= N)%nat -> (nr <= N)%nat ->
    (Z.abs (total (entry l) N I t - (zsum (fun i => interp (entry l) (t + i * I)) nl + zsum (fun i => interp (entry l) (I - t + i * I)) nr)) <= 2 * ((8192 / I + 1) * (4096 * 134)))%Z.
  Proof.
    intros HI HtI nl nr Hl Hr. unfold total.
    rewrite (zsum_ext (fun i => interp (entry l) (t - (i + 1) * I)) (fun i => interp (entry l) (I - t + i * I))).
    2: { intros i _. rewrite <- (even_at (entry l) (entry_even l)). f_equal. ring. }
    assert (L0 : (2 <= L)%Z) by (destruct (gain_table inc coeffs Hg) as (A & B & _); unfold L; lia).
    set (q := Z.to_nat (8192 / I + 1)). assert (Q0 : (0 <= 8192 / I)%Z) by (apply Z.div_pos; lia).
    assert (Qd : (8192 < (8192 / I + 1) * I)%Z) by (assert (D := Z.div_mod 8192 I ltac:(lia)); assert (M := Z.mod_pos_bound 8192 I HI); nia).
    assert (Tail : forall a n, (0 <= a)%Z -> (n <= N)%nat -> (last < a + Z.of_nat n * I)%Z ->
      (Z.abs (zsum (fun i => interp (entry l) (a + i * I)) N - zsum (fun i => interp (entry l) (a + i * I)) n) <= (8192 / I + 1) * (4096 * 134))%Z).
    { intros a n Ha Hn Ho. assert (T := zsum_tail (fun i => interp (entry l) (a + i * I)) n q (4096 * 134) ltac:(lia)).
      assert (T1 : forall i, (Z.of_nat n <= i)%Z -> (Z.abs (interp (entry l) (a + i * I)) <= 4096 * 134)%Z).
      { intros i Hi. eapply Z.le_trans; [apply (interp_env l _ (L - 2))|].
        - nia.
        - split; [lia|]. apply Z.div_le_lower_bound; [lia|]. unfold last in Ho. fold L in Ho. nia.
        - lia. }
      assert (T2 : forall i, (Z.of_nat n + Z.of_nat q <= i)%Z -> interp (entry l) (a + i * I) = 0%Z).
      { intros i Hi. apply (zero_at (entry l) L (entry_even l)); [intros k Hk; apply entry_zero; rewrite l_length; exact Hk|].
        assert (Hq : Z.of_nat q = (8192 / I + 1)%Z) by (unfold q; lia). rewrite Hq in Hi. unfold last in Ho. fold L in Ho. rewrite Z.abs_eq by nia. nia. }
      specialize (T T1 T2 (N - n)%nat). replace (n + (N - n))%nat with N in T by lia.
      eapply Z.le_trans; [exact T|]. apply Z.mul_le_mono_nonneg_r; [lia|]. unfold q. lia. }
    assert (TL := Tail t nl ltac:(lia) Hl). assert (TR := Tail (I - t)%Z nr ltac:(lia) Hr).
    assert (DL := Z.div_mod (last - t) I ltac:(lia)). assert (ML := Z.mod_pos_bound (last - t) I HI).
    assert (DR := Z.div_mod (last + t) I ltac:(lia)). assert (MR := Z.mod_pos_bound (last + t) I HI).
    assert (Ll : (0 <= last)%Z) by (unfold last; fold L; lia).
    assert (GL : ((last - t) / I + 1 <= Z.of_nat nl)%Z) by (unfold nl; lia).
    assert (GR : ((last + t) / I <= Z.of_nat nr)%Z) by (unfold nr; lia).
    assert (GL2 := Z.mul_le_mono_nonneg_r _ _ I ltac:(lia) GL). assert (GR2 := Z.mul_le_mono_nonneg_r _ _ I ltac:(lia) GR).
    specialize (TL ltac:(lia)). specialize (TR ltac:(lia)). lia.
  Qed.

  (** The gain: 1 up to the grid error delta, the rounding theta of the step, the missing end of the table and rounding. *)
  Lemma value_gain x pos ro (A : f32) delta theta :
    let step := table_step inc ro in let I := fixed_point step in
    good_ratio ro -> frac (snd pos) -> fin A -> Rabs (val A) <= bpow radix2 127 -> level I delta -> 0 <= delta -> 0 <= theta ->
    Rabs (4096 * val step - IZR I) <= theta * IZR I ->
    (forall i, (Z.abs (i - fst pos) <= last / I + 3)%Z -> x i = A) ->
    let e := delta + theta + delta * theta + / 4000000 * (IZR (8192 / I) + 1) + / 1900000 in
    e <= / 100 ->
    let y := sinc_value inc coeffs x pos ro in fin y /\ Rabs (val y - val A) <= (e + / 16000000) * Rabs (val A) + bpow radix2 (-149).
  Proof.
    intros step I G Ft FA UA (N0 & Lv) Pd Pt Hth Hx e He y.
    destruct (value_shape inc coeffs Hg x pos ro G Ft) as (p & t & Hp & HtI & E). cbv zeta in HtI, E. fold last in E. fold step in E, HtI. fold I in E, HtI. fold y in E.
    destruct (frac_first inc coeffs Hg ro (snd pos) G Ft) as [B0 _]. fold step in B0. fold I in B0.
    assert (HI : (0 < I)%Z) by lia.
    set (nl := Z.to_nat ((last - t) / I + 1)) in *. set (nr := Z.to_nat ((last + t) / I)) in *.
    assert (HM := sized_val A). set (M := Rabs (val A)) in *.
    assert (Q1 : ((last - t) / I <= last / I)%Z) by (apply Z.div_le_mono; lia).
    assert (Q2 : ((last + t) / I <= last / I + 1)%Z).
    { replace (last / I + 1)%Z with ((last + 1 * I) / I)%Z by (rewrite Z.div_add by lia; reflexivity). apply Z.div_le_mono; lia. }
    assert (XL : forall i, (0 <= i < Z.of_nat nl)%Z -> x (p - i)%Z = A) by (intros i Hi; apply Hx; unfold nl in Hi; clear - Hi Q1 Hp; set (a := (last / I)%Z) in *; set (b := ((last - t) / I)%Z) in *; lia).
    assert (XR : forall i, (0 <= i < Z.of_nat nr)%Z -> x (p + 1 + i)%Z = A) by (intros i Hi; apply Hx; unfold nr in Hi; clear - Hi Q2 Hp; set (a := (last / I)%Z) in *; set (b := ((last + t) / I)%Z) in *; clearbody a b; lia).
    assert (UM : M <= bpow radix2 128) by (apply Rle_trans with (1 := UA), bpow_le; lia).
    destruct (sample_close inc coeffs Hg ro t nl nr (fun i => x (p - i)%Z) (fun i => x (p + 1 + i)%Z) M G HtI HM UM) as (F & C & _ & S1 & S2 & S3).
    { intros i Hi. rewrite (XL i Hi). split; [|split; [exact FA|apply Rle_refl]]. apply (left_reach coeffs I t nl); auto. }
    { intros i Hi. rewrite (XR i Hi). split; [|split; [exact FA|apply Rle_refl]]. apply (right_reach coeffs I t); auto. }
    fold step in F, C, S1, S2, S3. fold I in F, C, S1, S2, S3. rewrite E. set (v := dmul _ _) in *.
    set (s0 := val step / IZR inc) in *.
    rewrite (rsum_ext (fun i => val (weight coeffs (t + i * I)) * val (x (p - i)%Z)) (fun i => val A * val (weight coeffs (t + i * I)))) in C by (intros i Hi; rewrite (XL i Hi); ring).
    rewrite (rsum_ext (fun i => val (weight coeffs (I - t + i * I)) * val (x (p + 1 + i)%Z)) (fun i => val A * val (weight coeffs (I - t + i * I)))) in C by (intros i Hi; rewrite (XR i Hi); ring).
    rewrite !rsum_scale in C.
    set (SL := rsum (fun i => val (weight coeffs (t + i * I))) nl) in *. set (SR := rsum (fun i => val (weight coeffs (I - t + i * I))) nr) in *.
    set (PL := rsum (fun i => plain coeffs (t + i * I)) nl). set (PR := rsum (fun i => plain coeffs (I - t + i * I)) nr).
    assert (DL : Rabs (SL - PL) <= INR nl * / 268435456).
    { unfold SL, PL. rewrite <- rsum_minus, <- rsum_const. apply rsum_abs. intros i Hi. apply (gain_weight inc coeffs Hg).
      split; [nia|]. apply (left_reach coeffs I t nl); auto. }
    assert (DR : Rabs (SR - PR) <= INR nr * / 268435456).
    { unfold SR, PR. rewrite <- rsum_minus, <- rsum_const. apply rsum_abs. intros i Hi. apply (gain_weight inc coeffs Hg).
      split; [nia|]. apply (right_reach coeffs I t); auto. }
    set (N := Nat.max N0 (Nat.max nl nr)).
    assert (W := wings_total I t N HI HtI). cbv zeta in W. specialize (W ltac:(fold nl; unfold N; lia) ltac:(fold nr; unfold N; lia)). fold nl nr in W.
    specialize (Lv N t ltac:(unfold N; lia) ltac:(lia)). set (T := total (entry l) N I t) in *.
    assert (EP : PL + PR = IZR (zsum (fun i => interp (entry l) (t + i * I)) nl + zsum (fun i => interp (entry l) (I - t + i * I)) nr) / (4096 * one30)).
    { unfold PL, PR. rewrite !plain_sum, plus_IZR. unfold one30. field. }
    set (z := (zsum (fun i => interp (entry l) (t + i * I)) nl + zsum (fun i => interp (entry l) (I - t + i * I)) nr)%Z) in *.
    apply IZR_le in W. rewrite abs_IZR, minus_IZR, !mult_IZR, plus_IZR in W.
    (* the gain of the exact sum *)
    destruct (step_facts inc coeffs (gain_table inc coeffs Hg) ro G) as (_ & _ & _ & _ & Bf). fold step in Bf.
    destruct (tab_R inc coeffs (gain_table inc coeffs Hg)) as (Ri & _).
    assert (PI : 0 < IZR I) by (apply IZR_lt; lia).
    assert (S0 : 0 < s0 <= 1).
    { unfold s0. split; [apply Rdiv_lt_0_compat; lra|]. apply (Rmult_le_reg_r (IZR inc)); [lra|]. unfold Rdiv. rewrite Rmult_assoc, Rinv_l by lra. lra. }
    set (Gz := 4096 * IZR inc * (4096 * one30)).
    assert (EG : IZR (goal_of inc) = Gz) by (unfold goal_of, Gz, one30; rewrite !mult_IZR; change (IZR (2 ^ UNIT_BITS)) with 1073741824; reflexivity).
    rewrite EG in Lv. assert (PG : 0 < Gz) by (unfold Gz, one30; lra).
    set (g1 := IZR T * IZR I / Gz). assert (G1 : Rabs (g1 - 1) <= delta).
    { unfold g1. replace (IZR T * IZR I / Gz - 1) with ((IZR T * IZR I - Gz) * / Gz) by (field; lra). rewrite Rabs_mult, (Rabs_pos_eq (/ Gz)) by (apply Rlt_le, Rinv_0_lt_compat; lra).
      apply (Rmult_le_reg_r Gz); [lra|]. rewrite Rmult_assoc, Rinv_l by lra. lra. }
    set (g2 := 4096 * val step / IZR I). assert (G2 : Rabs (g2 - 1) <= theta).
    { unfold g2. replace (4096 * val step / IZR I - 1) with ((4096 * val step - IZR I) * / IZR I) by (field; lra). rewrite Rabs_mult, (Rabs_pos_eq (/ IZR I)) by (apply Rlt_le, Rinv_0_lt_compat; lra).
      apply (Rmult_le_reg_r (IZR I)); [lra|]. rewrite Rmult_assoc, Rinv_l by lra. lra. }
    assert (Eg : s0 * (IZR T / (4096 * one30)) = g1 * g2) by (unfold s0, g1, g2, Gz, one30; field; lra).
    assert (G12 : Rabs (g1 * g2 - 1) <= delta + theta + delta * theta).
    { replace (g1 * g2 - 1) with ((g1 - 1) + (g2 - 1) + (g1 - 1) * (g2 - 1)) by ring.
      eapply Rle_trans; [apply Rabs_triang|]. eapply Rle_trans; [apply Rplus_le_compat_r, Rabs_triang|]. rewrite (Rabs_mult (g1 - 1)).
      assert (Rabs (g1 - 1) * Rabs (g2 - 1) <= delta * theta) by (apply Rmult_le_compat; try apply Rabs_pos; assumption). lra. }
    assert (X1 : Rabs (s0 * (PL + PR) - g1 * g2) <= / 4000000 * (IZR (8192 / I) + 1)).
    { rewrite <- Eg, EP. replace (s0 * (IZR z / (4096 * one30)) - s0 * (IZR T / (4096 * one30))) with (- (s0 * / (4096 * one30) * (IZR T - IZR z))) by (unfold one30; field).
      rewrite Rabs_Ropp, Rabs_mult. rewrite (Rabs_pos_eq (s0 * _)) by (unfold one30; apply Rmult_le_pos; lra).
      assert (P8 : 0 <= IZR (8192 / I)) by (apply IZR_le, Z.div_pos; lia).
      apply Rle_trans with (1 * / (4096 * one30) * (2 * ((IZR (8192 / I) + 1) * (4096 * 134)))).
      - apply Rmult_le_compat; [unfold one30; apply Rmult_le_pos; lra|apply Rabs_pos| |exact W]. apply Rmult_le_compat_r; [unfold one30; lra|lra].
      - unfold one30. lra. }
    assert (X2 : Rabs (s0 * (SL + SR) - s0 * (PL + PR)) <= / 1950000).
    { replace (s0 * (SL + SR) - s0 * (PL + PR)) with (s0 * ((SL - PL) + (SR - PR))) by ring. rewrite Rabs_mult, (Rabs_pos_eq s0) by lra.
      apply Rle_trans with (s0 * (INR nl * / 268435456 + INR nr * / 268435456)).
      - apply Rmult_le_compat_l; [lra|]. eapply Rle_trans; [apply Rabs_triang|]. lra.
      - lra. }
    assert (X3 : Rabs (s0 * (SL + SR) - 1) <= e - / 1900000 + / 1950000).
    { replace (s0 * (SL + SR) - 1) with ((s0 * (SL + SR) - s0 * (PL + PR)) + (s0 * (PL + PR) - g1 * g2) + (g1 * g2 - 1)) by ring.
      eapply Rle_trans; [apply Rabs_triang|]. eapply Rle_trans; [apply Rplus_le_compat_r, Rabs_triang|]. unfold e. lra. }
    assert (PM : 0 <= M) by apply Rabs_pos.
    assert (X4 : Rabs (val v - val A) <= e * M).
    { replace (val v - val A) with ((val v - s0 * (val A * SL + val A * SR)) + val A * (s0 * (SL + SR) - 1)) by ring.
      eapply Rle_trans; [apply Rabs_triang|]. rewrite Rabs_mult. fold M.
      assert (M * Rabs (s0 * (SL + SR) - 1) <= M * (e - / 1900000 + / 1950000)) by (apply Rmult_le_compat_l; assumption). 
      assert (0 <= (/ 1900000 - / 1950000 - / 1000000000) * M) by (apply Rmult_le_pos; lra). lra. }
    assert (X5 : Rabs (val v) <= 101 / 100 * M).
    { replace (val v) with ((val v - val A) + val A) by ring. eapply Rle_trans; [apply Rabs_triang|]. fold M. assert (e * M <= / 100 * M) by (apply Rmult_le_compat_r; assumption). lra. }
    assert (B7 : bpow radix2 128 = 2 * bpow radix2 127) by (change 128%Z with (1 + 127)%Z; rewrite bpow_plus; reflexivity).
    assert (P7 := bpow_gt_0 radix2 127).
    destruct (to_float v F) as [V1 F1]; [rewrite B7; lra|]. split; [exact F1|]. rewrite V1.
    replace (rnd32 (val v) - val A) with ((rnd32 (val v) - val v) + (val v - val A)) by ring. eapply Rle_trans; [apply Rabs_triang|].
    assert (R := rnd32_gen (val v)). lra.
  Qed.
End Constant.
