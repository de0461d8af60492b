(** How far the samples the library computes are from the real-valued filter; linear combinations of streams. *)
From Coq Require Import ZArith Reals List Bool Lia Lra Psatz.
From Flocq Require Import Core IEEE754.BinarySingleNaN.
From Verif Require Import Base FloatFacts PosFacts ErrFacts HoldSpec HoldFacts HoldRamp HoldCore HoldValue LifeSpec SincSpec SincFacts AccSpec
  GainGrid GainCheck GainUnits GainFloat GainWeights GainBound GainMain.
Import ListNotations.
Local Open Scope R_scope.

Lemma conv_finite (x : f64) : fin x -> fin (f_of_d x) -> val (f_of_d x) = rnd32 (val x).
Proof.
  destruct x as [s|s| |s m e H]; intros F; try discriminate F.
  - intros _. cbn. unfold rnd32. rewrite round_0; auto with typeclass_instances.
  - unfold f_of_d. generalize (binary_normalize_correct 24 128 _ _ mode_NE (cond_Zopp s (Z.pos m)) e s). cbv zeta.
    destruct (Rlt_bool _ _); [intros (A & _) _; exact A|]. intros O Fi. destruct (binary_normalize _ _ _ _ _ _ _); try discriminate Fi; discriminate O.
Qed.

(** ** Linear interpolation *)
Lemma line_abs a b q M : 0 <= q <= 1 -> Rabs a <= M -> Rabs b <= M -> Rabs (on_line a b q) <= M.
Proof. intros Q A B. apply Rabs_le_inv in A. apply Rabs_le_inv in B. unfold on_line. apply Rabs_le. split; nra. Qed.
Lemma interpolate_near (a b : f32) (t : f64) M : fin a -> fin b -> frac t -> sized M -> Rabs (val a) <= M -> Rabs (val b) <= M ->
  fin (interpolate a b t) /\ Rabs (val (interpolate a b t) - on_line (val a) (val b) (val t)) <= / 16000000 * M + bpow radix2 (-149).
Proof.
  intros Fa Fb Ft HM Ba Bb. destruct (interpolate_parts a b t Fa Fb Ft) as [Fs Vs]. destruct (interpolate_between a b t Fa Fb Ft) as [Fi _].
  split; [exact Fi|]. unfold interpolate in *. set (s := Bplus _ _ _) in *. assert (PM := sized_pos M HM).
  assert (Ft' := Ft). destruct Ft' as (_ & _ & T0 & T1).
  assert (D : Rabs (val b - val a) <= 2 * M) by (apply Rabs_le_inv in Ba; apply Rabs_le_inv in Bb; apply Rabs_le; lra).
  assert (E1 := rnd64_sized M 2 (val b - val a) HM D). set (d := rnd64 (val b - val a)) in *.
  assert (Tn := tiny_small). unfold eps in *.
  assert (E1' : Rabs (d - (val b - val a)) <= / 1000000000000000 * M).
  { eapply Rle_trans; [exact E1|]. apply Rmult_le_compat_r; lra. }
  assert (Bd : Rabs d <= 3 * M).
  { replace d with ((d - (val b - val a)) + (val b - val a)) by ring. eapply Rle_trans; [apply Rabs_triang|]. lra. }
  assert (Bp : Rabs (val t * d) <= 3 * M).
  { rewrite Rabs_mult, (Rabs_pos_eq (val t)) by lra. apply Rle_trans with (1 * Rabs d); [apply Rmult_le_compat_r; [apply Rabs_pos|lra]|lra]. }
  assert (E2 := rnd64_sized M 3 (val t * d) HM Bp). set (p := rnd64 (val t * d)) in *.
  assert (E2' : Rabs (p - val t * d) <= / 1000000000000000 * M).
  { eapply Rle_trans; [exact E2|]. unfold eps. apply Rmult_le_compat_r; lra. }
  assert (E3 : Rabs (val t * d - val t * (val b - val a)) <= / 1000000000000000 * M).
  { replace (val t * d - val t * (val b - val a)) with (val t * (d - (val b - val a))) by ring. rewrite Rabs_mult, (Rabs_pos_eq (val t)) by lra.
    apply Rle_trans with (1 * Rabs (d - (val b - val a))); [apply Rmult_le_compat_r; [apply Rabs_pos|lra]|lra]. }
  assert (L := line_abs (val a) (val b) (val t) M ltac:(lra) Ba Bb). unfold on_line in *. set (ln := val a + val t * (val b - val a)) in *.
  assert (E4 : Rabs (val a + p - ln) <= / 400000000000000 * M).
  { replace (val a + p - ln) with ((p - val t * d) + (val t * d - val t * (val b - val a))) by (unfold ln; ring).
    eapply Rle_trans; [apply Rabs_triang|]. lra. }
  assert (B4 : Rabs (val a + p) <= 2 * M).
  { replace (val a + p) with ((val a + p - ln) + ln) by ring. eapply Rle_trans; [apply Rabs_triang|]. lra. }
  assert (E5 := rnd64_sized M 2 (val a + p) HM B4). rewrite <- Vs in E5.
  assert (E5' : Rabs (val s - (val a + p)) <= / 1000000000000000 * M).
  { eapply Rle_trans; [exact E5|]. unfold eps. apply Rmult_le_compat_r; lra. }
  assert (E6 : Rabs (val s - ln) <= / 200000000000000 * M).
  { replace (val s - ln) with ((val s - (val a + p)) + (val a + p - ln)) by ring. eapply Rle_trans; [apply Rabs_triang|]. lra. }
  assert (Bs : Rabs (val s) <= (1 + / 200000000000000) * M).
  { replace (val s) with ((val s - ln) + ln) by ring. eapply Rle_trans; [apply Rabs_triang|]. lra. }
  assert (Vf : val (f_of_d s) = rnd32 (val s)).
  { now apply conv_finite. }
  rewrite Vf. assert (E7 := rnd32_gen (val s)).
  replace (rnd32 (val s) - ln) with ((rnd32 (val s) - val s) + (val s - ln)) by ring. eapply Rle_trans; [apply Rabs_triang|]. lra.
Qed.

(** ** Sinc samples *)
Lemma sum_to_rsum g n : sum_to g n = rsum g n.
Proof. induction n as [|n IH]; [reflexivity|]. cbn [sum_to rsum]. now rewrite IH. Qed.

(** The real-valued sum with the weights as the library computes them. *)
Section Exact.
  Variables (inc : Z) (coeffs : list f32).
  Hypothesis Hg : table_gain (inc, coeffs).
  Let last := ((zlen coeffs - 2) * 4096)%Z.

  Definition exact_sum (x : Z -> R) (depth : Z) (pos : position) (ro : f64) : R :=
    let step := table_step inc ro in let I := fixed_point step in
    let first := fixed_point (Bmult mode_NE (snd pos) step) in
    let up := (first =? I)%Z in
    let p := if up then (fst pos + 1)%Z else fst pos in
    let d := if up then (depth + 1)%Z else depth in
    let t := if up then 0%Z else first in
    val step / IZR inc *
    (rsum (fun i => val (weight coeffs (t + i * I)) * x (p - i)%Z) (Z.to_nat (Z.min ((last - t) / I) d + 1)) +
     rsum (fun i => val (weight coeffs (I - t + i * I)) * x (p + 1 + i)%Z) (Z.to_nat ((last + t) / I))).

  Lemma exact_linear a b x y z depth pos ro : (forall i, z i = a * x i + b * y i) ->
    exact_sum z depth pos ro = a * exact_sum x depth pos ro + b * exact_sum y depth pos ro.
  Proof.
    intros H. unfold exact_sum. cbv zeta.
    set (I := fixed_point (table_step inc ro)). set (first := fixed_point (Bmult mode_NE (snd pos) (table_step inc ro))). set (s := val _ / _).
    set (p := if (first =? I)%Z then (fst pos + 1)%Z else fst pos). set (d := if (first =? I)%Z then (depth + 1)%Z else depth). set (t := if (first =? I)%Z then 0%Z else first).
    assert (L : forall w g n, rsum (fun i => w i * z (g i)) n = a * rsum (fun i => w i * x (g i)) n + b * rsum (fun i => w i * y (g i)) n).
    { intros w g n. rewrite <- !rsum_scale, <- rsum_plus. apply rsum_ext. intros i _. rewrite H. ring. }
    rewrite (L (fun i => val (weight coeffs (t + i * I))) (fun i => (p - i)%Z)), (L (fun i => val (weight coeffs (I - t + i * I))) (fun i => (p + 1 + i)%Z)). ring.
  Qed.

  Lemma sample_near x depth pos ro M : good_ratio ro -> frac (snd pos) -> sized M -> 6 * M < bpow radix2 128 ->
    (forall i, fin (x i) /\ Rabs (val (x i)) <= M) ->
    fin (sinc_sample inc coeffs x depth pos ro) /\
    Rabs (val (sinc_sample inc coeffs x depth pos ro) - exact_sum (fun i => val (x i)) depth pos ro) <= 3 / 10000000 * M + bpow radix2 (-149).
  Proof.
    intros G Ft HM UM Hx. destruct (frac_first inc coeffs Hg ro (snd pos) G Ft) as [B0 B1]. assert (PM := sized_pos M HM).
    unfold sinc_sample, exact_sum. cbv zeta. fold last.
    set (I := fixed_point (table_step inc ro)) in *. set (first := fixed_point (Bmult mode_NE (snd pos) (table_step inc ro))) in *.
    set (p := if (first =? I)%Z then (fst pos + 1)%Z else fst pos). set (d := if (first =? I)%Z then (depth + 1)%Z else depth). set (t := if (first =? I)%Z then 0%Z else first).
    assert (HtI : (0 <= t < I)%Z) by (unfold t; destruct (Z.eqb_spec first I); lia).
    set (nl := Z.to_nat (Z.min _ d + 1)). set (nr := Z.to_nat ((last + t) / I)).
    destruct (sample_close inc coeffs Hg ro t nl nr (fun i => x (p - i)%Z) (fun i => x (p + 1 + i)%Z) M G HtI HM ltac:(lra)) as (F & A & B & _).
    { intros i Hi. split; [|apply Hx]. apply (left_reach coeffs I t nl); auto; try lia. unfold nl. fold last. lia. }
    { intros i Hi. split; [|apply Hx]. apply (right_reach coeffs I t); auto; lia. }
    fold I in F, A, B. set (v := dmul _ _) in *. set (ex := val _ / _ * _) in *.
    assert (Bv : Rabs (val v) <= 4961 / 1000 * M).
    { replace (val v) with ((val v - ex) + ex) by ring. eapply Rle_trans; [apply Rabs_triang|]. lra. }
    change (Bmult mode_NE _ _) with v. destruct (to_float v F) as [V F1]; [lra|]. split; [exact F1|]. rewrite V.
    assert (Er := rnd32_gen (val v)).
    replace (rnd32 (val v) - ex) with ((rnd32 (val v) - val v) + (val v - ex)) by ring. eapply Rle_trans; [apply Rabs_triang|]. lra.
  Qed.

  (** Against the ideal filter. *)
  Lemma wing_near (x : Z -> R) (g f : Z -> Z) n M : 0 <= M -> (forall i, Rabs (x i) <= M) -> (forall i, (0 <= i < Z.of_nat n)%Z -> (0 <= f i <= last)%Z) ->
    Rabs (rsum (fun i => val (weight coeffs (f i)) * x (g i)) n - sum_to (fun i => table_at coeffs (f i) * x (g i)) n) <= INR n * (/ 530000000 * M) /\
    Rabs (sum_to (fun i => table_at coeffs (f i) * x (g i)) n) <= INR n * (2 * M).
  Proof.
    intros PM Hx Hf. change sum_to with rsum.
    assert (W : forall i, (0 <= i < Z.of_nat n)%Z -> Rabs (val (weight coeffs (f i)) - table_at coeffs (f i)) <= / 530000000 /\ Rabs (table_at coeffs (f i)) <= 2).
    { intros i Hi. destruct Hg as (_ & _ & C1 & C2 & C3 & _). destruct (weight_full coeffs C1 C2 C3 (f i) (Hf i Hi)) as (_ & _ & A & B).
      change (drawn coeffs (f i)) with (table_at coeffs (f i)) in B. split; [exact B|].
      apply Rabs_le_inv in A. apply Rabs_le_inv in B. apply Rabs_le. lra. }
    split.
    - rewrite <- rsum_minus, <- rsum_const. apply rsum_abs. intros i Hi. destruct (W i Hi) as [A _].
      replace (val (weight coeffs (f i)) * x (g i) - table_at coeffs (f i) * x (g i)) with ((val (weight coeffs (f i)) - table_at coeffs (f i)) * x (g i)) by ring.
      rewrite Rabs_mult. apply Rmult_le_compat; try apply Rabs_pos; [exact A|apply Hx].
    - rewrite <- rsum_const. apply rsum_abs. intros i Hi. destruct (W i Hi) as [_ A]. rewrite Rabs_mult. apply Rmult_le_compat; try apply Rabs_pos; [exact A|apply Hx].
  Qed.

  Lemma value_ideal x pos ro M : good_ratio ro -> frac (snd pos) -> sized M -> 6 * M < bpow radix2 128 ->
    (forall i, fin (x i) /\ Rabs (val (x i)) <= M) ->
    fin (sinc_value inc coeffs x pos ro) /\
    Rabs (val (sinc_value inc coeffs x pos ro) - ideal_sinc inc coeffs (fun i => val (x i)) pos ro) <= 6 / 10000000 * M + bpow radix2 (-149).
  Proof.
    intros G Ft HM UM Hx. destruct (frac_first inc coeffs Hg ro (snd pos) G Ft) as [B0 B1]. assert (PM := sized_pos M HM).
    destruct (step_facts inc coeffs (gain_table inc coeffs Hg) ro G) as (_ & Vf & Bz & _ & Bf).
    destruct (tab_R inc coeffs (gain_table inc coeffs Hg)) as (Ri & _).
    unfold sinc_value, ideal_sinc. cbv zeta. fold last.
    set (step := table_step inc ro) in *. set (I := fixed_point step) in *. set (first := fixed_point (Bmult mode_NE (snd pos) step)) in *.
    set (p := if (first =? I)%Z then (fst pos + 1)%Z else fst pos). set (t := if (first =? I)%Z then 0%Z else first).
    assert (HtI : (0 <= t < I)%Z) by (unfold t; destruct (Z.eqb_spec first I); lia).
    set (nl := Z.to_nat ((last - t) / I + 1)). set (nr := Z.to_nat ((last + t) / I)).
    assert (HL : forall i, (0 <= i < Z.of_nat nl)%Z -> (0 <= t + i * I <= last)%Z).
    { intros i Hi. split; [nia|]. apply (left_reach coeffs I t nl); auto; try lia. }
    assert (HR : forall i, (0 <= i < Z.of_nat nr)%Z -> (0 <= I - t + i * I <= last)%Z).
    { intros i Hi. split; [nia|]. apply (right_reach coeffs I t); auto; lia. }
    destruct (sample_close inc coeffs Hg ro t nl nr (fun i => x (p - i)%Z) (fun i => x (p + 1 + i)%Z) M G HtI HM ltac:(lra)) as (F & A & B & NL & NR & _).
    { intros i Hi. split; [|apply Hx]. now apply HL. }
    { intros i Hi. split; [|apply Hx]. now apply HR. }
    fold step in F, A, B, NL, NR. fold I in F, A, B. set (v := dmul _ _) in *.
    destruct (wing_near (fun i => val (x i)) (fun i => (p - i)%Z) (fun i => (t + i * I)%Z) nl M PM (fun i => proj2 (Hx i)) HL) as [WL SL].
    destruct (wing_near (fun i => val (x i)) (fun i => (p + 1 + i)%Z) (fun i => (I - t + i * I)%Z) nr M PM (fun i => proj2 (Hx i)) HR) as [WR SR].
    cbv beta in WL, SL, WR, SR.
    set (PL := rsum _ nl) in *. set (PR := rsum _ nr) in *. set (QL := sum_to _ nl) in *. set (QR := sum_to _ nr) in *.
    set (s0 := val step / IZR inc) in *. set (mr := Rmin 1 (val ro)) in *. set (ex := s0 * (PL + PR)) in *.
    assert (Bv : Rabs (val v) <= 4961 / 1000 * M).
    { replace (val v) with ((val v - ex) + ex) by ring. eapply Rle_trans; [apply Rabs_triang|]. lra. }
    change (Bmult mode_NE _ _) with v. destruct (to_float v F) as [V F1]; [lra|]. split; [exact F1|]. rewrite V.
    assert (Er := rnd32_gen (val v)).
    assert (Pl := pos_INR nl). assert (Pr := pos_INR nr).
    assert (S0 : / 256 <= s0 <= 1).
    { unfold s0. split; apply (Rmult_le_reg_r (IZR inc)); try lra; unfold Rdiv; rewrite Rmult_assoc, Rinv_l by lra; lra. }
    assert (Cl : INR nl <= 17408) by nra. assert (Cr : INR nr <= 17408) by nra.
    assert (D1 : Rabs (s0 * (PL + PR) - s0 * (QL + QR)) <= 136 * (/ 530000000 * M)).
    { replace (s0 * (PL + PR) - s0 * (QL + QR)) with (s0 * ((PL - QL) + (PR - QR))) by ring. rewrite Rabs_mult, (Rabs_pos_eq s0) by lra.
      apply Rle_trans with (s0 * (INR nl * (/ 530000000 * M) + INR nr * (/ 530000000 * M))).
      - apply Rmult_le_compat_l; [lra|]. eapply Rle_trans; [apply Rabs_triang|]. lra.
      - replace (s0 * (INR nl * (/ 530000000 * M) + INR nr * (/ 530000000 * M))) with ((s0 * INR nl + s0 * INR nr) * (/ 530000000 * M)) by ring.
        apply Rmult_le_compat_r; lra. }
    assert (D2 : Rabs (s0 - mr) <= / 1000000000000000).
    { assert (T := rnd64_gen (IZR inc * mr)). fold mr in Vf. rewrite <- Vf in T.
      assert (Bm : 0 <= mr <= 1). { unfold mr, Rmin. destruct G as [_ G]. destruct (Rle_dec 1 (val ro)); lra. }
      assert (T1053 : bpow radix2 (-1053) <= / 100000000000000000).
      { apply Rle_trans with (bpow radix2 (-57)); [apply bpow_le; lia|]. change (bpow radix2 (-57)) with (/ 144115188075855872). lra. }
      replace (s0 - mr) with ((val step - IZR inc * mr) * / IZR inc) by (unfold s0; field; lra).
      rewrite Rabs_mult, (Rabs_pos_eq (/ IZR inc)) by (left; apply Rinv_0_lt_compat; lra).
      apply (Rmult_le_reg_r (IZR inc)); [lra|]. rewrite Rmult_assoc, Rinv_l, Rmult_1_r by lra. eapply Rle_trans; [exact T|].
      rewrite Rabs_pos_eq by (apply Rmult_le_pos; lra). unfold eps. nra. }
    assert (D3 : Rabs (s0 * (QL + QR) - mr * (QL + QR)) <= / 1000000000000000 * (69632 * M)).
    { replace (s0 * (QL + QR) - mr * (QL + QR)) with ((s0 - mr) * (QL + QR)) by ring. rewrite Rabs_mult.
      apply Rmult_le_compat; try apply Rabs_pos; [exact D2|]. eapply Rle_trans; [apply Rabs_triang|].
      assert (INR nl * (2 * M) <= 17408 * (2 * M)) by (apply Rmult_le_compat_r; lra). assert (INR nr * (2 * M) <= 17408 * (2 * M)) by (apply Rmult_le_compat_r; lra). lra. }
    replace (rnd32 (val v) - mr * (QL + QR)) with ((rnd32 (val v) - val v) + ((val v - ex) + ((s0 * (PL + PR) - s0 * (QL + QR)) + (s0 * (QL + QR) - mr * (QL + QR))))) by (unfold ex; ring).
    eapply Rle_trans; [apply Rabs_triang|]. eapply Rle_trans; [apply Rplus_le_compat_l, Rabs_triang|].
    eapply Rle_trans; [apply Rplus_le_compat_l, Rplus_le_compat_l, Rabs_triang|]. lra.
  Qed.
End Exact.
