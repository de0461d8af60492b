(** One sinc sample against the convolution with the kernel. *)
From Coq Require Import ZArith Reals List Bool Lia Lra Psatz.
From Flocq Require Import Core IEEE754.BinarySingleNaN.
From Verif Require Import Base FloatFacts PosFacts ErrFacts HoldSpec HoldFacts HoldRamp HoldCore HoldValue LifeSpec SincSpec SincFacts AccSpec KernSpec
  GainGrid GainCheck GainUnits GainFloat GainWeights GainBound GainMain GainStream GainQuad AccFacts KernFacts KernMain.
Import ListNotations.
Local Open Scope R_scope.

Lemma rsum_first g n : rsum g (S n) = g 0%Z + rsum (fun i => g (i + 1)%Z) n.
Proof.
  induction n as [|n IH]; [cbn [rsum]; change (Z.of_nat 0) with 0%Z; ring|]. remember (S n) as n1 eqn:E. cbn [rsum]. rewrite IH, E. cbn [rsum].
  replace (Z.of_nat n + 1)%Z with (Z.of_nat (S n)) by lia. ring.
Qed.
Lemma rsum_more g n K : (n <= K)%nat -> (forall i, (Z.of_nat n <= i)%Z -> g i = 0) -> rsum g K = rsum g n.
Proof. intros H Z0. rewrite (sum_stop g n K Z0). now rewrite Nat.min_r by lia. Qed.

Section Value.
  Variables (inc : Z) (coeffs : list f32).
  Hypothesis Hg : table_gain (inc, coeffs).
  Let last := ((zlen coeffs - 2) * 4096)%Z.
  Let T := kernel coeffs.

  (** The sample of SincSpec.v, with the kernel. *)
  Lemma ideal_wings x pos ro K : good_ratio ro -> frac (snd pos) ->
    let I := fixed_point (table_step inc ro) in let f := fixed_point (Bmult mode_NE (snd pos) (table_step inc ro)) in
    (last / I + 2 <= Z.of_nat K)%Z ->
    ideal_sinc inc coeffs x pos ro = Rmin 1 (val ro) *
      (rsum (fun i => T (IZR (f + i * I) / 4096) * x (fst pos - i)%Z) K + rsum (fun i => T (IZR (I - f + i * I) / 4096) * x (fst pos + 1 + i)%Z) K).
  Proof.
    intros G Ft I f HK. destruct (frac_first inc coeffs Hg ro (snd pos) G Ft) as [B0 B1]. unfold ideal_sinc. cbv zeta. fold last I f. fold I f in B0, B1.
    change sum_to with rsum. f_equal. set (u := fst pos).
    assert (HI : (0 < I)%Z) by lia. assert (P0 : (0 <= last)%Z) by (destruct (gain_table inc coeffs Hg) as (_ & H & _); unfold last; lia).
    assert (Tz : forall g, (last < g)%Z -> T (IZR g / 4096) = 0).
    { intros g Hh. apply kernel_end. assert (IZR last < IZR g) by (apply IZR_lt; exact Hh). unfold last in H. rewrite mult_IZR in H. lra. }
    assert (Ta : forall g, (0 <= g <= last)%Z -> table_at coeffs g = T (IZR g / 4096)) by (intros g Hh; symmetry; apply kernel_at; exact Hh).
    assert (Dl := Z.div_mod last I ltac:(lia)). assert (Ml := Z.mod_pos_bound last I HI). set (q := (last / I)%Z) in *. assert (Q0 : (0 <= q)%Z) by (unfold q; apply Z.div_pos; lia).
    destruct (Z.eqb_spec f I) as [E|E].
    - rewrite E, Z.sub_0_r, Z.add_0_r. fold q.
      rewrite (rsum_ext _ (fun i => T (IZR (0 + i * I) / 4096) * x (u + 1 - i)%Z)) by (intros i Hi; rewrite Ta; [reflexivity|nia]).
      rewrite (rsum_ext (fun i => table_at coeffs (I - 0 + i * I) * _) (fun i => T (IZR (I + i * I) / 4096) * x (u + 1 + 1 + i)%Z)) by (intros i Hi; rewrite Ta; [now rewrite Z.sub_0_r|nia]).
      replace (Z.to_nat (q + 1)) with (S (Z.to_nat q)) by lia. rewrite rsum_first.
      destruct K as [|K]; [lia|]. rewrite (rsum_first (fun i => T (IZR (I - I + i * I) / 4096) * _)).
      rewrite (rsum_more (fun i => T (IZR (I + i * I) / 4096) * x (u - i)%Z) (Z.to_nat q) (S K)) by (lia || (intros i Hi; rewrite Tz; [ring|nia])).
      rewrite (rsum_more (fun i => T (IZR (I - I + (i + 1) * I) / 4096) * x (u + 1 + (i + 1))%Z) (Z.to_nat q) K) by (lia || (intros i Hi; rewrite Tz; [ring|nia])).
      rewrite (rsum_ext (fun i => T (IZR (0 + (i + 1) * I) / 4096) * _) (fun i => T (IZR (I + i * I) / 4096) * x (u - i)%Z)).
      2:{ intros i Hi. replace (0 + (i + 1) * I)%Z with (I + i * I)%Z by ring. now replace (u + 1 - (i + 1))%Z with (u - i)%Z by ring. }
      rewrite (rsum_ext (fun i => T (IZR (I - I + (i + 1) * I) / 4096) * _) (fun i => T (IZR (I + i * I) / 4096) * x (u + 1 + 1 + i)%Z)).
      2:{ intros i Hi. replace (I - I + (i + 1) * I)%Z with (I + i * I)%Z by ring. now replace (u + 1 + (i + 1))%Z with (u + 1 + 1 + i)%Z by ring. }
      replace (I - I + 0 * I)%Z with 0%Z by ring. replace (0 + 0 * I)%Z with 0%Z by ring. rewrite Z.sub_0_r, Z.add_0_r. ring.
    - assert (N1 : ((last - f) / I <= q)%Z) by (apply Z.div_le_mono; lia).
      assert (N2 : ((last + f) / I <= q + 1)%Z). { replace (q + 1)%Z with ((last + 1 * I) / I)%Z by (rewrite Z.div_add by lia; reflexivity). apply Z.div_le_mono; lia. }
      assert (D1 := Z.div_mod (last - f) I ltac:(lia)). assert (M1 := Z.mod_pos_bound (last - f) I HI).
      assert (D2 := Z.div_mod (last + f) I ltac:(lia)). assert (M2 := Z.mod_pos_bound (last + f) I HI).
      set (q1 := ((last - f) / I)%Z) in *. set (q2 := ((last + f) / I)%Z) in *.
      rewrite (rsum_ext (fun i => table_at coeffs (f + i * I) * _) (fun i => T (IZR (f + i * I) / 4096) * x (u - i)%Z)) by (intros i Hi; rewrite Ta; [reflexivity|nia]).
      rewrite (rsum_ext (fun i => table_at coeffs (I - f + i * I) * _) (fun i => T (IZR (I - f + i * I) / 4096) * x (u + 1 + i)%Z)) by (intros i Hi; rewrite Ta; [reflexivity|nia]).
      f_equal; symmetry; apply rsum_more; try lia; intros i Hi; rewrite Tz; try ring; nia.
  Qed.

  Variables (e0 sd g0 sg j : Z).
  Hypothesis Hslope : slope_check e0 sd g0 sg j (map units coeffs) = true.
  Hypothesis Hi : (128 <= inc)%Z.
  Hypothesis Hfit : table_fit (inc, coeffs).

  Lemma first_near ro t : good_ratio ro -> frac t ->
    Rabs (IZR (fixed_point (Bmult mode_NE t (table_step inc ro))) - 4096 * (IZR inc * Rmin 1 (val ro) * val t)) <= / 2 + / 10000000.
  Proof.
    intros G (Ft & St & Lt & Ut). destruct (step_facts inc coeffs (gain_table inc coeffs Hg) ro G) as (Ff & Vf & Bz & Ez & Bf). destruct (tab_R inc coeffs (gain_table inc coeffs Hg)) as (Ri & _).
    set (fi := table_step inc ro) in *. set (z := IZR inc * Rmin 1 (val ro)) in *.
    assert (Bp : 0 <= val t * val fi <= 16384) by nra.
    destruct (dmul_val t fi Ft Ff) as [Vp Fp]; [apply small_1000, Rabs_le; lra|].
    assert (Bq : 0 <= rnd64 (val t * val fi) <= val fi).
    { split; [rewrite <- rnd64_0; apply rnd64_mono; lra|]. apply rnd64_le; [apply fmt64_val|nra]. }
    destruct (fixed_facts coeffs (dmul t fi) Fp) as (_ & _ & _ & A3); [rewrite Vp; lra|]. rewrite Vp in A3.
    change (Bmult mode_NE t fi) with (dmul t fi).
    assert (E := rnd64_err (val t * val fi) 14 ltac:(lia) ltac:(change (bpow radix2 14) with 16384; apply Rabs_le; lra)). change (bpow radix2 (14 - 53)) with (/ 549755813888) in E.
    apply Rabs_le_inv in E. apply Rabs_le_inv in A3. apply Rabs_le_inv in Ez. apply Rabs_le.
    assert (- / 67108864 <= val t * (4096 * val fi - 4096 * z) <= / 67108864) by nra. lra.
  Qed.

  (** The error of one sample. *)
  Lemma value_convolved x pos ro M beta K : good_ratio ro -> frac (snd pos) -> sized M -> 6 * M < bpow radix2 128 ->
    (forall i, fin (x i) /\ Rabs (val (x i)) <= M) -> span inc coeffs ro <= INR K ->
    0 <= beta <= 7 / 10 -> Rabs (IZR (fixed_point (table_step inc ro)) - 4096 * (IZR inc * Rmin 1 (val ro))) <= beta ->
    Rabs (val (sinc_value inc coeffs x pos ro) - convolved inc coeffs (fun i => val (x i)) (fst pos) (val (snd pos)) (Rmin 1 (val ro)) K) <=
    (6 / 10000000 + 2 * wing_error inc coeffs e0 sd g0 sg j (/ 2 + / 10000000 + beta) beta (Rmin 1 (val ro))) * M + bpow radix2 (-149).
  Proof.
    intros G Ft HM UM Hx HK Hb HI. assert (PM := sized_pos M HM). destruct (value_ideal inc coeffs Hg x pos ro M G Ft HM UM Hx) as [_ V].
    assert (Sp := span_reach inc coeffs ro G Hfit). destruct (frac_first inc coeffs Hg ro (snd pos) G Ft) as [B0 B1]. assert (Fn := first_near ro (snd pos) G Ft).
    assert (Mr : 0 < Rmin 1 (val ro) <= 1) by (destruct G as [_ G]; unfold Rmin; destruct (Rle_dec 1 (val ro)); lra).
    assert (Iw := ideal_wings (fun i => val (x i)) pos ro K G Ft). cbv zeta in Iw.
    set (I := fixed_point (table_step inc ro)) in *. set (f := fixed_point (Bmult mode_NE (snd pos) (table_step inc ro))) in *. set (m := Rmin 1 (val ro)) in *. fold last in Sp.
    rewrite Iw in V.
    2:{ apply le_IZR. rewrite <- INR_IZR_INZ. rewrite plus_IZR in *. lra. }
    destruct Ft as (Ff & Fs & F0 & F1). set (t := val (snd pos)) in *.
    assert (Pi : 128 <= IZR inc) by (apply IZR_le; exact Hi).
    set (z := IZR inc * m) in *. assert (Pz : 0 < z) by (unfold z; nra).
    assert (Fn' := Fn). apply Rabs_le_inv in Fn'. assert (HI' := HI). apply Rabs_le_inv in HI'.
    set (alpha := / 2 + / 10000000 + beta).
    assert (WL := wing_error_ok inc coeffs Hg Hi e0 sd g0 sg j Hslope I f (fun i => z * (IZR i + t)) alpha beta m ltac:(lia) ltac:(lia)).
    assert (WR := wing_error_ok inc coeffs Hg Hi e0 sd g0 sg j Hslope I (I - f) (fun i => z * (IZR i + 1 - t)) alpha beta m ltac:(lia) ltac:(lia)).
    assert (CL := fun A B => WL A Hb B Mr HI (fun i => val (x (fst pos - i)%Z)) M K PM (fun i => proj2 (Hx _))). clear WL.
    assert (CR := fun A B => WR A Hb B Mr HI (fun i => val (x (fst pos + 1 + i)%Z)) M K PM (fun i => proj2 (Hx _))). clear WR.
    assert (Ha : 0 <= alpha <= 2) by (unfold alpha; lra).
    specialize (fun A => CL A Ha). specialize (fun A => CR A Ha).
    assert (AL : forall i, (0 <= i)%Z -> 0 <= z * (IZR i + t) /\ Rabs (IZR (f + i * I) - 4096 * (z * (IZR i + t))) <= alpha + beta * IZR i).
    { intros i H0. apply IZR_le in H0. split; [apply Rmult_le_pos; lra|]. rewrite plus_IZR, mult_IZR.
      replace (IZR f + IZR i * IZR I - 4096 * (z * (IZR i + t))) with ((IZR f - 4096 * (z * t)) + IZR i * (IZR I - 4096 * z)) by ring.
      eapply Rle_trans; [apply Rabs_triang|]. rewrite Rabs_mult, (Rabs_pos_eq (IZR i)) by lra. assert (IZR i * Rabs (IZR I - 4096 * z) <= IZR i * beta) by (apply Rmult_le_compat_l; lra). unfold alpha. lra. }
    assert (AR : forall i, (0 <= i)%Z -> 0 <= z * (IZR i + 1 - t) /\ Rabs (IZR (I - f + i * I) - 4096 * (z * (IZR i + 1 - t))) <= alpha + beta * IZR i).
    { intros i H0. apply IZR_le in H0. split; [apply Rmult_le_pos; lra|]. rewrite plus_IZR, mult_IZR, minus_IZR.
      replace (IZR I - IZR f + IZR i * IZR I - 4096 * (z * (IZR i + 1 - t))) with (- (IZR f - 4096 * (z * t)) + (IZR i + 1) * (IZR I - 4096 * z)) by ring.
      eapply Rle_trans; [apply Rabs_triang|]. rewrite Rabs_Ropp, Rabs_mult, (Rabs_pos_eq (IZR i + 1)) by lra.
      assert ((IZR i + 1) * Rabs (IZR I - 4096 * z) <= (IZR i + 1) * beta) by (apply Rmult_le_compat_l; lra). unfold alpha. lra. }
    specialize (CL AL). specialize (CR AR). cbv beta in CL, CR.
    set (W := wing_error inc coeffs e0 sd g0 sg j alpha beta m) in *. unfold convolved. change sum_to with rsum. fold z.
    fold T in CL, CR |- *. set (P1 := rsum (fun i => T (IZR (f + i * I) / 4096) * _) K) in *. set (P2 := rsum (fun i => T (IZR (I - f + i * I) / 4096) * _) K) in *.
    set (Q1 := rsum (fun i => T (z * (IZR i + t)) * _) K) in *. set (Q2 := rsum (fun i => T (z * (IZR i + 1 - t)) * _) K) in *.
    set (y := val (sinc_value inc coeffs x pos ro)) in *.
    replace (y - m * (Q1 + Q2)) with ((y - m * (P1 + P2)) + (m * (P1 - Q1) + m * (P2 - Q2))) by ring.
    eapply Rle_trans; [apply Rabs_triang|]. assert (Tr := Rabs_triang (m * (P1 - Q1)) (m * (P2 - Q2))). rewrite !Rabs_mult, (Rabs_pos_eq m) in Tr by lra. lra.
  Qed.
End Value.
