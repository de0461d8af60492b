(** Tones through the converter. *)
From Coq Require Import ZArith Reals List Bool Lia Lra Psatz.
From Flocq Require Import Core IEEE754.BinarySingleNaN.
From Verif Require Import Base FloatFacts HoldCore AccSpec KernSpec KernFacts GainCheck GainUnits GainWeights ToneSpec ToneTrig ToneCheck ToneSound ToneTable ToneSums ToneCells.
Import ListNotations.
Local Open Scope R_scope.

(** Between two positions of the table. *)
Lemma line_cos psi c s : Rabs c <= / 64 -> 0 <= s <= 1 -> Rabs ((1 - s) * cos (psi - c * s) + s * cos (psi + c * (1 - s)) - cos psi) <= 32 / 1000000.
Proof.
  intros Hc Hs.
  assert (A : forall b, Rabs b <= / 64 -> Rabs (cos b - 1) <= b * b / 2 + / 100000000 /\ Rabs (sin b - b) <= / 1000000).
  { intros b Hb. pose proof (cosP_ok b ltac:(lra)) as PC. pose proof (sinP_ok b ltac:(lra)) as PS. unfold cosP in PC. unfold sinP in PS.
    assert (Q := abs_inv _ _ Hb). assert (V : 0 <= b * b <= / 4096) by nra.
    assert (B6 : b ^ 6 <= / 60000000000). { replace (b ^ 6) with (b * b * (b * b) * (b * b)) by ring. assert (0 <= b * b * (b * b) <= / 16000000) by nra. nra. }
    assert (B7 : Rabs b ^ 7 <= (/ 64) ^ 7) by (apply pow_incr; split; [apply Rabs_pos|exact Hb]). cbn [pow] in B7.
    assert (0 <= b * b * (b * b) <= / 16000000) by nra. apply abs_inv in PC. apply abs_inv in PS. cbn [pow] in PC, PS, B6.
    assert (T : Rabs (b * (b * b)) <= / 64 * / 4096). { rewrite Rabs_mult, (Rabs_pos_eq (b * b)) by lra. apply Rmult_le_compat; try lra. apply Rabs_pos. }
    assert (T5 : Rabs (b * (b * b) * (b * b)) <= / 64 * / 4096 * / 4096). { rewrite Rabs_mult, (Rabs_pos_eq (b * b)) by lra. apply Rmult_le_compat; try lra. apply Rabs_pos. }
    apply abs_inv in T. apply abs_inv in T5. split; apply Rabs_le; lra. }
  assert (Hq := abs_inv _ _ Hc).
  assert (B1 : Rabs (c * s) <= / 64) by (apply Rabs_le; nra). assert (B2 : Rabs (c * (1 - s)) <= / 64) by (apply Rabs_le; nra).
  destruct (A _ B1) as [C1 S1]. destruct (A _ B2) as [C2 S2]. rewrite cos_minus, cos_plus.
  set (x := cos (c * s)) in *. set (y := sin (c * s)) in *. set (x' := cos (c * (1 - s))) in *. set (y' := sin (c * (1 - s))) in *.
  replace ((1 - s) * (cos psi * x + sin psi * y) + s * (cos psi * x' - sin psi * y') - cos psi) with
    (1 * cos psi * ((1 - s) * (x - 1) + s * (x' - 1)) - 1 * sin psi * (s * (y' - c * (1 - s)) - (1 - s) * (y - c * s))) by ring.
  eapply Rle_trans; [apply abs_trig|]. rewrite Rabs_R1, Rmult_1_l.
  assert (U : Rabs ((1 - s) * (x - 1) + s * (x' - 1)) <= (1 - s) * (c * s * (c * s) / 2 + / 100000000) + s * (c * (1 - s) * (c * (1 - s)) / 2 + / 100000000)).
  { eapply Rle_trans; [apply Rabs_triang|]. rewrite !Rabs_mult, (Rabs_pos_eq (1 - s)), (Rabs_pos_eq s) by lra. apply Rplus_le_compat; apply Rmult_le_compat_l; lra. }
  assert (U' : Rabs (s * (y' - c * (1 - s)) - (1 - s) * (y - c * s)) <= s * / 1000000 + (1 - s) * / 1000000).
  { unfold Rminus at 1. eapply Rle_trans; [apply Rabs_triang|]. rewrite Rabs_Ropp, !Rabs_mult, (Rabs_pos_eq (1 - s)), (Rabs_pos_eq s) by lra. apply Rplus_le_compat; apply Rmult_le_compat_l; lra. }
  replace ((1 - s) * (c * s * (c * s) / 2 + / 100000000) + s * (c * (1 - s) * (c * (1 - s)) / 2 + / 100000000)) with (c * c * (s * (1 - s)) / 2 + / 100000000) in U by field.
  assert (c * c <= / 4096) by nra. assert (0 <= s * (1 - s) <= / 4) by (assert (0 <= (s - / 2) * (s - / 2)) by apply Rle_0_sqr; split; [apply Rmult_le_pos; lra|lra]). assert (c * c * (s * (1 - s)) <= / 4096 * / 4) by (apply Rmult_le_compat; try lra; apply Rle_0_sqr). lra.
Qed.

Section Fast.
  Variable coeffs : list f32.
  Notation ints := (map units coeffs).
  Hypothesis Hlen : zlen coeffs = 2464%Z.
  Hypothesis Hfin : Forall (fun c : f32 => is_finite c = true) coeffs.
  Hypothesis Hlast : coef ints 2463 = 0%Z /\ (Z.abs (coef ints 2462) <= 131)%Z.
  Variable eps1 : Z.
  Hypothesis Hpos : forall a w f u r, Rabs w <= 2 -> (0 <= r <= 128)%Z -> Rabs (mix ints (sine a w f) u r - IZR (2 ^ 30) * at_pos a w f u r) <= Rabs a * IZR eps1.
  Hypothesis Heps : (eps1 <= 121300)%Z.
  Variable size : Z.
  Hypothesis Hsize : fine_size_check ints size = true.
  Hypothesis Hsz : (size <= 2100000000)%Z.
  Notation K q := (IZR (coef ints q)).

  Lemma co_close q : (0 <= q)%Z -> Rabs (co coeffs q * 1073741824 - K q) <= 1.
  Proof. intros H. pose proof (coeff_units coeffs Hfin q H) as A. unfold entry in A. rewrite Z.abs_eq in A by exact H. exact A. Qed.
  Lemma coef_end q : (2463 <= q)%Z -> coef ints q = 0%Z.
  Proof.
    intros H. destruct (Z.eq_dec q 2463) as [->|N]; [exact (proj1 Hlast)|]. unfold coef. apply nth_overflow. rewrite map_length. unfold zlen in Hlen. lia.
  Qed.
  Definition slack (i : Z) : R := if (i =? 19)%Z then 132 else 1.
  Lemma slack_sum a : sum_to (fun i => a * slack i) 20 = 151 * a.
  Proof. unfold slack. cbn [sum_to Z.of_nat Pos.of_succ_nat Pos.succ Z.eqb Pos.eqb]. ring. Qed.
  (** The kernel on a cell of the table. *)
  Lemma kernel_line i r s : (0 <= i < 20)%Z -> (0 <= r <= 127)%Z -> 0 <= s <= 1 -> let q := (r + 128 * i)%Z in
    Rabs (1073741824 * kernel coeffs (IZR q + s) - ((1 - s) * K q + s * K (q + 1))) <= slack i.
  Proof.
    intros Hi Hr Hs q. assert (Hq : (0 <= q)%Z) by (unfold q; lia). unfold slack.
    destruct (Z_lt_dec q 2462) as [L|L].
    - rewrite (kernel_cell coeffs q) by (rewrite ?Hlen, ?plus_IZR; lia || lra). unfold on_line. pose proof (co_close q Hq) as A. pose proof (co_close (q + 1) ltac:(lia)) as B.
      apply abs_inv in A. apply abs_inv in B. set (x := co coeffs q) in *. set (y := co coeffs (q + 1)) in *.
      assert (Rabs (1073741824 * (x + (IZR q + s - IZR q) * (y - x)) - ((1 - s) * K q + s * K (q + 1))) <= 1).
      { replace (1073741824 * (x + (IZR q + s - IZR q) * (y - x)) - ((1 - s) * K q + s * K (q + 1))) with ((1 - s) * (x * 1073741824 - K q) + s * (y * 1073741824 - K (q + 1))) by ring.
        apply Rabs_le. nra. }
      destruct (i =? 19)%Z; lra.
    - assert (i = 19%Z) by (unfold q in L; lia). subst i. change (19 =? 19)%Z with true. cbv iota.
      destruct (Z.eq_dec q 2462) as [E|N].
      + rewrite E. change (2462 + 1)%Z with 2463%Z. destruct Hlast as [L3 L2]. rewrite L3. assert (L2' : Rabs (K 2462) <= 131) by (rewrite <- abs_IZR; apply IZR_le; exact L2).
        apply abs_inv in L2'. destruct (Req_dec s 0) as [Z0|Z0].
        * subst s. rewrite Rplus_0_r. change 2462 with (IZR (2464 - 2)). rewrite <- Hlen. rewrite kernel_last by (rewrite Hlen; lia). rewrite Hlen. change (2464 - 2)%Z with 2462%Z.
          pose proof (co_close 2462 ltac:(lia)) as A. apply abs_inv in A. apply Rabs_le. lra.
        * rewrite kernel_end by (rewrite Hlen; change (IZR (2464 - 2)) with 2462; lra). apply Rabs_le. nra.
      + rewrite kernel_end; [rewrite !coef_end by lia; apply Rabs_le; lra|]. rewrite Hlen. assert (2463 <= IZR q) by (apply IZR_le; lia). change (IZR (2464 - 2)) with 2462. lra.
  Qed.

  (** The convolution is a point between two mixes. *)
  Lemma conv_mix x a u t width : (20 <= width)%nat -> 0 <= t < 1 -> (forall n, (u - 19 <= n <= u + 20)%Z -> Rabs (x n) <= a) ->
    exists j s, (0 <= j <= 127)%Z /\ 0 <= s <= 1 /\ t = (IZR j + s) / 128 /\
    Rabs (1073741824 * convolved 128 coeffs x u t 1 width - ((1 - s) * mix ints x u j + s * mix ints x u (j + 1))) <= 302 * a.
  Proof.
    intros Hw Ht Hx. set (j := Zfloor (128 * t)). set (s := 128 * t - IZR j).
    assert (F := Zfloor_lb (128 * t)). assert (F' := Zfloor_ub (128 * t)). fold j in F, F'.
    assert (Hj : (0 <= j <= 127)%Z).
    { assert (J0 : IZR (-1) < IZR j) by lra. assert (J1 : IZR j < IZR 128) by lra. apply lt_IZR in J0, J1. lia. }
    assert (Hs : 0 <= s <= 1) by (unfold s; lra). exists j, s. split; [exact Hj|]. split; [exact Hs|]. split; [unfold s; field|].
    unfold convolved. rewrite Rmult_1_l.
    rewrite (sum_more _ 20 width Hw). 2:{ intros i Hi. assert (I : 20 <= IZR i) by (apply IZR_le; lia). rewrite kernel_end; [ring|]. rewrite Hlen. change (IZR (2464 - 2)) with 2462. nra. }
    rewrite (sum_more _ 20 width Hw). 2:{ intros i Hi. assert (I : 20 <= IZR i) by (apply IZR_le; lia). rewrite kernel_end; [ring|]. rewrite Hlen. change (IZR (2464 - 2)) with 2462. nra. }
    unfold mix.
    assert (E1 : forall i, 128 * 1 * (IZR i + t) = IZR (j + 128 * i) + s) by (intros i; unfold s; rewrite plus_IZR, mult_IZR; ring).
    assert (E2 : forall i, 128 * 1 * (IZR i + 1 - t) = IZR (127 - j + 128 * i) + (1 - s)) by (intros i; unfold s; rewrite plus_IZR, minus_IZR, mult_IZR; ring).
    assert (L : forall (g : Z -> R) r z, (0 <= r <= 127)%Z -> 0 <= z <= 1 -> (forall i, (0 <= i < 20)%Z -> Rabs (g i) <= a) ->
      Rabs (1073741824 * sum_to (fun i => kernel coeffs (IZR (r + 128 * i) + z) * g i) 20 - ((1 - z) * sum_to (fun i => K (r + 128 * i) * g i) 20 + z * sum_to (fun i => K (r + 1 + 128 * i) * g i) 20)) <= 151 * a).
    { intros g r z Hr Hz Hg. rewrite <- slack_sum.
      replace (1073741824 * sum_to (fun i => kernel coeffs (IZR (r + 128 * i) + z) * g i) 20 - ((1 - z) * sum_to (fun i => K (r + 128 * i) * g i) 20 + z * sum_to (fun i => K (r + 1 + 128 * i) * g i) 20)) with
        (sum_to (fun i => 1 * (1073741824 * (kernel coeffs (IZR (r + 128 * i) + z) * g i)) + -1 * ((1 - z) * (K (r + 128 * i) * g i) + z * (K (r + 1 + 128 * i) * g i))) 20)
        by (rewrite sum_lin, sum_scale, sum_lin; ring).
      apply sum_bound. intros i Hi. replace (r + 1 + 128 * i)%Z with (r + 128 * i + 1)%Z by lia.
      match goal with |- Rabs ?v <= _ => replace v with (g i * (1073741824 * kernel coeffs (IZR (r + 128 * i) + z) - ((1 - z) * K (r + 128 * i) + z * K (r + 128 * i + 1)))) by ring end.
      rewrite Rabs_mult. apply Rmult_le_compat; [apply Rabs_pos|apply Rabs_pos|apply Hg; lia|apply kernel_line; lia || lra]. }
    rewrite (sum_ext _ (fun i => kernel coeffs (IZR (j + 128 * i) + s) * x (u - i)%Z) 20) by (intros i _; rewrite <- E1; reflexivity).
    rewrite (sum_ext (fun i => kernel coeffs (128 * 1 * (IZR i + 1 - t)) * _) (fun i => kernel coeffs (IZR (127 - j + 128 * i) + (1 - s)) * x (u + 1 + i)%Z) 20) by (intros i _; rewrite <- E2; reflexivity).
    pose proof (L (fun i => x (u - i)%Z) j s Hj Hs ltac:(intros i Hi; apply Hx; lia)) as L1.
    pose proof (L (fun i => x (u + 1 + i)%Z) (127 - j)%Z (1 - s) ltac:(lia) ltac:(lra) ltac:(intros i Hi; apply Hx; lia)) as L2. cbv beta in L1, L2.
    replace (127 - j + 1)%Z with (128 - j)%Z in L2 by lia. replace (128 - (j + 1))%Z with (127 - j)%Z by lia.
    match goal with |- Rabs (1073741824 * (?A + ?B) - ((1 - s) * (?C + ?D) + s * (?E + ?F))) <= _ =>
      replace (1073741824 * (A + B) - ((1 - s) * (C + D) + s * (E + F))) with ((1073741824 * A - ((1 - s) * C + s * E)) + (1073741824 * B - ((1 - (1 - s)) * F + (1 - s) * D))) by ring end.
    eapply Rle_trans; [apply Rabs_triang|]. lra.
  Qed.

  Lemma conv_sine a w f u t width : (20 <= width)%nat -> 0 <= t < 1 -> Rabs w <= 2 ->
    Rabs (convolved 128 coeffs (sine a w f) u t 1 width - a * cos (w * (IZR u + t) + f)) <= Rabs a * (3 / 20000).
  Proof.
    intros Hw Ht H2.
    assert (Hx : forall n, Rabs (sine a w f n) <= Rabs a).
    { intros n. unfold sine. rewrite Rabs_mult. rewrite <- (Rmult_1_r (Rabs a)) at 2. apply Rmult_le_compat_l; [apply Rabs_pos|]. apply Rabs_le, COS_bound. }
    destruct (conv_mix (sine a w f) (Rabs a) u t width Hw Ht (fun n _ => Hx n)) as (j & s & Hj & Hs & Et & C).
    pose proof (Hpos a w f u j H2 ltac:(lia)) as P1. pose proof (Hpos a w f u (j + 1)%Z H2 ltac:(lia)) as P2.
    set (psi := w * (IZR u + t) + f). change (IZR (2 ^ 30)) with 1073741824 in *.
    assert (Hc : Rabs (w / 128) <= / 64) by (unfold Rdiv; rewrite Rabs_mult, (Rabs_pos_eq (/ 128)) by lra; lra).
    pose proof (line_cos psi (w / 128) s Hc Hs) as LC.
    assert (A1 : at_pos a w f u j = a * cos (psi - w / 128 * s)) by (unfold at_pos, psi; do 2 f_equal; rewrite Et; field).
    assert (A2 : at_pos a w f u (j + 1) = a * cos (psi + w / 128 * (1 - s))) by (unfold at_pos, psi; do 2 f_equal; rewrite Et, plus_IZR; field).
    rewrite A1 in P1. rewrite A2 in P2. set (c1 := cos (psi - w / 128 * s)) in *. set (c2 := cos (psi + w / 128 * (1 - s))) in *.
    set (m1 := mix ints (sine a w f) u j) in *. set (m2 := mix ints (sine a w f) u (j + 1)) in *. set (v := convolved _ _ _ _ _ _ _) in *.
    assert (Pa := Rabs_pos a). apply IZR_le in Heps. assert (PE : Rabs a * IZR eps1 <= Rabs a * 121300) by (apply Rmult_le_compat_l; assumption).
    assert (G : Rabs (1073741824 * (v - a * cos psi)) <= Rabs a * 155962).
    { replace (1073741824 * (v - a * cos psi)) with ((1073741824 * v - ((1 - s) * m1 + s * m2)) + (((1 - s) * (m1 - 1073741824 * (a * c1)) + s * (m2 - 1073741824 * (a * c2))) +
        1073741824 * a * ((1 - s) * c1 + s * c2 - cos psi))) by ring.
      eapply Rle_trans; [apply Rabs_triang|]. eapply Rle_trans; [apply Rplus_le_compat_l, Rabs_triang|]. eapply Rle_trans; [apply Rplus_le_compat_l, Rplus_le_compat_r, Rabs_triang|].
      assert (M1 : Rabs ((1 - s) * (m1 - 1073741824 * (a * c1))) <= (1 - s) * (Rabs a * 121300)) by (rewrite Rabs_mult, (Rabs_pos_eq (1 - s)) by lra; apply Rmult_le_compat_l; lra).
      assert (M2 : Rabs (s * (m2 - 1073741824 * (a * c2))) <= s * (Rabs a * 121300)) by (rewrite Rabs_mult, (Rabs_pos_eq s) by lra; apply Rmult_le_compat_l; lra).
      assert (M3 : Rabs (1073741824 * a * ((1 - s) * c1 + s * c2 - cos psi)) <= Rabs a * 34360).
      { rewrite !Rabs_mult, (Rabs_pos_eq 1073741824) by lra. replace (Rabs a * 34360) with (1073741824 * Rabs a * (34360 / 1073741824)) by field. apply Rmult_le_compat_l; [nra|]. lra. }
      lra. }
    rewrite Rabs_mult, (Rabs_pos_eq 1073741824) in G by lra. lra.
  Qed.
  Lemma mix_small x a u r : (0 <= r <= 128)%Z -> (forall n, (u - 19 <= n <= u + 20)%Z -> Rabs (x n) <= a) -> Rabs (mix ints x u r) <= 2100000000 * a.
  Proof.
    intros Hr Hx. assert (P : 0 <= a) by (eapply Rle_trans; [apply Rabs_pos|apply (Hx u); lia]).
    assert (S : IZR (row_size (pick ints 20 r)) + IZR (row_size (pick ints 20 (128 - r))) <= 2100000000).
    { rewrite <- plus_IZR. apply IZR_le. unfold fine_size_check in Hsize. cbv zeta in Hsize. rewrite forallb_forall in Hsize.
      pose proof (paired 0%Z (map row_size (fine_rows ints)) (Z.to_nat r)) as I. rewrite map_length in I. assert (Lf : length (fine_rows ints) = 129%nat) by (unfold fine_rows; now rewrite map_length, seq_length).
      rewrite Lf in I. specialize (I ltac:(lia)). apply Hsize in I. replace (129 - S (Z.to_nat r))%nat with (Z.to_nat (128 - r)) in I by lia.
      change 0%Z with (row_size []) in I at 1. change 0%Z with (row_size []) in I. rewrite !map_nth, !fine_nth in I by lia. apply Z.leb_le in I. lia. }
    rewrite !size_sum in S. eapply Rle_trans; [|rewrite Rmult_comm; apply Rmult_le_compat_l; [exact P|exact S]]. rewrite Rmult_plus_distr_l, <- !sum_scale. unfold mix.
    eapply Rle_trans; [apply Rabs_triang|].
    apply Rplus_le_compat; apply sum_bound; intros i Hi; rewrite Rabs_mult, Rmult_comm; apply Rmult_le_compat_r; try apply Rabs_pos; apply Hx; lia.
  Qed.
  Lemma conv_small x a u t width : (20 <= width)%nat -> 0 <= t < 1 -> (forall n, (u - 19 <= n <= u + 20)%Z -> Rabs (x n) <= a) -> Rabs (convolved 128 coeffs x u t 1 width) <= 2 * a.
  Proof.
    intros Hw Ht Hx. assert (P : 0 <= a) by (eapply Rle_trans; [apply Rabs_pos|apply (Hx u); lia]).
    destruct (conv_mix x a u t width Hw Ht Hx) as (j & s & Hj & Hs & _ & C).
    pose proof (mix_small x a u j ltac:(lia) Hx) as M1. pose proof (mix_small x a u (j + 1) ltac:(lia) Hx) as M2.
    apply abs_inv in C. apply abs_inv in M1. apply abs_inv in M2. set (m1 := mix _ _ _ j) in *. set (m2 := mix _ _ _ (j + 1)) in *.
    assert (- (2100000000 * a) <= (1 - s) * m1 + s * m2 <= 2100000000 * a) by nra. apply Rabs_le. lra.
  Qed.
  Lemma conv_add x y u t width : convolved 128 coeffs (fun n => x n + y n) u t 1 width = convolved 128 coeffs x u t 1 width + convolved 128 coeffs y u t 1 width.
  Proof.
    unfold convolved. rewrite !Rmult_1_l.
    rewrite (sum_ext (fun i => kernel coeffs (128 * 1 * (IZR i + t)) * (x (u - i)%Z + y (u - i)%Z)) (fun i => 1 * (kernel coeffs (128 * 1 * (IZR i + t)) * x (u - i)%Z) + 1 * (kernel coeffs (128 * 1 * (IZR i + t)) * y (u - i)%Z)) width) by (intros; ring).
    rewrite (sum_ext (fun i => kernel coeffs (128 * 1 * (IZR i + 1 - t)) * (x (u + 1 + i)%Z + y (u + 1 + i)%Z)) (fun i => 1 * (kernel coeffs (128 * 1 * (IZR i + 1 - t)) * x (u + 1 + i)%Z) + 1 * (kernel coeffs (128 * 1 * (IZR i + 1 - t)) * y (u + 1 + i)%Z)) width) by (intros; ring).
    rewrite !sum_lin. ring.
  Qed.
  Lemma conv_ext x y u t width : (forall n, x n = y n) -> convolved 128 coeffs x u t 1 width = convolved 128 coeffs y u t 1 width.
  Proof. intros H. unfold convolved. do 2 f_equal; apply sum_ext; intros i _; now rewrite H. Qed.
  Lemma conv_tones l u t width : (20 <= width)%nat -> 0 <= t < 1 -> up_to 2 l ->
    Rabs (convolved 128 coeffs (fun n => tones l (IZR n)) u t 1 width - tones l (IZR u + t)) <= loudness l * (3 / 20000).
  Proof.
    intros Hw Ht. induction l as [|[[a w] f] l IH]; intros H; cbn [tones loudness].
    - assert (Z0 : Rabs (convolved 128 coeffs (fun _ => 0) u t 1 width) <= 2 * 0) by (apply conv_small; try assumption; intros n _; rewrite Rabs_R0; lra). rewrite Rminus_0_r. lra.
    - inversion H as [|? ? H0 H1]; subst. specialize (IH H1).
      pose proof (conv_add (sine a w f) (fun n => tones l (IZR n)) u t width) as E. unfold sine at 1 in E. rewrite E. pose proof (conv_sine a w f u t width Hw Ht H0) as C.
      set (p := convolved _ _ (sine a w f) _ _ _ _) in *. set (q := convolved _ _ (fun n => tones l (IZR n)) _ _ _ _) in *.
      replace (p + q - (a * cos (w * (IZR u + t) + f) + tones l (IZR u + t))) with ((p - a * cos (w * (IZR u + t) + f)) + (q - tones l (IZR u + t))) by ring.
      eapply Rle_trans; [apply Rabs_triang|]. lra.
  Qed.
  Lemma conv_sound x l d u t width : (20 <= width)%nat -> 0 <= t < 1 -> up_to 2 l -> (forall n, (u - 19 <= n <= u + 20)%Z -> Rabs (x n - tones l (IZR n)) <= d) ->
    Rabs (convolved 128 coeffs x u t 1 width - tones l (IZR u + t)) <= loudness l * (3 / 20000) + 2 * d.
  Proof.
    intros Hw Ht H Hx. rewrite (conv_ext x (fun n => tones l (IZR n) + (x n - tones l (IZR n)))) by (intros n; ring). rewrite (conv_add (fun n => tones l (IZR n)) (fun n => x n - tones l (IZR n))).
    pose proof (conv_tones l u t width Hw Ht H) as A. pose proof (conv_small (fun n => x n - tones l (IZR n)) d u t width Hw Ht Hx) as B.
    set (p := convolved _ _ (fun n => tones l (IZR n)) _ _ _ _) in *. set (q := convolved _ _ (fun n => x n - tones l (IZR n)) _ _ _ _) in *.
    replace (p + q - tones l (IZR u + t)) with ((p - tones l (IZR u + t)) + q) by ring. eapply Rle_trans; [apply Rabs_triang|]. lra.
  Qed.
End Fast.
