(** The error of the table index, summed over a wing of the filter. *)
From Coq Require Import ZArith Reals List Bool Lia Lra Psatz.
From Flocq Require Import Core IEEE754.BinarySingleNaN.
From Verif Require Import Base FloatFacts PosFacts ErrFacts HoldSpec HoldFacts HoldRamp HoldCore HoldValue LifeSpec SincSpec SincFacts AccSpec KernSpec
  GainGrid GainCheck GainUnits GainFloat GainWeights GainBound GainMain GainStream GainQuad AccFacts KernFacts.
Import ListNotations.
Local Open Scope R_scope.

(** A decreasing list, three places to the right. *)
Definition late (l : list Z) (k : Z) : Z := nth (Z.to_nat (k - 3)) (envelope l) 0%Z.
Lemma late_dec l j k : (0 <= j <= k)%Z -> (0 <= late l k <= late l j)%Z.
Proof. intros H. apply envelope_dec. lia. Qed.
Lemma late_end l k : (Z.of_nat (3 + length l) <= k)%Z -> late l k = 0%Z.
Proof. intros H. unfold late. apply nth_overflow. rewrite envelope_length. lia. Qed.
Lemma late_sum l : zsum (late l) (3 + length l) = (3 * late l 0 + fold_right Z.add 0 (envelope l))%Z.
Proof.
  rewrite zsum_split. f_equal.
  - cbn [zsum]. unfold late. change (Z.to_nat (0 - 3)) with 0%nat. change (Z.to_nat (Z.of_nat 0 - 3)) with 0%nat. change (Z.to_nat (Z.of_nat 1 - 3)) with 0%nat. change (Z.to_nat (Z.of_nat 2 - 3)) with 0%nat. ring.
  - rewrite <- zsum_nth, envelope_length. apply zsum_ext. intros i Hi. unfold late. replace (Z.of_nat 3 + i - 3)%Z with i by lia. reflexivity.
Qed.
Lemma late_walk l a s I f n : (late l 0 <= a)%Z -> (fold_right Z.add 0 (envelope l) <= s)%Z -> (0 < I)%Z -> (0 <= f)%Z ->
  IZR I * rsum (fun i => IZR (late l ((f + i * I) / 4096))) n <= IZR I * IZR a + 4096 * (3 * IZR a + IZR s).
Proof.
  intros Ha Hs HI Hf. assert (P := progression (late l) (3 + length l) (late_dec l) (late_end l) I f n HI Hf). rewrite late_sum in P.
  rewrite rsum_IZR, <- !mult_IZR, <- plus_IZR, <- mult_IZR, <- plus_IZR. apply IZR_le. nia.
Qed.
Lemma late_moment l k : (0 <= k)%Z -> ((k + 1) * late l k <= late (moments 0 l) k)%Z.
Proof.
  intros H. assert (A := moments_env l 0 (Z.to_nat (k - 3)) ltac:(lia)). assert (B := late_dec l k k ltac:(lia)). unfold late in *.
  eapply Z.le_trans; [|exact A]. apply Z.mul_le_mono_nonneg_r; lia.
Qed.

Lemma sum_stop g n K : (forall i, (Z.of_nat n <= i)%Z -> g i = 0) -> rsum g K = rsum g (Nat.min K n).
Proof.
  intros Hz. induction K as [|K IH]; [reflexivity|]. destruct (Nat.le_gt_cases n K) as [Q|Q].
  - cbn [rsum]. rewrite Hz by lia. rewrite IH. rewrite !Nat.min_r by lia. ring.
  - rewrite !Nat.min_l by lia. reflexivity.
Qed.

(** What a table is checked for: largest slope, sum of slopes, the same for the moments, and the last entry but one. *)
Definition slope_check (e0 sd g0 sg j : Z) (l : list Z) : bool :=
  let d := envelope (rises l) in let w := envelope (moments 0 (rises l)) in
  (hd 0 d <=? e0)%Z && (fold_right Z.add 0 d <=? sd)%Z && (hd 0 w <=? g0)%Z && (fold_right Z.add 0 w <=? sg)%Z && (Z.abs (nth (length l - 2) l 0) <=? j)%Z.

Section Wing.
  Variables (inc : Z) (coeffs : list f32).
  Hypothesis Hg : table_gain (inc, coeffs).
  Hypothesis Hi : (128 <= inc)%Z.
  Let l := map units coeffs.
  Let L := zlen coeffs.
  Let last := ((L - 2) * 4096)%Z.
  Variables (e0 sd g0 sg j : Z).
  Hypothesis Hslope : slope_check e0 sd g0 sg j l = true.

  Lemma slopes : (late (rises l) 0 <= e0)%Z /\ (fold_right Z.add 0 (envelope (rises l)) <= sd)%Z /\
    (late (moments 0 (rises l)) 0 <= g0)%Z /\ (fold_right Z.add 0 (envelope (moments 0 (rises l))) <= sg)%Z /\ (Z.abs (entry l (L - 2)) <= j)%Z.
  Proof.
    unfold slope_check in Hslope. cbv zeta in Hslope. repeat (apply andb_prop in Hslope as [Hslope ?]). rewrite !Z.leb_le in *. unfold late. change (Z.to_nat (0 - 3)) with 0%nat. rewrite <- !hd_nth.
    repeat split; auto. unfold entry, L. destruct (gain_table inc coeffs Hg) as (_ & G & _).
    replace (Z.to_nat (Z.abs (zlen coeffs - 2))) with (length l - 2)%nat; [assumption|]. unfold l, zlen in *. rewrite map_length. lia.
  Qed.
  Lemma L_pos : (2 <= L <= 64 * inc)%Z.
  Proof. destruct Hg as ((_ & G & _) & B & _). unfold L in *. lia. Qed.
  Lemma co_rise j0 k : (0 <= j0 <= k)%Z -> (k < L - 2)%Z -> Rabs (co coeffs (k + 1) - co coeffs k) <= IZR (nth (Z.to_nat j0) (envelope (rises l)) 0%Z) / one30.
  Proof.
    intros Hk Hl. destruct Hg as (_ & _ & Ff & _). assert (U0 := coeff_units coeffs Ff k ltac:(lia)). assert (U1 := coeff_units coeffs Ff (k + 1) ltac:(lia)).
    fold (co coeffs k) in U0. fold (co coeffs (k + 1)) in U1. fold l in U0, U1.
    assert (R : nth (Z.to_nat k) (rises l) 0%Z = (Z.abs (entry l (k + 1) - entry l k) + 2)%Z).
    { unfold entry. rewrite (Z.abs_eq k), (Z.abs_eq (k + 1)) by lia. replace (Z.to_nat (k + 1)) with (S (Z.to_nat k)) by lia. apply rises_nth. unfold l. rewrite map_length. unfold L, zlen in Hl. lia. }
    destruct (envelope_nth (rises l) (Z.to_nat j0) (Z.to_nat k) ltac:(lia)) as [Q _]. rewrite R in Q. apply IZR_le in Q. rewrite plus_IZR, abs_IZR, minus_IZR in Q.
    set (e := IZR (nth _ _ _)) in *. set (x := IZR (entry l k)) in *. set (y := IZR (entry l (k + 1))) in *. unfold one30 in *.
    assert (Y := Rle_abs (y - x)). assert (Y' := Rle_abs (- (y - x))). rewrite Rabs_Ropp in Y'. apply Rabs_le_inv in U0. apply Rabs_le_inv in U1. apply Rabs_le. lra.
  Qed.
  Lemma co_last : Rabs (co coeffs (L - 2)) <= (IZR j + 1) / one30.
  Proof.
    destruct slopes as (_ & _ & _ & _ & E). destruct Hg as (_ & _ & Ff & _). assert (P := L_pos). assert (U0 := coeff_units coeffs Ff (L - 2) ltac:(lia)).
    fold (co coeffs (L - 2)) in U0. fold l in U0. apply IZR_le in E. rewrite abs_IZR in E. apply Rabs_le_inv in E. apply Rabs_le_inv in U0. unfold one30 in *. apply Rabs_le. lra.
  Qed.

  Variables (I f : Z) (s : Z -> R) (alpha beta m : R).
  Hypothesis HI : (16 * inc <= I <= 4096 * inc)%Z.
  Hypothesis Hf : (0 <= f)%Z.
  Hypothesis Hs : forall i, (0 <= i)%Z -> 0 <= s i /\ Rabs (IZR (f + i * I) - 4096 * s i) <= alpha + beta * IZR i.
  Hypothesis Hb : 0 <= beta <= 7 / 10.
  Hypothesis Ha : 0 <= alpha <= 2.
  Hypothesis Hm : 0 < m <= 1.
  Hypothesis HmI : Rabs (IZR I - 4096 * (IZR inc * m)) <= beta.

  Let n1 := Z.to_nat ((last + 12288) / I + 2).
  Let J := (IZR j + 1) / one30.
  Let T := kernel coeffs.
  Lemma n1_facts : (0 <= last <= 16384 * I)%Z /\ (last + 12288 + I < Z.of_nat n1 * I)%Z /\ (Z.of_nat n1 * I <= last + 12288 + 2 * I)%Z /\ (Z.of_nat n1 <= 16392)%Z.
  Proof.
    assert (P := L_pos). assert (A : (0 <= last <= 16384 * I)%Z) by (unfold last; nia).
    assert (D := Z.div_mod (last + 12288) I ltac:(lia)). assert (M := Z.mod_pos_bound (last + 12288) I ltac:(lia)).
    set (q := ((last + 12288) / I)%Z) in *. assert (Q : (0 <= q)%Z) by (unfold q; apply Z.div_pos; lia).
    unfold n1. fold q. rewrite Z2Nat.id by lia. split; [exact A|]. split; [nia|]. split; [nia|]. nia.
  Qed.
  Lemma tap_zero i : (Z.of_nat n1 <= i)%Z -> T (IZR (f + i * I) / 4096) = 0 /\ T (s i) = 0.
  Proof.
    intros Hn. destruct n1_facts as (A & B & _ & D). destruct (Hs i ltac:(lia)) as [S0 S1]. apply Rabs_le_inv in S1.
    assert (P : (last + 12288 + I < f + i * I)%Z) by nia.
    assert (E : IZR last = 4096 * IZR (L - 2)) by (unfold last; rewrite mult_IZR; ring).
    assert (LI : IZR last + 12288 + IZR I <= IZR (f + i * I)) by (rewrite <- !plus_IZR; apply IZR_le; lia).
    assert (I0 : 2048 <= IZR I) by (apply IZR_le; lia).
    split; apply kernel_end; fold L; [lra|].
    assert (N : IZR (Z.of_nat n1) <= 16392) by (apply IZR_le; lia).
    (* from tap n1 on, every tap gains more than beta *)
    assert (G : IZR last + 12288 + IZR I + (IZR i - IZR (Z.of_nat n1)) * IZR I <= IZR (f + i * I)).
    { rewrite <- minus_IZR, <- mult_IZR, <- !plus_IZR. apply IZR_le. nia. }
    assert (V : 0 <= IZR i - IZR (Z.of_nat n1)) by (rewrite <- minus_IZR; apply IZR_le; lia).
    set (v := IZR i - IZR (Z.of_nat n1)) in *. replace (IZR i) with (v + IZR (Z.of_nat n1)) in S1 by (unfold v; ring).
    assert (beta * v <= v * IZR I) by nra. assert (beta * IZR (Z.of_nat n1) <= 7 / 10 * 16392) by nra. nra.
  Qed.
  Lemma tap_near i : (0 <= i < Z.of_nat n1)%Z ->
    Rabs (T (IZR (f + i * I) / 4096) - T (s i)) <= IZR (late (rises l) ((f + i * I) / 4096)) / one30 * ((alpha + beta * IZR i) / 4096) + J.
  Proof.
    intros Hn. destruct n1_facts as (A & B & _ & D). destruct (Hs i ltac:(lia)) as [S0 S1].
    set (w := (f + i * I)%Z) in *. assert (W0 : (0 <= w)%Z) by (unfold w; nia).
    set (k0 := Z.max 0 (w / 4096 - 3)).
    assert (D1 : Rabs (IZR w / 4096 - s i) <= (alpha + beta * IZR i) / 4096).
    { replace (IZR w / 4096 - s i) with ((IZR w - 4096 * s i) / 4096) by field. unfold Rdiv. rewrite Rabs_mult, (Rabs_pos_eq (/ 4096)) by lra. apply Rmult_le_compat_r; [lra|exact S1]. }
    assert (N : 0 <= IZR i <= 16392) by (split; apply IZR_le; lia).
    assert (D2 : (alpha + beta * IZR i) / 4096 <= 3) by nra.
    assert (Dv := Z.div_mod w 4096 ltac:(lia)). assert (Md := Z.mod_pos_bound w 4096 ltac:(lia)).
    assert (Q : IZR (w / 4096) <= IZR w / 4096).
    { assert (IZR (4096 * (w / 4096)) <= IZR w) by (apply IZR_le; lia). rewrite mult_IZR in H. lra. }
    assert (K1 : IZR k0 <= IZR w / 4096).
    { unfold k0. destruct (Z.max_spec 0 (w / 4096 - 3)) as [[_ ->]|[_ ->]]; [rewrite minus_IZR; lra|]. apply IZR_le in W0. lra. }
    assert (K2 : IZR k0 <= s i).
    { unfold k0. destruct (Z.max_spec 0 (w / 4096 - 3)) as [[_ ->]|[_ ->]]; [|exact S0]. rewrite minus_IZR. apply Rabs_le_inv in D1. lra. }
    set (Dk := IZR (late (rises l) (w / 4096)) / one30).
    assert (PD : 0 <= Dk).
    { unfold Dk, one30. assert (0 <= IZR (late (rises l) (w / 4096))); [|lra]. apply IZR_le. apply (late_dec (rises l) (w / 4096) (w / 4096)). split; [apply Z.div_pos; lia|lia]. }
    eapply Rle_trans; [apply (kernel_mod coeffs k0 Dk J)|]; fold L; auto.
    - unfold k0. lia.
    - assert (P := L_pos). lia.
    - intros k Hk. unfold Dk, late. replace (Z.to_nat (w / 4096 - 3)) with (Z.to_nat k0) by (unfold k0; lia). apply co_rise; unfold k0 in *; lia.
    - exact co_last.
    - assert (Dk * Rabs (IZR w / 4096 - s i) <= Dk * ((alpha + beta * IZR i) / 4096)) by (apply Rmult_le_compat_l; assumption). lra.
  Qed.

  Let kappa := 1 + / 2048.
  Definition wing_error : R :=
    (alpha * (IZR e0 + kappa / IZR inc * (3 * IZR e0 + IZR sd)) +
     beta * (kappa / IZR inc * (IZR g0 + kappa / (IZR inc * m) * (3 * IZR g0 + IZR sg)))) / (4096 * one30) + J * (kappa * IZR (L + 1) / IZR inc + 2).

  Lemma J_pos : 0 <= J.
  Proof. destruct slopes as (_ & _ & _ & _ & E). unfold J, one30. assert (0 <= IZR j) by (apply IZR_le; lia). lra. Qed.
  Lemma wing_error_ok x M K : 0 <= M -> (forall i, Rabs (x i) <= M) ->
    m * Rabs (rsum (fun i => T (IZR (f + i * I) / 4096) * x i) K - rsum (fun i => T (s i) * x i) K) <= M * wing_error.
  Proof.
    intros PM Hx. destruct slopes as (E1 & E2 & E3 & E4 & _). destruct n1_facts as (A & _ & B & D). assert (PJ := J_pos).
    rewrite <- rsum_minus. rewrite (sum_stop _ n1) by (intros i Hn; destruct (tap_zero i Hn) as [-> ->]; ring).
    set (n := Nat.min K n1). assert (Hn : (n <= n1)%nat) by (unfold n; lia). clearbody n.
    set (E := fun i => IZR (late (rises l) ((f + i * I) / 4096))). set (F := fun i => IZR (late (moments 0 (rises l)) ((f + i * I) / 4096))).
    assert (PI : 2048 <= IZR I) by (apply IZR_le; lia). assert (Pi : 128 <= IZR inc) by (apply IZR_le; lia).
    assert (SE : IZR I * rsum E n <= IZR I * IZR e0 + 4096 * (3 * IZR e0 + IZR sd)) by (apply late_walk; auto; lia).
    assert (SF : IZR I * rsum F n <= IZR I * IZR g0 + 4096 * (3 * IZR g0 + IZR sg)) by (apply late_walk; auto; lia).
    assert (EF : forall i, (0 <= i)%Z -> IZR I * (IZR i * E i) <= 4096 * F i).
    { intros i H0. unfold E, F. rewrite <- !mult_IZR. apply IZR_le. set (w := (f + i * I)%Z). assert (W0 : (0 <= w)%Z) by (unfold w; nia).
      assert (Dv := Z.div_mod w 4096 ltac:(lia)). assert (Md := Z.mod_pos_bound w 4096 ltac:(lia)). assert (W1 : (0 <= w / 4096)%Z) by (apply Z.div_pos; lia).
      assert (Q := late_moment (rises l) (w / 4096) W1). assert (R0 := late_dec (rises l) (w / 4096) (w / 4096) ltac:(lia)).
      set (q := (w / 4096)%Z) in *. assert (i * I <= 4096 * (q + 1))%Z by (unfold w in *; nia).
      set (e := late (rises l) q) in *. nia. }
    assert (SiE : IZR I * rsum (fun i => IZR i * E i) n <= 4096 * rsum F n).
    { rewrite <- !rsum_scale. apply rsum_le. intros i H0. apply EF. lia. }
    (* all taps together *)
    assert (Sum : Rabs (rsum (fun i => T (IZR (f + i * I) / 4096) * x i - T (s i) * x i) n) <=
      M * ((alpha * rsum E n + beta * rsum (fun i => IZR i * E i) n) / (4096 * one30) + INR n * J)).
    { eapply Rle_trans; [apply (rsum_abs _ (fun i => M * (/ (4096 * one30) * (alpha * E i + beta * (IZR i * E i)) + J)))|].
      - intros i H0. replace (T (IZR (f + i * I) / 4096) * x i - T (s i) * x i) with ((T (IZR (f + i * I) / 4096) - T (s i)) * x i) by ring. rewrite Rabs_mult, Rmult_comm.
        apply Rmult_le_compat; try apply Rabs_pos; auto. eapply Rle_trans; [apply tap_near; lia|]. fold (E i). right. unfold one30. field.
      - rewrite rsum_scale, rsum_plus, rsum_const, rsum_scale, rsum_plus, !rsum_scale. right. unfold Rdiv. ring. }
    set (SEn := rsum E n) in *. set (SFn := rsum F n) in *. set (SiEn := rsum (fun i => IZR i * E i) n) in *.
    assert (Pm : 0 < IZR inc * m) by (apply Rmult_lt_0_compat; lra).
    (* 4096 m / I is about 1 / inc *)
    assert (Ke : 4096 * (IZR inc * m) <= kappa * IZR I) by (apply Rabs_le_inv in HmI; unfold kappa; lra).
    assert (Pe : 0 <= IZR e0) by (apply IZR_le; assert (R0 := late_dec (rises l) 0 0 ltac:(lia)); lia).
    assert (Pg : 0 <= IZR g0) by (apply IZR_le; assert (R0 := late_dec (moments 0 (rises l)) 0 0 ltac:(lia)); lia).
    assert (Psum : forall q, (0 <= fold_right Z.add 0 (envelope q))%Z).
    { intros q. rewrite <- zsum_nth. rewrite <- (zsum_zero (fun _ => 0%Z) (length (envelope q)) ltac:(reflexivity)) at 1. apply zsum_le. intros i _. apply (envelope_dec q 0 (Z.to_nat i)). lia. }
    assert (Psd : 0 <= IZR sd) by (apply IZR_le; specialize (Psum (rises l)); lia).
    assert (Psg : 0 <= IZR sg) by (apply IZR_le; specialize (Psum (moments 0 (rises l))); lia).
    set (a1 := 3 * IZR e0 + IZR sd) in *. set (a2 := 3 * IZR g0 + IZR sg) in *. assert (P1 : 0 <= a1) by (unfold a1; lra). assert (P2 : 0 <= a2) by (unfold a2; lra).
    set (k1 := kappa / IZR inc). assert (Kp : 0 < kappa) by (unfold kappa; lra).
    assert (K1 : 4096 * m <= k1 * IZR I). { unfold k1. apply (Rmult_le_reg_r (IZR inc)); [lra|]. replace (kappa / IZR inc * IZR I * IZR inc) with (kappa * IZR I) by (field; lra). lra. }
    assert (K1p : 0 < k1) by (unfold k1; apply Rdiv_lt_0_compat; lra).
    assert (mI : m * 4096 * / IZR I <= k1).
    { apply (Rmult_le_reg_r (IZR I)); [lra|]. rewrite Rmult_assoc, Rinv_l by lra. lra. }
    assert (Iinv : 0 < / IZR I) by (apply Rinv_0_lt_compat; lra).
    assert (B1 : m * SEn <= IZR e0 + k1 * a1).
    { assert (S1 : SEn <= IZR e0 + 4096 * / IZR I * a1).
      { apply (Rmult_le_reg_l (IZR I)); [lra|]. eapply Rle_trans; [exact SE|]. right. field. lra. }
      apply Rle_trans with (m * (IZR e0 + 4096 * / IZR I * a1)); [apply Rmult_le_compat_l; lra|].
      assert (m * IZR e0 <= 1 * IZR e0) by (apply Rmult_le_compat_r; lra). assert (m * 4096 * / IZR I * a1 <= k1 * a1) by (apply Rmult_le_compat_r; lra). lra. }
    set (k2 := kappa / (IZR inc * m)).
    assert (K2 : 4096 * / IZR I <= k2).
    { unfold k2. apply (Rmult_le_reg_r (IZR I)); [lra|]. rewrite Rmult_assoc, Rinv_l by lra. apply (Rmult_le_reg_r (IZR inc * m)); [exact Pm|].
      replace (kappa / (IZR inc * m) * IZR I * (IZR inc * m)) with (kappa * IZR I) by (field; lra). lra. }
    assert (B2 : m * SiEn <= k1 * (IZR g0 + k2 * a2)).
    { assert (S2 : SFn <= IZR g0 + k2 * a2).
      { apply Rle_trans with (IZR g0 + 4096 * / IZR I * a2); [|assert (4096 * / IZR I * a2 <= k2 * a2) by (apply Rmult_le_compat_r; lra); lra].
        apply (Rmult_le_reg_l (IZR I)); [lra|]. eapply Rle_trans; [exact SF|]. right. field. lra. }
      assert (S3 : SiEn <= 4096 * / IZR I * SFn).
      { apply (Rmult_le_reg_l (IZR I)); [lra|]. eapply Rle_trans; [exact SiE|]. right. field. lra. }
      assert (k2p : 0 < k2) by (unfold k2; apply Rdiv_lt_0_compat; lra). assert (0 <= k2 * a2) by (apply Rmult_le_pos; lra).
      assert (PF : 0 <= SFn).
      { unfold SFn, F. rewrite rsum_IZR. apply IZR_le. rewrite <- (zsum_zero (fun _ => 0%Z) n ltac:(reflexivity)) at 1. apply zsum_le. intros i H0.
        assert (W1 : (0 <= (f + i * I) / 4096)%Z) by (apply Z.div_pos; nia). apply (late_dec (moments 0 (rises l)) ((f + i * I) / 4096) ((f + i * I) / 4096)). lia. }
      apply Rle_trans with (m * (4096 * / IZR I * SFn)); [apply Rmult_le_compat_l; lra|].
      replace (m * (4096 * / IZR I * SFn)) with (m * 4096 * / IZR I * SFn) by ring.
      apply Rle_trans with (k1 * SFn); [apply Rmult_le_compat_r; lra|apply Rmult_le_compat_l; lra]. }
    assert (B3 : m * INR n <= kappa * IZR (L + 1) / IZR inc + 2).
    { assert (N1 : INR n * IZR I <= 4096 * IZR (L + 1) + 2 * IZR I).
      { rewrite INR_IZR_INZ, <- !mult_IZR, <- plus_IZR. apply IZR_le. assert (Z.of_nat n * I <= Z.of_nat n1 * I)%Z by nia. unfold last in *. lia. }
      assert (N2 : INR n <= 4096 * / IZR I * IZR (L + 1) + 2).
      { apply (Rmult_le_reg_r (IZR I)); [lra|]. eapply Rle_trans; [exact N1|]. right. field. lra. }
      assert (PL : 0 <= IZR (L + 1)) by (apply IZR_le; assert (Q := L_pos); lia).
      apply Rle_trans with (m * (4096 * / IZR I * IZR (L + 1) + 2)); [apply Rmult_le_compat_l; lra|].
      assert (m * 4096 * / IZR I * IZR (L + 1) <= k1 * IZR (L + 1)) by (apply Rmult_le_compat_r; lra).
      replace (kappa * IZR (L + 1) / IZR inc) with (k1 * IZR (L + 1)) by (unfold k1; field; lra). lra. }
    apply Rle_trans with (m * (M * ((alpha * SEn + beta * SiEn) / (4096 * one30) + INR n * J))); [apply Rmult_le_compat_l; lra|].
    replace (m * (M * ((alpha * SEn + beta * SiEn) / (4096 * one30) + INR n * J))) with (M * ((alpha * (m * SEn) + beta * (m * SiEn)) / (4096 * one30) + J * (m * INR n))) by (unfold Rdiv; ring).
    apply Rmult_le_compat_l; [exact PM|]. unfold wing_error. fold k1 k2 a1 a2. apply Rplus_le_compat.
    - unfold Rdiv. apply Rmult_le_compat_r; [left; apply Rinv_0_lt_compat; unfold one30; lra|]. apply Rplus_le_compat; apply Rmult_le_compat_l; lra.
    - apply Rmult_le_compat_l; assumption.
  Qed.
End Wing.
