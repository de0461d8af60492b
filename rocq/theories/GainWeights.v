(** The weights of the sinc filters: close to the linear interpolation of the integer table. *)
From Coq Require Import ZArith Reals List Bool Lia Lra Psatz.
From Flocq Require Import Core IEEE754.BinarySingleNaN.
From Verif Require Import Base FloatFacts ErrFacts SincSpec SincFacts GainGrid GainCheck GainUnits GainFloat.
Import ListNotations.
Local Open Scope R_scope.

Definition one30 : R := 1073741824.

Lemma units_close (c : f32) : fin c -> Rabs (val c * one30 - IZR (units c)) <= 1.
Proof.
  destruct c as [s|s| |s m e H]; intros F; try discriminate F.
  - cbn [B2R units]. rewrite Rmult_0_l, Rminus_0_r, Rabs_R0. lra.
  - cbn [B2R units]. assert (P : one30 = bpow radix2 30) by reflexivity. rewrite P. unfold F2R. cbn [Fnum Fexp]. unfold UNIT_BITS.
    rewrite Rmult_assoc, <- bpow_plus.
    assert (A : Rabs (IZR (Zpos m) * bpow radix2 (e + 30) - IZR (if (e + 30 <? 0)%Z then Z.shiftr (Zpos m) (- (e + 30)) else (Zpos m * 2 ^ (e + 30))%Z)) <= 1).
    { destruct (Z.ltb_spec (e + 30) 0) as [Q|Q].
      - rewrite Z.shiftr_div_pow2 by lia. set (k := (- (e + 30))%Z). assert (K : (0 < 2 ^ k)%Z) by (apply Z.pow_pos_nonneg; unfold k; lia).
        assert (D := Z.div_mod (Zpos m) (2 ^ k) ltac:(lia)). assert (B := Z.mod_pos_bound (Zpos m) (2 ^ k) K).
        set (q := (Zpos m / 2 ^ k)%Z) in *. set (r := (Zpos m mod 2 ^ k)%Z) in *.
        replace (e + 30)%Z with (- k)%Z by (unfold k; lia). rewrite bpow_opp, <- (IZR_Zpower radix2 k) by (unfold k; lia).
        change (radix_val radix2) with 2%Z. rewrite D, plus_IZR, mult_IZR. apply IZR_lt in K.
        assert (B1 : 0 <= IZR r) by (apply IZR_le; lia). assert (B2 : IZR r <= IZR (2 ^ k)) by (apply IZR_le; lia).
        replace ((IZR (2 ^ k) * IZR q + IZR r) * / IZR (2 ^ k) - IZR q) with (IZR r * / IZR (2 ^ k)) by (field; lra).
        rewrite Rabs_pos_eq by (apply Rmult_le_pos; [exact B1|apply Rlt_le, Rinv_0_lt_compat, K]).
        apply (Rmult_le_reg_r (IZR (2 ^ k))); [exact K|]. rewrite Rmult_assoc, Rinv_l by lra. lra.
      - rewrite mult_IZR. rewrite <- (IZR_Zpower radix2 (e + 30)) by lia. change (radix_val radix2) with 2%Z.
        replace (IZR (Z.pos m) * IZR (2 ^ (e + 30)) - IZR (Z.pos m) * IZR (2 ^ (e + 30))) with 0 by ring. rewrite Rabs_R0. lra. }
    destruct s; cbn [cond_Zopp]; [|exact A]. rewrite !opp_IZR.
    rewrite <- Rabs_Ropp. match goal with |- Rabs ?a <= _ => match type of A with Rabs ?b <= _ => replace a with b by ring end end. exact A.
Qed.

Lemma mix_abs q x y b : 0 <= q <= 1 -> - b <= x <= b -> - b <= y <= b -> - b <= (1 - q) * x + q * y <= b.
Proof. intros. nra. Qed.

Section Weights.
  Variable coeffs : list f32.
  Let l := map units coeffs.
  Let L := Z.of_nat (length coeffs).
  Hypothesis Hfin : Forall (fun c : f32 => is_finite c = true) coeffs.
  Hypothesis Hsmall : forall k, (Z.abs (entry l k) <= 2 ^ 30 - 16)%Z.
  Hypothesis Hstep : forall k, (0 <= k <= L - 2)%Z -> (Z.abs (entry l (k + 1) - entry l k) <= 2 ^ 25 - 2)%Z.

  Lemma coeff_fin k : fin (nth k coeffs fzero).
  Proof. unfold fin. destruct (nth_in_or_default k coeffs fzero) as [I|E]; [exact (proj1 (Forall_forall _ _) Hfin _ I)|rewrite E; reflexivity]. Qed.
  Lemma coeff_units k : (0 <= k)%Z -> Rabs (val (nth (Z.to_nat k) coeffs fzero) * one30 - IZR (entry l k)) <= 1.
  Proof.
    intros H. assert (A := units_close _ (coeff_fin (Z.to_nat k))). unfold entry, l. rewrite Z.abs_eq by exact H.
    change 0%Z with (units fzero). rewrite map_nth. exact A.
  Qed.

  Definition plain (f : Z) : R := IZR (interp (entry l) f) / (4096 * one30).

  (** The same in real arithmetic. *)
  Definition drawn (f : Z) : R :=
    val (nth (Z.to_nat (f / 4096)) coeffs fzero) +
    IZR (f mod 4096) / 4096 * (val (nth (Z.to_nat (f / 4096 + 1)) coeffs fzero) - val (nth (Z.to_nat (f / 4096)) coeffs fzero)).

  Lemma weight_full f : (0 <= f <= (L - 2) * 4096)%Z -> fin (weight coeffs f) /\ Rabs (val (weight coeffs f) - plain f) <= / 268435456 /\ Rabs (val (weight coeffs f)) <= 1 /\
    Rabs (val (weight coeffs f) - drawn f) <= / 530000000.
  Proof.
    intros Hf. unfold weight, plain, drawn, interp. set (k := (f / 4096)%Z). set (r := (f mod 4096)%Z).
    assert (Hk : (0 <= k <= L - 2)%Z).
    { unfold k. split; [apply Z.div_pos; lia|]. assert (f / 4096 <= (L - 2) * 4096 / 4096)%Z by (apply Z.div_le_mono; lia). rewrite Z.div_mul in H by lia. exact H. }
    assert (Hr : (0 <= r < 4096)%Z) by (apply Z.mod_pos_bound; lia).
    assert (U0 := coeff_units k ltac:(lia)). assert (U1 := coeff_units (k + 1) ltac:(lia)).
    set (c0 := nth (Z.to_nat k) coeffs fzero) in *. set (c1 := nth (Z.to_nat (k + 1)) coeffs fzero) in *.
    assert (F0 : fin c0) by apply coeff_fin. assert (F1 : fin c1) by apply coeff_fin.
    assert (S0 := Hsmall k). assert (S1 := Hsmall (k + 1)). assert (D := Hstep k Hk).
    set (a0 := entry l k) in *. set (a1 := entry l (k + 1)) in *.
    apply IZR_le in S0, S1, D. rewrite abs_IZR in S0, S1, D. rewrite minus_IZR in D. rewrite minus_IZR in S0, S1, D.
    change (IZR (2 ^ 30)) with 1073741824 in S0, S1. change (IZR (2 ^ 25)) with 33554432 in D. unfold one30 in *.
    apply Rabs_le_inv in U0, U1, S0, S1, D.
    assert (B0 : - (1 - / 2000000000) <= val c0 <= 1 - / 2000000000) by lra.
    assert (Bd : Rabs (val c1 - val c0) <= / 32) by (apply Rabs_le; lra).
    destruct (d_of_f_val c0) as [V0 G0]. destruct (d_of_Z_val 4096) as [V4 F4]; [lia|]. destruct (d_of_Z_val 1) as [Vo Fo]; [lia|].
    destruct (d_of_Z_val r) as [Vr Fr]; [lia|].
    (* c1 - c0 *)
    assert (Vm : val (Bminus mode_NE c1 c0) = rnd32 (val c1 - val c0) /\ fin (Bminus mode_NE c1 c0)).
    { generalize (Bminus_correct 24 128 _ _ mode_NE c1 c0 F1 F0). rewrite noovf32; [intros (A & B & _); split; assumption|].
      apply Rle_trans with (1 := Bd). change (/ 32) with (bpow radix2 (-5)). apply bpow_le. lia. }
    destruct Vm as [Vm Fm].
    assert (Em := rnd32_err (val c1 - val c0) (-5) ltac:(lia) Bd). rewrite <- Vm in Em. change (bpow radix2 (-5 - 24)) with (/ 536870912) in Em.
    destruct (d_of_f_val (Bminus mode_NE c1 c0)) as [Vd Gd]. set (dd := d_of_f (Bminus mode_NE c1 c0)) in *.
    assert (Fd : fin dd) by (unfold fin; rewrite Gd; exact Fm). rewrite <- Vd in Em.
    (* the fraction *)
    assert (Br : 0 <= IZR r <= 4095) by (split; apply IZR_le; lia).
    destruct (ddiv_val (d_of_Z 1) (d_of_Z 4096) Fo ltac:(rewrite V4; lra)) as [Vi Fi]; [rewrite Vo, V4; apply small_1000, Rabs_le; lra|].
    assert (Ri : forall z, (Z.abs z <= 2 ^ 53)%Z -> rnd64 (IZR z / 4096) = IZR z / 4096).
    { intros z Hz. apply rnd64_id. replace (IZR z / 4096) with (IZR z * bpow radix2 (-12)) by (simpl; lra). apply fmt64_dyadic; lia. }
    rewrite Vo, V4, (Ri 1%Z ltac:(lia)) in Vi.
    destruct (dmul_val (d_of_Z r) (ddiv (d_of_Z 1) (d_of_Z 4096)) Fr Fi) as [Vf Ff]; [rewrite Vr, Vi; apply small_1000, Rabs_le; lra|].
    rewrite Vr, Vi in Vf. replace (IZR r * (1 / 4096)) with (IZR r / 4096) in Vf by field. rewrite Ri in Vf by lia.
    set (fr := dmul (d_of_Z r) (ddiv (d_of_Z 1) (d_of_Z 4096))) in *.
    change (Bmult mode_NE (d_of_Z r) (Bdiv mode_NE (d_of_Z 1) (d_of_Z 4096))) with fr.
    set (q := IZR r / 4096) in *. assert (Bq : 0 <= q <= 1) by (unfold q; lra).
    assert (Edd : - (/ 32 + / 536870912) <= val dd <= / 32 + / 536870912) by (apply Rabs_le_inv in Em; apply Rabs_le_inv in Bd; lra).
    assert (Bp : Rabs (q * val dd) <= / 32 + / 536870912) by (apply Rabs_le; nra).
    destruct (dmul_val fr dd Ff Fd) as [Vp Fp]; [rewrite Vf; apply small_1000; lra|]. rewrite Vf in Vp.
    assert (Ep := rnd64_err (q * val dd) 0 ltac:(lia) ltac:(change (bpow radix2 0) with 1; lra)). rewrite <- Vp in Ep. change (bpow radix2 (0 - 53)) with (/ 9007199254740992) in Ep.
    set (p := dmul fr dd) in *. change (Bmult mode_NE fr dd) with p.
    assert (Fc : fin (d_of_f c0)) by (unfold fin; rewrite G0; exact F0).
    apply Rabs_le_inv in Ep. apply Rabs_le_inv in Em. apply Rabs_le_inv in Bp. apply Rabs_le_inv in Bd.
    destruct (dadd_val (d_of_f c0) p Fc Fp) as [Vs Fs]; [rewrite V0; apply small_1000, Rabs_le; lra|]. rewrite V0 in Vs.
    assert (Es := rnd64_err (val c0 + val p) 1 ltac:(lia) ltac:(change (bpow radix2 1) with 2; apply Rabs_le; lra)). rewrite <- Vs in Es.
    change (bpow radix2 (1 - 53)) with (/ 4503599627370496) in Es. apply Rabs_le_inv in Es.
    set (w := dadd (d_of_f c0) p) in *. change (Bplus mode_NE (d_of_f c0) p) with w.
    split; [exact Fs|].
    assert (Q1 : - / 536870912 <= q * val dd - q * (val c1 - val c0) <= / 536870912).
    { replace (q * val dd - q * (val c1 - val c0)) with (q * (val dd - (val c1 - val c0))) by ring. nra. }
    assert (Ex : (1 - q) * val c0 + q * val c1 = val c0 + q * (val c1 - val c0)) by ring.
    set (b0 := IZR a0 / 1073741824) in *. set (b1 := IZR a1 / 1073741824) in *.
    assert (I0 : - / 1073741824 <= val c0 - b0 <= / 1073741824) by (unfold b0; lra).
    assert (I1 : - / 1073741824 <= val c1 - b1 <= / 1073741824) by (unfold b1; lra).
    assert (I2 : - / 1073741824 <= ((1 - q) * val c0 + q * val c1) - ((1 - q) * b0 + q * b1) <= / 1073741824).
    { replace ((1 - q) * val c0 + q * val c1 - ((1 - q) * b0 + q * b1)) with ((1 - q) * (val c0 - b0) + q * (val c1 - b1)) by ring. now apply mix_abs. }
    assert (Epl : IZR (a0 * (4096 - r) + a1 * r) / (4096 * 1073741824) = (1 - q) * b0 + q * b1).
    { rewrite plus_IZR, !mult_IZR, minus_IZR. unfold b0, b1, q. field. }
    rewrite Epl.
    split; [apply Rabs_le; lra|]. apply and_comm. split; [apply Rabs_le; lra|].
    assert (I3 : - (1 - 16 / 1073741824) <= (1 - q) * b0 + q * b1 <= 1 - 16 / 1073741824).
    { assert (- (1 - 16 / 1073741824) <= b0 <= 1 - 16 / 1073741824) by (unfold b0; lra). assert (- (1 - 16 / 1073741824) <= b1 <= 1 - 16 / 1073741824) by (unfold b1; lra). now apply mix_abs. }
    apply Rabs_le. lra.
  Qed.
  Lemma weight_close f : (0 <= f <= (L - 2) * 4096)%Z -> fin (weight coeffs f) /\ Rabs (val (weight coeffs f) - plain f) <= / 268435456 /\ Rabs (val (weight coeffs f)) <= 1.
  Proof. intros Hf. destruct (weight_full f Hf) as (A & B & C & _). auto. Qed.
End Weights.
