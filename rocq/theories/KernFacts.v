(** The sinc samples are close to the convolution with the piecewise linear kernel. *)
From Coq Require Import ZArith Reals List Bool Lia Lra Psatz.
From Flocq Require Import Core IEEE754.BinarySingleNaN.
From Verif Require Import Base FloatFacts PosFacts ErrFacts HoldSpec HoldFacts HoldRamp HoldCore HoldValue LifeSpec SincSpec SincFacts AccSpec KernSpec
  GainGrid GainCheck GainUnits GainFloat GainWeights GainBound GainMain GainStream AccFacts.
Import ListNotations.
Local Open Scope R_scope.

(** ** The kernel *)
Section Kernel.
  Variable coeffs : list f32.
  Let Lm := (zlen coeffs - 2)%Z.
  Definition co (k : Z) : R := val (nth (Z.to_nat k) coeffs fzero).

  Lemma kernel_cell k s : (0 <= k < Lm)%Z -> IZR k <= s <= IZR (k + 1) -> kernel coeffs s = on_line (co k) (co (k + 1)) (s - IZR k).
  Proof.
    intros Hk Hs. unfold kernel. fold Lm. destruct (Rle_dec s (IZR Lm)) as [Q|Q].
    2:{ exfalso. apply Q. apply Rle_trans with (IZR (k + 1)); [lra|apply IZR_le; lia]. }
    rewrite plus_IZR in Hs. destruct (Req_dec s (IZR k + 1)) as [E|E].
    - replace (Zfloor s) with (k + 1)%Z by (rewrite E, <- plus_IZR; symmetry; apply Zfloor_IZR). rewrite E. fold (co (k + 1)). unfold on_line. rewrite plus_IZR. ring.
    - replace (Zfloor s) with k by (symmetry; apply Zfloor_imp; rewrite plus_IZR; lra). reflexivity.
  Qed.
  Lemma kernel_end s : IZR Lm < s -> kernel coeffs s = 0.
  Proof. intros H. unfold kernel. fold Lm. destruct (Rle_dec s (IZR Lm)); [lra|reflexivity]. Qed.
  Lemma kernel_last : (0 <= Lm)%Z -> kernel coeffs (IZR Lm) = co Lm.
  Proof. intros H. unfold kernel. fold Lm. destruct (Rle_dec (IZR Lm) (IZR Lm)); [|lra]. rewrite Zfloor_IZR. unfold on_line. fold (co Lm). ring. Qed.
  Lemma kernel_at f : (0 <= f <= Lm * 4096)%Z -> kernel coeffs (IZR f / 4096) = table_at coeffs f.
  Proof.
    intros Hf. unfold kernel, table_at. fold Lm. assert (D := Z.div_mod f 4096 ltac:(lia)). assert (M := Z.mod_pos_bound f 4096 ltac:(lia)).
    destruct (Rle_dec (IZR f / 4096) (IZR Lm)) as [Q|Q].
    2:{ exfalso. apply Q. destruct Hf as [_ Hf]. apply IZR_le in Hf. rewrite mult_IZR in Hf. lra. }
    assert (E : (IZR f / 4096 = IZR (f / 4096) + IZR (f mod 4096) / 4096)%R) by (rewrite D at 1; rewrite plus_IZR, mult_IZR; lra).
    assert (F : Zfloor (IZR f / 4096) = (f / 4096)%Z).
    { apply Zfloor_imp. rewrite E, plus_IZR. destruct M as [M0 M1]. apply IZR_le in M0. apply IZR_lt in M1. lra. }
    rewrite F. f_equal. lra.
  Qed.

  Variables (k0 : Z) (D J : R).
  Hypothesis Hk0 : (0 <= k0)%Z.
  Hypothesis HL : (0 <= Lm)%Z.
  Hypothesis HD : forall k, (k0 <= k < Lm)%Z -> Rabs (co (k + 1) - co k) <= D.
  Hypothesis PD : 0 <= D.
  Hypothesis HJ : Rabs (co Lm) <= J.
  Lemma line_close a b q q' : Rabs (b - a) <= D -> Rabs (on_line a b q - on_line a b q') <= D * Rabs (q - q').
  Proof.
    intros H. unfold on_line. replace (a + q * (b - a) - (a + q' * (b - a))) with ((b - a) * (q - q')) by ring. rewrite Rabs_mult.
    apply Rmult_le_compat_r; [apply Rabs_pos|exact H].
  Qed.
  Lemma kernel_lip n : forall a b, IZR k0 <= a -> a <= b -> b <= IZR Lm -> b <= IZR (Zfloor a + 1 + Z.of_nat n) -> Rabs (kernel coeffs b - kernel coeffs a) <= D * (b - a).
  Proof.
    induction n as [|n IH]; intros a b Ha Hab Hb Hn.
    - rewrite Z.add_0_r in Hn. assert (F1 := Zfloor_lb a). assert (F2 := Zfloor_ub a). rewrite plus_IZR in Hn.
      assert (K0 : (k0 <= Zfloor a)%Z) by (apply Zfloor_lub; exact Ha).
      destruct (Z_lt_le_dec (Zfloor a) Lm) as [Q|Q].
      + rewrite (kernel_cell (Zfloor a) a), (kernel_cell (Zfloor a) b) by (rewrite ?plus_IZR; lra || lia).
        eapply Rle_trans; [apply line_close, HD; lia|]. replace (b - IZR (Zfloor a) - (a - IZR (Zfloor a))) with (b - a) by ring. rewrite Rabs_pos_eq by lra. lra.
      + apply IZR_le in Q. assert (a = b) as -> by lra. replace (b - b) with 0 by ring. unfold Rminus. rewrite Rplus_opp_r, Rabs_R0. lra.
    - destruct (Rle_lt_dec b (IZR (Zfloor a + 1 + Z.of_nat n))) as [Q|Q]; [now apply IH|].
      set (k := (Zfloor a + 1 + Z.of_nat n)%Z) in *. assert (F2 := Zfloor_ub a). assert (F1 := Zfloor_lb a).
      assert (K0 : (k0 <= Zfloor a)%Z) by (apply Zfloor_lub; exact Ha).
      assert (Ak : a <= IZR k) by (unfold k; rewrite !plus_IZR; assert (N := IZR_le 0 (Z.of_nat n) ltac:(lia)); lra).
      assert (Hk : (k < Lm)%Z) by (apply lt_IZR; lra).
      assert (I1 := IH a (IZR k) Ha Ak ltac:(apply IZR_le; lia) (Rle_refl _)).
      replace (Zfloor a + 1 + Z.of_nat (S n))%Z with (k + 1)%Z in Hn by (unfold k; lia).
      assert (I2 : Rabs (kernel coeffs b - kernel coeffs (IZR k)) <= D * (b - IZR k)).
      { rewrite (kernel_cell k b), (kernel_cell k (IZR k)) by (rewrite ?plus_IZR in *; lra || lia).
        eapply Rle_trans; [apply line_close, HD; lia|]. replace (b - IZR k - (IZR k - IZR k)) with (b - IZR k) by ring. rewrite Rabs_pos_eq by lra. lra. }
      replace (kernel coeffs b - kernel coeffs a) with ((kernel coeffs b - kernel coeffs (IZR k)) + (kernel coeffs (IZR k) - kernel coeffs a)) by ring.
      eapply Rle_trans; [apply Rabs_triang|]. lra.
  Qed.
  Lemma kernel_lip' a b : IZR k0 <= a -> a <= b -> b <= IZR Lm -> Rabs (kernel coeffs b - kernel coeffs a) <= D * (b - a).
  Proof.
    intros Ha Hab Hb. apply (kernel_lip (Z.to_nat (Lm - Zfloor a))); auto. apply Rle_trans with (IZR Lm); [exact Hb|]. apply IZR_le. lia.
  Qed.
  Lemma kernel_mod a b : IZR k0 <= a -> IZR k0 <= b -> Rabs (kernel coeffs a - kernel coeffs b) <= D * Rabs (a - b) + J.
  Proof.
    assert (PJ : 0 <= J) by (eapply Rle_trans; [apply Rabs_pos|exact HJ]).
    assert (G : forall a b, IZR k0 <= a -> a <= b -> Rabs (kernel coeffs b - kernel coeffs a) <= D * (b - a) + J).
    { clear a b. intros a b Ha Hab. destruct (Rle_lt_dec b (IZR Lm)) as [Q|Q]; [assert (A := kernel_lip' a b Ha Hab Q); lra|].
      assert (Pab : 0 <= D * (b - a)) by (apply Rmult_le_pos; lra).
      rewrite (kernel_end b Q). destruct (Rle_lt_dec a (IZR Lm)) as [Q1|Q1]; [|rewrite (kernel_end a Q1), Rminus_0_r, Rabs_R0; lra].
      assert (A := kernel_lip' a (IZR Lm) Ha Q1 (Rle_refl _)). rewrite (kernel_last HL) in A.
      replace (0 - kernel coeffs a) with ((co Lm - kernel coeffs a) + - co Lm) by ring. eapply Rle_trans; [apply Rabs_triang|]. rewrite Rabs_Ropp.
      assert (D * (IZR Lm - a) <= D * (b - a)) by (apply Rmult_le_compat_l; lra). lra. }
    intros Ha Hb. destruct (Rle_dec a b) as [Q|Q].
    - rewrite <- Rabs_Ropp, (Rabs_minus_sym a b), (Rabs_pos_eq (b - a)) by lra. replace (- (kernel coeffs a - kernel coeffs b)) with (kernel coeffs b - kernel coeffs a) by ring. now apply G.
    - rewrite (Rabs_pos_eq (a - b)) by lra. apply G; lra.
  Qed.
End Kernel.

(** ** Slopes of the table *)
(** Differences of neighbours, two units more for the rounding to units. *)
Fixpoint rises (l : list Z) : list Z :=
  match l with x :: ((y :: _) as r) => (Z.abs (y - x) + 2)%Z :: rises r | _ => [] end.
(** (j + 4) times entry j *)
Fixpoint moments (o : Z) (l : list Z) : list Z := match l with [] => [] | x :: r => ((o + 4) * x)%Z :: moments (o + 1) r end.

Lemma rises_nth l : forall k, (S k < length l)%nat -> nth k (rises l) 0%Z = (Z.abs (nth (S k) l 0%Z - nth k l 0%Z) + 2)%Z.
Proof.
  induction l as [|x r IH]; intros k H; [cbn in H; lia|]. destruct r as [|y r]; [cbn in H; lia|].
  change (rises (x :: y :: r)) with ((Z.abs (y - x) + 2)%Z :: rises (y :: r)). destruct k as [|k]; [reflexivity|]. cbn [nth length] in *. rewrite IH by (cbn; lia). reflexivity.
Qed.
Lemma rises_pos l : forall x, In x (rises l) -> (0 <= x)%Z.
Proof.
  induction l as [|a r IH]; intros x H; [destruct H|]. destruct r as [|y r]; [destruct H|].
  change (rises (a :: y :: r)) with ((Z.abs (y - a) + 2)%Z :: rises (y :: r)) in H. destruct H as [<-|H]; [lia|]. now apply IH.
Qed.
Lemma moments_env l : forall o k, (0 <= o)%Z -> ((o + Z.of_nat k + 4) * nth k (envelope l) 0 <= nth k (envelope (moments o l)) 0)%Z.
Proof.
  induction l as [|x r IH]; intros o k Ho; cbn [moments envelope]; [destruct k; cbn; lia|].
  destruct k as [|k]; cbn [nth].
  - assert (A := IH (o + 1)%Z 0%nat ltac:(lia)). assert (P := envelope_dec r 0 0 ltac:(lia)). rewrite <- !hd_nth in A. rewrite <- hd_nth in P. cbn [Z.of_nat] in *. nia.
  - assert (A := IH (o + 1)%Z k ltac:(lia)). rewrite Nat2Z.inj_succ. replace (o + Z.succ (Z.of_nat k) + 4)%Z with (o + 1 + Z.of_nat k + 4)%Z by lia. exact A.
Qed.
