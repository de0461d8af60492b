(** The ratio ramp of one call: bounds and agreement with the specification. *)
From Coq Require Import ZArith Reals List Bool Lia Lra.
From Flocq Require Import Core IEEE754.BinarySingleNaN.
From Verif Require Import Base FloatFacts PosFacts Types Common HoldSpec HoldFacts.
Local Open Scope R_scope.

Lemma scaled_abs (g c : Z) (d : R) : (0 <= g < c)%Z -> (c <= 2 ^ 50)%Z -> bpow radix2 (-60) <= Rabs d ->
  (0 <= d -> 0 <= rnd64 (rnd64 (IZR g * rnd64 d) / IZR c) <= d) /\
  (d <= 0 -> d <= rnd64 (rnd64 (IZR g * rnd64 d) / IZR c) <= 0) /\
  Rabs (rnd64 (rnd64 (IZR g * rnd64 d) / IZR c) - IZR g * d / IZR c) <= bpow radix2 (-51) * Rabs d.
Proof.
  intros Hg Hc Hd. assert (P60 : 0 < bpow radix2 (-60)) by apply bpow_gt_0.
  destruct (Rle_or_lt 0 d) as [L|L].
  - rewrite Rabs_pos_eq in Hd by lra. rewrite (Rabs_pos_eq d) by lra.
    destruct (scaled_le g c d Hg Hc Hd) as [A B]. split; [auto|split; [lra|auto]].
  - rewrite Rabs_left in Hd by lra. rewrite (Rabs_left d) by lra.
    destruct (scaled_le g c (- d) Hg Hc Hd) as [A B].
    assert (E : rnd64 (rnd64 (IZR g * rnd64 (- d)) / IZR c) = - rnd64 (rnd64 (IZR g * rnd64 d) / IZR c)).
    { rewrite (rnd64_opp d). replace (IZR g * - rnd64 d) with (- (IZR g * rnd64 d)) by ring. rewrite rnd64_opp.
      unfold Rdiv. replace (- rnd64 (IZR g * rnd64 d) * / IZR c) with (- (rnd64 (IZR g * rnd64 d) * / IZR c)) by ring.
      apply rnd64_opp. }
    rewrite E in A, B. split; [lra|split; [lra|]].
    rewrite <- Rabs_Ropp. replace (- (rnd64 (rnd64 (IZR g * rnd64 d) / IZR c) - IZR g * d / IZR c)) with
      (- rnd64 (rnd64 (IZR g * rnd64 d) / IZR c) - IZR g * - d / IZR c) by (unfold Rdiv; ring). exact B.
Qed.

Lemma Beqb_spec (x y : f64) : fin x -> fin y -> Beqb x y = Req_bool (val x) (val y).
Proof. intros. now apply Beqb_correct. Qed.

Lemma good_fmt r : good_ratio r -> fmt64 (val r).
Proof. intros _. apply fmt64_val. Qed.

Lemma good_diff r1 r2 : good_ratio r1 -> good_ratio r2 -> val r1 <> val r2 ->
  bpow radix2 (-60) <= Rabs (val r1 - val r2) <= 256.
Proof.
  intros [F1 B1] [F2 B2] N. split.
  - destruct (Rle_or_lt (val r1) (val r2)) as [L|L].
    + rewrite Rabs_left1 by lra. replace (- (val r1 - val r2)) with (val r2 - val r1) by ring.
      apply ratio_gap; try apply fmt64_val; lra.
    + rewrite Rabs_pos_eq by lra. apply ratio_gap; try apply fmt64_val; lra.
  - apply Rabs_le. lra.
Qed.

Lemma le1000 x : Rabs x <= 1024 -> Rabs x <= bpow radix2 1000.
Proof.
  intros H. apply Rle_trans with (1 := H). change 1024 with (bpow radix2 10). apply bpow_le; lia.
Qed.

(** The ratio difference test: |last - new| > 1e-20 exactly when they differ. *)
Lemma threshold_ok last new : good_ratio last -> good_ratio new ->
  dgt (dabs (dsub last new)) (lit_1em 20) = negb (Req_bool (val last) (val new)).
Proof.
  intros G1 G2. destruct lit20 as (L1 & L2 & L3).
  assert (A : Rabs (val last - val new) <= 1024).
  { apply Rle_trans with 256; [|lra]. destruct G1, G2. apply Rabs_le. lra. }
  destruct (dsub_val last new (proj1 G1) (proj1 G2) (le1000 _ A)) as [V F].
  assert (Va : val (dabs (dsub last new)) = Rabs (rnd64 (val last - val new))).
  { unfold dabs. rewrite B2R_Babs. now rewrite V. }
  assert (Fa : fin (dabs (dsub last new))) by (unfold fin, dabs; rewrite is_finite_Babs; exact F).
  rewrite dgt_spec by assumption. rewrite Va.
  destruct (Req_bool_spec (val last) (val new)) as [E|N]; simpl negb.
  - rewrite E, Rminus_diag_eq by reflexivity. rewrite rnd64_0, Rabs_R0. apply Rlt_bool_false. lra.
  - apply Rlt_bool_true. destruct (good_diff last new G1 G2 N) as [D _].
    assert (bpow radix2 (-61) < bpow radix2 (-60)) by (apply bpow_lt; lia).
    apply Rlt_le_trans with (bpow radix2 (-60)); [lra|].
    unfold rnd64. rewrite <- round_NE_abs by auto with typeclass_instances.
    fold (rnd64 (Rabs (val last - val new))). apply rnd64_ge; [apply fmt64_bpow; lia|exact D].
Qed.

Definition between (lo x hi : R) : Prop := Rmin lo hi <= x <= Rmax lo hi.

Lemma ramp_val last new (g c : Z) : good_ratio last -> good_ratio new -> (0 <= g < c)%Z -> (c <= 2 ^ 50)%Z ->
  val last <> val new ->
  let y := dadd last (ddiv (dmul (d_of_Z g) (dsub new last)) (d_of_Z c)) in
  fin y /\ between (val last) (val y) (val new) /\
  Rabs (val y - (val last + IZR g * (val new - val last) / IZR c)) <= bpow radix2 (-42).
Proof.
  intros G1 G2 Hg Hc N y.
  assert (A : Rabs (val new - val last) <= 1024).
  { apply Rle_trans with 256; [|lra]. destruct G1, G2. apply Rabs_le. lra. }
  destruct (dsub_val new last (proj1 G2) (proj1 G1) (le1000 _ A)) as [V1 F1].
  destruct (good_diff new last G2 G1 (not_eq_sym N)) as [D1 D2].
  set (d := val new - val last) in *.
  assert (R1 : Rabs (rnd64 d) <= bpow radix2 8).
  { apply rnd64_abs_le; [lia|]. change (bpow radix2 8) with 256. exact D2. }
  assert (Hg53 : (Z.abs g <= 2 ^ 53)%Z) by (rewrite Z.abs_eq by lia; lia).
  assert (Hc53 : (Z.abs c <= 2 ^ 53)%Z) by (rewrite Z.abs_eq by lia; lia).
  destruct (d_of_Z_val g Hg53) as [Vg Fg]. destruct (d_of_Z_val c Hc53) as [Vc Fc].
  assert (Gr : 0 <= IZR g <= bpow radix2 50).
  { split. apply (IZR_le 0); lia. change (bpow radix2 50) with (IZR (2 ^ 50)). apply IZR_le. lia. }
  assert (Cr : 1 <= IZR c) by (apply (IZR_le 1); lia).
  assert (R2 : Rabs (IZR g * rnd64 d) <= bpow radix2 58).
  { rewrite Rabs_mult, (Rabs_pos_eq (IZR g)) by lra. change 58%Z with (50 + 8)%Z. rewrite bpow_plus.
    apply Rmult_le_compat; try lra. apply Rabs_pos. }
  destruct (dmul_val (d_of_Z g) (dsub new last) Fg F1) as [V2 F2].
  { rewrite Vg, V1. apply Rle_trans with (1 := R2). apply bpow_le; lia. }
  rewrite Vg, V1 in V2.
  assert (R3 : Rabs (rnd64 (IZR g * rnd64 d)) <= bpow radix2 58) by (apply rnd64_abs_le; [lia|exact R2]).
  destruct (ddiv_val (dmul (d_of_Z g) (dsub new last)) (d_of_Z c) F2) as [V3 F3].
  { rewrite Vc. lra. }
  { rewrite V2, Vc. unfold Rdiv. rewrite Rabs_mult. rewrite Rabs_inv. rewrite (Rabs_pos_eq (IZR c)) by lra.
    apply Rle_trans with (bpow radix2 58 * 1); [|rewrite Rmult_1_r; apply bpow_le; lia].
    apply Rmult_le_compat; try apply Rabs_pos; try lra.
    left; apply Rinv_0_lt_compat; lra. rewrite <- Rinv_1. apply Rinv_le; lra. }
  rewrite V2, Vc in V3.
  destruct (scaled_abs g c d Hg Hc D1) as (S1 & S2 & S3).
  set (q := rnd64 (rnd64 (IZR g * rnd64 d) / IZR c)) in *.
  destruct G1 as [Fl Bl]. destruct G2 as [Fn Bn].
  assert (Bs : Rmin (val last) (val new) <= val last + q <= Rmax (val last) (val new)).
  { unfold Rmin, Rmax. destruct (Rle_dec (val last) (val new)) as [L|L].
    - destruct S1 as [A1 A2]; unfold d in *; lra.
    - destruct S2 as [A1 A2]; unfold d in *; lra. }
  assert (BB : 0 <= Rmin (val last) (val new) /\ Rmax (val last) (val new) <= 256).
  { unfold Rmin, Rmax. destruct (Rle_dec (val last) (val new)); lra. }
  destruct (dadd_val last (ddiv (dmul (d_of_Z g) (dsub new last)) (d_of_Z c)) Fl F3) as [V4 F4].
  { rewrite V3. apply le1000. rewrite Rabs_pos_eq by lra. lra. }
  fold y in V4, F4. rewrite V3 in V4.
  split; [exact F4|]. split.
  - unfold between. rewrite V4. split.
    + apply rnd64_ge; [|lra]. unfold Rmin. destruct (Rle_dec _ _); apply fmt64_val.
    + apply rnd64_le; [|lra]. unfold Rmax. destruct (Rle_dec _ _); apply fmt64_val.
  - rewrite V4. fold d.
    assert (E1 : Rabs (rnd64 (val last + q) - (val last + q)) <= bpow radix2 (-45)).
    { apply Rle_trans with (bpow radix2 (-53) * Rabs (val last + q)).
      - apply rnd64_rel. rewrite Rabs_pos_eq by lra. apply Rle_trans with (bpow radix2 (-8)). apply bpow_le; lia.
        change (bpow radix2 (-8)) with (/ 256). apply Rle_trans with (Rmin (val last) (val new)); [|lra].
        apply Rmin_glb; lra.
      - change (-45)%Z with (-53 + 8)%Z. rewrite bpow_plus. apply Rmult_le_compat_l. apply bpow_ge_0.
        rewrite Rabs_pos_eq by lra. change (bpow radix2 8) with 256. lra. }
    assert (E2 : Rabs (q - IZR g * d / IZR c) <= bpow radix2 (-43)).
    { apply Rle_trans with (1 := S3). change (-43)%Z with (-51 + 8)%Z. rewrite bpow_plus.
      apply Rmult_le_compat_l. apply bpow_ge_0. change (bpow radix2 8) with 256. exact D2. }
    replace (rnd64 (val last + q) - (val last + IZR g * d / IZR c)) with
      ((rnd64 (val last + q) - (val last + q)) + (q - IZR g * d / IZR c)) by ring.
    apply Rle_trans with (1 := Rabs_triang _ _).
    assert (bpow radix2 (-45) <= bpow radix2 (-43)) by (apply bpow_le; lia).
    assert (bpow radix2 (-42) = 2 * bpow radix2 (-43)).
    { change 2 with (bpow radix2 1). rewrite <- bpow_plus. reflexivity. }
    lra.
Qed.

Lemma between_good last new y : good_ratio last -> good_ratio new -> fin y ->
  between (val last) (val y) (val new) -> good_ratio y.
Proof.
  intros [_ B1] [_ B2] F [L U]. split; auto.
  unfold Rmin, Rmax in *. destruct (Rle_dec _ _); lra.
Qed.

Lemma good_eq last new : good_ratio last -> good_ratio new -> val last = val new -> last = new.
Proof.
  intros [F1 B1] [F2 B2] E. apply f64_eq; auto. rewrite !Bsign_pos by lra. reflexivity.
Qed.

Lemma ramp_ok last new ch frames (k : nat) cur : good_ratio last -> good_ratio new ->
  (0 < ch)%Z -> (Z.of_nat k < frames)%Z -> (frames * ch <= 2 ^ 50)%Z -> (last = new -> cur = last) ->
  ramp_ratio (lit_1em 20) last new (Z.of_nat k * ch) (frames * ch) cur = ramp last new ch frames k /\
  good_ratio (ramp last new ch frames k) /\
  between (val last) (val (ramp last new ch frames k)) (val new) /\
  Rabs (val (ramp last new ch frames k) - (val last + IZR (Z.of_nat k) * (val new - val last) / IZR frames)) <= bpow radix2 (-42).
Proof.
  intros G1 G2 Hc Hk Hf Hcur.
  unfold ramp_ratio, ramp. rewrite threshold_ok by assumption.
  rewrite Beqb_spec by (apply G1 || apply G2).
  replace (0 <? frames * ch)%Z with true by (symmetry; apply Z.ltb_lt; nia).
  destruct (Req_bool_spec (val last) (val new)) as [E|N]; simpl.
  - rewrite Hcur by now apply good_eq.
    assert (P42 : 0 < bpow radix2 (-42)) by apply bpow_gt_0.
    split; [reflexivity|]. split; [exact G1|]. split.
    + unfold between, Rmin, Rmax. rewrite E. destruct (Rle_dec _ _); lra.
    + rewrite E. replace (val new - (val new + _)) with 0 by (unfold Rdiv; ring). rewrite Rabs_R0. lra.
  - destruct (ramp_val last new (Z.of_nat k * ch) (frames * ch) G1 G2) as (F & B & Er); auto; [nia|].
    split; [reflexivity|]. split; [exact (between_good last new _ G1 G2 F B)|]. split; [exact B|].
    assert (Fr : IZR frames <> 0) by (apply not_0_IZR; lia).
    assert (Cr : IZR ch <> 0) by (apply not_0_IZR; lia).
    rewrite !mult_IZR in Er. unfold dadd, ddiv, dmul, dsub in Er.
    replace (IZR (Z.of_nat k) * (val new - val last) / IZR frames) with
      (IZR (Z.of_nat k) * IZR ch * (val new - val last) / (IZR frames * IZR ch)) by (field; auto).
    exact Er.
Qed.

(** At the first output of a call the ratio is the one left by the previous call. *)
Lemma ramp_first last new ch frames : good_ratio last -> good_ratio new -> (0 < ch)%Z -> (0 < frames)%Z ->
  (frames * ch <= 2 ^ 50)%Z -> ramp last new ch frames 0 = last.
Proof.
  intros G1 G2 Hc Hk Hf.
  destruct (ramp_ok last new ch frames 0 last G1 G2 Hc) as (E & G & _); auto.
  unfold ramp in *. destruct (Beqb last new) eqn:EB; [reflexivity|].
  rewrite Beqb_spec in EB by (apply G1 || apply G2).
  destruct (Req_bool_spec (val last) (val new)) as [E'|N]; [discriminate|].
  assert (G0 : (0 <= 0 < frames * ch)%Z) by nia.
  destruct (ramp_val last new 0 (frames * ch) G1 G2 G0 Hf N) as (F & B & _).
  apply f64_eq; auto.
  - apply G1.
  - destruct (scaled_abs 0 (frames * ch) (val new - val last) G0 Hf) as (_ & _ & S).
    { apply good_diff; auto. }
    assert (A : Rabs (val new - val last) <= 1024).
    { apply Rle_trans with 256; [|lra]. destruct G1, G2. apply Rabs_le. lra. }
    destruct (dsub_val new last (proj1 G2) (proj1 G1) (le1000 _ A)) as [V1 F1].
    destruct (d_of_Z_val 0) as [V0 F0]; [simpl; lia|].
    destruct (d_of_Z_rnd (frames * ch)) as [Vc Fc].
    { rewrite Z.abs_eq by nia. apply Z.le_trans with (2 ^ 50)%Z; [exact Hf|]. apply Z.pow_le_mono_r; lia. }
    destruct (dmul_val (d_of_Z 0) (dsub new last) F0 F1) as [V2 F2].
    { rewrite V0, Rmult_0_l, Rabs_R0. apply bpow_ge_0. }
    rewrite V0, Rmult_0_l, rnd64_0 in V2.
    assert (C0 : val (d_of_Z (frames * ch)) <> 0).
    { destruct (d_of_Z_val (frames * ch)) as [Vc' _].
      rewrite Z.abs_eq by nia. lia. rewrite Vc'. apply not_0_IZR. nia. }
    destruct (ddiv_val (dmul (d_of_Z 0) (dsub new last)) (d_of_Z (frames * ch)) F2 C0) as [V3 F3].
    { rewrite V2. unfold Rdiv. rewrite Rmult_0_l, Rabs_R0. apply bpow_ge_0. }
    rewrite V2 in V3. unfold Rdiv in V3. rewrite Rmult_0_l, rnd64_0 in V3.
    destruct (dadd_val last _ (proj1 G1) F3) as [V4 F4].
    { rewrite V3, Rplus_0_r. apply le1000. destruct G1. rewrite Rabs_pos_eq by lra. lra. }
    change (Z.of_nat 0 * ch)%Z with 0%Z. unfold dadd, ddiv, dmul, dsub in V4, V3. rewrite V4, V3, Rplus_0_r.
    apply rnd64_val.
  - rewrite !Bsign_pos; auto. destruct G1; lra. destruct G; lra.
Qed.
