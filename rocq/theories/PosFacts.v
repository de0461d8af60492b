(** Stream-position arithmetic: [fmod_one], the ratio test and one position step are exact enough. *)
From Coq Require Import ZArith Reals Bool Lia Lra Psatz.
From Flocq Require Import Core Sterbenz IEEE754.BinarySingleNaN.
From Verif Require Import Base FloatFacts.
Local Open Scope R_scope.

(** Subtracting a smaller integer from a double below 2^53 is exact. *)
Lemma fmt64_sub_int (x : R) (j : Z) : fmt64 x -> x < bpow radix2 53 -> 0 <= IZR j <= x -> fmt64 (x - IZR j).
Proof.
  intros F L [J1 J2].
  destruct (Req_dec x 0) as [E|E].
  { assert (IZR j = 0) by lra. rewrite E, H, Rminus_0_r. apply generic_format_0. }
  assert (He : (cexp radix2 (FLT_exp (-1074) 53) x <= 0)%Z).
  { unfold cexp, FLT_exp.
    assert (mag radix2 x <= 53)%Z; [|lia].
    apply mag_le_bpow; auto. rewrite Rabs_pos_eq; lra. }
  assert (He' : (-1074 <= cexp radix2 (FLT_exp (-1074) 53) x)%Z) by (unfold cexp, FLT_exp; lia).
  set (e := cexp radix2 (FLT_exp (-1074) 53) x) in *.
  assert (Ex : x = IZR (Ztrunc (scaled_mantissa radix2 (FLT_exp (-1074) 53) x)) * bpow radix2 e).
  { unfold generic_format, F2R in F. simpl in F. exact F. }
  set (m := Ztrunc _) in *.
  assert (Hm : (Z.abs m < 2 ^ 53)%Z).
  { assert (A : Rabs x < bpow radix2 (53 + e)).
    { apply Rlt_le_trans with (bpow radix2 (mag radix2 x)). apply bpow_mag_gt.
      apply bpow_le. unfold e, cexp, FLT_exp. lia. }
    rewrite Ex, Rabs_mult, (Rabs_pos_eq (bpow radix2 e)), bpow_plus in A by apply bpow_ge_0.
    apply Rmult_lt_reg_r in A; [|apply bpow_gt_0].
    rewrite <- abs_IZR in A. apply lt_IZR. exact A. }
  assert (Hj : IZR j = IZR (j * 2 ^ (- e)) * bpow radix2 e).
  { rewrite mult_IZR. replace (IZR (2 ^ - e)) with (bpow radix2 (- e))
      by (rewrite <- IZR_Zpower by lia; reflexivity).
    rewrite Rmult_assoc, <- bpow_plus. replace (- e + e)%Z with 0%Z by lia. simpl. ring. }
  assert (Hj0 : (0 <= j)%Z) by now apply le_IZR.
  assert (P : (0 <= j * 2 ^ (- e) <= m)%Z).
  { split. apply Z.mul_nonneg_nonneg; auto. apply Z.pow_nonneg; lia.
    apply le_IZR. apply Rmult_le_reg_r with (bpow radix2 e). apply bpow_gt_0.
    rewrite <- Hj, <- Ex. exact J2. }
  rewrite Hj, Ex. rewrite <- Rmult_minus_distr_r, <- minus_IZR.
  apply fmt64_dyadic; lia.
Qed.

Lemma Zfloor_nearest x : Zfloor x = if Rlt_bool x (IZR (ZnearestE x)) then (ZnearestE x - 1)%Z else ZnearestE x.
Proof.
  generalize (ZnearestE_bounds x). intros B.
  case Rlt_bool_spec; intros H; apply Zfloor_imp; rewrite ?plus_IZR, ?minus_IZR; lra.
Qed.

Lemma Zfloor_frac x : IZR (Zfloor x) <= x < IZR (Zfloor x) + 1.
Proof. split. apply Zfloor_lb. apply Zfloor_ub. Qed.

Lemma bpow53 : bpow radix2 53 = IZR (2 ^ 53).
Proof. reflexivity. Qed.

(** [fmod_one] computes the fractional part exactly (common.h:234-243). *)
Lemma fmod_one_val (x : f64) : fin x -> 0 <= val x <= 2147483647 ->
  val (fmod_one x) = val x - IZR (Zfloor (val x)) /\ fin (fmod_one x) /\
  (Bsign x = false -> Bsign (fmod_one x) = false).
Proof.
  intros F [L U]. unfold fmod_one.
  assert (N0 : (0 <= ZnearestE (val x))%Z) by (rewrite <- (ZnearestE_IZR 0); now apply ZnearestE_mono).
  assert (N1 : (ZnearestE (val x) <= 2147483647)%Z) by (rewrite <- (ZnearestE_IZR 2147483647); now apply ZnearestE_mono).
  rewrite (psf_lrint_val x F) by (split; [|change (2^31-1)%Z with 2147483647%Z]; lia).
  set (k := ZnearestE (val x)) in *.
  assert (B : IZR k - / 2 <= val x <= IZR k + / 2) by apply ZnearestE_bounds.
  destruct (d_of_Z_val k) as [Vk Fk]. { rewrite Z.abs_eq by lia. apply Z.le_trans with (1 := N1). discriminate. }
  assert (R53 : val x < bpow radix2 53). { rewrite bpow53. apply Rle_lt_trans with (1 := U). apply IZR_lt. reflexivity. }
  assert (Ab : Rabs (val x - IZR k) <= bpow radix2 1000).
  { apply Rle_trans with 1. apply Rabs_le. lra. apply (bpow_le radix2 0 1000); lia. }
  generalize (Bminus_correct 53 1024 _ _ mode_NE x (d_of_Z k) F Fk). rewrite Vk.
  rewrite (noovf64 _ Ab). fold (dsub x (d_of_Z k)). intros (V & Fr & S).
  set (res := dsub x (d_of_Z k)) in *.
  assert (Vr : val res = val x - IZR k).
  { rewrite V. apply rnd64_id.
    destruct (Rle_or_lt (IZR k) (val x)) as [C|C].
    - apply fmt64_sub_int; auto. apply fmt64_val. split; auto. now apply IZR_le.
    - (* k - x : Sterbenz *)
      replace (val x - IZR k) with (- (IZR k - val x)) by ring.
      apply generic_format_opp.
      assert (k <> 0)%Z. { intros E. rewrite E in C. lra. }
      assert (1 <= IZR k) by (apply (IZR_le 1); lia).
      apply sterbenz; auto with typeclass_instances.
      + apply fmt64_Z. rewrite Z.abs_eq by lia. apply Z.le_trans with (1 := N1). discriminate.
      + apply fmt64_val.
      + lra. }
  assert (Fz : fin dzero) by reflexivity.
  rewrite dlt_spec by assumption. change (val dzero) with 0.
  rewrite Zfloor_nearest. fold k. rewrite Vr.
  case Rlt_bool_spec; intros C.
  - rewrite Rlt_bool_true by lra.
    assert (k <> 0)%Z. { intros E. rewrite E in C. lra. }
    assert (K1 : 1 <= IZR k) by (apply (IZR_le 1); lia).
    destruct done_val as [V1 F1].
    assert (Ab1 : Rabs (val res + 1) <= bpow radix2 1000).
    { apply Rle_trans with 1. apply Rabs_le. lra. apply (bpow_le radix2 0 1000); lia. }
    generalize (Bplus_correct 53 1024 _ _ mode_NE res done_ Fr F1). rewrite V1.
    rewrite (noovf64 _ Ab1). fold (dadd res done_). intros (V2 & F2 & S2).
    split; [|split].
    + rewrite V2. rewrite minus_IZR, Vr.
      replace (val x - IZR k + 1) with (val x - IZR (k - 1)) by (rewrite minus_IZR; ring).
      rewrite <- minus_IZR. apply rnd64_id. apply fmt64_sub_int; auto. apply fmt64_val.
      rewrite minus_IZR. split; [lra|]. lra.
    + exact F2.
    + intros _. apply Bsign_pos. rewrite V2.
      apply Rlt_le_trans with (/ 2); [lra|].
      apply rnd64_ge. apply (fmt64_bpow (-1)); lia. rewrite Vr. lra.
  - rewrite Rlt_bool_false by lra. split; [|split]; auto.
    intros Sx. rewrite S, Sx.
    destruct (Rcompare_spec (val x - IZR k) 0); auto. lra.
Qed.

(** The whole part is the floor (src_zoh.c:102, src_linear.c:105 and src_sinc.c: [psf_lrint (input_index - rem)]). *)
Lemma lrint_sub_fmod (x : f64) : fin x -> 0 <= val x <= 2147483647 ->
  psf_lrint (dsub x (fmod_one x)) = Zfloor (val x).
Proof.
  intros F H. destruct (fmod_one_val x F H) as (V & Fr & _).
  assert (B := Zfloor_frac (val x)).
  assert (E : val x - val (fmod_one x) = IZR (Zfloor (val x))) by (rewrite V; ring).
  assert (N0 : (0 <= Zfloor (val x))%Z).
  { apply Zfloor_lub. apply H. }
  assert (N1 : (Zfloor (val x) <= 2147483647)%Z).
  { apply le_IZR. lra. }
  destruct (dsub_val x (fmod_one x) F Fr) as [V2 F2].
  { rewrite E. rewrite <- abs_IZR, Z.abs_eq by assumption.
    change (bpow radix2 1000) with (IZR (2 ^ 1000)). apply IZR_le.
    apply Z.le_trans with (1 := N1). apply Z.leb_le. reflexivity. }
  assert (V3 : val (dsub x (fmod_one x)) = IZR (Zfloor (val x))).
  { rewrite V2, E. apply rnd64_id. apply fmt64_Z. rewrite Z.abs_eq by assumption.
    apply Z.le_trans with (1 := N1). discriminate. }
  rewrite psf_lrint_val; auto; rewrite V3, ZnearestE_IZR; auto.
  split; [|exact N1]. apply Z.le_trans with (2 := N0). discriminate.
Qed.

(** ** The ratio test (common.h:245-248) *)
Lemma ratio_lo : val (ddiv done_ (d_of_Z SRC_MAX_RATIO)) = / 256 /\ fin (ddiv done_ (d_of_Z SRC_MAX_RATIO)).
Proof. split; [vm_compute; lra | reflexivity]. Qed.
Lemma ratio_hi : val (dmul done_ (d_of_Z SRC_MAX_RATIO)) = 256 /\ fin (dmul done_ (d_of_Z SRC_MAX_RATIO)).
Proof. split; [vm_compute; lra | reflexivity]. Qed.

Definition good_ratio (r : f64) : Prop := fin r /\ / 256 <= val r <= 256.

Lemma is_bad_src_ratio_spec (r : f64) : is_bad_src_ratio r = false <-> is_nan r = true \/ good_ratio r.
Proof.
  unfold good_ratio, is_bad_src_ratio.
  destruct (is_finite r) eqn:F.
  - assert (N : is_nan r = false) by (destruct r; try discriminate F; reflexivity).
    destruct ratio_lo as [V1 F1]. destruct ratio_hi as [V2 F2].
    rewrite dlt_spec, dgt_spec, V1, V2 by assumption.
    rewrite N, orb_false_iff.
    split.
    + intros [A B]. right. split; auto.
      destruct (Rlt_bool_spec (val r) (/ 256)); try discriminate A.
      destruct (Rlt_bool_spec 256 (val r)); try discriminate B. lra.
    + intros [A|[_ A]]; [discriminate|]. rewrite !Rlt_bool_false by lra. auto.
  - destruct r as [s|s| |s m e H]; try discriminate.
    + split.
      * destruct s; vm_compute; discriminate.
      * intros [A|[A _]]; discriminate.
    + split; [|reflexivity]. intros _. now left.
Qed.

Lemma good_not_bad r : good_ratio r -> is_bad_src_ratio r = false.
Proof. intros. apply is_bad_src_ratio_spec. now right. Qed.

(** ** One position step: input_index += 1.0 / src_ratio *)
Lemma inv_ratio_val r : good_ratio r ->
  val (ddiv done_ r) = rnd64 (/ val r) /\ fin (ddiv done_ r) /\ / 256 <= val (ddiv done_ r) <= 256.
Proof.
  intros [F [L U]]. destruct done_val as [V1 F1].
  assert (P : 0 < val r) by lra.
  assert (A : / 256 <= / val r <= 256).
  { split. apply Rinv_le; lra.
    rewrite <- (Rinv_inv 256). apply Rinv_le; lra. }
  destruct (ddiv_val done_ r F1) as [V F2]. lra.
  { rewrite V1. unfold Rdiv. rewrite Rmult_1_l. apply Rle_trans with (bpow radix2 8).
    rewrite Rabs_pos_eq by lra. simpl; lra. apply bpow_le; lia. }
  rewrite V1 in V. unfold Rdiv in V. rewrite Rmult_1_l in V.
  split; auto. split; auto. rewrite V. split.
  - apply rnd64_ge; [|lra]. replace (/ 256) with (bpow radix2 (-8)) by (simpl; lra). apply fmt64_bpow; lia.
  - apply rnd64_le; [|lra]. replace 256 with (bpow radix2 8) by (simpl; lra). apply fmt64_bpow; lia.
Qed.

(** A position [x]: finite, non-negative (sign bit clear), at most [b]. *)
Definition pos_le (b : R) (x : f64) : Prop := fin x /\ Bsign x = false /\ 0 <= val x <= b.
Definition frac (x : f64) : Prop := fin x /\ Bsign x = false /\ 0 <= val x < 1.

Lemma frac_pos x : frac x -> pos_le 1 x.
Proof. intros (A & B & C). repeat split; auto; lra. Qed.

Lemma step_val (idx r : f64) : frac idx -> good_ratio r ->
  let x := dadd idx (ddiv done_ r) in
  val x = rnd64 (val idx + rnd64 (/ val r)) /\ pos_le 257 x /\ / 256 <= val x /\ val idx <= val x.
Proof.
  intros (F & S & L & U) G x. destruct (inv_ratio_val r G) as (V & F1 & B1).
  assert (Ab : Rabs (val idx + val (ddiv done_ r)) <= bpow radix2 1000).
  { rewrite Rabs_pos_eq by lra. apply Rle_trans with (bpow radix2 9). change (bpow radix2 9) with 512. lra. apply bpow_le; lia. }
  destruct (dadd_val idx (ddiv done_ r) F F1 Ab) as [V2 F2]. fold x in V2, F2.
  assert (L1 : / 256 <= val x).
  { rewrite V2. apply rnd64_ge; [|lra]. replace (/ 256) with (bpow radix2 (-8)) by (simpl; lra). apply fmt64_bpow; lia. }
  assert (L2 : val idx <= val x).
  { rewrite V2. apply rnd64_ge; [|lra]. apply fmt64_val. }
  assert (U1 : val x <= 257).
  { rewrite V2. apply rnd64_le; [|lra]. apply (fmt64_Z 257). simpl; lia. }
  split; [now rewrite V2, V|]. split; [|split]; auto.
  repeat split; auto; try lra. apply Bsign_pos. lra.
Qed.

(** Splitting a position and putting k whole frames back is exact. *)
Lemma carry_exact (rem : f64) (k : Z) (x : R) : frac rem -> fmt64 x -> x < bpow radix2 53 ->
  val rem = x - IZR (Zfloor x) -> (0 <= k <= Zfloor x)%Z ->
  val (dadd rem (d_of_Z k)) = val rem + IZR k /\ fin (dadd rem (d_of_Z k)) /\ Bsign (dadd rem (d_of_Z k)) = false.
Proof.
  intros (F & S & L & U) Fx Lx E [K1 K2].
  assert (Bx := Zfloor_frac x).
  assert (Kr : IZR k <= IZR (Zfloor x)) by now apply IZR_le.
  assert (K0 : 0 <= IZR k) by now apply IZR_le.
  assert (Kb : (Z.abs k <= 2 ^ 53)%Z).
  { rewrite Z.abs_eq by assumption. apply le_IZR. rewrite <- bpow53. lra. }
  destruct (d_of_Z_val k Kb) as [Vk Fk].
  assert (X : val rem + IZR k = x - IZR (Zfloor x - k)) by (rewrite E, minus_IZR; ring).
  assert (Ab : Rabs (val rem + IZR k) <= bpow radix2 1000).
  { rewrite Rabs_pos_eq by lra. apply Rle_trans with (bpow radix2 53). lra. apply bpow_le; lia. }
  generalize (Bplus_correct 53 1024 _ _ mode_NE rem (d_of_Z k) F Fk). rewrite Vk, (noovf64 _ Ab).
  fold (dadd rem (d_of_Z k)). intros (V & Fr & Sg).
  split; [|split]; auto.
  - rewrite V. apply rnd64_id. rewrite X. apply fmt64_sub_int; auto. rewrite minus_IZR. lra.
  - rewrite Sg. destruct (Rcompare_spec (val rem + IZR k) 0); auto; [lra|]. rewrite S. reflexivity.
Qed.

Lemma position_split_exact :
  forall x : f64, is_finite x = true -> (0 <= B2R x <= 2147483647)%R ->
  let rem := fmod_one x in
  let whole := psf_lrint (dsub x rem) in
  whole = Zfloor (B2R x) /\ is_finite rem = true /\ (0 <= B2R rem < 1)%R /\ (IZR whole + B2R rem = B2R x)%R.
Proof.
  intros x F B rem whole. unfold whole, rem.
  rewrite lrint_sub_fmod by assumption.
  destruct (fmod_one_val x F B) as (V & Fi & _).
  generalize (Zfloor_frac (val x)). intros Z.
  rewrite V. repeat split; auto; lra.
Qed.
