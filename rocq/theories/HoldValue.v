(** Values of interpolated samples, and how far positions can drift. *)
From Coq Require Import ZArith Reals List Bool Lia Lra.
From Flocq Require Import Core Mult_error IEEE754.BinarySingleNaN.
From Verif Require Import Base FloatFacts PosFacts Types Common HoldSpec HoldFacts HoldRamp HoldCore HoldStream.
Local Open Scope R_scope.

(** ** Interpolation stays between its end points *)
Lemma scale_lt (D t : R) : fmt64 D -> bpow radix2 (-900) <= D -> 0 <= t <= 1 - bpow radix2 (-53) -> rnd64 (t * D) < D.
Proof.
  intros FD HD Ht. assert (P := bpow_m53_pos). assert (Q := bpow_m53_val).
  assert (P9 : 0 < bpow radix2 (-900)) by apply bpow_gt_0.
  destruct (Rle_or_lt (t * D) (D / 2)) as [L|L].
  - apply Rle_lt_trans with (D / 2); [|lra]. apply rnd64_le; [|exact L].
    unfold Rdiv. change (/ 2) with (bpow radix2 (-1)). apply mult_bpow_exact_FLT; [exact FD|].
    assert (-900 < mag radix2 D)%Z; [|lia]. apply mag_gt_bpow. rewrite Rabs_pos_eq by lra. exact HD.
  - destruct (rnd64_rel_pos (t * D)) as [_ U].
    { apply Rle_trans with (D / 2); [|lra]. apply Rle_trans with (bpow radix2 (-900) / 2); [|lra].
      unfold Rdiv. change (/ 2) with (bpow radix2 (-1)). rewrite <- bpow_plus. apply bpow_le. lia. }
    set (u := bpow radix2 (-53)) in *.
    apply Rle_lt_trans with (1 := U).
    apply Rle_lt_trans with ((1 - u) * D * (1 + u)).
    + apply Rmult_le_compat_r; [lra|]. apply Rmult_le_compat_r; lra.
    + replace ((1 - u) * D * (1 + u)) with (D - u * u * D) by ring.
      assert (0 < u * u * D) by (apply Rmult_lt_0_compat; [apply Rmult_lt_0_compat; lra|lra]). lra.
Qed.

(** A double strictly below the rounded value of x is at most x. *)
Lemma below_rnd (p x : R) : fmt64 p -> p < rnd64 x -> p <= x.
Proof.
  intros Fp H. destruct (Rle_or_lt p x) as [|L]; [assumption|exfalso].
  assert (rnd64 x <= p) by (apply rnd64_le; [exact Fp|lra]). lra.
Qed.
Lemma above_rnd (p x : R) : fmt64 p -> rnd64 x < p -> x <= p.
Proof.
  intros Fp H. destruct (Rle_or_lt x p) as [|L]; [assumption|exfalso].
  assert (p <= rnd64 x) by (apply rnd64_ge; [exact Fp|lra]). lra.
Qed.

(** Floats are multiples of 2^-149, so distinct floats differ by at least that much. *)
Lemma f32_multiple (a : f32) : exists z, val a = IZR z * bpow radix2 (-149).
Proof.
  assert (F := fmt32_val a). rewrite F. unfold F2R. cbn [Fnum Fexp].
  set (e := cexp radix2 (FLT_exp (-149) 24) (val a)).
  assert (He : (-149 <= e)%Z) by (unfold e, cexp, FLT_exp; lia).
  exists (Ztrunc (scaled_mantissa radix2 (FLT_exp (-149) 24) (val a)) * 2 ^ (e + 149))%Z.
  rewrite mult_IZR, (IZR_Zpower radix2) by lia. rewrite Rmult_assoc, <- bpow_plus. do 2 f_equal. lia.
Qed.

Lemma f32_gap (a b : f32) : val a < val b -> bpow radix2 (-149) <= val b - val a.
Proof.
  destruct (f32_multiple a) as [x Hx], (f32_multiple b) as [y Hy]. rewrite Hx, Hy. intros L.
  assert (P : 0 < bpow radix2 (-149)) by apply bpow_gt_0.
  assert (x < y)%Z by (apply lt_IZR; nra).
  assert (1 <= IZR y - IZR x) by (rewrite <- minus_IZR; apply IZR_le; lia). nra.
Qed.

Lemma rnd32_fmt64 (a : f32) : fmt64 (val a).
Proof. destruct (d_of_f_val a) as [E _]. rewrite <- E. apply fmt64_val. Qed.

Lemma f32_lt_128 (a : f32) : Rabs (val a) < bpow radix2 128.
Proof. apply (abs_B2R_lt_emax 24 128). Qed.

(** The real-number core of interpolation, ascending and descending. *)
Lemma between_up (a b : f32) (t : R) : val a < val b -> 0 <= t <= 1 - bpow radix2 (-53) ->
  0 <= rnd64 (t * rnd64 (val b - val a)) <= val b - val a.
Proof.
  intros L Ht. assert (G := f32_gap a b L). set (D := rnd64 (val b - val a)).
  assert (HD : bpow radix2 (-149) <= D) by (apply rnd64_ge; [apply fmt64_bpow; lia|exact G]).
  assert (P : 0 < bpow radix2 (-149)) by apply bpow_gt_0.
  split; [apply mul_nonneg; lra|]. apply below_rnd; [apply fmt64_rnd|].
  apply scale_lt; [apply fmt64_rnd| |exact Ht].
  apply Rle_trans with (2 := HD). apply bpow_le. lia.
Qed.

Lemma interpolate_parts (a b : f32) (t : f64) : fin a -> fin b -> frac t ->
  let s := Bplus mode_NE (d_of_f a) (Bmult mode_NE t (Bminus mode_NE (d_of_f b) (d_of_f a))) in
  fin s /\ val s = rnd64 (val a + rnd64 (val t * rnd64 (val b - val a))).
Proof.
  intros Fa Fb (Ft & _ & T0 & T1) s.
  destruct (d_of_f_val a) as [Va Ga], (d_of_f_val b) as [Vb Gb]. rewrite Fa in Ga. rewrite Fb in Gb.
  assert (A1 := f32_lt_128 a). assert (B1 := f32_lt_128 b).
  assert (D1 : Rabs (val b - val a) <= bpow radix2 129).
  { change 129%Z with (128 + 1)%Z. rewrite bpow_plus. change (bpow radix2 1) with 2.
    apply Rle_trans with (Rabs (val b) + Rabs (val a)); [|lra].
    replace (val b - val a) with (val b + - val a) by ring. rewrite <- (Rabs_Ropp (val a)). apply Rabs_triang. }
  assert (D2 : Rabs (rnd64 (val b - val a)) <= bpow radix2 129) by (apply rnd64_abs_le; [lia|exact D1]).
  assert (D3 : Rabs (val t * rnd64 (val b - val a)) <= bpow radix2 129).
  { rewrite Rabs_mult, (Rabs_pos_eq (val t)) by lra. apply Rle_trans with (2 := D2).
    rewrite <- (Rmult_1_l (Rabs (rnd64 _))) at 2. apply Rmult_le_compat_r; [apply Rabs_pos|lra]. }
  assert (D4 : Rabs (rnd64 (val t * rnd64 (val b - val a))) <= bpow radix2 129) by (apply rnd64_abs_le; [lia|exact D3]).
  assert (Big : bpow radix2 129 <= bpow radix2 1000) by (apply bpow_le; lia).
  assert (Big2 : bpow radix2 128 + bpow radix2 129 <= bpow radix2 1000).
  { apply Rle_trans with (bpow radix2 130); [|apply bpow_le; lia].
    change 130%Z with (128 + 2)%Z. change 129%Z with (128 + 1)%Z. rewrite !bpow_plus.
    change (bpow radix2 1) with 2. change (bpow radix2 2) with 4. assert (0 < bpow radix2 128) by apply bpow_gt_0. lra. }
  destruct (dsub_val (d_of_f b) (d_of_f a) Gb Ga) as [V1 F1]; [rewrite Va, Vb; lra|]. rewrite Va, Vb in V1.
  destruct (dmul_val t (dsub (d_of_f b) (d_of_f a)) Ft F1) as [V2 F2]; [rewrite V1; lra|]. rewrite V1 in V2.
  destruct (dadd_val (d_of_f a) (dmul t (dsub (d_of_f b) (d_of_f a))) Ga F2) as [V3 F3].
  { rewrite Va, V2. apply Rle_trans with (1 := Rabs_triang _ _). lra. }
  rewrite Va, V2 in V3. split; [exact F3|exact V3].
Qed.

Lemma interpolate_between (a b : f32) (t : f64) : fin a -> fin b -> frac t ->
  fin (interpolate a b t) /\ Rmin (val a) (val b) <= val (interpolate a b t) <= Rmax (val a) (val b).
Proof.
  intros Fa Fb Ft. destruct (interpolate_parts a b t Fa Fb Ft) as [Fs Vs]. unfold interpolate.
  set (s := Bplus _ _ _) in *.
  assert (Tb : 0 <= val t <= 1 - bpow radix2 (-53)).
  { destruct Ft as (_ & _ & T0 & T1). split; [exact T0|]. now apply lt1_pred. }
  assert (Bs : Rmin (val a) (val b) <= val s <= Rmax (val a) (val b)).
  { rewrite Vs. destruct (Rtotal_order (val a) (val b)) as [L|[E|L]].
    - assert (B := between_up a b (val t) L Tb). rewrite Rmin_left, Rmax_right by lra.
      split; [apply rnd64_ge|apply rnd64_le]; try apply rnd32_fmt64; lra.
    - replace (val b - val a) with 0 by lra. rewrite rnd64_0, Rmult_0_r, rnd64_0, Rplus_0_r.
      rewrite rnd64_id by apply rnd32_fmt64. split; [apply Rmin_l|apply Rmax_l].
    - assert (B := between_up b a (val t) L Tb).
      replace (val b - val a) with (- (val a - val b)) by ring.
      rewrite rnd64_opp, Ropp_mult_distr_r_reverse, rnd64_opp.
      rewrite Rmin_right, Rmax_left by lra.
      split; [apply rnd64_ge|apply rnd64_le]; try apply rnd32_fmt64; lra. }
  assert (M : exists y : f32, (y = a \/ y = b) /\ Rabs (val s) <= Rabs (val y)).
  { destruct (Rle_or_lt (Rabs (val a)) (Rabs (val b))) as [L|L]; [exists b|exists a]; (split; [auto|]);
      revert L Bs; unfold Rmin, Rmax, Rabs; destruct (Rle_dec _ _); repeat destruct (Rcase_abs _); lra. }
  destruct M as (y & _ & My). destruct (f_of_d_val_max s y Fs My) as (V & F & _).
  split; [exact F|]. rewrite V.
  unfold Rmin, Rmax in *. destruct (Rle_dec (val a) (val b)); (split; [apply rnd32_ge|apply rnd32_le]); try apply fmt32_val; lra.
Qed.

Lemma interpolate_const (a b : f32) (t : f64) : fin a -> fin b -> frac t -> val a = val b -> val (interpolate a b t) = val a.
Proof.
  intros Fa Fb Ft E. destruct (interpolate_between a b t Fa Fb Ft) as [_ B]. rewrite E in *.
  unfold Rmin, Rmax in B. destruct (Rle_dec _ _); lra.
Qed.

Lemma f32_eq (x y : f32) : fin x -> fin y -> val x = val y -> Bsign x = Bsign y -> x = y.
Proof. intros. now apply B2R_Bsign_inj. Qed.

Lemma interpolate_zero (a b : f32) : fin a -> fin b -> val (interpolate a b dzero) = val a.
Proof.
  intros Fa Fb. assert (Ft : frac dzero) by (repeat split; cbn; lra).
  destruct (interpolate_parts a b dzero Fa Fb Ft) as [Fs Vs]. unfold interpolate. set (s := Bplus _ _ _) in *.
  change (val dzero) with 0 in Vs. rewrite Rmult_0_l, rnd64_0, Rplus_0_r, rnd64_id in Vs by apply rnd32_fmt64.
  destruct (f_of_d_val_max s a Fs) as (V & F & _); [rewrite Vs; lra|]. rewrite V, Vs. apply rnd32_val.
Qed.

(** At fraction zero the first sample comes out bit-exactly, unless it is the negative zero. *)
Lemma interpolate_zero_bits (a b : f32) : fin a -> fin b -> a <> B754_zero true -> interpolate a b dzero = a.
Proof.
  intros Fa Fb Na. assert (Ft : frac dzero) by (repeat split; cbn; lra).
  destruct (interpolate_between a b dzero Fa Fb Ft) as [Fi _]. assert (V := interpolate_zero a b Fa Fb).
  destruct (Req_dec (val a) 0) as [Z|Z].
  - assert (Ea : a = B754_zero false).
    { destruct a as [[|]|s| |s m e H]; try discriminate Fa; auto; [congruence|exfalso].
      cbn in Z. apply eq_0_F2R in Z. destruct s; discriminate Z. }
    subst a. destruct b as [[|]|s| |s m e H]; try discriminate Fb; try reflexivity.
    unfold interpolate. change (d_of_f (B754_zero false)) with (B754_zero false : f64).
    destruct (d_of_f_val (B754_finite s m e H)) as [_ Fd]. rewrite Fb in Fd.
    set (y := d_of_f (B754_finite s m e H)) in *.
    assert (Fy : fin (Bminus mode_NE y (B754_zero false : f64))).
    { destruct y as [s'|s'| |s' m' e' H']; try discriminate Fd; try reflexivity. destruct s'; reflexivity. }
    set (w := Bminus mode_NE y (B754_zero false : f64)) in *. clearbody w.
    destruct w as [s'|s'| |s' m' e' H']; try discriminate Fy; destruct s'; reflexivity.
  - apply f32_eq; auto. 
    assert (forall x : f32, fin x -> val x <> 0 -> Bsign x = Rlt_bool (val x) 0) as Sg.
    { intros x Fx Nx. destruct x as [s|s| |s m e H]; try discriminate Fx; [cbn in Nx; lra|].
      destruct s; cbn [Bsign]; symmetry.
      - apply Rlt_bool_true. now apply F2R_lt_0.
      - apply Rlt_bool_false. apply Rlt_le. now apply F2R_gt_0. }
    rewrite !Sg by (auto; rewrite V; auto). now rewrite V.
Qed.

Lemma interpolate_neg_zero : interpolate (B754_zero true) (B754_zero true) dzero = B754_zero false.
Proof. reflexivity. Qed.

(** ** Ratio 1 *)
Lemma move_one u : move (u, dzero) done_ = ((u + 1)%Z, dzero).
Proof.
  unfold move. cbn [fst snd].
  assert (E : Bplus mode_NE dzero (Bdiv mode_NE (d_of_Z 1) done_) = done_) by (apply B2SF_inj; vm_compute; reflexivity).
  rewrite E. f_equal.
Qed.

Lemma pos_at_one u k : pos_at (u, dzero) (fun _ => done_) k = ((u + Z.of_nat k)%Z, dzero).
Proof.
  induction k as [|k IH]; [cbn; f_equal; lia|]. cbn [pos_at]. rewrite IH, move_one. f_equal. lia.
Qed.

(** ** Drift of positions *)
Definition pval (p : position) : R := IZR (fst p) + val (snd p).

Lemma move_val (p : position) (r : f64) : frac (snd p) -> good_ratio r ->
  Rabs (pval (move p r) - (pval p + / val r)) <= bpow radix2 (-52) * (1 + / val r) /\ pval p <= pval (move p r).
Proof.
  intros Fp G. destruct (step_val (snd p) r Fp G) as (V & (Fx & Sx & X0 & X1) & Xl & Xg).
  set (x := dadd (snd p) (ddiv done_ r)) in *.
  assert (P' : pos_le 2147483647 x) by (repeat split; auto; lra).
  destruct (split_ok _ P') as (_ & _ & _ & T & Vf & _).
  assert (E : pval (move p r) = pval p - val (snd p) + val x).
  { unfold pval, move. cbn [fst snd].
    change (Bplus mode_NE (snd p) (Bdiv mode_NE (d_of_Z 1) r)) with x. rewrite plus_IZR, T, Vf. ring. }
  rewrite E. split; [|lra].
  replace (pval p - val (snd p) + val x - (pval p + / val r)) with (val x - (val (snd p) + / val r)) by ring.
  destruct G as [Gf [G1 G2]]. destruct Fp as (_ & _ & L & U).
  assert (R : / 256 <= / val r <= 256).
  { split; [apply Rinv_le; lra|]. rewrite <- (Rinv_inv 256). apply Rinv_le; lra. }
  assert (Sm : bpow radix2 (-1000) <= / 256).
  { replace (/ 256) with (bpow radix2 (-8)) by (simpl; lra). apply bpow_le; lia. }
  destruct (rnd64_rel_pos (/ val r)) as [L1 U1]; [lra|].
  assert (P := bpow_m53_pos). assert (Q := bpow_m53_val).
  assert (B52 : bpow radix2 (-52) = 2 * bpow radix2 (-53)).
  { change (-52)%Z with (1 + -53)%Z. rewrite bpow_plus. reflexivity. }
  set (u := bpow radix2 (-53)) in *. set (q := rnd64 (/ val r)) in *.
  assert (Q0 : / 256 <= q).
  { replace (/ 256) with (bpow radix2 (-8)) in * by (simpl; lra). apply rnd64_ge; [apply fmt64_bpow; lia|lra]. }
  destruct (rnd64_rel_pos (val (snd p) + q)) as [L2 U2]; [lra|]. rewrite <- V in L2, U2.
  rewrite B52. set (i := / val r) in *. set (s := val (snd p)) in *.
  assert (Ui : u * i <= 1) by nra.
  assert (Uui : u * (u * i) <= u * 1) by (apply Rmult_le_compat_l; lra).
  assert (Us : u * s <= u * 1) by (apply Rmult_le_compat_l; lra).
  assert (Uq : u * q <= u * (i * (1 + u))) by (apply Rmult_le_compat_l; lra).
  assert (0 <= u * i) by (apply Rmult_le_pos; lra).
  fold u in L2, U2.
  clear - L1 U1 L2 U2 Ui Uui Us Uq P H L U.
  apply Rabs_le. split; lra.
Qed.

Lemma pos_at_frac p rho k : frac (snd p) -> (forall j, (j < k)%nat -> good_ratio (rho j)) -> frac (snd (pos_at p rho k)).
Proof.
  intros Fp. induction k as [|k IH]; intros H; [exact Fp|]. cbn [pos_at].
  apply move_ok; auto.
Qed.

Lemma drift p r k : frac (snd p) -> good_ratio r ->
  Rabs (pval (pos_at p (fun _ => r) k) - (pval p + INR k * / val r)) <= INR k * (bpow radix2 (-52) * (1 + / val r)).
Proof.
  intros Fp G. induction k as [|k IH].
  - cbn [pos_at]. simpl INR. rewrite !Rmult_0_l, Rplus_0_r. unfold Rminus. rewrite Rplus_opp_r, Rabs_R0. lra.
  - rewrite S_INR. cbn [pos_at].
    destruct (move_val (pos_at p (fun _ => r) k) r) as [M _]; auto. { apply pos_at_frac; auto. }
    apply Rabs_le_inv in IH. apply Rabs_le_inv in M. apply Rabs_le. split; nra.
Qed.

Lemma pos_at_mono p rho j k : frac (snd p) -> (j <= k)%nat -> (forall i, (i < k)%nat -> good_ratio (rho i)) ->
  pval (pos_at p rho j) <= pval (pos_at p rho k) /\ (fst (pos_at p rho j) <= fst (pos_at p rho k))%Z.
Proof.
  intros Fp L. induction L as [|k L IH]; intros H; [split; [lra|lia]|]. cbn [pos_at].
  assert (Fk : frac (snd (pos_at p rho k))) by (apply pos_at_frac; auto).
  destruct (move_val (pos_at p rho k) (rho k) Fk) as [_ M]; auto.
  destruct (move_ok (pos_at p rho k) (rho k) Fk) as (_ & M2 & _); auto.
  destruct IH as [I1 I2]; auto. split; [lra|lia].
Qed.
