(** Arithmetic facts shared by the proofs about the zero-order-hold and linear converters. *)
From Coq Require Import ZArith Reals List Bool Lia Lra.
From Flocq Require Import Core IEEE754.BinarySingleNaN Relative.
From Verif Require Import Base FloatFacts PosFacts Types Common HoldSpec.
Local Open Scope R_scope.

(** ** Relative error *)
Lemma rnd64_rel x : bpow radix2 (-1000) <= Rabs x -> Rabs (rnd64 x - x) <= bpow radix2 (-53) * Rabs x.
Proof.
  intros H.
  generalize (relative_error_N_FLT radix2 (-1074) 53 eq_refl (fun x => negb (Z.even x)) x).
  intros E. assert (bpow radix2 (-1074 + 53 - 1) <= Rabs x).
  { apply Rle_trans with (2 := H). apply bpow_le. lia. }
  specialize (E H0). unfold rnd64.
  replace (bpow radix2 (-53)) with (/ 2 * bpow radix2 (- (53) + 1)). exact E.
  rewrite bpow_plus. change (bpow radix2 1) with 2. change (- (53))%Z with (-53)%Z. lra.
Qed.

Lemma rnd64_rel_pos x : bpow radix2 (-1000) <= x ->
  x * (1 - bpow radix2 (-53)) <= rnd64 x <= x * (1 + bpow radix2 (-53)).
Proof.
  intros H. assert (0 < bpow radix2 (-1000)) by apply bpow_gt_0.
  generalize (rnd64_rel x). rewrite (Rabs_pos_eq x) by lra. intros E. specialize (E H).
  apply Rabs_le_inv in E. lra.
Qed.

Lemma bpow_m53_pos : 0 < bpow radix2 (-53).
Proof. apply bpow_gt_0. Qed.
Lemma bpow_m53_val : bpow radix2 (-53) * 9007199254740992 = 1.
Proof. change 9007199254740992 with (bpow radix2 53). rewrite <- bpow_plus. reflexivity. Qed.

(** A float below 1 is at most 1 - 2^-53. *)
Lemma lt1_pred (x : f64) : val x < 1 -> val x <= 1 - bpow radix2 (-53).
Proof.
  intros H. assert (F := fmt64_val x).
  replace (1 - bpow radix2 (-53)) with (pred radix2 (FLT_exp (-1074) 53) 1).
  apply pred_ge_gt; auto with typeclass_instances. apply (fmt64_Z 1); simpl; lia.
  change 1 with (bpow radix2 0) at 1. rewrite pred_bpow. reflexivity.
Qed.

(** Multiplying a float below 1 by an integer stays strictly below the integer, after rounding. *)
Lemma mul_lt (c t : R) : 1 <= c -> 0 <= t <= 1 - bpow radix2 (-53) -> rnd64 (c * t) < c.
Proof.
  intros Hc Ht. assert (P := bpow_m53_pos). assert (Q := bpow_m53_val).
  destruct (Rle_or_lt (c * t) (/ 2)) as [L|L].
  - apply Rle_lt_trans with (/ 2); [|lra].
    apply rnd64_le; auto. change (/ 2) with (bpow radix2 (-1)). apply fmt64_bpow; lia.
  - destruct (rnd64_rel_pos (c * t)) as [_ U].
    { apply Rle_trans with (bpow radix2 (-1)). apply bpow_le; lia. change (bpow radix2 (-1)) with (/ 2). lra. }
    apply Rle_lt_trans with (1 := U).
    assert (c * t <= c * (1 - bpow radix2 (-53))) by (apply Rmult_le_compat_l; lra).
    apply Rle_lt_trans with (c * (1 - bpow radix2 (-53)) * (1 + bpow radix2 (-53))).
    apply Rmult_le_compat_r; lra.
    assert (0 < c * (bpow radix2 (-53) * bpow radix2 (-53))).
    { apply Rmult_lt_0_compat; [lra|]. now apply Rmult_lt_0_compat. }
    lra.
Qed.

Lemma mul_nonneg c t : 0 <= c -> 0 <= t -> 0 <= rnd64 (c * t).
Proof. intros. rewrite <- rnd64_0. apply rnd64_mono. now apply Rmult_le_pos. Qed.

(** ** Splitting positions *)
Lemma Btrunc_floor (x : f64) : fin x -> 0 <= val x -> Btrunc x = Zfloor (val x).
Proof.
  intros F H. apply eq_IZR. rewrite (Btrunc_correct 53 1024 Hmax64 x). rewrite round_FIX0. f_equal.
  now apply Ztrunc_floor.
Qed.

Lemma split_ok (x : f64) : pos_le 2147483647 x ->
  fmod_one x = fraction x /\ psf_lrint (dsub x (fmod_one x)) = Btrunc x /\ frac (fraction x) /\
  Btrunc x = Zfloor (val x) /\ val (fraction x) = val x - IZR (Zfloor (val x)) /\ (0 <= Btrunc x)%Z.
Proof.
  intros (F & S & L & U).
  assert (T := Btrunc_floor x F L).
  destruct (fmod_one_val x F (conj L U)) as (V & Fi & Sg).
  assert (B := Zfloor_frac (val x)).
  assert (K0 : (0 <= Zfloor (val x))%Z) by (apply Zfloor_lub; simpl; lra).
  assert (K1 : (Zfloor (val x) <= 2147483647)%Z) by (apply le_IZR; lra).
  assert (Kr : 0 <= IZR (Zfloor (val x))) by (apply (IZR_le 0); lia).
  destruct (d_of_Z_val (Zfloor (val x))) as [Vk Fk]; [simpl; lia|].
  assert (Ab : Rabs (val x - IZR (Zfloor (val x))) <= bpow radix2 1000).
  { rewrite Rabs_pos_eq by lra. apply Rle_trans with (bpow radix2 1). change (bpow radix2 1) with 2. lra. apply bpow_le; lia. }
  assert (G : val (fraction x) = val x - IZR (Zfloor (val x)) /\ fin (fraction x) /\ Bsign (fraction x) = false).
  { unfold fraction. rewrite T.
    generalize (Bminus_correct 53 1024 _ _ mode_NE x (d_of_Z (Zfloor (val x))) F Fk). rewrite Vk.
    rewrite (noovf64 _ Ab). intros (Vm & Fm & Sm).
    split; [|split]; auto.
    - rewrite Vm. apply rnd64_id. apply fmt64_sub_int; [apply fmt64_val| |lra].
      rewrite bpow53. apply Rle_lt_trans with (IZR 2147483647); [lra|apply IZR_lt; lia].
    - rewrite Sm. destruct (Rcompare_spec (val x - IZR (Zfloor (val x))) 0); auto; [lra|].
      rewrite S. reflexivity. }
  destruct G as (Vf & Ff & Sf).
  assert (E : fmod_one x = fraction x).
  { apply f64_eq; auto. now rewrite V, Vf. rewrite Sf. now apply Sg. }
  split; [exact E|]. split; [|split; [|split; [|split]]]; auto.
  - rewrite lrint_sub_fmod by (auto; lra). now rewrite T.
  - repeat split; auto; rewrite Vf; lra.
  - now rewrite T.
Qed.

(** Putting [k] whole frames back onto a fraction is exact for [0 <= k <= j]. *)
Definition exact_carry (t : f64) (j : Z) : Prop :=
  forall k, (0 <= k <= j)%Z ->
  let y := dadd t (d_of_Z k) in val y = val t + IZR k /\ fin y /\ Bsign y = false.

Lemma exact_carry_split t j k : frac t -> exact_carry t j -> (0 <= k <= j)%Z -> (k <= 2147483646)%Z ->
  let y := dadd t (d_of_Z k) in split_pos y = (k, t) /\ pos_le (IZR k + 1) y.
Proof.
  intros (F & S & L & U) E K K2 y. destruct (E k K) as (V & Fy & Sy). fold y in V, Fy, Sy.
  assert (Kr : 0 <= IZR k <= 2147483646) by (split; apply IZR_le; lia).
  assert (P : pos_le 2147483647 y) by (repeat split; auto; lra).
  destruct (split_ok y P) as (_ & _ & (Ff & Sf & Lf & Uf) & T & Vf & _).
  assert (Z0 : Zfloor (val y) = k) by (apply Zfloor_imp; rewrite plus_IZR, V; lra).
  split; [|repeat split; auto; lra].
  unfold split_pos. rewrite T, Z0. f_equal.
  apply f64_eq; auto. rewrite Vf, Z0, V. ring. now rewrite Sf.
Qed.

Lemma exact_carry_fraction (x : f64) : pos_le 2147483647 x -> exact_carry (fraction x) (Btrunc x).
Proof.
  intros P. destruct (split_ok x P) as (_ & _ & Fr & T & Vf & _).
  destruct P as (F & S & L & U).
  intros k K. rewrite T in K. apply carry_exact with (x := val x); auto.
  apply fmt64_val. rewrite bpow53. apply Rle_lt_trans with (IZR 2147483647); [lra|apply IZR_lt; lia].
Qed.

Lemma exact_carry_le t j j' : exact_carry t j -> (j' <= j)%Z -> exact_carry t j'.
Proof. intros E H k K. apply E. lia. Qed.

Lemma split_pos_ok (x : f64) : pos_le 2147483647 x ->
  frac (snd (split_pos x)) /\ (0 <= fst (split_pos x))%Z /\ exact_carry (snd (split_pos x)) (fst (split_pos x)).
Proof.
  intros P. destruct (split_ok x P) as (_ & _ & Fr & T & _ & T0). simpl.
  split; auto. split; auto. now apply exact_carry_fraction.
Qed.

(** One move *)
Lemma move_ok (p : position) (r : f64) : frac (snd p) -> good_ratio r ->
  frac (snd (move p r)) /\ (fst p <= fst (move p r) <= fst p + 257)%Z /\
  exact_carry (snd (move p r)) (fst (move p r) - fst p) /\
  pos_le 257 (next_index (snd p) r) /\
  move p r = ((fst p + Btrunc (next_index (snd p) r))%Z, fraction (next_index (snd p) r)).
Proof.
  intros Fp G. destruct (step_val (snd p) r Fp G) as (V & P & _ & _).
  fold (next_index (snd p) r) in *.
  assert (P' : pos_le 2147483647 (next_index (snd p) r)).
  { destruct P as (A & B & C). repeat split; auto; lra. }
  destruct (split_ok _ P') as (_ & _ & Fr & T & _ & T0).
  assert (E : move p r = ((fst p + Btrunc (next_index (snd p) r))%Z, fraction (next_index (snd p) r))) by reflexivity.
  rewrite E. simpl fst. simpl snd.
  assert (TU : (Btrunc (next_index (snd p) r) <= 257)%Z).
  { rewrite T. apply le_IZR. generalize (Zfloor_frac (val (next_index (snd p) r))). destruct P as (_ & _ & P). lra. }
  split; auto. split; [lia|]. split; [|split]; auto.
  replace (fst p + Btrunc (next_index (snd p) r) - fst p)%Z with (Btrunc (next_index (snd p) r)) by lia.
  now apply exact_carry_fraction.
Qed.

(** [advance] splits the index and moves the sample counter. *)
Lemma advance_ok ch u (x : f64) : (0 < ch)%Z -> (ch * 258 <= 2 ^ 31 - 1)%Z -> pos_le 258 x -> val x < 258 ->
  (0 <= u)%Z -> (u * ch <= 2 ^ 52)%Z ->
  advance ch (u * ch) x = Ok (((u + Btrunc x) * ch)%Z, fraction x).
Proof.
  intros Hc Hci P Px Hu Huc.
  assert (P' : pos_le 2147483647 x).
  { destruct P as (A & B & C). repeat split; auto; lra. }
  destruct (split_ok _ P') as (E1 & E2 & _ & T & _ & T0).
  assert (TU : (Btrunc x < 258)%Z).
  { rewrite T. apply lt_IZR. generalize (Zfloor_frac (val x)). lra. }
  unfold advance. rewrite E2, E1.
  assert (I : (0 <= ch * Btrunc x <= ch * 258)%Z) by nia.
  unfold int_op. rewrite (proj2 (in_int_true _)) by lia. simpl bind.
  unfold long_op. rewrite (proj2 (in_long_true _)) by lia. simpl bind.
  f_equal. f_equal. lia.
Qed.

(** ** The ramp *)
Lemma multiple60 (x : R) : fmt64 x -> / 256 <= x -> exists z, x = IZR z * bpow radix2 (-60).
Proof.
  intros F H.
  assert (He : (-60 <= cexp radix2 (FLT_exp (-1074) 53) x)%Z).
  { unfold cexp, FLT_exp.
    assert (-8 < mag radix2 x)%Z; [|lia].
    apply mag_gt_bpow. rewrite Rabs_pos_eq by lra. change (bpow radix2 (-8)) with (/ 256). exact H. }
  set (e := cexp radix2 (FLT_exp (-1074) 53) x) in *.
  unfold generic_format, F2R in F. simpl in F.
  exists (Ztrunc (scaled_mantissa radix2 (FLT_exp (-1074) 53) x) * 2 ^ (e + 60))%Z.
  rewrite mult_IZR. rewrite (IZR_Zpower radix2) by lia. rewrite Rmult_assoc, <- bpow_plus.
  replace (e + 60 + -60)%Z with e by lia. exact F.
Qed.

Lemma ratio_gap x y : fmt64 x -> fmt64 y -> / 256 <= x -> / 256 <= y -> x < y -> bpow radix2 (-60) <= y - x.
Proof.
  intros Fx Fy Hx Hy L.
  destruct (multiple60 x Fx Hx) as [a Ea]. destruct (multiple60 y Fy Hy) as [b Eb].
  assert (P : 0 < bpow radix2 (-60)) by apply bpow_gt_0.
  assert (AB : (a < b)%Z).
  { apply lt_IZR. apply Rmult_lt_reg_r with (1 := P). lra. }
  assert (IZR a + 1 <= IZR b) by (rewrite <- plus_IZR; apply IZR_le; lia).
  rewrite Ea, Eb. nra.
Qed.

Lemma lit20 : val (lit_1em 20) < bpow radix2 (-61) /\ fin (lit_1em 20) /\ 0 <= val (lit_1em 20).
Proof. split; [vm_compute; lra|]. split; [reflexivity|vm_compute; lra]. Qed.

Lemma scaled_le (g c : Z) (d : R) : (0 <= g < c)%Z -> (c <= 2 ^ 50)%Z -> bpow radix2 (-60) <= d ->
  0 <= rnd64 (rnd64 (IZR g * rnd64 d) / IZR c) <= d /\
  Rabs (rnd64 (rnd64 (IZR g * rnd64 d) / IZR c) - IZR g * d / IZR c) <= bpow radix2 (-51) * d.
Proof.
  intros [Hg Hgc] Hc Hd.
  assert (P := bpow_m53_pos). assert (Q := bpow_m53_val).
  set (u := bpow radix2 (-53)) in *.
  assert (P60 : 0 < bpow radix2 (-60)) by apply bpow_gt_0.
  assert (U51 : bpow radix2 (-51) = 4 * u).
  { unfold u. change 4 with (bpow radix2 2). rewrite <- bpow_plus. reflexivity. }
  assert (Us : u <= / 1000000) by lra.
  assert (Cpos : 0 < IZR c) by (apply (IZR_lt 0); lia).
  assert (C50 : IZR c <= 1125899906842624) by (apply (IZR_le _ 1125899906842624); lia).
  assert (Gc : IZR g <= IZR c - 1) by (rewrite <- minus_IZR; apply IZR_le; lia).
  destruct (Z.eq_dec g 0) as [G0|G0].
  - subst g. rewrite Rmult_0_l, rnd64_0. unfold Rdiv. rewrite Rmult_0_l, rnd64_0, Rmult_0_l, Rmult_0_l.
    rewrite Rminus_0_r, Rabs_R0. split; [lra|]. rewrite U51. apply Rmult_le_pos; lra.
  - assert (Gp : 1 <= IZR g) by (apply (IZR_le 1); lia).
    assert (L1000 : bpow radix2 (-1000) <= bpow radix2 (-60)) by (apply bpow_le; lia).
    destruct (rnd64_rel_pos d) as [D1 D2]; [lra|]. fold u in D1, D2.
    set (d1 := rnd64 d) in *.
    assert (d1p : d * (1 - u) <= d1) by lra.
    assert (B61 : bpow radix2 (-61) = bpow radix2 (-60) / 2).
    { change (-61)%Z with (-60 + -1)%Z. rewrite bpow_plus. reflexivity. }
    assert (X1 : bpow radix2 (-61) <= IZR g * d1).
    { rewrite B61. assert (d * / 2 <= d * (1 - u)) by (apply Rmult_le_compat_l; lra).
      apply Rle_trans with (1 * d1); [|apply Rmult_le_compat_r]; lra. }
    destruct (rnd64_rel_pos (IZR g * d1)) as [E1 E2].
    { apply Rle_trans with (2 := X1). apply bpow_le; lia. }
    fold u in E1, E2. set (p := rnd64 (IZR g * d1)) in *.
    assert (X2 : bpow radix2 (-62) <= p).
    { assert (B62 : bpow radix2 (-62) = bpow radix2 (-61) / 2).
      { change (-62)%Z with (-61 + -1)%Z. rewrite bpow_plus. reflexivity. }
      assert (0 < bpow radix2 (-61)) by apply bpow_gt_0.
      assert (IZR g * d1 * / 2 <= IZR g * d1 * (1 - u)) by (apply Rmult_le_compat_l; lra). lra. }
    assert (X3 : bpow radix2 (-112) <= p / IZR c).
    { assert (B : bpow radix2 (-112) = bpow radix2 (-62) * / 1125899906842624).
      { change 1125899906842624 with (bpow radix2 50). rewrite <- bpow_opp, <- bpow_plus. reflexivity. }
      rewrite B. unfold Rdiv. apply Rmult_le_compat; try lra.
      apply bpow_ge_0. apply Rinv_le; lra. }
    destruct (rnd64_rel_pos (p / IZR c)) as [H1 H2].
    { apply Rle_trans with (2 := X3). apply bpow_le; lia. }
    fold u in H1, H2. set (q := rnd64 (p / IZR c)) in *.
    assert (Ci : 0 < / IZR c) by now apply Rinv_0_lt_compat.
    set (w := IZR g * d / IZR c).
    assert (Gd : 0 < IZR g * d) by (apply Rmult_lt_0_compat; lra).
    assert (Wp : 0 < w) by (unfold w, Rdiv; apply Rmult_lt_0_compat; lra).
    assert (P1 : IZR g * d * ((1 - u) * (1 - u)) <= p).
    { apply Rle_trans with (2 := E1).
      replace (IZR g * d * ((1 - u) * (1 - u))) with (IZR g * (d * (1 - u)) * (1 - u)) by ring.
      apply Rmult_le_compat_r; [lra|]. apply Rmult_le_compat_l; lra. }
    assert (P2 : p <= IZR g * d * ((1 + u) * (1 + u))).
    { apply Rle_trans with (1 := E2).
      replace (IZR g * d * ((1 + u) * (1 + u))) with (IZR g * (d * (1 + u)) * (1 + u)) by ring.
      apply Rmult_le_compat_r; [lra|]. apply Rmult_le_compat_l; lra. }
    assert (Q1 : w * ((1 - u) * (1 - u) * (1 - u)) <= q).
    { apply Rle_trans with (2 := H1).
      replace (w * ((1 - u) * (1 - u) * (1 - u))) with (IZR g * d * ((1 - u) * (1 - u)) / IZR c * (1 - u))
        by (unfold w, Rdiv; ring).
      apply Rmult_le_compat_r; [lra|]. unfold Rdiv. apply Rmult_le_compat_r; lra. }
    assert (Q2 : q <= w * ((1 + u) * (1 + u) * (1 + u))).
    { apply Rle_trans with (1 := H2).
      replace (w * ((1 + u) * (1 + u) * (1 + u))) with (IZR g * d * ((1 + u) * (1 + u)) / IZR c * (1 + u))
        by (unfold w, Rdiv; ring).
      apply Rmult_le_compat_r; [lra|]. unfold Rdiv. apply Rmult_le_compat_r; lra. }
    assert (Wc : w <= d * (1 - / IZR c)).
    { unfold w, Rdiv. replace (d * (1 - / IZR c)) with ((IZR c - 1) * d * / IZR c) by (field; lra).
      apply Rmult_le_compat_r; [lra|]. apply Rmult_le_compat_r; lra. }
    assert (Wd : w <= d) by nra.
    assert (U3a : (1 + u) * (1 + u) * (1 + u) <= 1 + 4 * u) by nra.
    assert (U3b : 1 - 4 * u <= (1 - u) * (1 - u) * (1 - u)) by nra.
    assert (q1 : q <= w * (1 + 4 * u)).
    { apply Rle_trans with (1 := Q2). apply Rmult_le_compat_l; lra. }
    assert (q2 : w * (1 - 4 * u) <= q).
    { apply Rle_trans with (2 := Q1). apply Rmult_le_compat_l; lra. }
    split.
    + split; [nra|]. apply Rle_trans with (1 := q1).
      assert (Cu : 8 * u <= / IZR c).
      { apply Rmult_le_reg_r with (IZR c); [lra|]. rewrite Rinv_l by lra. nra. }
      apply Rle_trans with (d * (1 - / IZR c) * (1 + 4 * u)). apply Rmult_le_compat_r; lra.
      rewrite Rmult_assoc. rewrite <- (Rmult_1_r d) at 2. apply Rmult_le_compat_l; [lra|]. nra.
    + rewrite U51. apply Rabs_le. fold w. nra.
Qed.
