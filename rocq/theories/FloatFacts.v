(** Real-number meaning of the IEEE operations of [Base], under no-overflow side conditions. *)
From Coq Require Import ZArith Reals Bool Lia Lra Psatz.
From Flocq Require Import Core IEEE754.BinarySingleNaN.
From Verif Require Import Base.
Local Open Scope R_scope.

Notation val := B2R.
Definition rnd64 (x : R) : R := round radix2 (FLT_exp (-1074) 53) ZnearestE x.
Definition rnd32 (x : R) : R := round radix2 (FLT_exp (-149) 24) ZnearestE x.
Notation fmt64 := (generic_format radix2 (FLT_exp (-1074) 53)).
Notation fmt32 := (generic_format radix2 (FLT_exp (-149) 24)).

Lemma rnd64_mono x y : x <= y -> rnd64 x <= rnd64 y.
Proof. apply round_le; auto with typeclass_instances. Qed.
Lemma rnd32_mono x y : x <= y -> rnd32 x <= rnd32 y.
Proof. apply round_le; auto with typeclass_instances. Qed.
Lemma rnd64_id x : fmt64 x -> rnd64 x = x.
Proof. apply round_generic; auto with typeclass_instances. Qed.
Lemma rnd32_id x : fmt32 x -> rnd32 x = x.
Proof. apply round_generic; auto with typeclass_instances. Qed.
Lemma rnd64_le x y : fmt64 y -> x <= y -> rnd64 x <= y.
Proof. intros Hy Hx. rewrite <- (rnd64_id y Hy). now apply rnd64_mono. Qed.
Lemma rnd64_ge x y : fmt64 x -> x <= y -> x <= rnd64 y.
Proof. intros Hy Hx. rewrite <- (rnd64_id x Hy). now apply rnd64_mono. Qed.
Lemma rnd32_le x y : fmt32 y -> x <= y -> rnd32 x <= y.
Proof. intros Hy Hx. rewrite <- (rnd32_id y Hy). now apply rnd32_mono. Qed.
Lemma rnd32_ge x y : fmt32 x -> x <= y -> x <= rnd32 y.
Proof. intros Hy Hx. rewrite <- (rnd32_id x Hy). now apply rnd32_mono. Qed.
Lemma fmt64_val (x : f64) : fmt64 (val x).
Proof. apply (generic_format_B2R 53 1024). Qed.
Lemma fmt32_val (x : f32) : fmt32 (val x).
Proof. apply (generic_format_B2R 24 128). Qed.
Lemma fmt64_rnd x : fmt64 (rnd64 x).
Proof. apply generic_format_round; auto with typeclass_instances. Qed.
Lemma fmt32_rnd x : fmt32 (rnd32 x).
Proof. apply generic_format_round; auto with typeclass_instances. Qed.
Lemma rnd64_val (x : f64) : rnd64 (val x) = val x.
Proof. apply rnd64_id, fmt64_val. Qed.
Lemma rnd32_val (x : f32) : rnd32 (val x) = val x.
Proof. apply rnd32_id, fmt32_val. Qed.
Lemma rnd64_opp x : rnd64 (- x) = - rnd64 x.
Proof. apply round_NE_opp. Qed.
Lemma rnd32_opp x : rnd32 (- x) = - rnd32 x.
Proof. apply round_NE_opp. Qed.
Lemma rnd64_0 : rnd64 0 = 0.
Proof. apply round_0; auto with typeclass_instances. Qed.

(** [m * 2^e] is representable when it fits. *)
Lemma fmt64_dyadic (m e : Z) : (Z.abs m <= 2 ^ 53)%Z -> (-1074 <= e)%Z -> fmt64 (IZR m * bpow radix2 e).
Proof.
  intros Hm He.
  destruct (Z.eq_dec (Z.abs m) (2 ^ 53)) as [E|E].
  - assert (Ha : fmt64 (bpow radix2 (53 + e))).
    { apply generic_format_bpow. unfold FLT_exp. lia. }
    destruct (Z.abs_eq_or_opp m) as [H|H]; rewrite H in E.
    + subst m. replace (IZR (2 ^ 53)) with (bpow radix2 53).
      rewrite <- bpow_plus. exact Ha. simpl; lra.
    + replace m with (- 2 ^ 53)%Z by lia. rewrite opp_IZR.
      replace (- IZR (2 ^ 53) * bpow radix2 e) with (- (bpow radix2 53 * bpow radix2 e)) by (simpl; ring).
      apply generic_format_opp. rewrite <- bpow_plus. exact Ha.
  - apply generic_format_FLT.
    exists (Float radix2 m e); simpl; auto.
    change (Zpower_pos 2 53) with (2 ^ 53)%Z. lia.
Qed.
Lemma fmt32_dyadic (m e : Z) : (Z.abs m <= 2 ^ 24)%Z -> (-149 <= e)%Z -> fmt32 (IZR m * bpow radix2 e).
Proof.
  intros Hm He.
  destruct (Z.eq_dec (Z.abs m) (2 ^ 24)) as [E|E].
  - assert (Ha : fmt32 (bpow radix2 (24 + e))).
    { apply generic_format_bpow. unfold FLT_exp. lia. }
    destruct (Z.abs_eq_or_opp m) as [H|H]; rewrite H in E.
    + subst m. replace (IZR (2 ^ 24)) with (bpow radix2 24).
      rewrite <- bpow_plus. exact Ha. simpl; lra.
    + replace m with (- 2 ^ 24)%Z by lia. rewrite opp_IZR.
      replace (- IZR (2 ^ 24) * bpow radix2 e) with (- (bpow radix2 24 * bpow radix2 e)) by (simpl; ring).
      apply generic_format_opp. rewrite <- bpow_plus. exact Ha.
  - apply generic_format_FLT.
    exists (Float radix2 m e); simpl; auto.
    change (Zpower_pos 2 24) with (2 ^ 24)%Z. lia.
Qed.
Lemma fmt64_Z (m : Z) : (Z.abs m <= 2 ^ 53)%Z -> fmt64 (IZR m).
Proof.
  intros H. replace (IZR m) with (IZR m * bpow radix2 0) by (simpl; ring).
  apply fmt64_dyadic; lia.
Qed.
Lemma fmt32_Z (m : Z) : (Z.abs m <= 2 ^ 24)%Z -> fmt32 (IZR m).
Proof.
  intros H. replace (IZR m) with (IZR m * bpow radix2 0) by (simpl; ring).
  apply fmt32_dyadic; lia.
Qed.
Lemma fmt64_bpow e : (-1074 <= e)%Z -> fmt64 (bpow radix2 e).
Proof. intros H. apply generic_format_bpow. unfold FLT_exp. lia. Qed.
Lemma fmt32_bpow e : (-149 <= e)%Z -> fmt32 (bpow radix2 e).
Proof. intros H. apply generic_format_bpow. unfold FLT_exp. lia. Qed.

Lemma rnd64_abs_le x e : (-1074 <= e)%Z -> Rabs x <= bpow radix2 e -> Rabs (rnd64 x) <= bpow radix2 e.
Proof.
  intros He Hx. apply Rabs_le_inv in Hx. apply Rabs_le.
  split.
  - apply rnd64_ge; try lra. apply generic_format_opp, fmt64_bpow; auto.
  - apply rnd64_le; try lra. now apply fmt64_bpow.
Qed.
Lemma rnd32_abs_le x e : (-149 <= e)%Z -> Rabs x <= bpow radix2 e -> Rabs (rnd32 x) <= bpow radix2 e.
Proof.
  intros He Hx. apply Rabs_le_inv in Hx. apply Rabs_le.
  split.
  - apply rnd32_ge; try lra. apply generic_format_opp, fmt32_bpow; auto.
  - apply rnd32_le; try lra. now apply fmt32_bpow.
Qed.

Lemma noovf64 x : Rabs x <= bpow radix2 1000 ->
  Rlt_bool (Rabs (round radix2 (SpecFloat.fexp 53 1024) (round_mode mode_NE) x)) (bpow radix2 1024) = true.
Proof.
  intros H. apply Rlt_bool_true.
  apply Rle_lt_trans with (bpow radix2 1000).
  - apply (rnd64_abs_le x 1000); auto; lia.
  - apply bpow_lt; lia.
Qed.
Lemma noovf32 x : Rabs x <= bpow radix2 126 ->
  Rlt_bool (Rabs (round radix2 (SpecFloat.fexp 24 128) (round_mode mode_NE) x)) (bpow radix2 128) = true.
Proof.
  intros H. apply Rlt_bool_true.
  apply Rle_lt_trans with (bpow radix2 126).
  - apply (rnd32_abs_le x 126); auto; lia.
  - apply bpow_lt; lia.
Qed.

Definition fin {p e} (x : binary_float p e) : Prop := is_finite x = true.

Lemma dadd_val (x y : f64) : fin x -> fin y -> Rabs (val x + val y) <= bpow radix2 1000 ->
  val (dadd x y) = rnd64 (val x + val y) /\ fin (dadd x y).
Proof.
  intros Hx Hy H.
  generalize (Bplus_correct 53 1024 _ _ mode_NE x y Hx Hy).
  rewrite (noovf64 _ H). intros (H1 & H2 & _). split; assumption.
Qed.
Lemma dsub_val (x y : f64) : fin x -> fin y -> Rabs (val x - val y) <= bpow radix2 1000 ->
  val (dsub x y) = rnd64 (val x - val y) /\ fin (dsub x y).
Proof.
  intros Hx Hy H.
  generalize (Bminus_correct 53 1024 _ _ mode_NE x y Hx Hy).
  rewrite (noovf64 _ H). intros (H1 & H2 & _). split; assumption.
Qed.
Lemma dmul_val (x y : f64) : fin x -> fin y -> Rabs (val x * val y) <= bpow radix2 1000 ->
  val (dmul x y) = rnd64 (val x * val y) /\ fin (dmul x y).
Proof.
  intros Hx Hy H.
  generalize (Bmult_correct 53 1024 _ _ mode_NE x y).
  rewrite (noovf64 _ H). intros (H1 & H2 & _). split; [assumption|].
  unfold fin in *. unfold dmul. rewrite H2, Hx, Hy. reflexivity.
Qed.
Lemma ddiv_val (x y : f64) : fin x -> val y <> 0 -> Rabs (val x / val y) <= bpow radix2 1000 ->
  val (ddiv x y) = rnd64 (val x / val y) /\ fin (ddiv x y).
Proof.
  intros Hx Hy H.
  generalize (Bdiv_correct 53 1024 _ _ mode_NE x y Hy).
  rewrite (noovf64 _ H). intros (H1 & H2 & _). split; [assumption|].
  unfold fin in *. unfold ddiv. rewrite H2, Hx. reflexivity.
Qed.
Lemma fmul_val (x y : f32) : fin x -> fin y -> Rabs (val x * val y) <= bpow radix2 126 ->
  val (fmul x y) = rnd32 (val x * val y) /\ fin (fmul x y).
Proof.
  intros Hx Hy H.
  generalize (Bmult_correct 24 128 _ _ mode_NE x y).
  rewrite (noovf32 _ H). intros (H1 & H2 & _). split; [assumption|].
  unfold fin in *. unfold fmul. rewrite H2, Hx, Hy. reflexivity.
Qed.

Lemma d_of_Z_rnd (n : Z) : (Z.abs n <= 2 ^ 1000)%Z -> val (d_of_Z n) = rnd64 (IZR n) /\ fin (d_of_Z n).
Proof.
  intros H.
  generalize (binary_normalize_correct 53 1024 _ _ mode_NE n 0 false).
  cbv zeta.
  assert (E : F2R (Float radix2 n 0) = IZR n) by (unfold F2R; simpl; ring).
  rewrite E, noovf64.
  - intros (H1 & H2 & _). split; assumption.
  - rewrite <- abs_IZR. change (bpow radix2 1000) with (IZR (2 ^ 1000)). now apply IZR_le.
Qed.
Lemma d_of_Z_val (n : Z) : (Z.abs n <= 2 ^ 53)%Z -> val (d_of_Z n) = IZR n /\ fin (d_of_Z n).
Proof.
  intros H. destruct (d_of_Z_rnd n) as [H1 H2].
  { apply Z.le_trans with (1 := H). now apply Z.pow_le_mono_r. }
  split; auto. rewrite H1. now apply rnd64_id, fmt64_Z.
Qed.
Lemma f_of_Z_val (n : Z) : (Z.abs n <= 2 ^ 24)%Z -> val (f_of_Z n) = IZR n /\ fin (f_of_Z n).
Proof.
  intros H.
  generalize (binary_normalize_correct 24 128 _ _ mode_NE n 0 false).
  cbv zeta.
  assert (E : F2R (Float radix2 n 0) = IZR n) by (unfold F2R; simpl; ring).
  rewrite E, noovf32.
  - intros (H1 & H2 & _). split; [|assumption].
    unfold f_of_Z. rewrite H1. now apply rnd32_id, fmt32_Z.
  - rewrite <- abs_IZR. change (bpow radix2 126) with (IZR (2 ^ 126)). apply IZR_le.
    apply Z.le_trans with (1 := H). now apply Z.pow_le_mono_r.
Qed.

Lemma done_val : val done_ = 1 /\ fin done_.
Proof. apply d_of_Z_val. simpl; lia. Qed.

Lemma val_nonfin {p e} (x : binary_float p e) : is_finite x = false -> val x = 0.
Proof. destruct x; simpl; congruence. Qed.

Lemma d_of_f_val (x : f32) : val (d_of_f x) = val x /\ is_finite (d_of_f x) = is_finite x.
Proof.
  destruct x as [s|s| |s m e H]; try (split; reflexivity).
  unfold d_of_f.
  generalize (binary_normalize_correct 53 1024 _ _ mode_NE (cond_Zopp s (Z.pos m)) e s).
  cbv zeta.
  assert (F : fmt64 (F2R (Float radix2 (cond_Zopp s (Z.pos m)) e))).
  { generalize (fmt32_val (B754_finite s m e H)). simpl. intros F.
    apply generic_format_FLT. apply FLT_format_generic in F; auto with typeclass_instances.
    destruct F as [f E1 E2 E3]. exists f; auto.
    - apply Z.lt_trans with (1 := E2). reflexivity.
    - lia. }
  rewrite noovf64.
  - intros (H1 & H2 & _). split; [|rewrite H2; reflexivity].
    rewrite H1. simpl. apply (rnd64_id _ F).
  - generalize (abs_B2R_lt_emax 24 128 (B754_finite s m e H)). simpl B2R. intros L.
    apply Rle_trans with (bpow radix2 128). now apply Rlt_le.
    apply bpow_le; lia.
Qed.

Lemma f_of_d_val (x : f64) : fin x -> Rabs (val x) <= bpow radix2 126 ->
  val (f_of_d x) = rnd32 (val x) /\ fin (f_of_d x).
Proof.
  destruct x as [s|s| |s m e H]; try discriminate.
  - intros _ _. simpl. unfold rnd32. rewrite round_0; auto with typeclass_instances. split; reflexivity.
  - intros _ L. unfold f_of_d.
    generalize (binary_normalize_correct 24 128 _ _ mode_NE (cond_Zopp s (Z.pos m)) e s).
    cbv zeta. rewrite noovf32 by assumption.
    intros (H1 & H2 & _). split; assumption.
Qed.

(** General version: the conversion to float stays below the largest float bound when the value does. *)
Lemma f_of_d_val_max (x : f64) (y : f32) : fin x -> Rabs (val x) <= Rabs (val y) ->
  val (f_of_d x) = rnd32 (val x) /\ fin (f_of_d x) /\ Rabs (val (f_of_d x)) <= Rabs (val y).
Proof.
  intros Fx L.
  assert (A : Rabs (rnd32 (val x)) <= Rabs (val y)).
  { apply Rabs_le_inv in L. apply Rabs_le.
    assert (G : fmt32 (Rabs (val y))) by (apply generic_format_abs, fmt32_val).
    split.
    - apply rnd32_ge; try lra. now apply generic_format_opp.
    - apply rnd32_le; auto; lra. }
  destruct x as [s|s| |s m e H]; try discriminate.
  - simpl in *. unfold rnd32 in *. rewrite round_0 in *; auto with typeclass_instances.
  - unfold f_of_d.
    generalize (binary_normalize_correct 24 128 _ _ mode_NE (cond_Zopp s (Z.pos m)) e s).
    cbv zeta. rewrite Rlt_bool_true.
    + intros (H1 & H2 & _). repeat split; try assumption.
      rewrite H1. exact A.
    + apply Rle_lt_trans with (1 := A). apply (abs_B2R_lt_emax 24 128).
Qed.

(** Comparisons *)
Lemma dlt_spec (x y : f64) : fin x -> fin y -> dlt x y = Rlt_bool (val x) (val y).
Proof. apply (Bltb_correct 53 1024). Qed.
Lemma dle_spec (x y : f64) : fin x -> fin y -> dle x y = Rle_bool (val x) (val y).
Proof. apply (Bleb_correct 53 1024). Qed.
Lemma dgt_spec (x y : f64) : fin x -> fin y -> dgt x y = Rlt_bool (val y) (val x).
Proof. intros; now apply (Bltb_correct 53 1024). Qed.
Lemma dge_spec (x y : f64) : fin x -> fin y -> dge x y = Rle_bool (val y) (val x).
Proof. intros; now apply (Bleb_correct 53 1024). Qed.

Lemma dlt_true (x y : f64) : fin x -> fin y -> dlt x y = true <-> val x < val y.
Proof. intros. rewrite dlt_spec by assumption. case Rlt_bool_spec; intros; split; intros; auto; try discriminate; lra. Qed.
Lemma dle_true (x y : f64) : fin x -> fin y -> dle x y = true <-> val x <= val y.
Proof. intros. rewrite dle_spec by assumption. case Rle_bool_spec; intros; split; intros; auto; try discriminate; lra. Qed.

(** Nearest integer *)
Lemma round_FIX0 (f : R -> Z) (x : R) : round radix2 (FIX_exp 0) f x = IZR (f x).
Proof.
  unfold round, F2R, scaled_mantissa, cexp, FIX_exp. simpl.
  rewrite Rmult_1_r. rewrite Rmult_1_r. reflexivity.
Qed.
Lemma nearest_IZR p e (Hp : Prec_gt_0 p) (Hm : Prec_lt_emax p e) (x : binary_float p e) :
  Btrunc (Bnearbyint (prec_lt_emax_ := Hm) mode_NE x) = ZnearestE (val x).
Proof.
  apply eq_IZR.
  rewrite (Btrunc_correct p e Hm), round_FIX0.
  destruct (Bnearbyint_correct p e Hm mode_NE x) as [H _].
  rewrite H. simpl round_mode. rewrite round_FIX0, Ztrunc_IZR. reflexivity.
Qed.
Lemma d_nearest_spec (x : f64) : d_nearest x = ZnearestE (val x).
Proof. apply nearest_IZR; auto with typeclass_instances. Qed.
Lemma f_nearest_spec (x : f32) : f_nearest x = ZnearestE (val x).
Proof. apply nearest_IZR; auto with typeclass_instances. Qed.

Lemma in_int_true z : in_int z = true <-> (- 2 ^ 31 <= z <= 2 ^ 31 - 1)%Z.
Proof. unfold in_int, int_min, int_max. rewrite andb_true_iff, Z.leb_le, Z.leb_le. reflexivity. Qed.
Lemma in_long_true z : in_long z = true <-> (- 2 ^ 63 <= z <= 2 ^ 63 - 1)%Z.
Proof. unfold in_long, long_min, long_max. rewrite andb_true_iff, Z.leb_le, Z.leb_le. reflexivity. Qed.

Lemma psf_lrint_val (x : f64) : fin x -> (- 2 ^ 31 <= ZnearestE (val x) <= 2 ^ 31 - 1)%Z ->
  psf_lrint x = ZnearestE (val x).
Proof.
  intros F H. unfold psf_lrint. rewrite F, d_nearest_spec.
  now rewrite (proj2 (in_int_true _) H).
Qed.
Lemma psf_lrintf_val (x : f32) : fin x -> (- 2 ^ 31 <= ZnearestE (val x) <= 2 ^ 31 - 1)%Z ->
  psf_lrintf x = ZnearestE (val x).
Proof.
  intros F H. unfold psf_lrintf. rewrite F, f_nearest_spec.
  now rewrite (proj2 (in_int_true _) H).
Qed.
Lemma psf_lrint_range x : (- 2 ^ 31 <= psf_lrint x <= 2 ^ 31 - 1)%Z.
Proof.
  unfold psf_lrint. destruct (is_finite x && in_int (d_nearest x)) eqn:E.
  - apply andb_true_iff in E. now apply in_int_true.
  - unfold int_min. lia.
Qed.
Lemma psf_lrintf_range x : (- 2 ^ 31 <= psf_lrintf x <= 2 ^ 31 - 1)%Z.
Proof.
  unfold psf_lrintf. destruct (is_finite x && in_int (f_nearest x)) eqn:E.
  - apply andb_true_iff in E. now apply in_int_true.
  - unfold int_min. lia.
Qed.

Lemma ZnearestE_mono x y : x <= y -> (ZnearestE x <= ZnearestE y)%Z.
Proof. intros H. now apply (Zrnd_le ZnearestE). Qed.
Lemma ZnearestE_IZR n : ZnearestE (IZR n) = n.
Proof. apply (Zrnd_IZR ZnearestE). Qed.
Lemma ZnearestE_bounds x : IZR (ZnearestE x) - / 2 <= x <= IZR (ZnearestE x) + / 2.
Proof.
  generalize (Znearest_half (fun x => negb (Z.even x)) x). intros H.
  apply Rabs_le_inv in H. lra.
Qed.

(** Signs: a finite float with positive value has sign bit 0. *)
Lemma Bsign_pos {p e} (x : binary_float p e) : 0 < val x -> Bsign x = false.
Proof.
  destruct x as [s|s| |s m k H]; simpl; try lra; try reflexivity.
  destruct s; auto. intros L. exfalso.
  generalize (F2R_lt_0 radix2 (Float radix2 (Z.neg m) k) (Pos2Z.neg_is_neg m)). simpl in L. lra.
Qed.

(** Equality of floats from equality of values and signs. *)
Lemma f64_eq (x y : f64) : fin x -> fin y -> val x = val y -> Bsign x = Bsign y -> x = y.
Proof. intros. now apply B2R_Bsign_inj. Qed.
