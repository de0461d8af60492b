(** Proofs about the sample-format converters. *)
From Coq Require Import ZArith Reals List Bool Lia Lra Psatz.
From Flocq Require Import Core IEEE754.BinarySingleNaN.
From Verif Require Import Base FloatFacts SampleConv SampleConvSpec.
Import ListNotations.
Local Open Scope Z_scope.

(** ** Elements *)

Lemma short_div_val : val (dmul done_ (d_of_Z 0x8000)) = bpow radix2 15 /\ fin (dmul done_ (d_of_Z 0x8000)).
Proof. split; [vm_compute; lra | reflexivity]. Qed.
Lemma int_div_val :
  val (dmul (d_of_Z 8) (d_of_Z 0x10000000)) = bpow radix2 31 /\ fin (dmul (d_of_Z 8) (d_of_Z 0x10000000)).
Proof. split; [vm_compute; lra | reflexivity]. Qed.

Local Open Scope R_scope.

Lemma short_to_float_val s : (-32768 <= s <= 32767)%Z ->
  val (short_to_float s) = IZR s / 32768 /\ fin (short_to_float s).
Proof.
  intros H. unfold short_to_float.
  destruct short_div_val as [V F]. set (d := dmul done_ (d_of_Z 0x8000)) in *.
  destruct (d_of_Z_val s) as [Vs Fs]; [simpl; lia|].
  assert (E : IZR s / bpow radix2 15 = IZR s * bpow radix2 (-15)).
  { change (-15)%Z with (Z.opp 15). rewrite bpow_opp. reflexivity. }
  assert (B : Rabs (IZR s * bpow radix2 (-15)) <= 1).
  { rewrite Rabs_mult. rewrite (Rabs_pos_eq (bpow radix2 (-15))) by apply bpow_ge_0.
    rewrite <- abs_IZR. assert (IZR (Z.abs s) <= IZR (2 ^ 15)) by (apply IZR_le; simpl; lia).
    apply Rle_trans with (IZR (2 ^ 15) * bpow radix2 (-15)).
    apply Rmult_le_compat_r; auto. apply bpow_ge_0. simpl. lra. }
  destruct (ddiv_val (d_of_Z s) d) as [V1 F1]; auto.
  - rewrite V. apply Rgt_not_eq, bpow_gt_0.
  - rewrite V, Vs, E. apply Rle_trans with (1 := B). apply (bpow_le radix2 0 1000). lia.
  - rewrite V, Vs, E, rnd64_id in V1 by (apply fmt64_dyadic; simpl; lia).
    destruct (f_of_d_val (ddiv (d_of_Z s) d)) as [V2 F2]; auto.
    + rewrite V1. apply Rle_trans with (1 := B). apply (bpow_le radix2 0 126). lia.
    + split; auto. rewrite V2, V1, rnd32_id by (apply fmt32_dyadic; simpl; lia).
      rewrite <- E. simpl. lra.
Qed.

Lemma int_to_double_val n : (- 2 ^ 31 <= n <= 2 ^ 31 - 1)%Z ->
  let q := ddiv (d_of_Z n) (dmul (d_of_Z 8) (d_of_Z 0x10000000)) in
  val q = IZR n * bpow radix2 (-31) /\ fin q /\ Rabs (IZR n * bpow radix2 (-31)) <= 1.
Proof.
  intros H q. unfold q.
  destruct int_div_val as [V F]. set (d := dmul (d_of_Z 8) (d_of_Z 0x10000000)) in *.
  destruct (d_of_Z_val n) as [Vs Fs]; [simpl in *; lia|].
  assert (E : IZR n / bpow radix2 31 = IZR n * bpow radix2 (-31)).
  { change (-31)%Z with (Z.opp 31). rewrite bpow_opp. reflexivity. }
  assert (B : Rabs (IZR n * bpow radix2 (-31)) <= 1).
  { rewrite Rabs_mult. rewrite (Rabs_pos_eq (bpow radix2 (-31))) by apply bpow_ge_0.
    rewrite <- abs_IZR. assert (IZR (Z.abs n) <= IZR (2 ^ 31)) by (apply IZR_le; simpl in *; lia).
    apply Rle_trans with (IZR (2 ^ 31) * bpow radix2 (-31)).
    apply Rmult_le_compat_r; auto. apply bpow_ge_0. simpl. lra. }
  destruct (ddiv_val (d_of_Z n) d) as [V1 F1]; auto.
  - rewrite V. apply Rgt_not_eq, bpow_gt_0.
  - rewrite V, Vs, E. apply Rle_trans with (1 := B). apply (bpow_le radix2 0 1000). lia.
  - rewrite V, Vs, E, rnd64_id in V1 by (apply fmt64_dyadic; simpl in *; lia).
    auto.
Qed.

Lemma int_to_float_val n : (- 2 ^ 31 <= n <= 2 ^ 31 - 1)%Z ->
  val (int_to_float n) = rnd32 (IZR n * bpow radix2 (-31)) /\ fin (int_to_float n).
Proof.
  intros H. destruct (int_to_double_val n H) as (V & F & B).
  unfold int_to_float. set (q := ddiv _ _) in *.
  destruct (f_of_d_val q F) as [V2 F2].
  - rewrite V. apply Rle_trans with (1 := B). apply (bpow_le radix2 0 126). lia.
  - split; auto. now rewrite V2, V.
Qed.

(** Scaling by a power of two is exact or overflows. *)
Lemma fmt_scale32 x k : (0 <= k)%Z -> fmt32 x -> fmt32 (x * bpow radix2 k).
Proof.
  intros Hk H. apply FLT_format_generic in H; auto with typeclass_instances.
  destruct H as [f E1 E2 E3].
  apply generic_format_FLT. exists (Float radix2 (Fnum f) (Fexp f + k)); simpl; auto; try lia.
  rewrite E1. unfold F2R. simpl. rewrite bpow_plus. ring.
Qed.

Lemma scaled_short (x : f32) :
  let y := fmul x (f_of_Z 32768) in
  fin x ->
  (fin y /\ val y = val x * 32768) \/ (y = B754_infinity (Bsign x) /\ 2 ^ 127 <= Rabs (val x * 32768)).
Proof.
  intros y Fx.
  assert (V : val (f_of_Z 32768) = 32768 /\ fin (f_of_Z 32768)) by (apply f_of_Z_val; simpl; lia).
  destruct V as [V F].
  generalize (Bmult_correct 24 128 _ _ mode_NE x (f_of_Z 32768)).
  fold (fmul x (f_of_Z 32768)). fold y. rewrite V.
  assert (G : fmt32 (val x * 32768)).
  { replace 32768 with (bpow radix2 15) by (simpl; lra). apply fmt_scale32. lia. apply fmt32_val. }
  case Rlt_bool_spec.
  - intros _ (H1 & H2 & _). left. split.
    + unfold fin. rewrite H2, Fx, F. reflexivity.
    + rewrite H1. apply (rnd32_id _ G).
  - intros L H. right. split.
    + destruct y; simpl in H; try discriminate. injection H as ->. f_equal. apply xorb_false_r.
    + replace (2 ^ 127) with (bpow radix2 127) by (rewrite <- IZR_Zpower by lia; rewrite pow_IZR; reflexivity).
      apply Rle_trans with (bpow radix2 128). apply bpow_le; lia.
      apply Rle_trans with (1 := L).
      change (Rabs (rnd32 (val x * 32768)) <= Rabs (val x * 32768)).
      rewrite (rnd32_id _ G). lra.
Qed.

Lemma fge_true (x y : f32) : fin x -> fin y -> fge x y = Rle_bool (val y) (val x).
Proof. intros; now apply (Bleb_correct 24 128). Qed.
Lemma fle_true (x y : f32) : fin x -> fin y -> fle x y = Rle_bool (val x) (val y).
Proof. intros; now apply (Bleb_correct 24 128). Qed.

Lemma wrap_short_id z : (-32768 <= z <= 32767)%Z -> wrap_short z = z.
Proof. intros H. unfold wrap_short. rewrite Z.mod_small; lia. Qed.
Lemma wrap_short_range z : (-32768 <= wrap_short z <= 32767)%Z.
Proof. unfold wrap_short. generalize (Z.mod_pos_bound (z + 2 ^ 15) (2 ^ 16)). lia. Qed.

Lemma c32767 : val (f_of_Z 32767) = 32767 /\ fin (f_of_Z 32767).
Proof. apply f_of_Z_val; simpl; lia. Qed.
Lemma cm32768 : val (f_of_Z (-32768)) = -32768 /\ fin (f_of_Z (-32768)).
Proof. apply f_of_Z_val; simpl; lia. Qed.

Lemma big_sign (x : f32) (c : R) : 0 < c -> fin x -> 2 ^ 127 <= Rabs (val x * c) ->
  if Bsign x then val x * c <= - 2 ^ 127 else 2 ^ 127 <= val x * c.
Proof.
  intros Hc F H. assert (0 < 2 ^ 127) by (apply pow_lt; lra).
  destruct (Bsign x) eqn:E.
  - assert (val x <= 0).
    { destruct (Rle_or_lt (val x) 0) as [G|G]; auto. apply Bsign_pos in G. congruence. }
    rewrite Rabs_left1 in H by nra. lra.
  - assert (0 <= val x).
    { destruct x as [s|s| |s m e B]; simpl in *; try lra; try discriminate. subst s. simpl.
      apply F2R_ge_0. simpl. lia. }
    rewrite Rabs_pos_eq in H by nra. lra.
Qed.

Lemma float_to_short_conv (x : f32) : is_conv_to (-32768) 32767 15 x (float_to_short x).
Proof.
  destruct (is_finite x) eqn:Fx.
  2: { destruct x as [s|s| |s m e H]; try discriminate; simpl; auto.
       destruct s; vm_compute; reflexivity. }
  assert (G : float_to_short x = clip (-32768) 32767 (ZnearestE (IZR (2 ^ 15) * val x))).
  { change (IZR (2 ^ 15)) with 32768. rewrite (Rmult_comm 32768).
    unfold float_to_short, clip. destruct c32767 as [V1 F1]. destruct cm32768 as [V2 F2].
    destruct (scaled_short x Fx) as [[Fy Vy]|[Ey L]].
    - set (y := fmul x (f_of_Z 32768)) in *. rewrite <- Vy.
      rewrite fge_true, fle_true, V1, V2 by assumption.
      case Rle_bool_spec; intros H1.
      + assert (32767 <= ZnearestE (val y))%Z.
        { rewrite <- (ZnearestE_IZR 32767). now apply ZnearestE_mono. }
        lia.
      + case Rle_bool_spec; intros H2.
        * assert (ZnearestE (val y) <= -32768)%Z.
          { rewrite <- (ZnearestE_IZR (-32768)). now apply ZnearestE_mono. }
          lia.
        * assert (ZnearestE (val y) <= 32767)%Z.
          { rewrite <- (ZnearestE_IZR 32767). apply ZnearestE_mono. lra. }
          assert (-32768 <= ZnearestE (val y))%Z.
          { rewrite <- (ZnearestE_IZR (-32768)). apply ZnearestE_mono. lra. }
          rewrite psf_lrintf_val by (auto; lia).
          rewrite wrap_short_id by lia. lia.
    - rewrite Ey. apply big_sign in L; auto; try lra.
      assert (32768 <= 2 ^ 127).
      { replace 32768 with (2 ^ 15) by (simpl; lra). apply Rle_pow; [lra|lia]. }
      destruct (Bsign x).
      + assert (ZnearestE (val x * 32768) <= -32768)%Z.
        { rewrite <- (ZnearestE_IZR (-32768)). apply ZnearestE_mono. lra. }
        replace (if fge (B754_infinity true) (f_of_Z 32767) then 32767%Z
          else if fle (B754_infinity true) (f_of_Z (-32768)) then (-32768)%Z
          else wrap_short (psf_lrintf (B754_infinity true))) with (-32768)%Z by (vm_compute; reflexivity).
        lia.
      + assert (32767 <= ZnearestE (val x * 32768))%Z.
        { rewrite <- (ZnearestE_IZR 32767). apply ZnearestE_mono. lra. }
        replace (if fge (B754_infinity false) (f_of_Z 32767) then 32767%Z
          else if fle (B754_infinity false) (f_of_Z (-32768)) then (-32768)%Z
          else wrap_short (psf_lrintf (B754_infinity false))) with 32767%Z by (vm_compute; reflexivity).
        lia. }
  destruct x; simpl is_conv_to in *; try discriminate; exact G.
Qed.

Lemma float_to_short_range (x : f32) : (-32768 <= float_to_short x <= 32767)%Z.
Proof.
  unfold float_to_short. destruct (fge _ _); [lia|]. destruct (fle _ _); [lia|]. apply wrap_short_range.
Qed.

(** Any converter satisfying [is_conv_to] is monotone (in the IEEE order). *)
Lemma conv_to_mono lo hi k (x y : f32) n m : (lo <= hi)%Z -> (0 <= k)%Z ->
  is_conv_to lo hi k x n -> is_conv_to lo hi k y m -> Bleb x y = true -> (n <= m)%Z.
Proof.
  intros Hlh Hk Hx Hy L.
  assert (C : forall z, (lo <= clip lo hi z <= hi)%Z) by (intros; unfold clip; lia).
  assert (P : 0 <= IZR (2 ^ k)) by (apply IZR_le; apply Z.pow_nonneg; lia).
  assert (X : is_finite x = true -> is_finite y = true -> (n <= m)%Z).
  { intros Fx Fy.
    rewrite (Bleb_correct 24 128) in L by assumption.
    destruct (Rle_bool_spec (B2R x) (B2R y)) as [L'|]; [|discriminate].
    assert (G : (ZnearestE (IZR (2 ^ k) * B2R x) <= ZnearestE (IZR (2 ^ k) * B2R y))%Z)
      by (apply ZnearestE_mono; now apply Rmult_le_compat_l).
    replace n with (clip lo hi (ZnearestE (IZR (2 ^ k) * B2R x))) by (destruct x; auto; discriminate).
    replace m with (clip lo hi (ZnearestE (IZR (2 ^ k) * B2R y))) by (destruct y; auto; discriminate).
    unfold clip. lia. }
  destruct x as [sx|sx| |sx mx ex Bx], y as [sy|sy| |sy my ey By];
    try (apply X; reflexivity); try (destruct sx); try (destruct sy); try discriminate L;
    unfold is_conv_to in Hx, Hy; try rewrite Hx; try rewrite Hy; try apply C; lia.
Qed.

Lemma float_to_int_conv cp cn lr (x : f32) :
  truthful cp cn lr -> is_conv_to (- 2 ^ 31) (2 ^ 31 - 1) 31 x (float_to_int_gen cp cn lr x).
Proof.
  intros (T1 & T2 & T3).
  destruct int_div_val as [V F].
  assert (V1 : val (dmul done_ (d_of_Z 0x7FFFFFFF)) = IZR 2147483647 /\ fin (dmul done_ (d_of_Z 0x7FFFFFFF))).
  { split; [vm_compute; lra | reflexivity]. }
  assert (V2 : val (dmul (d_of_Z (-8)) (d_of_Z 0x10000000)) = IZR (-2147483648) /\ fin (dmul (d_of_Z (-8)) (d_of_Z 0x10000000))).
  { split; [vm_compute; lra | reflexivity]. }
  destruct V1 as [V1 F1]. destruct V2 as [V2 F2].
  destruct (is_finite x) eqn:Fx.
  2: { destruct x as [s|s| |s m e H]; try discriminate; simpl; auto.
       unfold float_to_int_gen.
       replace (dmul (d_of_f (B754_infinity s)) (dmul (d_of_Z 8) (d_of_Z 268435456)))
         with (B754_infinity s : f64) by (destruct s; vm_compute; reflexivity).
       destruct s.
       - replace (dge (B754_infinity true) (dmul done_ (d_of_Z 2147483647))) with false by (vm_compute; reflexivity).
         replace (dle (B754_infinity true) (dmul (d_of_Z (-8)) (d_of_Z 268435456))) with true by (vm_compute; reflexivity).
         rewrite andb_false_r, andb_true_r. destruct cn; simpl negb; cbv iota; try reflexivity.
         destruct (T3 eq_refl) as [T3a _]; exact T3a.
       - replace (dge (B754_infinity false) (dmul done_ (d_of_Z 2147483647))) with true by (vm_compute; reflexivity).
         replace (dle (B754_infinity false) (dmul (d_of_Z (-8)) (d_of_Z 268435456))) with false by (vm_compute; reflexivity).
         rewrite andb_false_r, andb_true_r. destruct cp; simpl negb; cbv iota; try reflexivity.
         destruct (T2 eq_refl) as [T2a _]; exact T2a. }
  assert (G : float_to_int_gen cp cn lr x = clip (- 2 ^ 31) (2 ^ 31 - 1) (ZnearestE (IZR (2 ^ 31) * val x))).
  { unfold float_to_int_gen. set (d := dmul (d_of_Z 8) (d_of_Z 0x10000000)) in *.
    destruct (d_of_f_val x) as [Vx Fx']. rewrite Fx in Fx'.
    assert (Lx : Rabs (val x) <= bpow radix2 128) by (apply Rlt_le, (abs_B2R_lt_emax 24 128)).
    destruct (dmul_val (d_of_f x) d) as [Vy Fy]; auto.
    { rewrite Vx, V, Rabs_mult, (Rabs_pos_eq (bpow radix2 31)) by apply bpow_ge_0.
      apply Rle_trans with (bpow radix2 128 * bpow radix2 31).
      apply Rmult_le_compat_r; auto; apply bpow_ge_0.
      rewrite <- bpow_plus. apply bpow_le; lia. }
    set (y := dmul (d_of_f x) d) in *.
    assert (Ey : val y = IZR (2 ^ 31) * val x).
    { rewrite Vy, Vx, V. rewrite rnd64_id. rewrite Rmult_comm. f_equal; simpl; lra.
      generalize (fmt_scale32 (val x) 31 ltac:(lia) (fmt32_val x)). intros H.
      apply FLT_format_generic in H; auto with typeclass_instances. destruct H as [f E1 E2 E3].
      apply generic_format_FLT. exists f; auto. apply Z.lt_trans with (1 := E2). reflexivity. lia. }
    rewrite <- Ey. clearbody y d. clear Vy Vx Lx Fx'.
    assert (P31 : (2 ^ 31 = 2147483648)%Z) by reflexivity. unfold clip.
    rewrite dge_spec, dle_spec, V1, V2 by assumption.
    case Rle_bool_spec; intros H1.
    - assert (G1 : (2147483647 <= ZnearestE (val y))%Z).
      { rewrite <- (ZnearestE_IZR 2147483647). now apply ZnearestE_mono. }
      destruct cp; simpl negb; simpl andb; cbv iota.
      + rewrite Rle_bool_false by (eapply Rlt_le_trans; [|exact H1]; apply IZR_lt; lia).
        rewrite andb_false_r.
        destruct (Z.eq_dec (ZnearestE (val y)) 2147483647) as [E|E].
        * rewrite T1; auto; lia.
        * destruct (T2 eq_refl) as [_ T2']. rewrite T2'; auto; lia.
      + lia.
    - rewrite andb_false_r.
      assert (G1 : (ZnearestE (val y) <= 2147483647)%Z).
      { rewrite <- (ZnearestE_IZR 2147483647). apply ZnearestE_mono. lra. }
      case Rle_bool_spec; intros H2.
      + assert (G2 : (ZnearestE (val y) <= -2147483648)%Z).
        { rewrite <- (ZnearestE_IZR (-2147483648)). now apply ZnearestE_mono. }
        destruct cn; simpl negb; simpl andb; cbv iota.
        * destruct (Z.eq_dec (ZnearestE (val y)) (-2147483648)) as [E|E].
          -- rewrite T1; auto; lia.
          -- destruct (T3 eq_refl) as [_ T3']. rewrite T3'; auto; lia.
        * lia.
      + rewrite andb_false_r.
        assert (G2 : (-2147483648 <= ZnearestE (val y))%Z).
        { rewrite <- (ZnearestE_IZR (-2147483648)). apply ZnearestE_mono. lra. }
        rewrite T1; auto; lia. }
  destruct x; simpl is_conv_to in *; try discriminate; exact G.
Qed.

(** The x86-64 instruction is described truthfully by CPU_CLIPS_POSITIVE = 0 and either value of CPU_CLIPS_NEGATIVE. *)
Lemma x86_truthful cn : truthful false cn psf_lrint.
Proof.
  split; [|split].
  - intros x F H. now apply psf_lrint_val.
  - discriminate.
  - intros _. split. reflexivity.
    intros x F H. unfold psf_lrint. rewrite d_nearest_spec.
    replace (in_int (ZnearestE (val x))) with false.
    + rewrite andb_false_r. reflexivity.
    + symmetry. apply not_true_is_false. rewrite in_int_true. simpl in *. lia.
Qed.

Lemma short_round_trip s : (-32768 <= s <= 32767)%Z -> float_to_short (short_to_float s) = s.
Proof.
  intros H. destruct (short_to_float_val s H) as [V F].
  generalize (float_to_short_conv (short_to_float s)).
  assert (E : ZnearestE (IZR (2 ^ 15) * val (short_to_float s)) = s).
  { rewrite V. rewrite <- (ZnearestE_IZR s) at 2. f_equal.
    change (IZR (2 ^ 15)) with 32768. field. }
  revert E F. destruct (short_to_float s); intros E F; try discriminate F; unfold is_conv_to;
    intros ->; rewrite E; unfold clip; lia.
Qed.

Lemma int_round_trip_aux lr cp cn n : truthful cp cn lr -> (- 2 ^ 31 <= n <= 2 ^ 31 - 1)%Z ->
  float_to_int_gen cp cn lr (int_to_float n) =
  clip (- 2 ^ 31) (2 ^ 31 - 1) (ZnearestE (IZR (2 ^ 31) * rnd32 (IZR n * bpow radix2 (-31)))).
Proof.
  intros T H. destruct (int_to_float_val n H) as [V F].
  generalize (float_to_int_conv cp cn lr (int_to_float n) T). rewrite <- V. revert F.
  destruct (int_to_float n); intros F; try discriminate F; unfold is_conv_to; auto.
Qed.

Lemma int_round_trip_64 lr cp cn n : truthful cp cn lr -> (- 2 ^ 31 <= n <= 2 ^ 31 - 1)%Z ->
  (Z.abs (float_to_int_gen cp cn lr (int_to_float n) - n) <= 64)%Z.
Proof.
  intros T H. rewrite int_round_trip_aux by assumption.
  set (v := rnd32 (IZR n * bpow radix2 (-31))).
  assert (D : Rabs (v - IZR n * bpow radix2 (-31)) <= bpow radix2 (-25)).
  { destruct (int_to_double_val n H) as (_ & _ & B).
    destruct (Rle_lt_or_eq_dec _ _ B) as [B'|B'].
    - apply Rle_trans with (/ 2 * ulp radix2 (FLT_exp (-149) 24) (IZR n * bpow radix2 (-31))).
      apply error_le_half_ulp; auto with typeclass_instances.
      change (-25)%Z with (-1 + -24)%Z. rewrite bpow_plus. change (bpow radix2 (-1)) with (/ 2).
      apply Rmult_le_compat_l; try lra.
      destruct (Req_dec (IZR n * bpow radix2 (-31)) 0) as [Z|Z].
      + rewrite Z. rewrite ulp_FLT_0; auto with typeclass_instances. apply bpow_le; lia.
      + rewrite ulp_neq_0 by assumption. apply bpow_le. unfold cexp, FLT_exp.
        assert (mag radix2 (IZR n * bpow radix2 (-31)) <= 0)%Z; [|lia].
        apply mag_le_bpow; auto.
    - assert (fmt32 (IZR n * bpow radix2 (-31))).
      { destruct (Rcase_abs (IZR n * bpow radix2 (-31))) as [C|C].
        - rewrite Rabs_left in B' by assumption.
          replace (IZR n * bpow radix2 (-31)) with (IZR (-1)) by (simpl in *; lra). apply fmt32_Z. simpl; lia.
        - rewrite Rabs_right in B' by assumption. rewrite B'. apply fmt32_Z. simpl; lia. }
      unfold v. rewrite rnd32_id by assumption. rewrite Rminus_diag_eq by reflexivity.
      rewrite Rabs_R0. apply bpow_ge_0. }
  assert (E : Rabs (IZR (2 ^ 31) * v - IZR n) <= 64).
  { replace (IZR (2 ^ 31) * v - IZR n) with ((v - IZR n * bpow radix2 (-31)) * bpow radix2 31).
    - rewrite Rabs_mult, (Rabs_pos_eq (bpow radix2 31)) by apply bpow_ge_0.
      apply Rle_trans with (bpow radix2 (-25) * bpow radix2 31).
      apply Rmult_le_compat_r; auto. apply bpow_ge_0. simpl; lra.
    - simpl. lra. }
  apply Rabs_le_inv in E.
  assert (E1 : (n - 64 <= ZnearestE (IZR (2 ^ 31) * v))%Z).
  { rewrite <- (ZnearestE_IZR (n - 64)). apply ZnearestE_mono. rewrite minus_IZR. lra. }
  assert (E2 : (ZnearestE (IZR (2 ^ 31) * v) <= n + 64)%Z).
  { rewrite <- (ZnearestE_IZR (n + 64)). apply ZnearestE_mono. rewrite plus_IZR. lra. }
  unfold clip. lia.
Qed.

Lemma int_round_trip_exact lr cp cn n m e : truthful cp cn lr -> (- 2 ^ 31 <= n <= 2 ^ 31 - 1)%Z ->
  (Z.abs m < 2 ^ 24)%Z -> (0 <= e)%Z -> n = (m * 2 ^ e)%Z ->
  float_to_int_gen cp cn lr (int_to_float n) = n.
Proof.
  intros T H Hm He En. rewrite int_round_trip_aux by assumption.
  assert (X : IZR n * bpow radix2 (-31) = IZR m * bpow radix2 (e - 31)).
  { rewrite En, mult_IZR. replace (IZR (2 ^ e)) with (bpow radix2 e) by (rewrite <- IZR_Zpower by lia; reflexivity).
    unfold Zminus. rewrite bpow_plus. simpl (bpow radix2 (Z.opp 31)). simpl (bpow radix2 (-31)). ring. }
  rewrite X, rnd32_id, <- X by (apply fmt32_dyadic; lia).
  replace (IZR (2 ^ 31) * (IZR n * bpow radix2 (-31))) with (IZR n) by (simpl; lra).
  rewrite ZnearestE_IZR. unfold clip. lia.
Qed.

(** ** Arrays *)
Local Open Scope Z_scope.

Lemma zget_ok {A} (l : list A) i x : 0 <= i -> nth_error l (Z.to_nat i) = Some x -> zget l i = Ok x.
Proof. intros H E. unfold zget. replace (i <? 0) with false by (symmetry; apply Z.ltb_ge; lia). now rewrite E. Qed.

Lemma conv_loop_correct {A B} (f : A -> B) (inp : list A) : forall (rest : list A) (done pre : list A) (o : list B),
  inp = done ++ rest ->
  forall n outb, (n <= length rest)%nat -> (n <= length o)%nat ->
  outb = map f done ++ o ->
  conv_loop f inp outb (Z.of_nat (length done)) n = Ok (map f (firstn (length done + n) inp) ++ skipn n o).
Proof.
  intros rest done _ o. revert rest done.
  induction o as [|b o IH]; intros rest done Hi n outb Hn Ho Hout.
  - assert (n = 0%nat) by (simpl in Ho; lia). subst n. simpl. subst outb inp.
    rewrite Nat.add_0_r, firstn_app, Nat.sub_diag, firstn_all. simpl. rewrite ?app_nil_r. reflexivity.
  - destruct n as [|n].
    + simpl. subst outb inp. rewrite Nat.add_0_r, firstn_app, Nat.sub_diag, firstn_all. simpl. rewrite ?app_nil_r. reflexivity.
    + destruct rest as [|x rest]; [simpl in Hn; lia|].
      simpl conv_loop.
      rewrite (zget_ok _ _ x); [|lia|].
      2: { subst inp. rewrite Nat2Z.id, nth_error_app2 by lia. now rewrite Nat.sub_diag. }
      simpl bind. unfold zset.
      assert (L : length outb = (length done + S (length o))%nat).
      { subst outb. rewrite app_length, map_length. reflexivity. }
      replace ((Z.of_nat (length done) <? 0) || (zlen outb <=? Z.of_nat (length done))) with false.
      2: { symmetry. apply orb_false_iff. split; [apply Z.ltb_ge|apply Z.leb_gt]; unfold zlen; lia. }
      simpl bind. rewrite Nat2Z.id.
      replace (firstn (length done) outb ++ f x :: skipn (length done + 1) outb)
        with (map f (done ++ [x]) ++ o).
      2: { subst outb. rewrite map_app. rewrite firstn_app, map_length, Nat.sub_diag. simpl firstn.
           rewrite app_nil_r. rewrite <- (map_length f done) at 1. rewrite firstn_all.
           rewrite skipn_app, map_length. rewrite skipn_all2 by (rewrite map_length; lia).
           replace (length done + 1 - length done)%nat with 1%nat by lia. simpl.
           rewrite <- app_assoc. reflexivity. }
      replace (Z.of_nat (length done) + 1) with (Z.of_nat (length (done ++ [x])))
        by (rewrite app_length; simpl; lia).
      rewrite (IH rest (done ++ [x])); auto.
      * f_equal. f_equal. f_equal. f_equal. rewrite app_length; simpl; lia.
      * subst inp. rewrite <- app_assoc. reflexivity.
      * simpl in Hn. lia.
      * simpl in Ho. lia.
Qed.

(** Statement used for all four converters. *)
Lemma conv_array {A B} (f : A -> B) inp out len :
  len <= zlen inp -> len <= zlen out ->
  conv_loop f inp out 0 (Z.to_nat len) =
  Ok (map f (firstn (Z.to_nat len) inp) ++ skipn (Z.to_nat len) out).
Proof.
  unfold zlen. intros H1 H2.
  rewrite (conv_loop_correct f inp inp [] [] out eq_refl); auto; lia.
Qed.

Lemma conv_loop_oob {A B} (f : A -> B) inp : forall n out i, 0 <= i ->
  (zlen inp < i + Z.of_nat n \/ zlen out < i + Z.of_nat n) -> (0 < n)%nat ->
  conv_loop f inp out i n = Fault F_oob.
Proof.
  induction n as [|n IH]; intros out i Hi H Hn; [lia|].
  simpl. destruct (zget inp i) as [x|e] eqn:E.
  2: { simpl. unfold zget in E. destruct (i <? 0); [congruence|]. destruct (nth_error _ _); congruence. }
  simpl bind. destruct (zset out i (f x)) as [out'|e] eqn:E2.
  2: { simpl. unfold zset in E2. destruct (_ || _); congruence. }
  simpl bind.
  assert (L : zlen out' = zlen out).
  { unfold zset in E2. destruct ((i <? 0) || (zlen out <=? i)) eqn:G; [discriminate|].
    apply orb_false_iff in G. destruct G as [_ G]. apply Z.leb_gt in G.
    injection E2 as <-. unfold zlen in *. rewrite app_length. simpl length.
    rewrite firstn_length, skipn_length. lia. }
  destruct n as [|n'].
  - exfalso. destruct H as [H|H].
    + unfold zget in E. replace (i <? 0) with false in E by (symmetry; apply Z.ltb_ge; lia).
      destruct (nth_error inp (Z.to_nat i)) eqn:N; [|discriminate].
      assert (Z.to_nat i < length inp)%nat by (apply nth_error_Some; congruence). unfold zlen in H. lia.
    + unfold zset in E2. replace (zlen out <=? i) with true in E2 by (symmetry; apply Z.leb_le; lia).
      rewrite orb_true_r in E2. discriminate.
  - apply IH; lia.
Qed.

(** Array-level versions. *)
Lemma conv_array_post {A B} (f : A -> B) (rel : A -> B -> Prop) inp out len :
  room inp out len -> (forall x, In x inp -> rel x (f x)) ->
  exists out', conv_loop f inp out 0 (Z.to_nat len) = Ok out' /\ array_post rel inp out len out'.
Proof.
  intros [R1 R2] HR. rewrite conv_array by assumption.
  eexists; split; [reflexivity|].
  set (n := Z.to_nat len).
  assert (L1 : (n <= length inp)%nat) by (unfold n; lia).
  assert (L2 : (n <= length out)%nat) by (unfold n; lia).
  assert (LM : length (map f (firstn n inp)) = n) by (rewrite map_length, firstn_length; lia).
  split; [rewrite app_length, LM, skipn_length; lia|].
  intros i; split; intros Hi.
  - assert (I : (i < n)%nat) by (unfold n; lia).
    destruct (nth_error inp i) as [x|] eqn:E.
    2: { apply nth_error_None in E. lia. }
    exists x, (f x). split; [reflexivity|split].
    + rewrite nth_error_app1 by (rewrite LM; lia).
      apply map_nth_error. rewrite <- (firstn_skipn n inp) in E.
      rewrite nth_error_app1 in E; [exact E|]. rewrite firstn_length; lia.
    + apply HR. eapply nth_error_In; eassumption.
  - assert (I : (n <= i)%nat) by (unfold n; lia).
    rewrite nth_error_app2 by (rewrite LM; lia). rewrite LM.
    rewrite <- (firstn_skipn n out) at 2.
    rewrite nth_error_app2 by (rewrite firstn_length; lia).
    rewrite firstn_length. replace (Nat.min n (length out)) with n by lia. reflexivity.
Qed.

Lemma array_round_trip {A B} (f : A -> B) (g : B -> A) inp out1 out2 len :
  len = zlen inp -> len = zlen out1 -> len = zlen out2 -> (forall x, In x inp -> g (f x) = x) ->
  exists mid, conv_loop f inp out1 0 (Z.to_nat len) = Ok mid /\ conv_loop g mid out2 0 (Z.to_nat len) = Ok inp.
Proof.
  intros E0 E1 E2 H. rewrite conv_array by lia.
  eexists; split; [reflexivity|].
  assert (L : Z.to_nat len = length inp) by (unfold zlen in *; lia).
  assert (L1 : Z.to_nat len = length out1) by (unfold zlen in *; lia).
  assert (L2 : Z.to_nat len = length out2) by (unfold zlen in *; lia).
  rewrite L1 at 2. rewrite skipn_all, app_nil_r. rewrite L at 1. rewrite firstn_all.
  rewrite conv_array.
  2: { unfold zlen. rewrite map_length. unfold zlen in *. lia. }
  2: lia.
  rewrite L2 at 2. rewrite skipn_all, app_nil_r.
  rewrite L. rewrite <- (map_length f inp) at 1. rewrite firstn_all, map_map.
  f_equal. rewrite <- (map_id inp) at 2. now apply map_ext_in.
Qed.

Lemma short_to_float_array_exact :
  forall (inp : list Z) (out : list f32) (len : Z),
  room inp out len -> Forall (fun s => -32768 <= s <= 32767) inp ->
  exists out', src_short_to_float_array inp out len = Ok out' /\
    array_post (fun s (y : f32) => is_finite y = true /\ B2R y = (IZR s / 32768)%R /\ (-1 <= B2R y < 1)%R)
               inp out len out'.
Proof.
  intros inp out len R F. apply conv_array_post; [exact R|].
  intros s Hs. rewrite Forall_forall in F. specialize (F s Hs).
  destruct (short_to_float_val s F) as [V Fi].
  split; [exact Fi|]. split; [exact V|]. rewrite V.
  assert (IZR (-32768) <= IZR s <= IZR 32767)%R by (split; apply IZR_le; lia). lra.
Qed.

Lemma short_array_round_trip :
  forall (inp : list Z) (out1 : list f32) (out2 : list Z),
  Forall (fun s => -32768 <= s <= 32767) inp ->
  length out1 = length inp -> length out2 = length inp ->
  exists mid, src_short_to_float_array inp out1 (Z.of_nat (length inp)) = Ok mid /\
              src_float_to_short_array mid out2 (Z.of_nat (length inp)) = Ok inp.
Proof.
  intros inp out1 out2 F L1 L2. apply array_round_trip; unfold zlen; try lia.
  intros x Hx. rewrite Forall_forall in F. now apply short_round_trip, F.
Qed.

Lemma float_to_short_array_correct :
  forall (inp : list f32) (out : list Z) (len : Z), room inp out len ->
  exists out', src_float_to_short_array inp out len = Ok out' /\
    array_post (fun x n => is_conv_to (-32768) 32767 15 x n /\ -32768 <= n <= 32767) inp out len out'.
Proof.
  intros inp out len R. apply conv_array_post; [exact R|].
  intros x _. split; [apply float_to_short_conv|apply float_to_short_range].
Qed.

Lemma float_to_short_array_mono :
  forall (x y : f32) (n m : Z),
  src_float_to_short_array [x] [0] 1 = Ok [n] -> src_float_to_short_array [y] [0] 1 = Ok [m] ->
  Bleb x y = true -> n <= m.
Proof.
  intros x y n m Hx Hy L.
  unfold src_float_to_short_array in Hx, Hy. cbn [Z.to_nat conv_loop Pos.to_nat Pos.iter_op Nat.add zget zset bind] in Hx, Hy.
  assert (En : n = float_to_short x) by (cbv [zget zset bind] in Hx; simpl in Hx; congruence).
  assert (Em : m = float_to_short y) by (cbv [zget zset bind] in Hy; simpl in Hy; congruence).
  subst. eapply (conv_to_mono (-32768) 32767 15); try eassumption; try lia; apply float_to_short_conv.
Qed.

Lemma float_to_int_array_correct :
  forall clips_pos clips_neg lr, truthful clips_pos clips_neg lr ->
  forall (inp : list f32) (out : list Z) (len : Z), room inp out len ->
  exists out', src_float_to_int_array clips_pos clips_neg lr inp out len = Ok out' /\
    array_post (fun x n => is_conv_to (- 2 ^ 31) (2 ^ 31 - 1) 31 x n) inp out len out'.
Proof.
  intros cp cn lr T inp out len R. apply conv_array_post; [exact R|].
  intros x _. now apply float_to_int_conv.
Qed.

Lemma float_to_int_array_mono :
  forall clips_pos clips_neg lr, truthful clips_pos clips_neg lr ->
  forall (x y : f32) (n m : Z),
  src_float_to_int_array clips_pos clips_neg lr [x] [0] 1 = Ok [n] ->
  src_float_to_int_array clips_pos clips_neg lr [y] [0] 1 = Ok [m] ->
  Bleb x y = true -> n <= m.
Proof.
  intros cp cn lr T x y n m Hx Hy L.
  assert (En : n = float_to_int_gen cp cn lr x).
  { unfold src_float_to_int_array in Hx. cbv [zget zset bind conv_loop Z.to_nat Pos.to_nat Pos.iter_op] in Hx.
    simpl in Hx. congruence. }
  assert (Em : m = float_to_int_gen cp cn lr y).
  { unfold src_float_to_int_array in Hy. cbv [zget zset bind conv_loop Z.to_nat Pos.to_nat Pos.iter_op] in Hy.
    simpl in Hy. congruence. }
  subst. eapply (conv_to_mono (- 2 ^ 31) (2 ^ 31 - 1) 31); try eassumption; try lia; now apply float_to_int_conv.
Qed.

Lemma int_array_round_trip :
  forall clips_pos clips_neg lr, truthful clips_pos clips_neg lr ->
  forall (inp : list Z) (out1 : list f32) (out2 : list Z),
  Forall (fun n => - 2 ^ 31 <= n <= 2 ^ 31 - 1) inp ->
  length out1 = length inp -> length out2 = length inp ->
  exists mid res,
    src_int_to_float_array inp out1 (Z.of_nat (length inp)) = Ok mid /\
    src_float_to_int_array clips_pos clips_neg lr mid out2 (Z.of_nat (length inp)) = Ok res /\
    Forall2 (fun n n' => Z.abs (n' - n) <= 64 /\
                         ((exists m e, Z.abs m < 2 ^ 24 /\ 0 <= e /\ n = m * 2 ^ e) -> n' = n)) inp res.
Proof.
  intros cp cn lr T inp out1 out2 F L1 L2.
  unfold src_int_to_float_array, src_float_to_int_array.
  rewrite conv_array by (unfold zlen; lia).
  eexists; eexists; split; [reflexivity|].
  rewrite Nat2Z.id. rewrite firstn_all. rewrite <- L1 at 1. rewrite skipn_all, app_nil_r.
  rewrite <- (Nat2Z.id (length inp)) at 1.
  rewrite conv_array by (unfold zlen; rewrite ?map_length; lia).
  split; [reflexivity|].
  rewrite Nat2Z.id. rewrite <- L2 at 2. rewrite skipn_all, app_nil_r.
  rewrite <- (map_length int_to_float inp) at 1. rewrite firstn_all.
  rewrite map_map.
  clear L1 L2. induction F as [|n inp Hn F IH]; simpl; constructor; auto.
  split; [now apply int_round_trip_64|].
  intros (m & e & Hm & He & E). eapply int_round_trip_exact; eassumption.
Qed.

Lemma array_frame :
  forall cp cn lr,
  (exists f, forall inp out len, room inp out len ->
     exists out', src_short_to_float_array inp out len = Ok out' /\ array_post (fun x y => y = f x) inp out len out') /\
  (exists f, forall inp out len, room inp out len ->
     exists out', src_float_to_short_array inp out len = Ok out' /\ array_post (fun x y => y = f x) inp out len out') /\
  (exists f, forall inp out len, room inp out len ->
     exists out', src_int_to_float_array inp out len = Ok out' /\ array_post (fun x y => y = f x) inp out len out') /\
  (exists f, forall inp out len, room inp out len ->
     exists out', src_float_to_int_array cp cn lr inp out len = Ok out' /\ array_post (fun x y => y = f x) inp out len out').
Proof.
  intros cp cn lr. repeat split; eexists; intros inp out len R; apply conv_array_post; auto.
Qed.

Lemma array_nonpositive :
  forall cp cn lr len, len <= 0 ->
  (forall inp out, src_short_to_float_array inp out len = Ok out) /\
  (forall inp out, src_float_to_short_array inp out len = Ok out) /\
  (forall inp out, src_int_to_float_array inp out len = Ok out) /\
  (forall inp out, src_float_to_int_array cp cn lr inp out len = Ok out).
Proof.
  intros cp cn lr len H.
  unfold src_short_to_float_array, src_float_to_short_array, src_int_to_float_array, src_float_to_int_array.
  replace (Z.to_nat len) with 0%nat by lia. auto.
Qed.
