(** The tables of the source against the kernel. *)
From Coq Require Import ZArith Reals List Bool Lia Lra Psatz.
From Flocq Require Import Core IEEE754.BinarySingleNaN.
From Verif Require Import Base FloatFacts PosFacts Types Api ApiHist HoldSpec HoldCore HoldStream HoldRamp HoldValue LifeSpec SincSpec SincFacts SincApi SincHist SincTables SincStream SincMain
  GainGrid GainCheck GainUnits GainFloat GainWeights GainBound GainMain GainStream GainTables GainThms GainFastInts GainMidInts AccSpec AccFacts AccThms KernSpec KernFacts KernMain KernThms.
Import ListNotations.
Local Open Scope Z_scope.

Lemma fast_slopes : slope_check 7942594 2463678114 964151056 830657771911 131 fast_ints = true. Proof. vm_cast_no_check (eq_refl true). Qed.
Lemma mid_slopes : slope_check 2530946 3548954500 1055033322 7696083741223 3 mid_ints = true. Proof. vm_cast_no_check (eq_refl true). Qed.

(** What the checks amount to. *)
Definition sloped (t : Z * list f32) : Prop :=
  let '(inc, coeffs) := t in
  128 <= inc /\ table_fit t /\ table_gain t /\ exists e0 sd g0 sg j, slope_check e0 sd g0 sg j (map units coeffs) = true /\
  (forall m, 0 < m <= 1 -> 6 / 10000000 + 2 * wing_error inc coeffs e0 sd g0 sg j (/ 2 + / 10000000 + (/ 2 + / 30000000)) (/ 2 + / 30000000) m <= (21 + 12 / m) / 1000000)%R /\
  (6 / 10000000 + 2 * wing_error inc coeffs e0 sd g0 sg j (/ 2 + / 10000000) 0 1 <= 13 / 1000000)%R.
Lemma slope_bounds inc coeffs e0 sd g0 sg j c0 c1 d : 0 < inc ->
  (c0 = (/ 2 + / 10000000 + (/ 2 + / 30000000)) * (IZR e0 + (1 + / 2048) / IZR inc * (3 * IZR e0 + IZR sd)) + (/ 2 + / 30000000) * ((1 + / 2048) / IZR inc * IZR g0))%R ->
  (c1 = (/ 2 + / 30000000) * ((1 + / 2048) / IZR inc * ((1 + / 2048) / IZR inc * (3 * IZR g0 + IZR sg))))%R ->
  (d = (IZR j + 1) / 1073741824 * ((1 + / 2048) * IZR (zlen coeffs + 1) / IZR inc + 2))%R ->
  (6 / 10000000 + 2 * (c0 / (4096 * 1073741824) + d) <= 21 / 1000000)%R -> (2 * (c1 / (4096 * 1073741824)) <= 12 / 1000000)%R ->
  (forall m, 0 < m <= 1 -> 6 / 10000000 + 2 * wing_error inc coeffs e0 sd g0 sg j (/ 2 + / 10000000 + (/ 2 + / 30000000)) (/ 2 + / 30000000) m <= (21 + 12 / m) / 1000000)%R.
Proof.
  intros Hi E0 E1 Ed H0 H1 m Hm. apply IZR_lt in Hi.
  assert (W : (wing_error inc coeffs e0 sd g0 sg j (/ 2 + / 10000000 + (/ 2 + / 30000000)) (/ 2 + / 30000000) m = c0 / (4096 * 1073741824) + d + c1 / (4096 * 1073741824) / m)%R).
  { unfold wing_error, one30. rewrite E0, E1, Ed. field. lra. }
  rewrite W. assert (P : (0 < / m)%R) by (apply Rinv_0_lt_compat; lra).
  assert (2 * (c1 / (4096 * 1073741824)) * / m <= 12 / 1000000 * / m)%R by (apply Rmult_le_compat_r; lra). unfold Rdiv in *. lra.
Qed.
Lemma sloped_of (t : Z * list f32) inc n ints e0 sd g0 sg j : fst t = inc -> zlen (snd t) = n -> 128 <= inc -> flat t -> same_units (snd t) ints = true ->
  slope_check e0 sd g0 sg j ints = true ->
  (forall m, 0 < m <= 1 -> 6 / 10000000 + 2 * wing_error (fst t) (snd t) e0 sd g0 sg j (/ 2 + / 10000000 + (/ 2 + / 30000000)) (/ 2 + / 30000000) m <= (21 + 12 / m) / 1000000)%R ->
  (6 / 10000000 + 2 * wing_error (fst t) (snd t) e0 sd g0 sg j (/ 2 + / 10000000) 0 1 <= 13 / 1000000)%R -> sloped t.
Proof.
  destruct t as [i coeffs]. cbn [fst snd]. intros -> En Hi (_ & Hf & Hg & _) U S A B. destruct (same_units_ok _ _ U) as [<- _].
  split; [exact Hi|]. split; [exact Hf|]. split; [exact Hg|]. exists e0, sd, g0, sg, j. auto.
Qed.
Lemma fast_sloped : sloped fastest_table.
Proof.
  apply (sloped_of fastest_table 128 2464 fast_ints 7942594 2463678114 964151056 830657771911 131 eq_refl fastest_length ltac:(lia) fast_flat fast_same fast_slopes).
  - eapply slope_bounds; [change (fst fastest_table) with 128; lia|reflexivity|reflexivity|reflexivity| |];
    rewrite ?fastest_length; change (fst fastest_table) with 128; [change (2464 + 1) with 2465|]; lra.
  - unfold wing_error, one30. rewrite fastest_length. change (fst fastest_table) with 128. change (2464 + 1) with 2465. lra.
Qed.
Lemma mid_sloped : sloped mid_qual_table.
Proof.
  apply (sloped_of mid_qual_table 491 22438 mid_ints 2530946 3548954500 1055033322 7696083741223 3 eq_refl mid_qual_length ltac:(lia) mid_flat mid_same mid_slopes).
  - eapply slope_bounds; [change (fst mid_qual_table) with 491; lia|reflexivity|reflexivity|reflexivity| |];
    rewrite ?mid_qual_length; change (fst mid_qual_table) with 491; [change (22438 + 1) with 22439|]; lra.
  - unfold wing_error, one30. rewrite mid_qual_length. change (fst mid_qual_table) with 491. change (22438 + 1) with 22439. lra.
Qed.
Lemma sloped_tables t : t = fastest_table \/ t = mid_qual_table -> sloped t.
Proof. intros [E|E]; rewrite E; [exact fast_sloped|exact mid_sloped]. Qed.

Lemma sinc_convolved inc coeffs ch X r (A : f32) st log out st1 o1 k c : (inc, coeffs) = fastest_table \/ (inc, coeffs) = mid_qual_table ->
  sinc_start (inc, coeffs) ch st -> in_range r -> within ch X A -> (6 * Rabs (B2R A) < IZR (2 ^ 128))%R -> (forall i j, i < 0 -> X i j = fzero) ->
  sinc_streaming ch X (eq r) st 0 log out st1 o1 -> 0 <= k < total_gen log -> 0 <= c < ch ->
  exists u t y, near_place r k u t /\ sample ch out k c = Some y /\ is_finite y = true /\
  forall width, (IZR (zlen coeffs) / (IZR inc * Rmin 1 (B2R r)) + 4 <= INR width)%R ->
  let error := Rabs (B2R y - convolved inc coeffs (fun i => B2R (X i c)) u t (Rmin 1 (B2R r)) width) in
  (error <= (21 + 12 / Rmin 1 (B2R r)) / 1000000 * Rabs (B2R A) + / IZR (2 ^ 149))%R /\
  ((1 <= B2R r)%R -> (error <= 13 / 1000000 * Rabs (B2R A) + / IZR (2 ^ 149))%R).
Proof.
  intros T S G W U Z0 Run Hk Hc. apply sloped_tables in T. destruct T as (Hi & Ht & Hg & e0 & sd & g0 & sg & j & Hs & B0 & B1). rewrite <- big in U.
  destruct (sinc_convolution inc coeffs ch X r st log out st1 o1 Ht S Z0 G Run) as [_ F].
  destruct (place r k G ltac:(lia)) as [Fp N]. set (p := pos_at (0, dzero) (fun _ => r) (Z.to_nat k)) in *. exists (fst p), (B2R (snd p)).
  eexists. split; [exact N|]. split; [apply F; assumption|]. rewrite <- small. fold p.
  assert (Hx : forall i, fin (X i c) /\ (Rabs (B2R (X i c)) <= Rabs (B2R A))%R) by (intros i; now apply W).
  destruct (value_ideal inc coeffs Hg (fun i => X i c) p r (Rabs (B2R A)) G Fp (sized_val A) U Hx) as [Fv _]. split; [exact Fv|]. intros K HK error.
  assert (M : (0 < Rmin 1 (B2R r) <= 1)%R) by (destruct G as [_ G]; unfold Rmin; destruct (Rle_dec 1 (B2R r)); lra).
  destruct (index_facts inc coeffs (gain_table inc coeffs Hg) r (snd p) G Fp) as (_ & _ & _ & _ & E).
  assert (V := fun beta => value_convolved inc coeffs Hg e0 sd g0 sg j Hs Hi Ht (fun i => X i c) p r (Rabs (B2R A)) beta K G Fp (sized_val A) U Hx HK). fold error in V.
  assert (PA := Rabs_pos (B2R A)). split.
  - specialize (V (/ 2 + / 30000000)%R ltac:(lra) ltac:(lra)). specialize (B0 _ M). eapply Rle_trans; [exact V|]. apply Rplus_le_compat_r, Rmult_le_compat_r; [exact PA|exact B0].
  - intros L. destruct (step_one inc coeffs Hg r G L) as [_ E1]. specialize (V 0%R ltac:(lra)). unfold error in *. rewrite Rmin_left in V |- * by lra. eapply Rle_trans; [apply V|].
    + rewrite E1, Rmult_1_r, mult_IZR. replace (4096 * IZR inc - 4096 * IZR inc)%R with 0%R by ring. rewrite Rabs_R0. lra.
    + rewrite Rplus_0_r. apply Rplus_le_compat_r, Rmult_le_compat_r; [exact PA|exact B1].
Qed.
