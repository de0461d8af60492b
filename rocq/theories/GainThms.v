(** The theorems of Properties_Gain.v. *)
From Coq Require Import ZArith Reals List Bool Lia Lra.
From Flocq Require Import Core IEEE754.BinarySingleNaN.
From Verif Require Import Base FloatFacts PosFacts Types Api ApiHist HoldSpec LifeSpec SincSpec SincApi SincTables SincCases GainMain GainStream GainTables.
Import ListNotations.
Local Open Scope Z_scope.

Lemma flat_tables t : t = fastest_table \/ t = mid_qual_table -> flat t.
Proof. intros [E|E]; rewrite E; [exact fast_flat|exact mid_flat]. Qed.
Lemma big n : (bpow radix2 (Zpos n) = IZR (2 ^ Zpos n))%R.
Proof. now rewrite <- IZR_Zpower by lia. Qed.
Lemma small n : (bpow radix2 (Zneg n) = / IZR (2 ^ Zpos n))%R.
Proof. change (Zneg n) with (- Zpos n). now rewrite bpow_opp, big. Qed.

Lemma bounded : forall t ch X (A : f32) st log out st' o', t = fastest_table \/ t = mid_qual_table -> sinc_start t ch st ->
  (forall i k, i < 0 -> X i k = fzero) ->
  (forall i c, 0 <= c < ch -> is_finite (X i c) = true /\ (Rabs (B2R (X i c)) <= Rabs (B2R A))%R) ->
  (6 * Rabs (B2R A) < IZR (2 ^ 128))%R -> sinc_streaming ch X in_range st 0 log out st' o' ->
  Forall (fun y => is_finite y = true /\ (Rabs (B2R y) <= 6 * Rabs (B2R A))%R) out.
Proof.
  intros t ch X A st log out st' o' T S Hx HX U Run. apply flat_tables in T. rewrite <- big in U.
  assert (G : table_fit t /\ GainBound.table_gain t) by (destruct t; split; apply T).
  exact (stream_bounded t ch X A st log out st' o' (proj1 G) (proj2 G) S Hx HX U Run).
Qed.

Lemma unit_gain : forall inc coeffs ch X r (A : f32) st log out st' o' k c, (inc, coeffs) = fastest_table \/ (inc, coeffs) = mid_qual_table ->
  sinc_start (inc, coeffs) ch st -> (forall i j, i < 0 -> X i j = fzero) -> in_range r ->
  sinc_streaming ch X (eq r) st 0 log out st' o' -> 0 <= k < total_gen log -> 0 <= c < ch ->
  is_finite A = true -> (Rabs (B2R A) <= IZR (2 ^ 127))%R ->
  let p := fst (pos_at (0, dzero) (fun _ => r) (Z.to_nat k)) in
  (forall i, (IZR (Z.abs (i - p)) <= IZR (zlen coeffs) / (IZR inc * Rmin 1 (B2R r)) + 4)%R -> X i c = A) ->
  exists y, sample ch out k c = Some y /\ is_finite y = true /\
    (Rabs (B2R y - B2R A) <= / 200 * Rabs (B2R A) + / IZR (2 ^ 149))%R /\
    ((1 <= B2R r)%R -> (Rabs (B2R y - B2R A) <= 3 / 1000000 * Rabs (B2R A) + / IZR (2 ^ 149))%R).
Proof.
  intros inc coeffs ch X r A st log out st' o' k c T S Hx G Run Hk Hc FA UA p Hp. rewrite <- small. rewrite <- big in UA.
  exact (flat_stream inc coeffs ch X r A st log out st' o' k c (flat_tables _ T) S Hx G Run Hk Hc FA UA Hp).
Qed.

Lemma every_position : forall inc coeffs x pos r (A : f32), (inc, coeffs) = fastest_table \/ (inc, coeffs) = mid_qual_table -> in_range r ->
  is_finite (snd pos) = true -> Bsign (snd pos) = false -> (0 <= B2R (snd pos) < 1)%R ->
  is_finite A = true -> (Rabs (B2R A) <= IZR (2 ^ 127))%R ->
  (forall i, (IZR (Z.abs (i - fst pos)) <= IZR (zlen coeffs) / (IZR inc * Rmin 1 (B2R r)) + 4)%R -> x i = A) ->
  let y := sinc_value inc coeffs x pos r in
  is_finite y = true /\ (Rabs (B2R y - B2R A) <= / 200 * Rabs (B2R A) + / IZR (2 ^ 149))%R /\
  ((1 <= B2R r)%R -> (Rabs (B2R y - B2R A) <= 3 / 1000000 * Rabs (B2R A) + / IZR (2 ^ 149))%R).
Proof.
  intros inc coeffs x pos r A T G F1 F2 F3 FA UA Hx y. rewrite <- small. rewrite <- big in UA.
  exact (flat_value inc coeffs x pos r A (flat_tables _ T) G (conj F1 (conj F2 F3)) FA UA Hx).
Qed.
