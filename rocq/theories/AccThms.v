(** The theorems of Properties_Acc.v: superposition (C47), accuracy (C48), no drift (C49). *)
From Coq Require Import ZArith Reals List Bool Lia Lra.
From Flocq Require Import Core IEEE754.BinarySingleNaN.
From Verif Require Import Base FloatFacts PosFacts Types Api ApiHist HoldSpec HoldCore HoldStream HoldRamp HoldValue HoldMain HoldThms LifeSpec
  SincSpec SincApi SincHist SincStream SincMain SincPair SincTables AccSpec GainFloat GainBound GainMain GainTables GainThms AccFacts.
Import ListNotations.
Local Open Scope Z_scope.

(** Three numbers close to three numbers that add up. *)
Lemma mix_close (a b x y z x0 y0 z0 ex ey ez : R) : (z0 = a * x0 + b * y0 -> Rabs (x - x0) <= ex -> Rabs (y - y0) <= ey -> Rabs (z - z0) <= ez ->
  Rabs (z - (a * x + b * y)) <= ez + Rabs a * ex + Rabs b * ey)%R.
Proof.
  intros E Hx Hy Hz. replace (z - (a * x + b * y))%R with ((z - z0) + - (a * (x - x0)) + - (b * (y - y0)))%R by (rewrite E; ring).
  eapply Rle_trans; [apply Rabs_triang|]. rewrite Rabs_Ropp. eapply Rle_trans; [apply Rplus_le_compat_r, Rabs_triang|]. rewrite Rabs_Ropp, !Rabs_mult.
  assert (Rabs a * Rabs (x - x0) <= Rabs a * ex)%R by (apply Rmult_le_compat_l; [apply Rabs_pos|exact Hx]).
  assert (Rabs b * Rabs (y - y0) <= Rabs b * ey)%R by (apply Rmult_le_compat_l; [apply Rabs_pos|exact Hy]). lra.
Qed.

Lemma hold_three (R : f32 -> f32 -> f32 -> Prop) kd ch X Y Z st log out st1 o1 log' out' st1' o1' log'' out'' st1'' o1'' :
  at_start kd ch st -> channels_fit ch ->
  (forall p c, 0 <= c < ch -> frac (snd p) -> R (value kd (from0 X) p c) (value kd (from0 Y) p c) (value kd (from0 Z) p c)) ->
  streaming ch X in_range (lin_legal kd ch X) st 0 log out st1 o1 -> streaming ch Y in_range (lin_legal kd ch Y) st 0 log' out' st1' o1' ->
  streaming ch Z in_range (lin_legal kd ch Z) st 0 log'' out'' st1'' o1'' -> requests log = requests log' -> requests log = requests log'' ->
  log = log' /\ log = log'' /\ forall k c, 0 <= k < total_gen log -> 0 <= c < ch -> exists x y z,
    sample ch out k c = Some x /\ sample ch out' k c = Some y /\ sample ch out'' k c = Some z /\ R x y z.
Proof.
  intros A F H S1 S2 S3 Q1 Q2. destruct (plan_hold kd ch X st log out st1 o1 A F S1) as (_ & P & Pf & F1 & Pl).
  destruct (Pl _ _ _ _ _ S2 Q1) as [E2 F2]. destruct (Pl _ _ _ _ _ S3 Q2) as [E3 F3]. split; [exact E2|]. split; [exact E3|].
  intros k c Hk Hc. do 3 eexists. split; [apply F1; assumption|]. split; [apply F2; assumption|]. split; [apply F3; assumption|]. apply H; auto.
Qed.

Lemma zoh_mixed ch a b X Y Z st log out st1 o1 log' out' st1' o1' log'' out'' st1'' o1'' :
  at_start Zoh ch st -> channels_fit ch -> mixed a b X Y Z ->
  streaming ch X in_range (fun _ _ _ => True) st 0 log out st1 o1 -> streaming ch Y in_range (fun _ _ _ => True) st 0 log' out' st1' o1' ->
  streaming ch Z in_range (fun _ _ _ => True) st 0 log'' out'' st1'' o1'' -> requests log = requests log' -> requests log = requests log'' ->
  log = log' /\ log = log'' /\ forall k c, 0 <= k < total_gen log -> 0 <= c < ch -> exists x y z,
    sample ch out k c = Some x /\ sample ch out' k c = Some y /\ sample ch out'' k c = Some z /\ (B2R z = a * B2R x + b * B2R y)%R.
Proof.
  intros A F M. apply (hold_three (fun x y z => B2R z = a * B2R x + b * B2R y)%R Zoh ch X Y Z st); auto.
  intros p c _ _. unfold value, zoh_value, from0. apply M.
Qed.

Lemma lin_mixed ch a b X Y Z (Ax Ay Az : f32) st log out st1 o1 log' out' st1' o1' log'' out'' st1'' o1'' :
  at_start Lin ch st -> channels_fit ch -> mixed a b X Y Z -> within ch X Ax -> within ch Y Ay -> within ch Z Az ->
  streaming ch X in_range (lin_legal Lin ch X) st 0 log out st1 o1 -> streaming ch Y in_range (lin_legal Lin ch Y) st 0 log' out' st1' o1' ->
  streaming ch Z in_range (lin_legal Lin ch Z) st 0 log'' out'' st1'' o1'' -> requests log = requests log' -> requests log = requests log'' ->
  log = log' /\ log = log'' /\ forall k c, 0 <= k < total_gen log -> 0 <= c < ch -> exists x y z,
    sample ch out k c = Some x /\ sample ch out' k c = Some y /\ sample ch out'' k c = Some z /\
    (Rabs (B2R z - (a * B2R x + b * B2R y)) <= / 16000000 * (Rabs (B2R Az) + Rabs a * Rabs (B2R Ax) + Rabs b * Rabs (B2R Ay)) + (1 + Rabs a + Rabs b) / IZR (2 ^ 149))%R.
Proof.
  intros A F M Wx Wy Wz.
  apply (hold_three (fun x y z => Rabs (B2R z - (a * B2R x + b * B2R y)) <= / 16000000 * (Rabs (B2R Az) + Rabs a * Rabs (B2R Ax) + Rabs b * Rabs (B2R Ay)) + (1 + Rabs a + Rabs b) / IZR (2 ^ 149))%R
    Lin ch X Y Z st); auto.
  intros p c Hc Hp. unfold Rdiv. rewrite <- small. unfold value, lin_value, from0.
  set (i := Z.max _ _). set (j := Z.max _ (fst p)).
  assert (N : forall V B, within ch V B -> (Rabs (B2R (interpolate (V i c) (V j c) (snd p)) - on_line (B2R (V i c)) (B2R (V j c)) (B2R (snd p))) <= / 16000000 * Rabs (B2R B) + bpow radix2 (-149))%R).
  { intros V B W. apply interpolate_near; try apply W; auto. apply sized_val. }
  eapply Rle_trans; [apply (fun E => mix_close a b _ _ _ _ _ _ _ _ _ E (N X Ax Wx) (N Y Ay Wy) (N Z Az Wz))|].
  - unfold on_line. rewrite !M. ring.
  - apply Req_le. ring.
Qed.

Lemma flat_gain t : t = fastest_table \/ t = mid_qual_table -> table_fit t /\ table_gain t.
Proof. intros T. apply flat_tables in T. destruct t. split; apply T. Qed.

Lemma sinc_mixed t ch a b X Y Z (Ax Ay Az : f32) st log out st1 o1 log' out' st1' o1' log'' out'' st1'' o1'' :
  t = fastest_table \/ t = mid_qual_table -> sinc_start t ch st -> mixed a b X Y Z -> within ch X Ax -> within ch Y Ay -> within ch Z Az ->
  (6 * Rabs (B2R Ax) < IZR (2 ^ 128))%R -> (6 * Rabs (B2R Ay) < IZR (2 ^ 128))%R -> (6 * Rabs (B2R Az) < IZR (2 ^ 128))%R ->
  (forall i c, i < 0 -> X i c = fzero) -> (forall i c, i < 0 -> Y i c = fzero) -> (forall i c, i < 0 -> Z i c = fzero) ->
  sinc_streaming ch X in_range st 0 log out st1 o1 -> sinc_streaming ch Y in_range st 0 log' out' st1' o1' ->
  sinc_streaming ch Z in_range st 0 log'' out'' st1'' o1'' -> requests log = requests log' -> requests log = requests log'' ->
  log = log' /\ log = log'' /\ forall k c, 0 <= k < total_gen log -> 0 <= c < ch -> exists x y z,
    sample ch out k c = Some x /\ sample ch out' k c = Some y /\ sample ch out'' k c = Some z /\
    (Rabs (B2R z - (a * B2R x + b * B2R y)) <= 3 / 10000000 * (Rabs (B2R Az) + Rabs a * Rabs (B2R Ax) + Rabs b * Rabs (B2R Ay)) + (1 + Rabs a + Rabs b) / IZR (2 ^ 149))%R.
Proof.
  intros T A M Wx Wy Wz Ux Uy Uz Zx Zy Zz S1 S2 S3 Q1 Q2. destruct (flat_gain t T) as [Ht Hg]. clear T. destruct t as [inc coeffs]. rewrite <- big in Ux, Uy, Uz.
  destruct (plan inc coeffs ch X st log out st1 o1 Ht A Zx S1) as (P & Pp & F1 & Pl).
  destruct (Pl _ _ _ _ _ Zy S2 Q1) as [E2 F2]. destruct (Pl _ _ _ _ _ Zz S3 Q2) as [E3 F3]. split; [exact E2|]. split; [exact E3|].
  intros k c Hk Hc. do 3 eexists. split; [apply F1; assumption|]. split; [apply F2; assumption|]. split; [apply F3; assumption|].
  unfold sampled. destruct (Pp k Hk) as [Ff Gr]. set (dep := fst (fst (P k))). set (pos := snd (fst (P k))) in *. set (ro := snd (P k)) in *. unfold Rdiv at 2. rewrite <- small.
  assert (N : forall V B, within ch V B -> (6 * Rabs (B2R B) < bpow radix2 128)%R ->
    (Rabs (B2R (sinc_sample inc coeffs (fun i => V i c) dep pos ro) - exact_sum inc coeffs (fun i => B2R (V i c)) dep pos ro) <= 3 / 10000000 * Rabs (B2R B) + bpow radix2 (-149))%R).
  { intros V B W U. apply (sample_near inc coeffs Hg (fun i => V i c)); auto; try apply sized_val. intros i. now apply W. }
  eapply Rle_trans; [apply (fun E => mix_close a b _ _ _ _ _ _ _ _ _ E (N X Ax Wx Ux) (N Y Ay Wy Uy) (N Z Az Wz Uz))|].
  - apply exact_linear. intros i. apply M.
  - apply Req_le. field.
Qed.

(** ** Constant ratio *)
Lemma place r k : in_range r -> 0 <= k -> let p := pos_at (0, dzero) (fun _ => r) (Z.to_nat k) in frac (snd p) /\ near_place r k (fst p) (B2R (snd p)).
Proof.
  intros G Hk p. assert (Fz : frac dzero) by apply frac_zero. assert (Fp : frac (snd p)) by (apply pos_at_frac; auto).
  split; [exact Fp|]. split; [apply Fp|].
  assert (D := drift (0, dzero) r (Z.to_nat k) Fz G). fold p in D. rewrite INR_IZR_INZ, Z2Nat.id in D by exact Hk.
  unfold pval in D. cbn [fst snd] in D. change (B2R dzero) with 0%R in D. rewrite small in D. change (IZR 0 + 0)%R with (0 + 0)%R in D. rewrite !Rplus_0_l in D.
  unfold Rdiv. eapply Rle_trans; [exact D|]. apply Req_le. ring.
Qed.

Lemma zoh_placed ch X r st log out st1 o1 k c : at_start Zoh ch st -> channels_fit ch -> in_range r ->
  streaming ch X (eq r) (fun _ _ _ => True) st 0 log out st1 o1 -> 0 <= k < total_gen log -> 0 <= c < ch ->
  exists u t, near_place r k u t /\ sample ch out k c = Some (X (Z.max 0 (u - 1)) c).
Proof.
  intros A F G S Hk Hc. destruct (HoldMain.const_run Zoh ch X _ r st log out st1 o1 A F G (fun _ _ _ H => H) S) as (_ & _ & _ & _ & _ & _ & Fr).
  destruct (place r k G ltac:(lia)) as [_ N]. do 2 eexists. split; [exact N|]. now apply Fr.
Qed.
Lemma lin_placed ch X r (A : f32) st log out st1 o1 k c : at_start Lin ch st -> channels_fit ch -> in_range r -> within ch X A ->
  streaming ch X (eq r) (lin_legal Lin ch X) st 0 log out st1 o1 -> 0 <= k < total_gen log -> 0 <= c < ch ->
  exists u t y, near_place r k u t /\ sample ch out k c = Some y /\ is_finite y = true /\
    (Rabs (B2R y - on_line (B2R (X (Z.max 0 (u - 1)) c)) (B2R (X (Z.max 0 u) c)) t) <= / 16000000 * Rabs (B2R A) + / IZR (2 ^ 149))%R.
Proof.
  intros A0 F G W S Hk Hc. destruct (HoldMain.const_run Lin ch X _ r st log out st1 o1 A0 F G (fun _ _ _ H => H) S) as (_ & _ & _ & _ & _ & _ & Fr).
  destruct (place r k G ltac:(lia)) as [Fp N]. do 3 eexists. split; [exact N|]. split; [now apply Fr|].
  rewrite <- small. unfold value, lin_value, from0. apply interpolate_near; try apply W; auto. apply sized_val.
Qed.
Lemma sinc_placed inc coeffs ch X r (A : f32) st log out st1 o1 k c : (inc, coeffs) = fastest_table \/ (inc, coeffs) = mid_qual_table ->
  sinc_start (inc, coeffs) ch st -> in_range r -> within ch X A -> (6 * Rabs (B2R A) < IZR (2 ^ 128))%R -> (forall i j, i < 0 -> X i j = fzero) ->
  sinc_streaming ch X (eq r) st 0 log out st1 o1 -> 0 <= k < total_gen log -> 0 <= c < ch ->
  exists u t y, near_place r k u (B2R t) /\ is_finite t = true /\ sample ch out k c = Some y /\ is_finite y = true /\
    (Rabs (B2R y - ideal_sinc inc coeffs (fun i => B2R (X i c)) (u, t) r) <= 6 / 10000000 * Rabs (B2R A) + / IZR (2 ^ 149))%R.
Proof.
  intros T S G W U Z0 Run Hk Hc. destruct (flat_gain _ T) as [Ht Hg]. clear T. rewrite <- big in U.
  destruct (sinc_convolution inc coeffs ch X r st log out st1 o1 Ht S Z0 G Run) as [_ F].
  destruct (place r k G ltac:(lia)) as [Fp N]. exists (fst (pos_at (0, dzero) (fun _ => r) (Z.to_nat k))), (snd (pos_at (0, dzero) (fun _ => r) (Z.to_nat k))).
  eexists. split; [exact N|]. split; [apply Fp|]. split; [apply F; assumption|]. rewrite <- small, <- surjective_pairing.
  apply (value_ideal inc coeffs Hg (fun i => X i c)); auto; try apply sized_val. intros i. now apply W.
Qed.
