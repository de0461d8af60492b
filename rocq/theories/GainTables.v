(** The tables of the source satisfy the hypotheses of GainStream.v. *)
From Coq Require Import ZArith Reals List Bool Lia Lra Psatz.
From Flocq Require Import Core IEEE754.BinarySingleNaN.
From Verif Require Import Base FloatFacts PosFacts Types Api ApiHist HoldSpec HoldFacts HoldRamp HoldCore HoldValue LifeSpec SincSpec SincFacts SincApi SincStream
  SincTables GainGrid GainCheck GainUnits GainBound GainQuad GainMain GainStream GainFastInts GainMidInts GainFast GainMid1 GainMid2 GainMid3 GainMid4.
Import ListNotations.
Local Open Scope Z_scope.

Lemma goal_pos inc : 0 < inc -> 0 < goal_of inc.
Proof. unfold goal_of, UNIT_BITS. lia. Qed.

Section Generic.
  Variables (inc : Z) (coeffs : list f32) (d bd : nat).
  Let l := map units coeffs.
  Let L := zlen coeffs.
  Hypothesis Hinc : 0 < inc.
  Hypothesis Hd : L < 2 ^ Z.of_nat d.
  Hypothesis Hbd : L + 1 < 2 ^ Z.of_nat bd.

  Lemma gen_len : Z.of_nat (length l) = L.
  Proof. unfold l, L, zlen. now rewrite map_length. Qed.
  Lemma gen_d : (length l < 2 ^ d)%nat.
  Proof. apply Nat2Z.inj_lt. rewrite gen_len, Nat2Z.inj_pow. exact Hd. Qed.
  Lemma gen_bd : (S (length l) < 2 ^ bd)%nat.
  Proof. apply Nat2Z.inj_lt. rewrite Nat2Z.inj_succ, gen_len, Nat2Z.inj_pow. change (Z.of_nat 2) with 2. lia. Qed.

  Lemma lines_level fuel tau tol gtol hs lo hi delta : 0 < tau -> 0 < hs -> 0 < lo < hi ->
    lines (plant d (pairs l)) (plant bd (bend_env l)) fuel L tau (goal_of inc) tol gtol hs hi lo = true ->
    (IZR tol + (IZR (goal_of inc) + IZR tol) / 16384 + IZR gtol <= delta * IZR (goal_of inc))%R ->
    forall I, lo <= I <= hi -> level inc coeffs I delta.
  Proof.
    intros Ht Hh Hl E B I HI. assert (G := goal_pos inc Hinc). rewrite <- gen_len in E.
    destruct (lines_ok d bd l gen_d gen_bd tau (goal_of inc) tol gtol hs hi Ht ltac:(lia) Hh fuel lo ltac:(lia) E) as [_ C].
    exists (steps (Z.of_nat (length l)) tau lo). intros n t Hn Hx. eapply Rle_trans; [|exact B]. apply C; lia.
  Qed.
  (** Small steps: no grid. *)
  Lemma quad_level hi gtol delta : 32768 * Z.abs (whole_of l - goal_of inc) + quad_gap l hi <= 32768 * gtol ->
    (IZR gtol <= delta * IZR (goal_of inc))%R -> forall I, 0 < I <= hi -> level inc coeffs I delta.
  Proof.
    clear Hinc Hd Hbd. intros E B I HI. exists (steps L 0 I). intros n t Hn Hx. eapply Rle_trans; [|exact B].
    rewrite <- mult_IZR, <- minus_IZR, <- abs_IZR. apply IZR_le.
    assert (En := steps_enough L 0 I ltac:(unfold L, zlen; lia) ltac:(lia) ltac:(lia)).
    assert (S := small_step l I t n ltac:(lia) ltac:(lia)). rewrite gen_len in S. specialize (S ltac:(nia)).
    assert (M := quad_gap_mono l I hi HI). change (map units coeffs) with l. lia.
  Qed.
  Lemma line_level fuel tol delta :
    line (plant d (pairs l)) fuel (steps L 4096 (4096 * inc)) (4096 * inc) 4096 (goal_of inc) tol (4096 * inc) 0 = true ->
    (IZR tol <= delta * IZR (goal_of inc))%R -> level inc coeffs (4096 * inc) delta.
  Proof.
    intros E B. rewrite <- gen_len in E. exists (steps (Z.of_nat (length l)) 4096 (4096 * inc)). intros n t Hn Hx. eapply Rle_trans; [|exact B].
    apply (unity d bd l gen_d gen_bd (goal_of inc) tol inc Hinc); auto.
    intros m Hm Hm2. assert (K := line_ok d bd l gen_d gen_bd _ _ 4096 _ _ _ eq_refl _ _ E m Hm). rewrite !Z.add_0_l in K. exact (K Hm2).
  Qed.
End Generic.

Lemma quot_le a b : 0 < b -> (IZR (a / b) <= IZR a / IZR b)%R.
Proof.
  intros Hb. assert (P : (0 < IZR b)%R) by (now apply IZR_lt). apply (Rmult_le_reg_r (IZR b)); [exact P|]. unfold Rdiv. rewrite Rmult_assoc, Rinv_l, Rmult_1_r by lra.
  rewrite <- mult_IZR. apply IZR_le. rewrite Z.mul_comm. now apply Z.mul_div_le.
Qed.
Lemma tolerances inc a b c u : 0 < inc -> 0 < a -> 0 < c -> (/ IZR a + (1 + / IZR a) / 16384 + IZR b / IZR c <= u)%R ->
  (IZR (goal_of inc / a) + (IZR (goal_of inc) + IZR (goal_of inc / a)) / 16384 + IZR (goal_of inc * b / c) <= u * IZR (goal_of inc))%R.
Proof.
  intros Hi Ha Hc Hu. assert (G := goal_pos inc Hi). set (g := goal_of inc) in *. clearbody g.
  assert (Q1 := quot_le g a Ha). assert (Q2 := quot_le (g * b) c Hc). rewrite mult_IZR in Q2. assert (Pg : (0 < IZR g)%R) by (now apply IZR_lt).
  apply Rle_trans with ((/ IZR a + (1 + / IZR a) / 16384 + IZR b / IZR c) * IZR g)%R; [unfold Rdiv in *; lra|]. apply Rmult_le_compat_r; lra.
Qed.

(** ** What a table must satisfy. *)
Definition flat (t : Z * list f32) : Prop :=
  let '(inc, coeffs) := t in
  128 <= inc /\ table_fit t /\ table_gain t /\ env (map units coeffs) (zlen coeffs - 2) <= 134 /\
  exists delta, (0 <= delta /\ delta + (/ 2 + / 30000000) / IZR (16 * inc) <= 499 / 100000)%R /\
    (forall I, 16 * inc <= I <= 4096 * inc -> level inc coeffs I delta) /\ level inc coeffs (4096 * inc) (2 / 1000000).

Lemma flat_value inc coeffs x pos r (A : f32) : flat (inc, coeffs) -> good_ratio r -> frac (snd pos) -> fin A -> (Rabs (val A) <= bpow radix2 127)%R ->
  (forall i, (IZR (Z.abs (i - fst pos)) <= IZR (zlen coeffs) / (IZR inc * Rmin 1 (val r)) + 4)%R -> x i = A) ->
  let y := sinc_value inc coeffs x pos r in
  fin y /\ (Rabs (val y - val A) <= / 200 * Rabs (val A) + bpow radix2 (-149))%R /\
  ((1 <= val r)%R -> (Rabs (val y - val A) <= 3 / 1000000 * Rabs (val A) + bpow radix2 (-149))%R).
Proof.
  intros (Hi & Hf & Hg & He & delta & [D0 D1] & Hall & Hone) G Ft FA UA Hx y.
  destruct (value_near inc coeffs Hg He delta (2 / 1000000) D0 ltac:(lra) Hall Hone x pos r A Hf G Ft FA UA Hx) as [V1 V2].
  destruct (V1 D1 ltac:(lia)) as [F B]. split; [exact F|]. split; [exact B|]. intros Hr. exact (proj2 (V2 ltac:(lra) ltac:(lia) Hr)).
Qed.

Lemma flat_stream inc coeffs ch X r (A : f32) st log out st' o' k c : flat (inc, coeffs) -> sinc_start (inc, coeffs) ch st ->
  (forall i j, i < 0 -> X i j = fzero) -> in_range r -> sinc_streaming ch X (eq r) st 0 log out st' o' ->
  0 <= k < total_gen log -> 0 <= c < ch -> fin A -> (Rabs (val A) <= bpow radix2 127)%R ->
  let p := fst (pos_at (0, dzero) (fun _ => r) (Z.to_nat k)) in
  (forall i, (IZR (Z.abs (i - p)) <= IZR (zlen coeffs) / (IZR inc * Rmin 1 (val r)) + 4)%R -> X i c = A) ->
  exists y, sample ch out k c = Some y /\ fin y /\ (Rabs (val y - val A) <= / 200 * Rabs (val A) + bpow radix2 (-149))%R /\
  ((1 <= val r)%R -> (Rabs (val y - val A) <= 3 / 1000000 * Rabs (val A) + bpow radix2 (-149))%R).
Proof.
  intros Hfl S Hx G Run Hk Hc FA UA p Hp. destruct (sinc_convolution inc coeffs ch X r st log out st' o') as [_ F]; auto; [apply Hfl|].
  eexists. split; [apply F; assumption|]. apply (flat_value inc coeffs (fun i => X i c)); auto.
  apply pos_at_frac; [repeat split; cbn; try reflexivity; lra|auto].
Qed.

(** ** The tables of the source *)
Definition quad_check (inc : Z) (l : list Z) (hi gtol : Z) : bool := 32768 * Z.abs (whole_of l - goal_of inc) + quad_gap l hi <=? 32768 * gtol.
Definition end_low (n : nat) (l : list Z) : bool := nth n (envelope (map Z.abs l)) 0 <=? 134.
Lemma fast_gain_check : gain_check 128 fast_ints = true. Proof. vm_cast_no_check (eq_refl true). Qed.
Lemma mid_gain_check : gain_check 491 mid_ints = true. Proof. vm_cast_no_check (eq_refl true). Qed.
Lemma fast_end_low : end_low (Z.to_nat 2462) fast_ints = true. Proof. vm_cast_no_check (eq_refl true). Qed.
Lemma mid_end_low : end_low (Z.to_nat 22436) mid_ints = true. Proof. vm_cast_no_check (eq_refl true). Qed.
Lemma fast_quad : quad_check 128 fast_ints (239 * 128) (goal_of 128 * 46 / 10000) = true. Proof. vm_cast_no_check (eq_refl true). Qed.
Lemma mid_quad : quad_check 491 mid_ints (192 * 491) (goal_of 491 * 48 / 10000) = true. Proof. vm_cast_no_check (eq_refl true). Qed.

(** Adjacent ranges of steps, each with its own grid: (from, to, offsets apart, steps apart). *)
Fixpoint chain (t : tree (Z * Z)) (bt : tree Z) (inc len tol g a : Z) (bs : list (Z * Z * Z * Z)) : Prop :=
  match bs with
  | [] => a = 4096
  | (i, j, tau, hs) :: r => (i = a /\ 0 < i < j /\ 0 < tau /\ 0 < hs) /\
      lines t bt (Z.to_nat 2000) len tau (goal_of inc) (goal_of inc / tol) (goal_of inc * g / 10000) hs (j * inc) (i * inc) = true /\
      chain t bt inc len tol g j r
  end.
Lemma chain_level inc coeffs d tol g delta : let l := map units coeffs in 0 < inc -> zlen coeffs + 1 < 2 ^ Z.of_nat d -> 0 < tol ->
  (/ IZR tol + (1 + / IZR tol) / 16384 + IZR g / 10000 <= delta)%R ->
  forall bs a, bs <> [] -> chain (plant d (pairs l)) (plant d (bend_env l)) inc (zlen coeffs) tol g a bs -> forall I, a * inc <= I <= 4096 * inc -> level inc coeffs I delta.
Proof.
  intros l Hi Hd Ht Hdel. induction bs as [|[[[i j] tau] hs] r IH]; intros a N C I HI; [now destruct N|].
  destruct C as ((-> & Hij & Htau & Hhs) & E & C). destruct (Z_le_gt_dec I (j * inc)) as [Q|Q].
  - refine (lines_level inc coeffs d d Hi ltac:(lia) Hd _ tau _ _ hs (a * inc) (j * inc) delta Htau Hhs _ E _ I _); [nia| |lia].
    apply tolerances; lia || exact Hdel.
  - destruct r as [|b r]; [cbn [chain] in C; subst j; lia|]. apply (IH j ltac:(discriminate) C). lia.
Qed.

Lemma flat_of inc coeffs ints d g tol delta a bs utol :
  128 <= inc -> zlen coeffs + 1 < 2 ^ Z.of_nat d -> table_fit (inc, coeffs) -> zlen coeffs <= 64 * inc -> same_units coeffs ints = true ->
  gain_check inc ints = true -> end_low (Z.to_nat (zlen coeffs - 2)) ints = true ->
  0 < tol -> 500000 <= utol -> bs <> [] -> (0 <= delta /\ delta + (/ 2 + / 30000000) / IZR (16 * inc) <= 499 / 100000)%R ->
  (/ IZR tol + (1 + / IZR tol) / 16384 + IZR g / 10000 <= delta)%R ->
  quad_check inc ints (a * inc) (goal_of inc * g / 10000) = true ->
  chain (plant d (pairs ints)) (plant d (bend_env ints)) inc (zlen coeffs) tol g a bs ->
  line (plant d (pairs ints)) (Z.to_nat 4000) (steps (zlen coeffs) 4096 (4096 * inc)) (4096 * inc) 4096 (goal_of inc) (goal_of inc / utol) (4096 * inc) 0 = true ->
  flat (inc, coeffs).
Proof.
  intros Hi Hd Hf Hl Hs Hg He Ht Hu Hb Hdel Htol Hq Hc Hone. destruct (same_units_ok coeffs ints Hs) as [El Ff]. subst ints.
  split; [exact Hi|]. split; [exact Hf|]. split; [apply gain_check_ok; [apply Hf|exact Hl|exact Ff|exact Hg]|]. split; [apply Z.leb_le, He|].
  assert (G := goal_pos inc ltac:(lia)). assert (PG : (0 < IZR (goal_of inc))%R) by (now apply IZR_lt).
  exists delta. split; [exact Hdel|]. split.
  - intros I HI. destruct (Z_le_gt_dec I (a * inc)) as [Q|Q].
    + apply (quad_level inc coeffs (a * inc) (goal_of inc * g / 10000)); [apply Z.leb_le, Hq| |lia].
      assert (K := quot_le (goal_of inc * g) 10000 ltac:(lia)). rewrite mult_IZR in K. eapply Rle_trans; [exact K|].
      assert (Pt : (0 < / IZR tol)%R) by (apply Rinv_0_lt_compat; now apply IZR_lt).
      apply Rle_trans with (IZR g / 10000 * IZR (goal_of inc))%R; [unfold Rdiv; lra|]. apply Rmult_le_compat_r; [lra|]. lra.
    + refine (chain_level inc coeffs d tol g delta _ Hd Ht Htol bs a Hb Hc I _); lia.
  - apply (line_level inc coeffs d d ltac:(lia) ltac:(lia) Hd _ _ _ Hone). assert (K := quot_le (goal_of inc) utol ltac:(lia)). eapply Rle_trans; [exact K|].
    unfold Rdiv at 1. rewrite Rmult_comm. apply Rmult_le_compat_r; [lra|].
    apply Rle_trans with (/ 500000)%R; [|lra]. apply Rinv_le; [lra|]. apply IZR_le. exact Hu.
Qed.
Lemma flat_pair (t : Z * list f32) inc n ints d g tol delta a bs utol : fst t = inc -> zlen (snd t) = n ->
  128 <= inc -> n + 1 < 2 ^ Z.of_nat d -> table_fit t -> n <= 64 * inc -> same_units (snd t) ints = true ->
  gain_check inc ints = true -> end_low (Z.to_nat (n - 2)) ints = true ->
  0 < tol -> 500000 <= utol -> bs <> [] -> (0 <= delta /\ delta + (/ 2 + / 30000000) / IZR (16 * inc) <= 499 / 100000)%R ->
  (/ IZR tol + (1 + / IZR tol) / 16384 + IZR g / 10000 <= delta)%R ->
  quad_check inc ints (a * inc) (goal_of inc * g / 10000) = true ->
  chain (plant d (pairs ints)) (plant d (bend_env ints)) inc n tol g a bs ->
  line (plant d (pairs ints)) (Z.to_nat 4000) (steps n 4096 (4096 * inc)) (4096 * inc) 4096 (goal_of inc) (goal_of inc / utol) (4096 * inc) 0 = true ->
  flat t.
Proof. destruct t as [i coeffs]. cbn [fst snd]. intros -> <-. apply flat_of. Qed.

Definition fast_blocks : list (Z * Z * Z * Z) := [(239, 486, 20480, 88); (486, 989, 16384, 80); (989, 2013, 16384, 88); (2013, 4096, 16384, 96)].
Definition mid_blocks : list (Z * Z * Z * Z) := [(192, 412, 53248, 184); (412, 886, 65536, 216); (886, 1905, 57344, 200); (1905, 4096, 57344, 216)].
Strategy expand [fast_tree fast_bends mid_tree mid_bends].
Lemma fast_chain : chain fast_tree fast_bends 128 2464 40000 46 239 fast_blocks.
Proof.
  split; [lia|]. split; [exact fast_lines_1|].
  split; [lia|]. split; [exact fast_lines_2|].
  split; [lia|]. split; [exact fast_lines_3|].
  split; [lia|]. split; [exact fast_lines_4|]. reflexivity.
Qed.
Lemma mid_chain : chain mid_tree mid_bends 491 22438 250000 48 192 mid_blocks.
Proof.
  split; [lia|]. split; [exact mid_lines_1|].
  split; [lia|]. split; [exact mid_lines_2|].
  split; [lia|]. split; [exact mid_lines_3|].
  split; [lia|]. split; [exact mid_lines_4|]. reflexivity.
Qed.

Lemma fast_flat : flat fastest_table.
Proof.
  refine (flat_pair fastest_table 128 2464 fast_ints 12 46 40000 (469 / 100000) 239 fast_blocks 500000 eq_refl fastest_length _ _ fastest_fit _ fast_same
    fast_gain_check fast_end_low _ _ _ _ _ fast_quad fast_chain fast_line); try (cbn; lia); try discriminate.
  - change (16 * 128) with 2048. lra.
  - lra.
Qed.
Lemma mid_flat : flat mid_qual_table.
Proof.
  refine (flat_pair mid_qual_table 491 22438 mid_ints 15 48 250000 (488 / 100000) 192 mid_blocks 5000000 eq_refl mid_qual_length _ _ mid_qual_fit _ mid_same
    mid_gain_check mid_end_low _ _ _ _ _ mid_quad mid_chain mid_line); try (cbn; lia); try discriminate.
  - change (16 * 491) with 7856. lra.
  - lra.
Qed.
