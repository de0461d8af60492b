(** Small steps: the sum over a progression, times the step, against the sum over all points (the trapezium rule).
    Complements the grid of GainCheck.v, which is only needed for larger steps. *)
From Coq Require Import ZArith List Bool Lia Psatz.
From Verif Require Import GainGrid GainCheck GainBound.
Import ListNotations.
Local Open Scope Z_scope.

Lemma zsum_split g n : forall m, zsum g (n + m) = zsum g n + zsum (fun i => g (Z.of_nat n + i)) m.
Proof.
  induction m as [|m IH]; [rewrite Nat.add_0_r; cbn [zsum]; ring|]. rewrite Nat.add_succ_r. cbn [zsum]. rewrite IH, Nat2Z.inj_add. ring.
Qed.
Lemma zsum_id n : 2 * zsum (fun i => i) n = Z.of_nat n * (Z.of_nat n - 1).
Proof. induction n as [|n IH]; [reflexivity|]. cbn [zsum]. rewrite Nat2Z.inj_succ. lia. Qed.

Section Quad.
  Variables (a : Z -> Z) (len : Z).
  Hypothesis Hlen : 0 <= len.
  Hypothesis Heven : forall k, a (- k) = a k.
  Hypothesis Hzero : forall k, len <= k -> a k = 0.
  Variable D : Z -> Z.
  Hypothesis HD : forall j k, 0 <= j <= Z.abs k -> Z.abs (bend a k) <= D j.
  Notation F := (interp a).

  (** The sum over m consecutive points. *)
  Definition up (s : Z) (m : nat) : Z := zsum (fun z => F (s + z)) m.
  Lemma up_split s n m : up s (n + m) = up s n + up (s + Z.of_nat n) m.
  Proof. unfold up. rewrite zsum_split. f_equal. apply zsum_ext. intros i _. f_equal. ring. Qed.
  Lemma up_mirror m : up (- Z.of_nat m) m = up 1 m.
  Proof.
    induction m as [|m IH]; [reflexivity|]. unfold up in *. rewrite zsum_first. cbn [zsum]. rewrite <- IH, (Z.add_comm (zsum _ m)). f_equal.
    - rewrite <- (even_at a Heven). f_equal. lia.
    - apply zsum_ext. intros i _. f_equal. lia.
  Qed.
  Lemma up_far s n m : (n <= m)%nat -> 0 <= s -> 4096 * len <= s + Z.of_nat n -> up s m = up s n.
  Proof. intros L P E. apply zsum_more; [exact L|]. intros i Hi. apply (zero_at a len Heven Hzero). rewrite Z.abs_eq; lia. Qed.

  (** One step. *)
  Lemma cell_sum x0 inc M : 0 < inc -> 0 <= M -> (forall k, x0 < 4096 * k < x0 + inc -> Z.abs (bend a k) <= M) ->
    32768 * Z.abs (2 * up x0 (Z.to_nat inc) - (inc + 1) * F x0 - (inc - 1) * F (x0 + inc)) <= 2 * (M * (inc * (inc * inc + 16777216))).
  Proof.
    intros Hi HM HB. set (B := M * (inc * (inc * inc + 16777216))).
    assert (C : forall z, 0 <= z < inc -> 32768 * Z.abs ((inc - z) * F x0 + z * F (x0 + inc) - inc * F (x0 + z)) <= B).
    { intros z Hz. assert (C := chord a x0 (x0 + z) (x0 + inc) M ltac:(lia) HB HM). replace (x0 + inc - (x0 + z)) with (inc - z) in C by ring.
      replace (x0 + z - x0) with z in C by ring. replace (x0 + inc - x0) with inc in C by ring. exact C. }
    assert (S : forall n, Z.of_nat n <= inc -> 32768 * Z.abs ((Z.of_nat n * inc - zsum (fun i => i) n) * F x0 + zsum (fun i => i) n * F (x0 + inc) - inc * up x0 n) <= Z.of_nat n * B).
    { induction n as [|n IH]; intros Hn; [unfold up; cbn [zsum]; change (Z.of_nat 0) with 0; replace ((0 * inc - 0) * F x0 + 0 * F (x0 + inc) - inc * 0) with 0 by ring; reflexivity|]. specialize (IH ltac:(lia)). specialize (C (Z.of_nat n) ltac:(lia)). unfold up in *. cbn [zsum].
      set (u := zsum (fun i => i) n) in *. set (v := zsum (fun z => F (x0 + z)) n) in *. set (w := Z.of_nat n) in *.
      replace (Z.of_nat (S n)) with (w + 1) by (unfold w; lia).
      replace (((w + 1) * inc - (u + w)) * F x0 + (u + w) * F (x0 + inc) - inc * (v + F (x0 + w))) with
        (((w * inc - u) * F x0 + u * F (x0 + inc) - inc * v) + ((inc - w) * F x0 + w * F (x0 + inc) - inc * F (x0 + w))) by ring.
      replace ((w + 1) * B) with (w * B + B) by ring. lia. }
    specialize (S (Z.to_nat inc) ltac:(lia)). assert (I2 := zsum_id (Z.to_nat inc)). rewrite Z2Nat.id in S, I2 by lia.
    set (u := zsum (fun i => i) (Z.to_nat inc)) in *. set (v := up x0 (Z.to_nat inc)) in *. set (f0 := F x0) in *. set (f1 := F (x0 + inc)) in *.
    assert (E : inc * (2 * v - (inc + 1) * f0 - (inc - 1) * f1) = - (2 * ((inc * inc - u) * f0 + u * f1 - inc * v))).
    { replace (2 * ((inc * inc - u) * f0 + u * f1 - inc * v)) with ((2 * inc * inc - 2 * u) * f0 + 2 * u * f1 - 2 * inc * v) by ring. rewrite I2. ring. }
    apply (Z.mul_le_mono_pos_l _ _ inc Hi). replace (inc * (32768 * Z.abs (2 * v - (inc + 1) * f0 - (inc - 1) * f1))) with (32768 * Z.abs (inc * (2 * v - (inc + 1) * f0 - (inc - 1) * f1)))
      by (rewrite Z.abs_mul, (Z.abs_eq inc) by lia; ring).
    rewrite E, Z.abs_opp, Z.abs_mul. change (Z.abs 2) with 2. lia.
  Qed.

  (** Everything above a point. *)
  Lemma half_sum s inc : 0 < inc -> 0 <= s -> forall n,
    32768 * Z.abs (2 * up s (n * Z.to_nat inc) - 2 * inc * zsum (fun i => F (s + i * inc)) n + (inc - 1) * (F s - F (s + Z.of_nat n * inc))) <=
    2 * (inc * (inc * inc + 16777216)) * zsum (fun i => D ((s + i * inc) / 4096)) n.
  Proof.
    intros Hi Hs. induction n as [|n IH].
    - change (Z.of_nat 0) with 0. replace (s + 0 * inc) with s by ring. cbn [Nat.mul zsum]. unfold up. cbn [zsum].
      replace (2 * 0 - 2 * inc * 0 + (inc - 1) * (F s - F s)) with 0 by ring. cbn. lia.
    - replace (S n * Z.to_nat inc)%nat with (n * Z.to_nat inc + Z.to_nat inc)%nat by lia. rewrite up_split. cbn [zsum].
      replace (s + Z.of_nat (n * Z.to_nat inc)) with (s + Z.of_nat n * inc) by nia. set (x := s + Z.of_nat n * inc) in *.
      assert (Px : 0 <= x) by (unfold x; nia). replace (s + Z.of_nat (S n) * inc) with (x + inc) by (unfold x; lia).
      assert (PD : 0 <= D (x / 4096)) by (apply (D_pos a D HD), Z.div_pos; lia).
      assert (C := cell_sum x inc (D (x / 4096)) Hi PD).
      assert (C' : 32768 * Z.abs (2 * up x (Z.to_nat inc) - (inc + 1) * F x - (inc - 1) * F (x + inc)) <= 2 * (D (x / 4096) * (inc * (inc * inc + 16777216)))).
      { apply C. intros k Hk. apply HD. split; [apply Z.div_pos; lia|]. apply Z.div_le_upper_bound; lia. }
      clear C. set (p := 2 * up s (n * Z.to_nat inc) - 2 * inc * zsum (fun i => F (s + i * inc)) n + (inc - 1) * (F s - F x)) in *.
      set (q := 2 * up x (Z.to_nat inc) - (inc + 1) * F x - (inc - 1) * F (x + inc)) in *.
      replace (2 * (up s (n * Z.to_nat inc) + up x (Z.to_nat inc)) - 2 * inc * (zsum (fun i => F (s + i * inc)) n + F x) + (inc - 1) * (F s - F (x + inc))) with (p + q)
        by (unfold p, q; ring).
      rewrite Z.mul_add_distr_l. lia.
  Qed.

  Definition whole : Z := 2 * up 0 (Z.to_nat (4096 * len)) - F 0.

  Lemma pieces inc t n : 0 < inc -> 0 <= t <= inc -> 4096 * len <= Z.of_nat n * inc ->
    up t (n * Z.to_nat inc) + up (t - inc) (Z.to_nat inc) + up (inc - t) (n * Z.to_nat inc) - F (inc - t) = whole.
  Proof.
    intros Hi Ht Hn. set (N := (n * Z.to_nat inc)%nat). assert (HN : 4096 * len <= Z.of_nat N) by (unfold N; nia).
    set (L := Z.to_nat (4096 * len)). set (p := Z.to_nat t). set (q := Z.to_nat (inc - t)).
    assert (Mid : up (t - inc) (Z.to_nat inc) = up 1 q + up 0 p).
    { replace (Z.to_nat inc) with (q + p)%nat by (unfold p, q; lia). rewrite up_split. replace (t - inc + Z.of_nat q) with 0 by (unfold q; lia). f_equal.
      replace (t - inc) with (- Z.of_nat q) by (unfold q; lia). apply up_mirror. }
    assert (A : up 0 p + up t N = up 0 L).
    { replace t with (0 + Z.of_nat p) by (unfold p; lia). rewrite <- up_split. apply up_far; unfold L; lia. }
    assert (B : up 1 q + up (inc - t) N - F (inc - t) = up 0 L - F 0).
    { assert (E : up 0 (q + N) = up 0 q + up (inc - t) N) by (rewrite up_split; do 2 f_equal; unfold q; lia).
      assert (E1 : up 0 (S q) = F 0 + up 1 q) by (unfold up; rewrite zsum_first; f_equal; apply zsum_ext; intros i _; f_equal; ring).
      assert (E2 : up 0 (S q) = up 0 q + F (inc - t)) by (unfold up; cbn [zsum]; do 2 f_equal; unfold q; lia).
      assert (E3 : up 0 (q + N) = up 0 L) by (apply up_far; unfold L; lia). lia. }
    unfold whole. fold L. rewrite Mid. lia.
  Qed.

  Lemma quadrature inc t n : 0 < inc -> 0 <= t <= inc -> 4096 * len <= Z.of_nat n * inc ->
    32768 * Z.abs (total a n inc t * inc - whole) <=
    inc * (inc * inc + 16777216) * (zsum (fun i => D ((t + i * inc) / 4096)) n + zsum (fun i => D ((inc - t + i * inc) / 4096)) n + D 0).
  Proof.
    intros Hi Ht Hn. assert (P := pieces inc t n Hi Ht Hn).
    assert (H1 := half_sum t inc Hi ltac:(lia) n). assert (H2 := half_sum (inc - t) inc Hi ltac:(lia) n).
    assert (H3 := cell_sum (t - inc) inc (D 0) Hi (D_pos a D HD 0 ltac:(lia))).
    assert (H3' : 32768 * Z.abs (2 * up (t - inc) (Z.to_nat inc) - (inc + 1) * F (t - inc) - (inc - 1) * F (t - inc + inc)) <= 2 * (D 0 * (inc * (inc * inc + 16777216)))).
    { apply H3. intros k _. apply HD. lia. }
    clear H3. rewrite (zero_at a len Heven Hzero (t + Z.of_nat n * inc)) in H1 by (rewrite Z.abs_eq; lia).
    rewrite (zero_at a len Heven Hzero (inc - t + Z.of_nat n * inc)) in H2 by (rewrite Z.abs_eq; lia).
    replace (t - inc + inc) with t in H3' by ring. replace (F (t - inc)) with (F (inc - t)) in H3' by (rewrite <- (even_at a Heven); f_equal; ring).
    assert (Et : total a n inc t = zsum (fun i => F (t + i * inc)) n + zsum (fun i => F (inc - t + i * inc)) n).
    { unfold total. f_equal. apply zsum_ext. intros i _. rewrite <- (even_at a Heven). f_equal. ring. }
    rewrite Et. set (U := zsum (fun i => F (t + i * inc)) n) in *. set (V := zsum (fun i => F (inc - t + i * inc)) n) in *.
    set (x := up t (n * Z.to_nat inc)) in *. set (y := up (inc - t) (n * Z.to_nat inc)) in *. set (m := up (t - inc) (Z.to_nat inc)) in *.
    set (f := F t) in *. set (g := F (inc - t)) in *. set (Q := inc * (inc * inc + 16777216)) in *.
    set (d1 := zsum (fun i => D ((t + i * inc) / 4096)) n) in *. set (d2 := zsum (fun i => D ((inc - t + i * inc) / 4096)) n) in *.
    assert (E : 2 * ((U + V) * inc - whole) = - ((2 * x - 2 * inc * U + (inc - 1) * (f - 0)) + (2 * y - 2 * inc * V + (inc - 1) * (g - 0)) + (2 * m - (inc + 1) * g - (inc - 1) * f))).
    { rewrite <- P. ring. }
    assert (K : 2 * (32768 * Z.abs ((U + V) * inc - whole)) <= 2 * (Q * (d1 + d2 + D 0))); [|lia].
    replace (2 * (32768 * Z.abs ((U + V) * inc - whole))) with (32768 * Z.abs (2 * ((U + V) * inc - whole))) by (rewrite Z.abs_mul; change (Z.abs 2) with 2; ring).
    rewrite E, Z.abs_opp. lia.
  Qed.

  (** The sum over all points, from the table. *)
  Lemma block_sum k : 2 * up (4096 * k) 4096 = 4096 * (4097 * a k + 4095 * a (k + 1)).
  Proof.
    assert (G : forall n, Z.of_nat n <= 4096 -> 2 * up (4096 * k) n = 2 * (4096 * Z.of_nat n) * a k + Z.of_nat n * (Z.of_nat n - 1) * (a (k + 1) - a k)).
    { induction n as [|n IH]; intros L; [reflexivity|]. specialize (IH ltac:(lia)). unfold up in *. cbn [zsum]. rewrite Z.mul_add_distr_l, IH.
      rewrite interp_at by lia. rewrite Nat2Z.inj_succ. ring. }
    specialize (G 4096%nat ltac:(lia)). rewrite G. change (Z.of_nat 4096) with 4096. ring.
  Qed.
  Lemma blocks_sum n : 2 * up 0 (n * 4096) = 4096 * (8192 * zsum a n - 4095 * (a 0 - a (Z.of_nat n))).
  Proof.
    induction n as [|n IH]; [cbn [Nat.mul zsum]; unfold up; cbn [zsum]; change (Z.of_nat 0) with 0; ring|].
    replace (S n * 4096)%nat with (n * 4096 + 4096)%nat by lia. rewrite up_split, Z.mul_add_distr_l, IH.
    replace (0 + Z.of_nat (n * 4096)) with (4096 * Z.of_nat n) by lia. rewrite block_sum. cbn [zsum]. rewrite Nat2Z.inj_succ. unfold Z.succ. ring.
  Qed.
  Lemma whole_sum : whole = 16777216 * (2 * zsum a (Z.to_nat len) - a 0).
  Proof.
    unfold whole. replace (Z.to_nat (4096 * len)) with (Z.to_nat len * 4096)%nat by lia. assert (B := blocks_sum (Z.to_nat len)).
    rewrite Z2Nat.id in B by exact Hlen. rewrite (Hzero len) in B by lia. assert (E := interp_at a 0 0 ltac:(lia)). change (4096 * 0 + 0) with 0 in E. rewrite E. lia.
  Qed.
End Quad.

(** With the envelope of the bends of a table. *)
Lemma env_at_dec l j k : 0 <= j <= k -> 0 <= env_at l k <= env_at l j.
Proof. intros H. apply envelope_dec. lia. Qed.
Lemma env_at_end l k : Z.of_nat (S (length l)) <= k -> env_at l k = 0.
Proof. intros H. unfold env_at, bend_env. apply nth_overflow. rewrite envelope_length, bends_length. lia. Qed.
Lemma env_at_sum l : zsum (env_at l) (S (length l)) = fold_right Z.add 0 (bend_env l).
Proof. rewrite <- zsum_nth. unfold bend_env at 2. rewrite envelope_length, bends_length. reflexivity. Qed.
Lemma entry_sum l : zsum (entry l) (length l) = fold_right Z.add 0 l.
Proof. rewrite <- zsum_nth. apply zsum_ext. intros i H. unfold entry. now rewrite Z.abs_eq by lia. Qed.

Definition whole_of (l : list Z) : Z := 16777216 * (2 * fold_right Z.add 0 l - hd 0 l).
Definition quad_gap (l : list Z) (inc : Z) : Z := (inc * inc + 16777216) * (3 * inc * hd 0 (bend_env l) + 8192 * fold_right Z.add 0 (bend_env l)).
Theorem small_step l inc t n : 0 < inc -> 0 <= t <= inc -> 4096 * Z.of_nat (length l) <= Z.of_nat n * inc ->
  32768 * Z.abs (total (entry l) n inc t * inc - whole_of l) <= quad_gap l inc.
Proof.
  intros Hi Ht Hn. assert (Q := quadrature (entry l) (Z.of_nat (length l)) (entry_even l) (entry_zero l) (env_at l) (env_bends l) inc t n Hi Ht Hn).
  rewrite (whole_sum (entry l) (Z.of_nat (length l)) ltac:(lia) (entry_zero l)), Nat2Z.id, entry_sum in Q.
  change (entry l 0) with (nth 0 l 0) in Q. rewrite <- hd_nth in Q. eapply Z.le_trans; [exact Q|].
  assert (P1 := progression (env_at l) (S (length l)) (env_at_dec l) (env_at_end l) inc t n Hi ltac:(lia)).
  assert (P2 := progression (env_at l) (S (length l)) (env_at_dec l) (env_at_end l) inc (inc - t) n Hi ltac:(lia)).
  rewrite env_at_sum in P1, P2. change (env_at l 0) with (nth 0 (bend_env l) 0) in *. rewrite <- hd_nth in *.
  set (d1 := zsum (fun i => env_at l ((t + i * inc) / 4096)) n) in *. set (d2 := zsum (fun i => env_at l ((inc - t + i * inc) / 4096)) n) in *.
  unfold quad_gap. set (e0 := hd 0 (bend_env l)) in *. set (es := fold_right Z.add 0 (bend_env l)) in *.
  replace (inc * (inc * inc + 16777216) * (d1 + d2 + e0)) with ((inc * inc + 16777216) * (inc * d1 + inc * d2 + inc * e0)) by ring.
  apply Z.mul_le_mono_nonneg_l; [nia|]. lia.
Qed.
Lemma quad_gap_mono l i j : 0 < i <= j -> quad_gap l i <= quad_gap l j.
Proof.
  intros H. unfold quad_gap. assert (P0 : 0 <= hd 0 (bend_env l)) by (rewrite hd_nth; apply (env_at_dec l 0 0); lia).
  assert (Ps : 0 <= fold_right Z.add 0 (bend_env l)).
  { rewrite <- env_at_sum. generalize (S (length l)). induction n as [|n IH]; cbn [zsum]; [lia|]. assert (0 <= env_at l (Z.of_nat n)) by (apply (env_at_dec l 0); lia). lia. }
  apply Z.mul_le_mono_nonneg; nia.
Qed.
