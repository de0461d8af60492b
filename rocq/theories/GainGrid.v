(** Sums of a piecewise linear function over an arithmetic progression: what a finite grid of (step, offset) pairs says about
    all the pairs in between.  Pure integer arithmetic; used for the gain of the sinc filters. *)
From Coq Require Import ZArith List Bool Lia Psatz.
Import ListNotations.
Local Open Scope Z_scope.

(** ** Chords of discretely convex functions *)
Section Convex.
  Variables (G : Z -> Z) (x0 x1 : Z).
  Hypothesis Hc : forall y, x0 < y < x1 -> 0 <= G (y + 1) + G (y - 1) - 2 * G y.
  Lemma slope_mono y : forall n, x0 <= y -> y + Z.of_nat n < x1 -> G (y + 1) - G y <= G (y + Z.of_nat n + 1) - G (y + Z.of_nat n).
  Proof.
    induction n as [|n IH]; intros A B; [rewrite Z.add_0_r; lia|]. specialize (IH A ltac:(lia)).
    assert (C := Hc (y + Z.of_nat (S n)) ltac:(lia)). replace (y + Z.of_nat (S n) - 1) with (y + Z.of_nat n) in C by lia.
    replace (y + Z.of_nat n + 1) with (y + Z.of_nat (S n)) in IH by lia. lia.
  Qed.
  Lemma slope_le y z : x0 <= y <= z -> z < x1 -> G (y + 1) - G y <= G (z + 1) - G z.
  Proof. intros A B. assert (H := slope_mono y (Z.to_nat (z - y)) ltac:(lia) ltac:(lia)). rewrite Z2Nat.id in H by lia. now replace (y + (z - y)) with z in H by lia. Qed.
  Lemma rise_before x : x <= x1 -> forall n, Z.of_nat n <= x - x0 -> G x - G (x - Z.of_nat n) <= Z.of_nat n * (G x - G (x - 1)).
  Proof.
    intros Hx. induction n as [|n IH]; intros A; [rewrite Z.sub_0_r; lia|]. specialize (IH ltac:(lia)).
    assert (C := slope_le (x - Z.of_nat (S n)) (x - 1) ltac:(lia) ltac:(lia)).
    replace (x - Z.of_nat (S n) + 1) with (x - Z.of_nat n) in C by lia. replace (x - 1 + 1) with x in C by lia. nia.
  Qed.
  Lemma rise_after x : x0 <= x -> forall n, Z.of_nat n <= x1 - x -> Z.of_nat n * (G (x + 1) - G x) <= G (x + Z.of_nat n) - G x.
  Proof.
    intros Hx. induction n as [|n IH]; intros A; [rewrite Z.add_0_r; lia|]. specialize (IH ltac:(lia)).
    assert (C := slope_le x (x + Z.of_nat n) ltac:(lia) ltac:(lia)).
    replace (x + Z.of_nat n + 1) with (x + Z.of_nat (S n)) in C by lia. nia.
  Qed.
  Lemma convex_chord x : x0 <= x <= x1 -> (x1 - x0) * G x <= (x1 - x) * G x0 + (x - x0) * G x1.
  Proof.
    intros H. destruct (Z.eq_dec x x0) as [->|N0]; [lia|]. destruct (Z.eq_dec x x1) as [->|N1]; [lia|].
    assert (A := rise_before x ltac:(lia) (Z.to_nat (x - x0)) ltac:(lia)). assert (B := rise_after x ltac:(lia) (Z.to_nat (x1 - x)) ltac:(lia)).
    rewrite Z2Nat.id in * by lia. replace (x - (x - x0)) with x0 in A by lia. replace (x + (x1 - x)) with x1 in B by lia.
    assert (C := Hc x ltac:(lia)). replace (x1 - x0) with ((x1 - x) + (x - x0)) by ring.
    set (p := x - x0) in *. set (q := x1 - x) in *. assert (Pp : 0 < p) by (unfold p; lia). assert (Pq : 0 < q) by (unfold q; lia). clearbody p q.
    assert (A1 : q * (G x - G x0) <= q * (p * (G x - G (x - 1)))) by (apply Z.mul_le_mono_nonneg_l; lia).
    assert (B1 : p * (q * (G (x + 1) - G x)) <= p * (G x1 - G x)) by (apply Z.mul_le_mono_nonneg_l; lia).
    assert (C1 : q * p * (G x - G (x - 1)) <= q * p * (G (x + 1) - G x)) by (apply Z.mul_le_mono_nonneg_l; nia). nia.
  Qed.
End Convex.

(** ** Linear interpolation with 12 fractional bits (scaled by 4096) *)
Definition interp (a : Z -> Z) (f : Z) : Z := a (f / 4096) * (4096 - f mod 4096) + a (f / 4096 + 1) * (f mod 4096).
Definition bend (a : Z -> Z) (k : Z) : Z := a (k + 1) + a (k - 1) - 2 * a k.

Lemma split_at k r : 0 <= r < 4096 -> (4096 * k + r) / 4096 = k /\ (4096 * k + r) mod 4096 = r.
Proof. intros H. rewrite Z.add_comm, (Z.mul_comm 4096), Z.div_add, Z.mod_add, Z.div_small, Z.mod_small by lia. lia. Qed.
Lemma interp_at a k r : 0 <= r <= 4096 -> interp a (4096 * k + r) = a k * (4096 - r) + a (k + 1) * r.
Proof.
  intros H. unfold interp. destruct (Z.eq_dec r 4096) as [->|N].
  - replace (4096 * k + 4096) with (4096 * (k + 1) + 0) by ring. destruct (split_at (k + 1) 0 ltac:(lia)) as [-> ->]. ring.
  - destruct (split_at k r ltac:(lia)) as [-> ->]. ring.
Qed.
Lemma cut f : exists k r, f = 4096 * k + r /\ 0 <= r < 4096.
Proof. exists (f / 4096), (f mod 4096). split; [apply Z.div_mod; lia|apply Z.mod_pos_bound; lia]. Qed.

Lemma interp_bend a y : (exists k, y = 4096 * k /\ interp a (y + 1) + interp a (y - 1) - 2 * interp a y = bend a k) \/
  interp a (y + 1) + interp a (y - 1) - 2 * interp a y = 0.
Proof.
  destruct (cut y) as (k & r & -> & Hr). destruct (Z.eq_dec r 0) as [->|N].
  - left. exists k. split; [ring|]. replace (4096 * k + 0 - 1) with (4096 * (k - 1) + 4095) by ring. replace (4096 * k + 0 + 1) with (4096 * k + 1) by ring.
    rewrite !interp_at by lia. unfold bend. replace (k - 1 + 1) with k by ring. ring.
  - right. replace (4096 * k + r + 1) with (4096 * k + (r + 1)) by ring. replace (4096 * k + r - 1) with (4096 * k + (r - 1)) by ring.
    rewrite !interp_at by lia. ring.
Qed.
Lemma interp_lin a b u v f : interp (fun k => u * a k + v * b k) f = u * interp a f + v * interp b f.
Proof. unfold interp. ring. Qed.

Definition square (k : Z) : Z := k * k.
Lemma square_at f : f * f <= 4096 * interp square f <= f * f + 4194304.
Proof. destruct (cut f) as (k & r & -> & Hr). rewrite interp_at by lia. unfold square.
  replace (4096 * (k * k * (4096 - r) + (k + 1) * (k + 1) * r)) with ((4096 * k + r) * (4096 * k + r) + r * (4096 - r)) by ring.
  assert (0 <= (r - 2048) * (r - 2048)) by apply Z.square_nonneg. nia.
Qed.
Lemma square_bend k : bend square k = 2.
Proof. unfold bend, square. ring. Qed.

(** ** How far a chord of the interpolated function is from it, if it bends by at most M inside *)
Lemma chord a x0 x x1 M : x0 <= x <= x1 -> (forall k, x0 < 4096 * k < x1 -> Z.abs (bend a k) <= M) -> 0 <= M ->
  32768 * Z.abs ((x1 - x) * interp a x0 + (x - x0) * interp a x1 - (x1 - x0) * interp a x) <=
  M * ((x1 - x0) * ((x1 - x0) * (x1 - x0) + 16777216)).
Proof.
  intros Hx Hb HM.
  assert (C : forall s, s = 1 \/ s = -1 ->
    (x1 - x0) * interp (fun k => M * square k + (2 * s) * a k) x <=
    (x1 - x) * interp (fun k => M * square k + (2 * s) * a k) x0 + (x - x0) * interp (fun k => M * square k + (2 * s) * a k) x1).
  { intros s Hs. apply convex_chord; [|exact Hx]. intros y Hy.
    destruct (interp_bend (fun k => M * square k + (2 * s) * a k) y) as [(k & -> & ->)| ->]; [|lia].
    assert (B := Hb k Hy). assert (Sq := square_bend k). unfold bend in *. destruct Hs as [-> | ->]; lia. }
  assert (C1 := C 1 ltac:(auto)). assert (C2 := C (-1) ltac:(auto)). rewrite !interp_lin in C1, C2.
  assert (Q0 := square_at x0). assert (Q := square_at x). assert (Q1 := square_at x1).
  set (q0 := interp square x0) in *. set (q := interp square x) in *. set (q1 := interp square x1) in *.
  set (f0 := interp a x0) in *. set (f := interp a x) in *. set (f1 := interp a x1) in *.
  clearbody q0 q q1 f0 f f1. clear Hb C.
  assert (Gq : 4096 * ((x1 - x) * q0 + (x - x0) * q1 - (x1 - x0) * q) <= (x1 - x0) * ((x1 - x) * (x - x0) + 4194304)) by nia.
  assert (Gb : 4 * ((x1 - x) * (x - x0)) <= (x1 - x0) * (x1 - x0)).
  { set (u := x1 - x) in *. set (v := x - x0) in *. replace (x1 - x0) with (u + v) by (unfold u, v; ring). assert (0 <= (u - v) * (u - v)) by apply Z.square_nonneg. nia. }
  assert (G4 : 16384 * ((x1 - x) * q0 + (x - x0) * q1 - (x1 - x0) * q) <= (x1 - x0) * ((x1 - x0) * (x1 - x0) + 16777216)) by nia.
  set (gq := (x1 - x) * q0 + (x - x0) * q1 - (x1 - x0) * q) in *.
  assert (A1 : Z.abs (2 * ((x1 - x) * f0 + (x - x0) * f1 - (x1 - x0) * f)) <= M * gq) by (unfold gq; lia).
  assert (A2 : M * (16384 * gq) <= M * ((x1 - x0) * ((x1 - x0) * (x1 - x0) + 16777216))) by (apply Z.mul_le_mono_nonneg_l; assumption).
  lia.
Qed.

(** ** Sums over a progression *)
Fixpoint zsum (g : Z -> Z) (n : nat) : Z := match n with O => 0 | S k => zsum g k + g (Z.of_nat k) end.
Lemma zsum_ext g h n : (forall i, 0 <= i < Z.of_nat n -> g i = h i) -> zsum g n = zsum h n.
Proof. induction n as [|n IH]; intros E; cbn [zsum]; [reflexivity|]. rewrite IH, E by (intros; try apply E; lia). reflexivity. Qed.
Lemma zsum_le g h n : (forall i, 0 <= i < Z.of_nat n -> g i <= h i) -> zsum g n <= zsum h n.
Proof. induction n as [|n IH]; intros E; cbn [zsum]; [lia|]. specialize (IH ltac:(intros; apply E; lia)). specialize (E (Z.of_nat n) ltac:(lia)). lia. Qed.
Lemma zsum_lin u v g h n : zsum (fun i => u * g i + v * h i) n = u * zsum g n + v * zsum h n.
Proof. induction n as [|n IH]; cbn [zsum]; [ring|]. rewrite IH. ring. Qed.
Lemma zsum_zero g n : (forall i, 0 <= i < Z.of_nat n -> g i = 0) -> zsum g n = 0.
Proof. induction n as [|n IH]; intros E; cbn [zsum]; [reflexivity|]. rewrite IH, E by (intros; try apply E; lia). reflexivity. Qed.
Lemma zsum_abs g h n : (forall i, 0 <= i < Z.of_nat n -> Z.abs (g i) <= h i) -> Z.abs (zsum g n) <= zsum h n.
Proof. induction n as [|n IH]; intros E; cbn [zsum]; [lia|]. specialize (IH ltac:(intros; apply E; lia)). specialize (E (Z.of_nat n) ltac:(lia)). lia. Qed.
Lemma zsum_more g n m : (n <= m)%nat -> (forall i, Z.of_nat n <= i < Z.of_nat m -> g i = 0) -> zsum g m = zsum g n.
Proof.
  intros L. induction L as [|m L IH]; intros Z0; [reflexivity|]. cbn [zsum]. rewrite IH by (intros; apply Z0; lia). rewrite Z0 by lia. ring.
Qed.

Section Grid.
  Variables (a : Z -> Z) (len : Z).
  Hypothesis Heven : forall k, a (- k) = a k.
  Hypothesis Hzero : forall k, len <= k -> a k = 0.
  Variable D : Z -> Z.
  Hypothesis HD : forall j k, 0 <= j <= Z.abs k -> Z.abs (bend a k) <= D j.
  Notation F := (interp a).

  Lemma even_at f : F (- f) = F f.
  Proof.
    destruct (cut f) as (k & r & -> & Hr). replace (- (4096 * k + r)) with (4096 * (- (k + 1)) + (4096 - r)) by ring.
    rewrite !interp_at by lia. replace (- (k + 1) + 1) with (- k) by ring. rewrite !Heven. ring.
  Qed.
  Lemma zero_at f : 4096 * len <= Z.abs f -> F f = 0.
  Proof.
    intros H. assert (P : forall g, 4096 * len <= g -> F g = 0).
    { intros g Hg. destruct (cut g) as (k & r & -> & Hr). rewrite interp_at, !Hzero by lia. ring. }
    destruct (Z.abs_spec f) as [[_ E]|[_ E]]; rewrite E in H; [now apply P|]. rewrite <- even_at. now apply P.
  Qed.
  Lemma D_pos j : 0 <= j -> 0 <= D j.
  Proof. intros H. assert (B := HD j j ltac:(lia)). lia. Qed.

  (** The sum over both directions: n terms from t upwards, n terms from t - inc downwards. *)
  Definition total (n : nat) (inc t : Z) : Z := zsum (fun i => F (t + i * inc)) n + zsum (fun i => F (t - (i + 1) * inc)) n.

  Lemma total_mirror n inc t : total n inc (inc - t) = total n inc t.
  Proof.
    unfold total. rewrite Z.add_comm. f_equal; apply zsum_ext; intros i _.
    - rewrite <- even_at. f_equal. ring.
    - rewrite <- even_at. f_equal. ring.
  Qed.
  Lemma total_more n m inc t : (n <= m)%nat -> 0 < inc -> 0 <= t -> 4096 * len + t <= Z.of_nat n * inc -> total m inc t = total n inc t.
  Proof.
    intros L I T E. unfold total. f_equal; apply zsum_more; try assumption; intros i Hi; apply zero_at; nia.
  Qed.

  Variables (inc0 inc1 tau : Z).
  Hypothesis Hinc : 0 < inc0 <= inc1 /\ inc1 <= 2 * inc0.
  Hypothesis Htau : 0 < tau.
  Definition low (i : Z) : Z := Z.max 0 (i * inc0 - tau) / 4096.
  Lemma low_pos i : 0 <= low i.
  Proof. apply Z.div_pos; lia. Qed.
  Lemma low_le i k f : Z.max 0 (i * inc0 - tau) <= f -> f <= 4096 * Z.abs k -> 0 <= low i <= Z.abs k.
  Proof. intros A B. split; [apply low_pos|]. unfold low. apply Z.div_le_upper_bound; lia. Qed.

  (** Between two offsets. *)
  Lemma offset_term inc t0 t : inc0 <= inc <= inc1 -> 0 <= t0 <= t -> t <= t0 + tau -> 2 * t <= inc -> forall i, 0 <= i ->
    32768 * Z.abs ((t0 + tau - t) * F (t0 + i * inc) + (t - t0) * F (t0 + tau + i * inc) - tau * F (t + i * inc)) <=
      tau * (D (low i) * (tau * tau + 16777216)) /\
    32768 * Z.abs ((t0 + tau - t) * F (t0 - (i + 1) * inc) + (t - t0) * F (t0 + tau - (i + 1) * inc) - tau * F (t - (i + 1) * inc)) <=
      tau * (D (low i) * (tau * tau + 16777216)).
  Proof.
    intros Hi H0 H1 H2 i Pi. assert (Pd := D_pos (low i) (low_pos i)). split.
    - assert (C := chord a (t0 + i * inc) (t + i * inc) (t0 + tau + i * inc) (D (low i)) ltac:(lia)).
      replace (t0 + tau + i * inc - (t + i * inc)) with (t0 + tau - t) in C by ring. replace (t + i * inc - (t0 + i * inc)) with (t - t0) in C by ring.
      replace (t0 + tau + i * inc - (t0 + i * inc)) with tau in C by ring.
      eapply Z.le_trans; [apply C; [|exact Pd]|apply Z.eq_le_incl; ring].
      intros k Hk. apply HD. apply (low_le i k (t0 + i * inc)); [nia|]. assert (0 <= t0 + i * inc) by nia. lia.
    - assert (C := chord a (t0 - (i + 1) * inc) (t - (i + 1) * inc) (t0 + tau - (i + 1) * inc) (D (low i)) ltac:(lia)).
      replace (t0 + tau - (i + 1) * inc - (t - (i + 1) * inc)) with (t0 + tau - t) in C by ring.
      replace (t - (i + 1) * inc - (t0 - (i + 1) * inc)) with (t - t0) in C by ring.
      replace (t0 + tau - (i + 1) * inc - (t0 - (i + 1) * inc)) with tau in C by ring.
      eapply Z.le_trans; [apply C; [|exact Pd]|apply Z.eq_le_incl; ring].
      intros k Hk. apply HD. destruct (Z_le_gt_dec (i * inc0 - tau) 0) as [Q|Q].
      + apply (low_le i k 0); lia.
      + apply (low_le i k (i * inc0 - tau)); nia.
  Qed.
  (** Between two steps. *)
  Lemma step_term inc t : inc0 <= inc <= inc1 -> 0 <= t -> t <= inc0 + tau -> forall i, 0 <= i ->
    32768 * Z.abs ((inc1 - inc) * F (t + i * inc0) + (inc - inc0) * F (t + i * inc1) - (inc1 - inc0) * F (t + i * inc)) <=
      (inc1 - inc0) * (D (low i) * (((i + 1) * (inc1 - inc0)) * ((i + 1) * (inc1 - inc0)) + 16777216)) /\
    32768 * Z.abs ((inc1 - inc) * F (t - (i + 1) * inc0) + (inc - inc0) * F (t - (i + 1) * inc1) - (inc1 - inc0) * F (t - (i + 1) * inc)) <=
      (inc1 - inc0) * (D (low i) * (((i + 1) * (inc1 - inc0)) * ((i + 1) * (inc1 - inc0)) + 16777216)).
  Proof.
    intros Hi H0 H1 i Pi. assert (Pd := D_pos (low i) (low_pos i)). split.
    - destruct (Z.eq_dec i 0) as [->|N].
      { replace (t + 0 * inc0) with t by ring. replace (t + 0 * inc1) with t by ring. replace (t + 0 * inc) with t by ring.
        replace ((inc1 - inc) * F t + (inc - inc0) * F t - (inc1 - inc0) * F t) with 0 by ring.
        change (32768 * Z.abs 0) with 0. apply Z.mul_nonneg_nonneg; [lia|]. apply Z.mul_nonneg_nonneg; [exact Pd|].
        assert (0 <= (0 + 1) * (inc1 - inc0) * ((0 + 1) * (inc1 - inc0))) by apply Z.square_nonneg. lia. }
      assert (C := chord a (t + i * inc0) (t + i * inc) (t + i * inc1) (D (low i)) ltac:(nia)).
      replace (t + i * inc1 - (t + i * inc)) with (i * (inc1 - inc)) in C by ring. replace (t + i * inc - (t + i * inc0)) with (i * (inc - inc0)) in C by ring.
      replace (t + i * inc1 - (t + i * inc0)) with (i * (inc1 - inc0)) in C by ring.
      assert (C' : 32768 * Z.abs (i * ((inc1 - inc) * F (t + i * inc0) + (inc - inc0) * F (t + i * inc1) - (inc1 - inc0) * F (t + i * inc))) <=
        i * ((inc1 - inc0) * (D (low i) * ((i * (inc1 - inc0)) * (i * (inc1 - inc0)) + 16777216)))).
      { eapply Z.le_trans; [|eapply Z.le_trans; [apply C; [|exact Pd]|apply Z.eq_le_incl; ring]].
        - apply Z.eq_le_incl. f_equal. f_equal. ring.
        - intros k Hk. apply HD. apply (low_le i k (t + i * inc0)); [nia|]. assert (0 <= t + i * inc0) by nia. lia. }
      rewrite Z.abs_mul, (Z.abs_eq i) in C' by lia.
      assert (C2 : 32768 * Z.abs ((inc1 - inc) * F (t + i * inc0) + (inc - inc0) * F (t + i * inc1) - (inc1 - inc0) * F (t + i * inc)) <=
        (inc1 - inc0) * (D (low i) * ((i * (inc1 - inc0)) * (i * (inc1 - inc0)) + 16777216))).
      { apply (Z.mul_le_mono_pos_l _ _ i); [lia|]. lia. }
      eapply Z.le_trans; [exact C2|]. apply Z.mul_le_mono_nonneg_l; [lia|]. apply Z.mul_le_mono_nonneg_l; [exact Pd|].
      assert (i * (inc1 - inc0) <= (i + 1) * (inc1 - inc0)) by nia. assert (0 <= i * (inc1 - inc0)) by nia. nia.
    - assert (C := chord a (t - (i + 1) * inc1) (t - (i + 1) * inc) (t - (i + 1) * inc0) (D (low i)) ltac:(nia)).
      replace (t - (i + 1) * inc0 - (t - (i + 1) * inc)) with ((i + 1) * (inc - inc0)) in C by ring.
      replace (t - (i + 1) * inc - (t - (i + 1) * inc1)) with ((i + 1) * (inc1 - inc)) in C by ring.
      replace (t - (i + 1) * inc0 - (t - (i + 1) * inc1)) with ((i + 1) * (inc1 - inc0)) in C by ring.
      assert (C' : (i + 1) * (32768 * Z.abs ((inc1 - inc) * F (t - (i + 1) * inc0) + (inc - inc0) * F (t - (i + 1) * inc1) - (inc1 - inc0) * F (t - (i + 1) * inc))) <=
        (i + 1) * ((inc1 - inc0) * (D (low i) * (((i + 1) * (inc1 - inc0)) * ((i + 1) * (inc1 - inc0)) + 16777216)))).
      { eapply Z.le_trans; [|eapply Z.le_trans; [apply C; [|exact Pd]|apply Z.eq_le_incl; ring]].
        - apply Z.eq_le_incl. rewrite <- (Z.abs_eq (i + 1)) at 1 by lia. rewrite Z.mul_shuffle3, <- Z.abs_mul. f_equal. f_equal. ring.
        - intros k Hk. apply HD. destruct (Z_le_gt_dec (i * inc0 - tau) 0) as [Q|Q]; [apply (low_le i k 0); lia|].
          apply (low_le i k (i * inc0 - tau)); nia. }
      apply (Z.mul_le_mono_pos_l _ _ (i + 1)); [lia|exact C'].
  Qed.

  Definition offset_gap (n : nat) : Z := zsum (fun i => 2 * (D (low i) * (tau * tau + 16777216))) n.
  Definition step_gap (n : nat) : Z := zsum (fun i => 2 * (D (low i) * (((i + 1) * (inc1 - inc0)) * ((i + 1) * (inc1 - inc0)) + 16777216))) n.

  Lemma combine_sums (u v w B : Z) (f0 f1 f g0 g1 g h : Z -> Z) n : 0 <= w ->
    (forall i, 0 <= i -> 32768 * Z.abs (u * f0 i + v * f1 i - w * f i) <= w * h i /\ 32768 * Z.abs (u * g0 i + v * g1 i - w * g i) <= w * h i) ->
    32768 * Z.abs (u * (zsum f0 n + zsum g0 n) + v * (zsum f1 n + zsum g1 n) - w * (zsum f n + zsum g n)) <= w * zsum (fun i => 2 * h i) n.
  Proof.
    intros W H. induction n as [|n IH]; cbn [zsum]; [lia|]. destruct (H (Z.of_nat n) ltac:(lia)) as [A1 A2].
    set (p := u * (zsum f0 n + zsum g0 n) + v * (zsum f1 n + zsum g1 n) - w * (zsum f n + zsum g n)) in *.
    set (q := u * f0 (Z.of_nat n) + v * f1 (Z.of_nat n) - w * f (Z.of_nat n)) in *. set (r := u * g0 (Z.of_nat n) + v * g1 (Z.of_nat n) - w * g (Z.of_nat n)) in *.
    replace (u * (zsum f0 n + f0 (Z.of_nat n) + (zsum g0 n + g0 (Z.of_nat n))) + v * (zsum f1 n + f1 (Z.of_nat n) + (zsum g1 n + g1 (Z.of_nat n))) -
      w * (zsum f n + f (Z.of_nat n) + (zsum g n + g (Z.of_nat n)))) with (p + q + r) by (unfold p, q, r; ring).
    rewrite Z.mul_add_distr_l. lia.
  Qed.

  Lemma between_offsets n inc t0 t : inc0 <= inc <= inc1 -> 0 <= t0 <= t -> t <= t0 + tau -> 2 * t <= inc ->
    32768 * Z.abs ((t0 + tau - t) * total n inc t0 + (t - t0) * total n inc (t0 + tau) - tau * total n inc t) <= tau * offset_gap n.
  Proof. intros A B C E. apply (combine_sums _ _ _ 0); [lia|]. now apply offset_term. Qed.
  Lemma between_steps n inc t : inc0 <= inc <= inc1 -> 0 <= t -> t <= inc0 + tau ->
    32768 * Z.abs ((inc1 - inc) * total n inc0 t + (inc - inc0) * total n inc1 t - (inc1 - inc0) * total n inc t) <= (inc1 - inc0) * step_gap n.
  Proof. intros A B C. apply (combine_sums _ _ _ 0); [lia|]. now apply step_term. Qed.
End Grid.
