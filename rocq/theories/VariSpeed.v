(** The speed of the varispeed player follows a sine. *)
From Coq Require Import ZArith Reals Machin List Bool Lia Lra.
From Flocq Require Import Core IEEE754.BinarySingleNaN.
From Verif Require Import Base FloatFacts ErrFacts PosFacts Types HoldSpec HoldFacts HoldCore ApiHist Varispeed VariSpec.
Local Open Scope R_scope.

Lemma pi_low : 3.1415926535897 <= PI.
Proof.
  destruct (PI_2_3_7_ineq 6) as [H _]. cbn [sum_f_R0 Nat.mul Nat.add] in H. unfold tg_alt, PI_2_3_7_tg, Ratan_seq in H.
  rewrite !INR_IZR_INZ in H. cbn [Nat.add Nat.mul Z.of_nat Pos.of_succ_nat Pos.succ] in H. lra.
Qed.
Lemma pi_high : PI <= 3.1415926535899.
Proof.
  destruct (PI_2_3_7_ineq 6) as [_ H]. cbn [sum_f_R0 Nat.mul Nat.add] in H. unfold tg_alt, PI_2_3_7_tg, Ratan_seq in H.
  rewrite !INR_IZR_INZ in H. cbn [Nat.add Nat.mul Z.of_nat Pos.of_succ_nat Pos.succ] in H. lra.
Qed.

Lemma sin_small x : Rabs (sin x) <= Rabs x.
Proof.
  destruct (Rtotal_order x 0) as [L|[->|L]].
  - rewrite <- (Rabs_Ropp (sin x)), <- sin_neg, <- (Rabs_Ropp x). apply Ropp_0_gt_lt_contravar in L. revert L. generalize (- x). clear x. intros x L.
    rewrite (Rabs_pos_eq x) by lra. destruct (Rle_lt_dec x 1) as [S|S]; [|destruct (SIN_bound x); apply Rabs_le; lra].
    assert (0 < sin x) by (apply sin_gt_0; assert (Q := pi_low); lra). rewrite Rabs_pos_eq by lra. left. now apply sin_lt_x.
  - rewrite sin_0. lra.
  - rewrite (Rabs_pos_eq x) by lra. destruct (Rle_lt_dec x 1) as [S|S]; [|destruct (SIN_bound x); apply Rabs_le; lra].
    assert (0 < sin x) by (apply sin_gt_0; assert (Q := pi_low); lra). rewrite Rabs_pos_eq by lra. left. now apply sin_lt_x.
Qed.
Lemma sin_near x y : Rabs (sin x - sin y) <= Rabs (x - y).
Proof.
  rewrite form4. rewrite !Rabs_mult, (Rabs_pos_eq 2) by lra. assert (C := COS_bound ((x + y) / 2)). assert (S := sin_small ((x - y) / 2)).
  assert (Rabs (cos ((x + y) / 2)) <= 1) by (apply Rabs_le; lra). unfold Rdiv in S at 2. rewrite Rabs_mult, (Rabs_pos_eq (/ 2)) in S by lra.
  assert (0 <= Rabs (sin ((x - y) / 2))) by apply Rabs_pos. assert (0 <= Rabs (cos ((x + y) / 2))) by apply Rabs_pos. nra.
Qed.

Lemma m_pi : fin M_PI /\ Rabs (val M_PI - PI) <= / IZR (2 ^ 42).
Proof.
  destruct (d_of_Z_val 7074237752028440 ltac:(lia)) as [A1 A2]. destruct (d_of_Z_val (2 ^ 51) ltac:(lia)) as [B1 B2].
  assert (E : Rabs (val (d_of_Z 7074237752028440) / val (d_of_Z (2 ^ 51))) <= bpow radix2 2).
  { rewrite A1, B1. simpl bpow. apply Rabs_le. lra. }
  destruct (ddiv_val (d_of_Z 7074237752028440) (d_of_Z (2 ^ 51)) A2) as [V F]; [rewrite B1; lra|eapply Rle_trans; [exact E|apply bpow_le; lia]|].
  split; [exact F|]. unfold M_PI. rewrite V. assert (Q := rnd64_err _ 2 ltac:(lia) E). rewrite A1, B1 in *. simpl bpow in Q.
  apply Rabs_le_inv in Q. assert (L := pi_low). assert (H := pi_high). apply Rabs_le. lra.
Qed.

Lemma speed_ok sine k : sine_ok sine -> (0 <= k < 2 ^ 30)%Z -> exists r, vs_ratio sine k = Ok r /\ speed_near (Z.to_nat k) r.
Proof.
  intros S Hk. unfold vs_ratio. rewrite int_ok by lia. cbn [bind]. eexists. split; [reflexivity|].
  destruct (d_of_Z_val (k * 2) ltac:(lia)) as [A1 A2]. destruct m_pi as [P1 P2]. destruct (d_of_Z_val 20000 ltac:(lia)) as [B1 B2].
  assert (K : 0 <= IZR (k * 2) <= IZR (2 ^ 31)) by (split; apply IZR_le; lia).
  apply Rabs_le_inv in P2. assert (L := pi_low). assert (H := pi_high).
  assert (E1 : Rabs (val (d_of_Z (k * 2)) * val M_PI) <= bpow radix2 33).
  { rewrite A1. simpl bpow. apply Rabs_le. nra. }
  destruct (dmul_val _ _ A2 P1 ltac:(eapply Rle_trans; [exact E1|apply bpow_le; lia])) as [V1 F1].
  assert (Q1 := rnd64_err _ 33 ltac:(lia) E1). rewrite <- V1, A1 in Q1. set (x1 := dmul _ M_PI) in *.
  assert (M1 : Rabs (val x1) <= bpow radix2 33) by (rewrite V1; apply rnd64_abs_le; [lia|exact E1]).
  assert (E2 : Rabs (val x1 / val (d_of_Z 20000)) <= bpow radix2 19).
  { rewrite B1. simpl bpow in *. apply Rabs_le_inv in M1. apply Rabs_le. lra. }
  destruct (ddiv_val x1 (d_of_Z 20000) F1 ltac:(rewrite B1; lra) ltac:(eapply Rle_trans; [exact E2|apply bpow_le; lia])) as [V2 F2].
  assert (Q2 := rnd64_err _ 19 ltac:(lia) E2). rewrite <- V2, B1 in Q2. set (x2 := ddiv x1 _) in *.
  simpl bpow in Q1, Q2.
  destruct (S x2 F2) as (F3 & S1 & S2). set (s := sine x2) in *.
  assert (N : Rabs (val x2 - 2 * PI * INR (Z.to_nat k) / 20000) <= / 2000000).
  { rewrite INR_IZR_INZ, Z2Nat.id by lia. rewrite mult_IZR in *. apply Rabs_le_inv in Q1, Q2.
    assert (-(/ IZR (2 ^ 42)) * IZR (2 ^ 31) <= IZR k * 2 * (val M_PI - PI) <= / IZR (2 ^ 42) * IZR (2 ^ 31)).
    { split; [|apply Rle_trans with (IZR k * 2 * / IZR (2 ^ 42)); nra].
      apply Rle_trans with (IZR k * 2 * - / IZR (2 ^ 42)); nra. }
    apply Rabs_le. lra. }
  assert (N2 := Rle_trans _ _ _ (sin_near _ _) N).
  destruct done_val as [D1 D2]. destruct (d_of_Z_val 2 ltac:(lia)) as [T1 T2].
  assert (big : forall x, Rabs x <= 2 -> Rabs x <= bpow radix2 1000).
  { intros x Hx. apply Rle_trans with (bpow radix2 1); [simpl; lra|apply bpow_le; lia]. }
  destruct (ddiv_val done_ (d_of_Z 2) D2) as [Hv Hf]; [rewrite T1; lra|apply big; rewrite D1, T1, Rabs_pos_eq; lra|].
  assert (half : fmt64 (/ 2)) by (replace (/ 2) with (IZR 1 * bpow radix2 (-1)) by (simpl; lra); apply fmt64_dyadic; lia).
  assert (mhalf : fmt64 (- / 2)) by (replace (- / 2) with (IZR (-1) * bpow radix2 (-1)) by (simpl; lra); apply fmt64_dyadic; lia).
  assert (hl : fmt64 (3 / 2)) by (replace (3 / 2) with (IZR 3 * bpow radix2 (-1)) by (simpl; lra); apply fmt64_dyadic; lia).
  assert (Hh : val (ddiv done_ (d_of_Z 2)) = / 2).
  { rewrite Hv, D1, T1. replace (1 / 2) with (/ 2) by lra. now apply rnd64_id. }
  set (h := ddiv done_ (d_of_Z 2)) in *. apply Rabs_le_inv in S1.
  assert (E3 : Rabs (val h * val s) <= bpow radix2 0) by (rewrite Hh; simpl bpow; apply Rabs_le; lra).
  destruct (dmul_val h s Hf F3 ltac:(apply big; simpl bpow in E3; lra)) as [V4 F4]. assert (Q4 := rnd64_err _ 0 ltac:(lia) E3). rewrite <- V4, Hh in Q4.
  assert (B4 : - / 2 <= val (dmul h s) <= / 2).
  { rewrite V4, Hh. split; [apply rnd64_ge|apply rnd64_le]; auto; lra. }
  set (y := dmul h s) in *.
  assert (E4 : Rabs (val done_ - val y) <= bpow radix2 1) by (rewrite D1; simpl bpow; apply Rabs_le; lra).
  destruct (dsub_val done_ y D2 F4 ltac:(apply big; simpl bpow in E4; lra)) as [V5 F5]. assert (Q5 := rnd64_err _ 1 ltac:(lia) E4). rewrite <- V5, D1 in Q5.
  assert (B5 : 1 / 2 <= val (dsub done_ y) <= 3 / 2).
  { rewrite V5, D1. split; [apply rnd64_ge; [replace (1 / 2) with (/ 2) by lra; auto|lra]|apply rnd64_le; [auto|lra]]. }
  split; [split; [exact F5|split; lra]|]. split; [exact B5|].
  simpl bpow in Q4, Q5. apply Rabs_le_inv in Q4, Q5, S2, N2. apply Rabs_le. lra.
Qed.
