(** Whole streams through sinc converters: bounded output, unit gain. *)
From Coq Require Import ZArith Reals List Bool Lia Lra Psatz.
From Flocq Require Import Core IEEE754.BinarySingleNaN.
From Verif Require Import Base FloatFacts PosFacts Types Common Sinc Api Heap Callback ApiHist HoldSpec HoldFacts HoldRamp HoldCore HoldValue
  HoldProcess HoldStream LifeSpec ErrFacts ProcFacts HeapFacts LifeFacts SincSpec SincFacts SincCalc SincPrep SincLoop SincProcess SincCall
  SincApi SincHist SincStream SincMain
  GainGrid GainCheck GainUnits GainFloat GainWeights GainBound GainMain.
Import ListNotations.
Local Open Scope Z_scope.

(** ** Bounded output, whatever the ratios *)
Lemma frames_forall ch out g Y (P : f32 -> Prop) : 0 < ch -> is_frames ch out g Y -> (forall k c, 0 <= k < g -> 0 <= c < ch -> P (Y k c)) -> Forall P out.
Proof.
  intros Hc [L S] H. apply Forall_forall. intros y I. apply In_nth_error in I as (j & E).
  assert (Hj : Z.of_nat j < g * ch) by (rewrite <- L; unfold zlen; apply inj_lt, nth_error_Some; congruence).
  assert (D := Z.div_mod (Z.of_nat j) ch ltac:(lia)). assert (M := Z.mod_pos_bound (Z.of_nat j) ch Hc).
  set (k := Z.of_nat j / ch) in *. set (c := Z.of_nat j mod ch) in *.
  assert (K : 0 <= k < g) by (split; [apply Z.div_pos; lia|nia]).
  specialize (S k c K M). unfold sample in S. replace (Z.to_nat (k * ch + c)) with j in S by nia. rewrite E in S. injection S as ->. now apply H.
Qed.

Section Bounded.
  Variables (inc : Z) (coeffs : list f32) (ch : Z) (X : stream) (M : R).
  Hypothesis Ht : table_fit (inc, coeffs).
  Hypothesis Hg : table_gain (inc, coeffs).
  Hypothesis Hch : 1 <= ch <= 128.
  Hypothesis HM : sized M.
  Hypothesis UM : (6 * M < bpow radix2 128)%R.
  Hypothesis HX : forall i c, 0 <= c < ch -> fin (X i c) /\ (Rabs (val (X i c)) <= M)%R.

  Lemma bounded_run st o log out st' o' : sinc_streaming ch X in_range st o log out st' o' ->
    forall ph, on_tape inc coeffs ch X st o ph -> Forall (fun y => fin y /\ (Rabs (val y) <= 6 * M)%R) out.
  Proof.
    intros S. induction S as [st o|st o d m st1 d1 m1 chunk log out st2 o2 V Hin Ha Hend E Hc S IH|st o r st1 log out st2 o2 Ir Ha E S IH];
      intros ph Ot.
    - constructor.
    - destruct (tape_call inc coeffs ch Ht Hch X st o ph d m st1 d1 m1 Ot V Hin Hend E) as (ph1 & dep & Ot1 & _ & Hgn & _ & _ & Wr & _).
      apply Forall_app. split; [|exact (IH ph1 Ot1)].
      assert (Er := tape_ratio inc coeffs ch X st o ph Ot).
      assert (Gs : good_ratio (start_ratio st (src_ratio d))) by (apply (start_val st (src_ratio d) good_ratio Er); [|exact Ha]; destruct Er as [Er|Er]; [now left|now right]).
      assert (Mc : output_frames d * ch <= 2 ^ 50) by apply V.
      assert (Gr : forall k, Z.of_nat k < output_frames d -> good_ratio (sinc_ramp (start_ratio st (src_ratio d)) (src_ratio d) ch (output_frames d) k)).
      { intros k Hk. apply (sinc_ramp_ok _ _ ch (output_frames d) k (start_ratio st (src_ratio d)) Gs Ha); auto; lia. }
      apply (frames_forall ch chunk _ _ _ ltac:(lia) (wrote_chunk _ _ _ ch _ _ _ ltac:(lia) (proj1 Hgn) Wr Hc)).
      intros k c Hk Hcc. cbv beta. apply sample_bounded; auto.
      + apply Gr. lia.
      + apply pos_at_frac; [|intros j Hj; apply Gr; lia]. destruct Ot as (_ & base & s & Hok & _ & Ep). rewrite Ep. cbn [snd]. apply Hok.
    - destruct Ot as (Hm & base & s & Hok & Eo & Ep).
      assert (E1 : st1 = set_ratio st r).
      { unfold src_set_ratio in E. destruct (is_bad_src_ratio r); [discriminate E|]. injection E as E. now symmetry. }
      assert (Ok1 : sinc_ok inc coeffs ch X base ph s st1) by (rewrite E1; destruct Hok; constructor; try assumption; now right).
      apply (IH ph). split; [rewrite E1; exact Hm|]. exists base, s. split; [exact Ok1|]. split; [exact Eo|]. now apply (position_ok inc coeffs ch Hch X base ph s).
  Qed.
End Bounded.

Lemma stream_bounded t ch X (A : f32) st log out st' o' : table_fit t -> table_gain t -> sinc_start t ch st ->
  (forall i k, i < 0 -> X i k = fzero) -> (forall i c, 0 <= c < ch -> fin (X i c) /\ (Rabs (val (X i c)) <= Rabs (val A))%R) ->
  (6 * Rabs (val A) < bpow radix2 128)%R -> sinc_streaming ch X in_range st 0 log out st' o' ->
  Forall (fun y => fin y /\ (Rabs (val y) <= 6 * Rabs (val A))%R) out.
Proof.
  destruct t as [inc coeffs]. intros Ht Hg S Hx HX U Run. destruct (start_tape inc coeffs ch X st Ht S Hx) as (Hch & Ot & _).
  exact (bounded_run inc coeffs ch X (Rabs (val A)) Ht Hg Hch (sized_val A) U HX _ _ _ _ _ _ Run Fresh Ot).
Qed.

(** ** Unit gain at constant ratio *)
Section Gain.
  Variables (inc : Z) (coeffs : list f32).
  Hypothesis Hg : table_gain (inc, coeffs).
  Let Ht := gain_table inc coeffs Hg.
  Hypothesis Hend : env (map units coeffs) (zlen coeffs - 2) <= 134.
  Variables (delta unity : R).
  Hypothesis Pd : (0 <= delta)%R.
  Hypothesis Pu : (0 <= unity)%R.
  Hypothesis Hall : forall I, 16 * inc <= I <= 4096 * inc -> level inc coeffs I delta.
  Hypothesis Hone : level inc coeffs (4096 * inc) unity.

  (** How far the table reaches, in input frames. *)
  Definition span (r : f64) : R := (IZR (zlen coeffs) / (IZR inc * Rmin 1 (val r)) + 4)%R.

  Lemma span_reach r : good_ratio r -> table_fit (inc, coeffs) -> (IZR ((zlen coeffs - 2) * 4096 / fixed_point (table_step inc r) + 3) <= span r)%R.
  Proof.
    intros G (T1 & T2 & T3). assert (F0 : frac dzero) by (repeat split; cbn; try reflexivity; lra).
    assert (Rb := reach_bound inc coeffs T1 T2 r r dzero 0 G G (Rle_refl _) F0 ltac:(lia)). rewrite Z.sub_0_r in Rb.
    destruct (hlen_val inc coeffs T1 r G) as [Eh _]. destruct (count_facts inc coeffs T1 r G) as (_ & Vc & Bc).
    destruct (q_facts inc coeffs T1) as (_ & Vq & Bq & _). destruct (tab_R inc coeffs T1) as (Ri & Rl & Rr & Rm).
    set (Q := ((zlen coeffs - 2) * 4096 / fixed_point (table_step inc r))%Z) in *.
    assert (B : (IZR Q <= val (count_of inc coeffs r) + / 2)%R).
    { assert (N := ZnearestE_bounds (val (count_of inc coeffs r))). assert (IZR Q <= IZR (ZnearestE (val (count_of inc coeffs r))))%R by (apply IZR_le; lia). lra. }
    assert (Mr : (/ 256 <= Rmin 1 (val r) <= 1)%R) by (destruct G as [_ G]; unfold Rmin; destruct (Rle_dec 1 (val r)); lra).
    set (mr := Rmin 1 (val r)) in *. assert (Pm : (0 < / mr <= 256)%R).
    { split; [apply Rinv_0_lt_compat; lra|]. replace 256%R with (/ / 256)%R by (field; lra). apply Rinv_le; lra. }
    set (u := (IZR (zlen coeffs) / IZR inc)%R) in *.
    assert (Bu : (0 <= u <= 1000)%R).
    { unfold u. split; [apply Rmult_le_pos; [lra|left; apply Rinv_0_lt_compat; lra]|]. apply (Rmult_le_reg_r (IZR inc)); [lra|]. unfold Rdiv. rewrite Rmult_assoc, Rinv_l by lra. lra. }
    assert (E1 : (Rabs (val (q_of inc coeffs) - u) <= bpow radix2 (10 - 53))%R).
    { rewrite Vq. apply rnd64_err; [lia|]. change (bpow radix2 10) with 1024%R. apply Rabs_le. lra. }
    assert (E2 : (Rabs (val (count_of inc coeffs r) - val (q_of inc coeffs) / mr) <= bpow radix2 (18 - 53))%R).
    { rewrite Vc. apply rnd64_err; [lia|]. change (bpow radix2 18) with 262144%R. unfold Rdiv. apply Rabs_le. nra. }
    apply Rabs_le_inv in E1. apply Rabs_le_inv in E2.
    change (bpow radix2 (10 - 53)) with (/ 8796093022208)%R in E1. change (bpow radix2 (18 - 53)) with (/ 34359738368)%R in E2.
    assert (E3 : (val (q_of inc coeffs) / mr <= u / mr + / 8)%R) by (unfold Rdiv; nra).
    unfold span. fold mr. replace (IZR (zlen coeffs) / (IZR inc * mr))%R with (u / mr)%R by (unfold u; field; split; lra).
    rewrite plus_IZR. lra.
  Qed.

  Lemma step_one r : good_ratio r -> (1 <= val r)%R -> (4096 * val (table_step inc r) = IZR (4096 * inc))%R /\ fixed_point (table_step inc r) = 4096 * inc.
  Proof.
    intros G L. destruct (step_facts inc coeffs Ht r G) as (Ff & Vf & _ & _ & Bf). destruct (tab_R inc coeffs Ht) as (Ri & _).
    assert (Hi : 1 <= inc <= 16384) by apply Ht. rewrite Rmin_left, Rmult_1_r, rnd64_id in Vf by (lra || (apply fmt64_Z; lia)).
    split; [rewrite Vf, mult_IZR; reflexivity|]. destruct (fixed_facts coeffs (table_step inc r) Ff) as (_ & E & _); [lra|]. rewrite E, Vf.
    rewrite <- mult_IZR, rnd64_id by (apply fmt64_Z; lia). rewrite ZnearestE_IZR. lia.
  Qed.

  Lemma value_near x pos r (A : f32) : table_fit (inc, coeffs) -> good_ratio r -> frac (snd pos) -> fin A -> (Rabs (val A) <= bpow radix2 127)%R ->
    (forall i, (IZR (Z.abs (i - fst pos)) <= span r)%R -> x i = A) ->
    let y := sinc_value inc coeffs x pos r in
    ((delta + (/ 2 + / 30000000) / IZR (16 * inc) <= 499 / 100000)%R -> (2048 <= 16 * inc) -> fin y /\ (Rabs (val y - val A) <= / 200 * Rabs (val A) + bpow radix2 (-149))%R) /\
    ((unity <= 2 / 1000000)%R -> 2048 <= 16 * inc -> (1 <= val r)%R -> fin y /\ (Rabs (val y - val A) <= 3 / 1000000 * Rabs (val A) + bpow radix2 (-149))%R).
  Proof.
    intros Hfit G Ft FA UA Hx y. assert (SR := span_reach r G Hfit). assert (P149 := bpow_gt_0 radix2 (-149)).
    set (step := table_step inc r) in *. set (I := fixed_point step) in *.
    destruct (step_facts inc coeffs Ht r G) as (Ff & _ & _ & _ & Bf). fold step in Ff, Bf. destruct (tab_R inc coeffs Ht) as (Ri & _).
    destruct (index_facts inc coeffs Ht r (snd pos) G Ft) as (_ & _ & _ & B1 & _). fold step in B1. fold I in B1.
    destruct (fixed_facts coeffs step Ff) as (_ & _ & _ & A1); [lra|]. fold I in A1.
    assert (Hx' : forall i, Z.abs (i - fst pos) <= (zlen coeffs - 2) * 4096 / I + 3 -> x i = A).
    { intros i Hi. apply Hx. eapply Rle_trans; [|exact SR]. now apply IZR_le. }
    assert (Hi : 1 <= inc <= 16384) by apply Ht.
    assert (PA : (0 <= Rabs (val A))%R) by apply Rabs_pos. assert (PI : (0 < IZR (16 * inc))%R) by (apply IZR_lt; lia).
    assert (LI : (IZR (16 * inc) <= IZR I)%R) by (apply IZR_le; lia).
    split.
    - intros Hd Hb. set (th := ((/ 2 + / 30000000) / IZR (16 * inc))%R) in *.
      assert (Pth1 : (th <= 1 / 4096 + / 1000000)%R).
      { unfold th. apply IZR_le in Hb. apply (Rmult_le_reg_r (IZR (16 * inc))); [lra|]. unfold Rdiv at 1. rewrite Rmult_assoc, Rinv_l by lra. lra. }
      assert (Pth : (0 <= th)%R) by (unfold th, Rdiv; apply Rmult_le_pos; [lra|left; apply Rinv_0_lt_compat; lra]).
      destruct (value_gain inc coeffs Hg Hend x pos r A delta th G Ft FA UA) as [Fy Vy]; fold step; fold I; auto.
      + apply Hall. lia.
      + rewrite <- Rabs_Ropp. replace (- (4096 * val step - IZR I))%R with (IZR I - 4096 * val step)%R by ring. eapply Rle_trans; [exact A1|].
        apply Rle_trans with (th * IZR (16 * inc))%R; [unfold th, Rdiv; rewrite Rmult_assoc, Rinv_l by lra; lra|]. apply Rmult_le_compat_l; assumption.
      + assert (Q : (0 <= 8192 / I <= 4)) by (split; [apply Z.div_pos; lia|apply Z.div_le_upper_bound; lia]).
        destruct Q as [Q0 Q1]. apply IZR_le in Q0, Q1. assert (delta * th <= 499 / 100000 * (1 / 4096 + / 1000000))%R by (apply Rmult_le_compat; lra). lra.
      + fold y in Fy, Vy. split; [exact Fy|]. eapply Rle_trans; [exact Vy|]. apply Rplus_le_compat_r, Rmult_le_compat_r; [exact PA|].
        fold step. fold I. assert (Q : (0 <= 8192 / I <= 4)) by (split; [apply Z.div_pos; lia|apply Z.div_le_upper_bound; lia]).
        destruct Q as [Q0 Q1]. apply IZR_le in Q0, Q1. assert (delta * th <= 499 / 100000 * (1 / 4096 + / 1000000))%R by (apply Rmult_le_compat; lra). lra.
    - intros Hu Hb Hr. destruct (step_one r G Hr) as [S1 S2]. fold step in S1, S2. fold I in S2.
      assert (Q : 8192 / I = 0) by (apply Z.div_small; lia).
      destruct (value_gain inc coeffs Hg Hend x pos r A unity 0%R G Ft FA UA) as [Fy Vy]; fold step; fold I; auto.
      + rewrite S2. exact Hone.
      + lra.
      + rewrite S1, S2, Rmult_0_l. replace (IZR (4096 * inc) - IZR (4096 * inc))%R with 0%R by ring. rewrite Rabs_R0. lra.
      + rewrite Q. lra.
      + fold y in Fy, Vy. split; [exact Fy|]. eapply Rle_trans; [exact Vy|]. apply Rplus_le_compat_r, Rmult_le_compat_r; [exact PA|].
        fold step. fold I. rewrite Q. lra.
  Qed.
End Gain.
