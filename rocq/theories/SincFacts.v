(** Arithmetic facts about the sinc converters: filter length, table increments, position steps. *)
From Coq Require Import ZArith Reals List Bool Lia Lra Psatz.
From Flocq Require Import Core IEEE754.BinarySingleNaN Relative.
From Verif Require Import Base FloatFacts PosFacts ErrFacts Types Common Sinc HoldSpec HoldFacts HoldRamp HoldCore LifeSpec SincSpec.
Import ListNotations.
Local Open Scope R_scope.

Lemma rnd64_rel x : bpow radix2 (-1000) <= Rabs x -> Rabs (rnd64 x - x) <= / 9007199254740992 * Rabs x.
Proof.
  intros H. replace (/ 9007199254740992) with (/ 2 * bpow radix2 (-53 + 1)) by (simpl; lra).
  apply (relative_error_N_FLT radix2 (-1074) 53 eq_refl (fun z => negb (Z.even z)) x).
  eapply Rle_trans; [|exact H]. apply bpow_le. lia.
Qed.
Lemma big_1000 x : / 1024 <= Rabs x -> bpow radix2 (-1000) <= Rabs x.
Proof. intros H. eapply Rle_trans; [|exact H]. change (/ 1024) with (bpow radix2 (-10)). apply bpow_le. lia. Qed.

Section Table.
  Variables (inc : Z) (coeffs : list f32).
  Let zl := zlen coeffs.
  Let H := (zl - 2)%Z.
  Hypothesis Ht : table_ok (inc, coeffs).

  Definition q_of : f64 := ddiv (dadd (d_of_Z (zlen coeffs - 2)) (d_of_Z 2)) (d_of_Z inc).
  Definition count_of (mn : f64) : f64 := if dlt mn done_ then ddiv q_of mn else q_of.
  Definition hlen (mn : f64) : Z := (psf_lrint (count_of mn) + 1)%Z.

  Lemma tab_R : 1 <= IZR inc <= 16384 /\ 3 <= IZR zl <= 500000 /\ IZR zl <= 1000 * IZR inc /\ IZR inc + 2 <= IZR zl.
  Proof.
    destruct Ht as (Hi & Hl & Hu & Hr). fold zl in Hl, Hu, Hr. rewrite <- mult_IZR, <- plus_IZR.
    repeat split; apply IZR_le; lia.
  Qed.

  Lemma q_facts : fin q_of /\ val q_of = rnd64 (IZR zl / IZR inc) /\ 1 <= val q_of <= 1000 /\
    (1 - / 9007199254740992) * (IZR zl / IZR inc) <= val q_of.
  Proof.
    destruct tab_R as (Ri & Rl & Rr & Rm). destruct Ht as (Hi & Hl & Hu & Hr). fold zl in Hl, Hu, Hr. fold H in Hl.
    unfold q_of. fold zl. fold H.
    destruct (d_of_Z_val H) as [V1 F1]; [lia|]. destruct (d_of_Z_val 2) as [V2 F2]; [lia|].
    destruct (d_of_Z_val inc) as [V3 F3]; [lia|].
    assert (Vs : val (d_of_Z H) + val (d_of_Z 2) = IZR zl) by (rewrite V1, V2, <- plus_IZR; f_equal; unfold H; lia).
    destruct (dadd_val (d_of_Z H) (d_of_Z 2) F1 F2) as [Va Fa].
    { rewrite Vs. apply small_1000, Rabs_le; lra. }
    rewrite Vs, rnd64_id in Va by (apply fmt64_Z; lia).
    assert (Q : 1 <= IZR zl / IZR inc <= 1000).
    { split; apply (Rmult_le_reg_r (IZR inc)); try lra; unfold Rdiv; rewrite Rmult_assoc, Rinv_l by lra; lra. }
    destruct (ddiv_val (dadd (d_of_Z H) (d_of_Z 2)) (d_of_Z inc) Fa) as [Vd Fd].
    { rewrite V3. lra. }
    { rewrite Va, V3. apply small_1000, Rabs_le; lra. }
    rewrite Va, V3 in Vd. split; [exact Fd|]. split; [exact Vd|]. rewrite Vd.
    split.
    - split; [apply rnd64_ge; [apply (fmt64_Z 1); lia|lra]|apply rnd64_le; [apply (fmt64_Z 1000); lia|lra]].
    - assert (A := rnd64_rel (IZR zl / IZR inc)). rewrite Rabs_pos_eq in A by lra. specialize (A ltac:(rewrite <- (Rabs_pos_eq (IZR zl / IZR inc)) by lra; apply big_1000; rewrite Rabs_pos_eq; lra)).
      apply Rabs_le_inv in A. lra.
  Qed.

  Lemma count_facts mn : good_ratio mn -> fin (count_of mn) /\ val (count_of mn) = rnd64 (val q_of / Rmin 1 (val mn)) /\
    1 <= val (count_of mn) <= 256000.
  Proof.
    intros [F [L U]]. destruct q_facts as (Fq & _ & Bq & _). destruct done_val as [V1 F1].
    unfold count_of. rewrite dlt_spec by assumption. rewrite V1.
    assert (M : / 256 <= Rmin 1 (val mn) <= 1) by (unfold Rmin; destruct (Rle_dec 1 (val mn)); lra).
    assert (Q : 1 <= val q_of / Rmin 1 (val mn) <= 256000).
    { split; apply (Rmult_le_reg_r (Rmin 1 (val mn))); try lra; unfold Rdiv; rewrite Rmult_assoc, Rinv_l by lra; lra. }
    assert (B : 1 <= rnd64 (val q_of / Rmin 1 (val mn)) <= 256000).
    { split; [apply rnd64_ge; [apply (fmt64_Z 1); lia|lra]|apply rnd64_le; [apply (fmt64_Z 256000); lia|lra]]. }
    case Rlt_bool_spec; intros C.
    - rewrite Rmin_right in * by lra. destruct (ddiv_val q_of mn Fq) as [Vd Fd]; [lra| |].
      { apply small_1000, Rabs_le. lra. }
      rewrite Vd. auto.
    - rewrite Rmin_left in * by lra. unfold Rdiv in *. rewrite Rinv_1, Rmult_1_r in *. rewrite rnd64_val in *. auto.
  Qed.

  Lemma hlen_val mn : good_ratio mn -> hlen mn = (ZnearestE (val (count_of mn)) + 1)%Z /\ (2 <= hlen mn <= 256001)%Z.
  Proof.
    intros G. destruct (count_facts mn G) as (F & _ & B). unfold hlen.
    assert (Bz : (1 <= ZnearestE (val (count_of mn)) <= 256000)%Z).
    { rewrite <- (ZnearestE_IZR 1) at 1. rewrite <- (ZnearestE_IZR 256000) at 1. split; apply ZnearestE_mono; lra. }
    rewrite psf_lrint_val by (auto; lia). split; [reflexivity|lia].
  Qed.

  Lemma inv_min_mono a b : / 256 <= a -> a <= b -> val q_of / Rmin 1 b <= val q_of / Rmin 1 a.
  Proof.
    intros La Lb. destruct q_facts as (_ & _ & Bq & _). unfold Rdiv. apply Rmult_le_compat_l; [lra|]. apply Rinv_le.
    - unfold Rmin. destruct (Rle_dec 1 a); lra.
    - unfold Rmin. destruct (Rle_dec 1 a), (Rle_dec 1 b); lra.
  Qed.

  Lemma hlen_mono a b : good_ratio a -> good_ratio b -> val a <= val b -> (hlen b <= hlen a)%Z.
  Proof.
    intros Ga Gb L. destruct (hlen_val a Ga) as [-> _], (hlen_val b Gb) as [-> _].
    destruct (count_facts a Ga) as (_ & -> & _), (count_facts b Gb) as (_ & -> & _).
    apply Zplus_le_compat_r, ZnearestE_mono, rnd64_mono, inv_min_mono; [apply Ga|exact L].
  Qed.

  (** ** Table increments *)
  Lemma step_facts ro : good_ratio ro ->
    let z := IZR inc * Rmin 1 (val ro) in let fi := table_step inc ro in
    fin fi /\ val fi = rnd64 z /\ IZR inc / 256 <= z <= IZR inc /\ Rabs (4096 * val fi - 4096 * z) <= / 67108864 /\
    IZR inc / 256 <= val fi <= IZR inc.
  Proof.
    intros [F [L U]] z fi. destruct tab_R as (Ri & _). destruct done_val as [V1 F1].
    destruct Ht as (Hi & _). destruct (d_of_Z_val inc) as [V2 F2]; [lia|].
    assert (M : / 256 <= Rmin 1 (val ro) <= 1) by (unfold Rmin; destruct (Rle_dec 1 (val ro)); lra).
    assert (Bz : IZR inc / 256 <= z <= IZR inc) by (unfold z; nra).
    assert (E : fin fi /\ val fi = rnd64 z).
    { unfold fi, table_step. change (Bltb ro (d_of_Z 1)) with (dlt ro done_). rewrite dlt_spec by assumption. rewrite V1.
      unfold z in *. case Rlt_bool_spec; intros C.
      - rewrite Rmin_right in * by lra. change (Bmult mode_NE (d_of_Z inc) ro) with (dmul (d_of_Z inc) ro).
        destruct (dmul_val (d_of_Z inc) ro F2 F) as [Vm Fm]; [rewrite V2; apply small_1000, Rabs_le; lra|].
        rewrite Vm, V2. auto.
      - rewrite Rmin_left in * by lra. change (Bmult mode_NE (d_of_Z inc) (d_of_Z 1)) with (dmul (d_of_Z inc) done_).
        destruct (dmul_val (d_of_Z inc) done_ F2 F1) as [Vm Fm]; [rewrite V2, V1; apply small_1000, Rabs_le; lra|].
        rewrite Vm, V2, V1. auto. }
    destruct E as [Ff Vf]. split; [exact Ff|]. split; [exact Vf|]. split; [exact Bz|].
    assert (E : Rabs (rnd64 z - z) <= bpow radix2 (14 - 53)).
    { apply rnd64_err; [lia|]. change (bpow radix2 14) with 16384. apply Rabs_le. lra. }
    assert (P : bpow radix2 (14 - 53) = / 549755813888) by reflexivity. rewrite P in E. apply Rabs_le_inv in E.
    split; [rewrite Vf; apply Rabs_le; lra|].
    rewrite Vf. split.
    - apply rnd64_ge; [|lra]. replace (IZR inc / 256) with (IZR inc * bpow radix2 (-8)) by (simpl; lra). apply fmt64_dyadic; lia.
    - apply rnd64_le; [|lra]. apply fmt64_Z. lia.
  Qed.

  (** The fixed-point conversion of numbers up to 2^14. *)
  Lemma fixed_facts (x : f64) : fin x -> 0 <= val x <= 16384 ->
    double_to_fp x = fixed_point x /\ fixed_point x = ZnearestE (rnd64 (val x * 4096)) /\
    (0 <= fixed_point x <= 67108864)%Z /\ Rabs (IZR (fixed_point x) - 4096 * val x) <= / 2 + / 67108864.
  Proof.
    intros F B. destruct (d_of_Z_val 4096) as [V2 F2]; [lia|].
    destruct (dmul_val x (d_of_Z 4096) F F2) as [Vm Fm].
    { rewrite V2. apply small_1000, Rabs_le. lra. }
    rewrite V2 in Vm.
    assert (Bm : 0 <= rnd64 (val x * 4096) <= 67108864).
    { split; [rewrite <- rnd64_0; apply rnd64_mono; lra|apply rnd64_le; [apply (fmt64_Z 67108864); lia|lra]]. }
    assert (Bz : (0 <= ZnearestE (rnd64 (val x * 4096)) <= 67108864)%Z).
    { rewrite <- (ZnearestE_IZR 0) at 1. rewrite <- (ZnearestE_IZR 67108864) at 1. split; apply ZnearestE_mono; lra. }
    assert (E : fixed_point x = ZnearestE (rnd64 (val x * 4096))).
    { change (fixed_point x) with (d_nearest (dmul x (d_of_Z 4096))). rewrite d_nearest_spec, Vm. reflexivity. }
    split. { rewrite E. unfold double_to_fp, FP_ONE. rewrite psf_lrint_val; [now rewrite Vm|exact Fm|rewrite Vm; lia]. }
    split; [exact E|]. split; [lia|]. rewrite E.
    assert (E1 : Rabs (rnd64 (val x * 4096) - val x * 4096) <= bpow radix2 (26 - 53)).
    { apply rnd64_err; [lia|]. change (bpow radix2 26) with 67108864. apply Rabs_le. lra. }
    assert (P : bpow radix2 (26 - 53) = / 134217728) by reflexivity. rewrite P in E1. apply Rabs_le_inv in E1.
    assert (N := ZnearestE_bounds (rnd64 (val x * 4096))). apply Rabs_le. lra.
  Qed.

  (** Increment and start index of an output. *)
  Lemma index_facts ro t : good_ratio ro -> frac t ->
    let fi := table_step inc ro in let I := fixed_point fi in let st := fixed_point (Bmult mode_NE t fi) in
    double_to_fp fi = I /\ double_to_fp (Bmult mode_NE t fi) = st /\ (0 <= st <= I)%Z /\ (16 * inc - 1 < I <= 4096 * inc)%Z /\
    Rabs (IZR I - 4096 * (IZR inc * Rmin 1 (val ro))) <= / 2 + / 33554432.
  Proof.
    intros G (Ft & St & Lt & Ut) fi I st. destruct (step_facts ro G) as (Ff & Vf & Bz & Ez & Bf). fold fi in Ff, Vf, Ez, Bf.
    destruct tab_R as (Ri & _).
    destruct (fixed_facts fi Ff) as (E1 & E2 & B1 & A1); [lra|]. fold I in E1, E2, B1, A1.
    assert (Bp : 0 <= val t * val fi <= 16384) by nra.
    destruct (dmul_val t fi Ft Ff) as [Vp Fp]; [apply small_1000, Rabs_le; lra|].
    assert (Bq : 0 <= rnd64 (val t * val fi) <= val fi).
    { split; [rewrite <- rnd64_0; apply rnd64_mono; lra|]. apply rnd64_le; [apply fmt64_val|nra]. }
    destruct (fixed_facts (dmul t fi) Fp) as (E3 & E4 & B3 & A3); [rewrite Vp; lra|].
    change (fixed_point (dmul t fi)) with st in E3, E4, B3, A3.
    split; [exact E1|]. split; [exact E3|]. split.
    - split; [lia|]. rewrite E4, E2. apply ZnearestE_mono, rnd64_mono. rewrite Vp. nra.
    - split; [|apply Rabs_le_inv in A1; apply Rabs_le_inv in Ez; apply Rabs_le; lra]. apply Rabs_le_inv in A1. split.
      + apply lt_IZR. rewrite minus_IZR, mult_IZR. lra.
      + rewrite E2. rewrite <- (ZnearestE_IZR (4096 * inc)). apply ZnearestE_mono, rnd64_le.
        * apply fmt64_Z. destruct Ht as (Hi & _). lia.
        * rewrite mult_IZR. lra.
  Qed.

  (** Right wing: at most hlen - 1 increments reach beyond the table. *)
  Hypothesis Hfit : (300 * zlen coeffs <= (1024 + inc) * (16 * inc - 1))%Z.

  Lemma reach_bound mn ro t x : good_ratio mn -> good_ratio ro -> val mn <= val ro -> frac t -> (0 <= x)%Z ->
    (((zlen coeffs - 2) * 4096 - x) / fixed_point (table_step inc ro) <= hlen mn - 1)%Z.
  Proof.
    intros Gm Gr Lm Ht' Hx. destruct (index_facts ro t Gr Ht') as (_ & _ & B0 & B1 & A).
    set (I := fixed_point (table_step inc ro)) in *. cbv zeta in B0.
    fold zl. fold zl in Hfit.
    destruct (Z_le_gt_dec ((((zl - 2) * 4096 - x) / I)) (hlen mn - 1)) as [|C]; [assumption|exfalso].
    destruct (hlen_val mn Gm) as [Eh Bh]. destruct (count_facts mn Gm) as (_ & Vc & Bc).
    set (N := ZnearestE (val (count_of mn))) in *.
    assert (I0 : (0 < I)%Z) by (destruct Ht; lia).
    assert (D : ((N + 1) * I <= (zl - 2) * 4096)%Z).
    { assert (K := Z.mul_div_le ((zl - 2) * 4096 - x) I I0). nia. }
    apply IZR_le in D. rewrite !mult_IZR, plus_IZR, minus_IZR in D.
    assert (Nb := ZnearestE_bounds (val (count_of mn))). fold N in Nb.
    destruct tab_R as (Ri & Rl & Rr & Rm).
    set (z := IZR inc * Rmin 1 (val ro)) in *.
    assert (M : / 256 <= Rmin 1 (val ro) <= 1) by (destruct Gr as [_ Gr]; unfold Rmin; destruct (Rle_dec 1 (val ro)); lra).
    assert (Bz : IZR inc <= 256 * z /\ z <= IZR inc /\ / 256 <= z) by (unfold z; nra).
    apply Rabs_le_inv in A.
    (* lower bound of the count *)
    assert (Cl : (1 - / 4503599627370496) * (IZR zl / z) <= val (count_of mn)).
    { rewrite Vc. destruct q_facts as (_ & _ & Bq & Lq).
      assert (Q := inv_min_mono (val mn) (val ro) (proj1 (proj2 Gm)) Lm).
      apply Rle_trans with (rnd64 (val q_of / Rmin 1 (val ro))); [|now apply rnd64_mono].
      assert (Lz : (1 - / 9007199254740992) * (IZR zl / z) <= val q_of / Rmin 1 (val ro)).
      { apply (Rmult_le_reg_r (Rmin 1 (val ro))); [lra|]. unfold Rdiv at 2. rewrite (Rmult_assoc (val q_of)), Rinv_l, Rmult_1_r by lra.
        replace ((1 - / 9007199254740992) * (IZR zl / z) * Rmin 1 (val ro)) with ((1 - / 9007199254740992) * (IZR zl / IZR inc)); [exact Lq|].
        unfold z. field. split; lra. }
      assert (P : 0 < IZR zl / z) by (apply Rdiv_lt_0_compat; lra).
      assert (B0' : 1 <= val q_of / Rmin 1 (val ro)).
      { apply (Rmult_le_reg_r (Rmin 1 (val ro))); [lra|]. unfold Rdiv. rewrite Rmult_assoc, Rinv_l by lra. lra. }
      assert (E := rnd64_rel (val q_of / Rmin 1 (val ro))). rewrite (Rabs_pos_eq (val q_of / _)) in E by lra.
      assert (E1 : bpow radix2 (-1000) <= val q_of / Rmin 1 (val ro)) by (eapply Rle_trans; [|exact B0']; change 1 with (bpow radix2 0); apply bpow_le; lia).
      specialize (E E1). apply Rabs_le_inv in E. nra. }
    assert (Dz : (IZR zl / z) * z = IZR zl) by (field; lra).
    set (w := IZR zl / z) in *.
    assert (W : 0 < w) by (apply Rdiv_lt_0_compat; lra).
    apply IZR_le in Hfit. rewrite !mult_IZR, plus_IZR, minus_IZR, mult_IZR in Hfit.
    (* contradiction *)
    assert (K1 : (val (count_of mn) + / 2) * IZR I <= (IZR zl - 2) * 4096) by (apply IZR_lt in I0; nra).
    assert (K2 : ((1 - / 4503599627370496) * w + / 2) * (4096 * z - (/ 2 + / 33554432)) <= (IZR zl - 2) * 4096).
    { eapply Rle_trans; [|exact K1]. apply Rmult_le_compat; lra. }
    assert (K3 : 300 * IZR zl <= (1024 + 256 * z) * (4096 * z)).
    { eapply Rle_trans; [exact Hfit|]. apply Rmult_le_compat; lra. }
    assert (K4 : w * z = IZR zl) by exact Dz.
    (* multiply K2 by z *)
    assert (K5 : ((1 - / 4503599627370496) * IZR zl + z / 2) * (4096 * z - (/ 2 + / 33554432)) <= (IZR zl - 2) * 4096 * z).
    { rewrite <- K4 at 1. replace (((1 - / 4503599627370496) * (w * z) + z / 2) * (4096 * z - (/ 2 + / 33554432))) with
        ((((1 - / 4503599627370496) * w + / 2) * (4096 * z - (/ 2 + / 33554432))) * z) by field. apply Rmult_le_compat_r; lra. }
    assert (K6 : 2048 * (z * z) + 8192 * z <= 4096 * / 4503599627370496 * (z * IZR zl) + (/ 2 + / 33554432) * IZR zl + (/ 2 + / 33554432) * z) by nra.
    assert (K7 : z * IZR zl <= z * 500000) by (apply Rmult_le_compat_l; lra).
    assert (K8 : 0 <= z * z) by (apply Rmult_le_pos; lra).
    assert (K9 : 0 < z) by lra.
    clear - K3 K6 K7 K8 K9. lra.
  Qed.

  (** ** One position step is at most one half filter. *)
  Lemma stride_bound mn ro t : good_ratio mn -> good_ratio ro -> val mn <= val ro -> frac t ->
    (0 <= Zfloor (val (next_index t ro)) <= hlen mn)%Z.
  Proof.
    intros Gm Gr Lm Hf. destruct (step_val t ro Hf Gr) as (Vx & Px & Lx & _). fold (next_index t ro) in Vx, Px, Lx.
    destruct (hlen_val mn Gm) as [-> Bh]. destruct (count_facts mn Gm) as (_ & Vc & Bc).
    set (N := ZnearestE (val (count_of mn))) in *.
    assert (Nb := ZnearestE_bounds (val (count_of mn))). fold N in Nb.
    split; [apply Zfloor_lub; lra|].
    destruct Gm as (Fm & Lm1 & Um). destruct Gr as (Fr & Lr & Ur). destruct Hf as (_ & _ & L0 & U0).
    destruct q_facts as (_ & _ & Bq & _).
    assert (M : / 256 <= Rmin 1 (val mn) <= 1 /\ Rmin 1 (val mn) <= val ro) by (unfold Rmin; destruct (Rle_dec 1 (val mn)); lra).
    assert (A : rnd64 (/ val ro) <= val (count_of mn)).
    { rewrite Vc. apply rnd64_mono. apply Rle_trans with (1 * / Rmin 1 (val mn)).
      - rewrite Rmult_1_l. apply Rinv_le; lra.
      - unfold Rdiv. apply Rmult_le_compat_r; [|lra]. apply Rlt_le, Rinv_0_lt_compat. lra. }
    assert (X : val (next_index t ro) <= IZR N + 3 / 2).
    { rewrite Vx. apply rnd64_le; [|lra]. replace (IZR N + 3 / 2) with (IZR (2 * N + 3) * bpow radix2 (-1)).
      - apply fmt64_dyadic; lia.
      - rewrite plus_IZR, mult_IZR. simpl. lra. }
    apply Z.lt_succ_r, lt_IZR. apply Rle_lt_trans with (val (next_index t ro)); [apply Zfloor_lb|].
    rewrite succ_IZR, plus_IZR. lra.
  Qed.

  (** A filter that reaches four frames: steps are at most about half of it. *)
  Lemma stride_half mn ro t : (4 * inc <= zlen coeffs)%Z -> good_ratio mn -> good_ratio ro -> val mn <= val ro -> frac t ->
    (2 * Zfloor (val (next_index t ro)) <= hlen mn + 2)%Z.
  Proof.
    intros H4 Gm Gr Lm Hf. destruct (step_val t ro Hf Gr) as (Vx & Px & Lx & _). fold (next_index t ro) in Vx, Px, Lx.
    destruct (hlen_val mn Gm) as [-> Bh]. destruct (count_facts mn Gm) as (_ & Vc & Bc).
    set (N := ZnearestE (val (count_of mn))) in *.
    assert (Nb := ZnearestE_bounds (val (count_of mn))). fold N in Nb.
    destruct Gm as (Fm & Lm1 & Um). destruct Gr as (Fr & Lr & Ur). destruct Hf as (_ & _ & L0 & U0).
    destruct q_facts as (_ & Vq & Bq & _). destruct tab_R as (Ri & _).
    assert (Q4 : 4 <= val q_of).
    { rewrite Vq. apply rnd64_ge; [apply (fmt64_Z 4); lia|]. apply (Rmult_le_reg_r (IZR inc)); [lra|]. unfold Rdiv.
      rewrite Rmult_assoc, Rinv_l by lra. rewrite Rmult_1_r. rewrite <- mult_IZR. apply IZR_le. exact H4. }
    set (m := Rmin 1 (val mn)) in *.
    assert (M : / 256 <= m <= 1 /\ m <= val ro) by (unfold m, Rmin; destruct (Rle_dec 1 (val mn)); lra).
    assert (I1 : 1 <= / m <= 256).
    { split; [rewrite <- Rinv_1; apply Rinv_le; lra|]. rewrite <- (Rinv_inv 256). apply Rinv_le; lra. }
    assert (I2 : / val ro <= / m) by (apply Rinv_le; lra).
    assert (I3 : 0 < / val ro) by (apply Rinv_0_lt_compat; lra).
    assert (A : 4 * / m * (1 - bpow radix2 (-53)) <= val (count_of mn)).
    { rewrite Vc. apply Rle_trans with (rnd64 (4 * / m)).
      - apply rnd64_rel_pos. apply Rle_trans with 1; [|lra]. change 1 with (bpow radix2 0). apply bpow_le; lia.
      - apply rnd64_mono. unfold Rdiv. apply Rmult_le_compat_r; lra. }
    assert (P := bpow_m53_pos). assert (Q := bpow_m53_val). set (u := bpow radix2 (-53)) in *.
    assert (B : rnd64 (/ val ro) <= / m * (1 + u)).
    { apply Rle_trans with (rnd64 (/ m)); [now apply rnd64_mono|]. apply rnd64_rel_pos. apply Rle_trans with 1; [|lra]. change 1 with (bpow radix2 0). apply bpow_le; lia. }
    assert (X : val (next_index t ro) <= (1 + / m * (1 + u)) * (1 + u)).
    { rewrite Vx. apply Rle_trans with (rnd64 (1 + / m * (1 + u))); [apply rnd64_mono; lra|]. apply rnd64_rel_pos.
      apply Rle_trans with 1; [|nra]. change 1 with (bpow radix2 0). apply bpow_le; lia. }
    assert (Fl := Zfloor_lb (val (next_index t ro))). set (a := Zfloor (val (next_index t ro))) in *.
    assert (Us : u <= / 1000000) by lra.
    set (i := / m) in *. assert (0 <= i * u <= 256 * u) by nra. assert (0 <= i * u * u <= 256 * u * u) by nra. assert (u * u <= u) by nra.
    apply le_IZR. rewrite !plus_IZR, mult_IZR. lra.
  Qed.

  (** ** The buffer length *)
  Definition full_len : Z := psf_lrint (dadd (dmul q_of (d_of_Z SRC_MAX_RATIO)) done_).
  Hypothesis Htie : ((512 * zlen coeffs) mod (2 * inc) <> inc)%Z.

  Lemma full_len_val : let y := rnd64 (val q_of * 256) in
    full_len = ZnearestE (rnd64 (y + 1)) /\ (257 <= full_len <= 256002)%Z /\ 256 <= y <= 256000 /\
    Rabs (y - 256 * IZR zl / IZR inc) <= / 524288.
  Proof.
    intros y. destruct q_facts as (Fq & Vq & Bq & _). destruct done_val as [V1 F1].
    destruct (d_of_Z_val SRC_MAX_RATIO) as [V4 F4]; [unfold SRC_MAX_RATIO; lia|]. change (IZR SRC_MAX_RATIO) with 256 in V4.
    destruct (dmul_val q_of (d_of_Z SRC_MAX_RATIO) Fq F4) as [Vm Fm].
    { rewrite V4. apply small_1000, Rabs_le. lra. }
    rewrite V4 in Vm. fold y in Vm.
    assert (By : 256 <= y <= 256000).
    { unfold y. split; [apply rnd64_ge; [apply (fmt64_Z 256); lia|lra]|apply rnd64_le; [apply (fmt64_Z 256000); lia|lra]]. }
    destruct (dadd_val (dmul q_of (d_of_Z SRC_MAX_RATIO)) done_ Fm F1) as [Va Fa].
    { rewrite Vm, V1. apply small_1000, Rabs_le. lra. }
    rewrite Vm, V1 in Va.
    assert (Bs : 257 <= rnd64 (y + 1) <= 256001).
    { split; [apply rnd64_ge; [apply (fmt64_Z 257); lia|lra]|apply rnd64_le; [apply (fmt64_Z 256001); lia|lra]]. }
    assert (Bz : (257 <= ZnearestE (rnd64 (y + 1)) <= 256001)%Z).
    { rewrite <- (ZnearestE_IZR 257) at 1. rewrite <- (ZnearestE_IZR 256001) at 1. split; apply ZnearestE_mono; lra. }
    assert (E : full_len = ZnearestE (rnd64 (y + 1))).
    { unfold full_len. rewrite psf_lrint_val; [now rewrite Va|exact Fa|rewrite Va; lia]. }
    split; [exact E|]. split; [lia|]. split; [exact By|].
    destruct tab_R as (Ri & Rl & Rr & Rm).
    assert (Bw : 1 <= IZR zl / IZR inc <= 1000).
    { split; apply (Rmult_le_reg_r (IZR inc)); try lra; unfold Rdiv; rewrite Rmult_assoc, Rinv_l by lra; lra. }
    assert (E1 : Rabs (rnd64 (IZR zl / IZR inc) - IZR zl / IZR inc) <= bpow radix2 (10 - 53)).
    { apply rnd64_err; [lia|]. change (bpow radix2 10) with 1024. apply Rabs_le. lra. }
    assert (E2 : Rabs (rnd64 (val q_of * 256) - val q_of * 256) <= bpow radix2 (18 - 53)).
    { apply rnd64_err; [lia|]. change (bpow radix2 18) with 262144. apply Rabs_le. lra. }
    assert (P1 : bpow radix2 (10 - 53) = / 8796093022208) by reflexivity.
    assert (P2 : bpow radix2 (18 - 53) = / 34359738368) by reflexivity.
    rewrite P1 in E1. rewrite P2 in E2. rewrite <- Vq in E1. apply Rabs_le_inv in E1. apply Rabs_le_inv in E2. fold y in E2.
    unfold Rdiv in *. apply Rabs_le. lra.
  Qed.

  Lemma hlen_full mn : good_ratio mn -> (hlen mn <= full_len)%Z.
  Proof.
    intros G. destruct full_len_val as (-> & _ & By & Ey). set (y := rnd64 (val q_of * 256)) in *.
    destruct (hlen_val mn G) as [-> _]. destruct (count_facts mn G) as (_ & Vc & Bc).
    destruct q_facts as (_ & _ & Bq & _).
    assert (A : val (count_of mn) <= y).
    { rewrite Vc. apply rnd64_mono. destruct G as [_ G]. unfold Rdiv. apply Rmult_le_compat_l; [lra|].
      rewrite <- (Rinv_inv 256). apply Rinv_le; [lra|]. unfold Rmin. destruct (Rle_dec 1 (val mn)); lra. }
    apply Z.le_trans with (ZnearestE y + 1)%Z; [apply Zplus_le_compat_r, ZnearestE_mono, A|].
    set (N := ZnearestE y). assert (Nb := ZnearestE_bounds y). fold N in Nb.
    assert (M : IZR N - / 2 + / 262144 <= y).
    { destruct (Rle_lt_dec (IZR N - / 2 + / 262144) y) as [|C]; [assumption|exfalso].
      destruct tab_R as (Ri & Rl & Rr & Rm). apply Rabs_le_inv in Ey.
      assert (K : Rabs (IZR (512 * zl - (2 * N - 1) * inc)) < 1).
      { rewrite minus_IZR, !mult_IZR, minus_IZR, mult_IZR.
        replace (512 * IZR zl - (2 * IZR N - 1) * IZR inc) with (2 * IZR inc * (256 * IZR zl / IZR inc - (IZR N - / 2))) by (field; lra).
        set (w := 256 * IZR zl / IZR inc - (IZR N - / 2)) in *.
        assert (Bw : - / 131072 <= w <= / 131072) by (unfold w; lra).
        apply Rabs_lt. split; nra. }
      rewrite <- abs_IZR in K. apply lt_IZR in K. assert (K0 : (512 * zl = (N - 1) * (2 * inc) + inc)%Z) by lia.
      apply Htie. fold zl. rewrite K0. rewrite Z.add_comm, Z.mod_add by (destruct Ht; lia). apply Z.mod_small. destruct Ht; lia. }
    assert (S : IZR N + / 2 + / 262144 <= rnd64 (y + 1)).
    { assert (Bn : (255 <= N <= 256001)%Z).
      { split; apply Z.lt_succ_r; apply lt_IZR; rewrite succ_IZR; lra. }
      apply rnd64_ge; [|lra]. replace (IZR N + / 2 + / 262144) with (IZR (262144 * N + 131073) * bpow radix2 (-18)).
      - apply fmt64_dyadic; lia.
      - rewrite plus_IZR, mult_IZR. change (bpow radix2 (-18)) with (/ 262144). lra. }
    assert (Sb := ZnearestE_bounds (rnd64 (y + 1))). apply Z.le_succ_l, lt_IZR in Sb || idtac.
    cut (N < ZnearestE (rnd64 (y + 1)))%Z; [lia|]. apply lt_IZR. lra.
  Qed.

  Lemma b_len_val ch : (1 <= ch <= 128)%Z -> sinc_b_len (zlen coeffs - 2) inc ch = Ok (Z.max (3 * full_len) 4096 * ch + 1)%Z.
  Proof.
    intros Hc. destruct full_len_val as (_ & B & _). unfold sinc_b_len. fold q_of. fold full_len.
    rewrite int_ok by lia. cbn [bind]. rewrite int_ok by nia. cbn [bind]. apply int_ok. nia.
  Qed.
End Table.
