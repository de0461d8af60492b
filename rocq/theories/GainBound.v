(** One output sample of a sinc converter: close to the exact weighted sum, and bounded. *)
From Coq Require Import ZArith Reals List Bool Lia Lra Psatz.
From Flocq Require Import Core IEEE754.BinarySingleNaN.
From Verif Require Import Base FloatFacts ErrFacts PosFacts HoldSpec HoldFacts HoldRamp HoldCore LifeSpec SincSpec SincFacts GainGrid GainCheck GainUnits GainFloat GainWeights.
Import ListNotations.
Local Open Scope Z_scope.

(** ** Sums of a decreasing function along a progression *)
Section Decreasing.
  Variables (E : Z -> Z) (len : nat).
  Hypothesis Hdec : forall j k, 0 <= j <= k -> 0 <= E k <= E j.
  Hypothesis Hend : forall k, Z.of_nat len <= k -> E k = 0.

  Let P (u : nat) := zsum (fun v => E (v / 4096)) u.
  Lemma P_S u : P (S u) = P u + E (Z.of_nat u / 4096).
  Proof. reflexivity. Qed.
  Lemma P_diff a : forall d, Z.of_nat d * E (Z.of_nat (a + d) / 4096) <= P (a + d) - P a.
  Proof.
    assert (G : forall d c, (d <= c)%nat -> Z.of_nat d * E (Z.of_nat (a + c) / 4096) <= P (a + d) - P a).
    { induction d as [|d IH]; intros c L; [rewrite Nat.add_0_r; lia|]. specialize (IH c ltac:(lia)).
      replace (a + S d)%nat with (S (a + d)) by lia. rewrite P_S.
      assert (Q : 0 <= E (Z.of_nat (a + c) / 4096) <= E (Z.of_nat (a + d) / 4096)).
      { apply Hdec. split; [apply Z.div_pos; lia|apply Z.div_le_mono; lia]. }
      nia. }
    intros d. apply G. lia.
  Qed.
  Lemma P_block k : P (4096 * k) = 4096 * zsum E k.
  Proof.
    induction k as [|k IH]; [reflexivity|]. replace (4096 * S k)%nat with (4096 * k + 4096)%nat by lia.
    assert (G : forall d, (d <= 4096)%nat -> P (4096 * k + d) = P (4096 * k) + Z.of_nat d * E (Z.of_nat k)).
    { induction d as [|d IHd]; intros L; [rewrite Nat.add_0_r; lia|]. replace (4096 * k + S d)%nat with (S (4096 * k + d)) by lia.
      rewrite P_S, IHd by lia.
      replace (Z.of_nat (4096 * k + d)) with (Z.of_nat d + Z.of_nat k * 4096) by lia. rewrite Z.div_add, Z.div_small by lia. rewrite Z.add_0_l, Nat2Z.inj_succ. ring. }
    rewrite (G 4096%nat) by reflexivity. rewrite IH. cbn [zsum]. lia.
  Qed.
  Lemma P_mono a d : P a <= P (a + d).
  Proof.
    assert (Q := P_diff a d). assert (0 <= E (Z.of_nat (a + d) / 4096)); [|nia]. apply (Hdec 0). split; [lia|]. apply Z.div_pos; lia.
  Qed.
  Lemma zsum_top k : zsum E k <= zsum E len.
  Proof.
    destruct (Nat.le_gt_cases len k) as [Q|Q].
    - rewrite (zsum_more E len k) by (auto; intros; apply Hend; lia). lia.
    - replace len with (k + (len - k))%nat by lia. induction (len - k)%nat as [|d IH]; [rewrite Nat.add_0_r; lia|].
      replace (k + S d)%nat with (S (k + d)) by lia. cbn [zsum]. assert (0 <= E (Z.of_nat (k + d))); [|lia]. apply (Hdec 0). lia.
  Qed.
  Lemma P_top u : P u <= 4096 * zsum E len.
  Proof.
    assert (A := P_mono u (4096 * S u - u)). replace (u + (4096 * S u - u))%nat with (4096 * S u)%nat in A by lia.
    rewrite P_block in A. assert (B := zsum_top (S u)). lia.
  Qed.
  Lemma progression I t n : 0 < I -> 0 <= t -> I * zsum (fun i => E ((t + i * I) / 4096)) n <= I * E 0 + 4096 * zsum E len.
  Proof.
    intros HI Ht.
    assert (E0 : forall f, 0 <= f -> 0 <= E (f / 4096) <= E 0) by (intros f Hf; apply Hdec; split; [lia|apply Z.div_pos; lia]).
    assert (G : forall m, I * zsum (fun i => E ((t + i * I) / 4096)) (S m) <= I * E 0 + P (Z.to_nat (t + Z.of_nat m * I))).
    { induction m as [|k IH].
      - rewrite zsum_first. change (zsum (fun i : Z => E ((t + (i + 1) * I) / 4096)) 0) with 0. change (Z.of_nat 0) with 0. assert (A := E0 (t + 0 * I) ltac:(lia)). assert (B := P_mono 0 (Z.to_nat (t + 0 * I))). rewrite Nat.add_0_l in B. change (P 0) with 0 in B.
        assert (I * E ((t + 0 * I) / 4096) <= I * E 0) by (apply Z.mul_le_mono_nonneg_l; lia). lia.
      - remember (S k) as k1 eqn:Ek. cbn [zsum]. subst k1. set (a := Z.to_nat (t + Z.of_nat k * I)) in *.
        assert (D := P_diff a (Z.to_nat I)). replace (a + Z.to_nat I)%nat with (Z.to_nat (t + Z.of_nat (S k) * I)) in D by (unfold a; nia).
        rewrite !Z2Nat.id in D by nia. lia. }
    destruct n as [|n]; [cbn [zsum]|eapply Z.le_trans; [apply G|]; assert (B := P_top (Z.to_nat (t + Z.of_nat n * I))); lia].
    assert (A := E0 0 ltac:(lia)). change (0 / 4096) with 0 in A. assert (B := P_top 0). change (P 0) with 0 in B. nia.
  Qed.
End Decreasing.

Lemma envelope_dec l : forall j k, (j <= k)%nat -> 0 <= nth k (envelope l) 0 <= nth j (envelope l) 0.
Proof.
  induction l as [|x r IH]; intros j k L; cbn [envelope]; [destruct k, j; cbn; lia|].
  destruct j as [|j]; destruct k as [|k]; cbn [nth]; try lia.
  - assert (A := IH 0%nat k ltac:(lia)). rewrite hd_nth. lia.
  - apply IH. lia.
Qed.
Definition env (l : list Z) (j : Z) : Z := nth (Z.to_nat j) (envelope (map Z.abs l)) 0.
Lemma env_dec l j k : 0 <= j <= k -> 0 <= env l k <= env l j.
Proof. intros H. apply envelope_dec. lia. Qed.
Lemma env_end l k : Z.of_nat (length l) <= k -> env l k = 0.
Proof. intros H. unfold env. apply nth_overflow. rewrite envelope_length, map_length. lia. Qed.
Lemma env_entry l j k : 0 <= j <= k -> Z.abs (entry l k) <= env l j.
Proof.
  intros H. unfold env, entry. rewrite (Z.abs_eq k) by lia. destruct (envelope_nth (map Z.abs l) (Z.to_nat j) (Z.to_nat k) ltac:(lia)) as [A _].
  change 0 with (Z.abs 0) in A at 1. rewrite map_nth in A. exact A.
Qed.
Lemma zsum_nth l : zsum (fun i => nth (Z.to_nat i) l 0) (length l) = fold_right Z.add 0 l.
Proof.
  induction l as [|x r IH]; [reflexivity|]. cbn [length]. rewrite zsum_first. cbn [fold_right]. rewrite <- IH. f_equal.
  apply zsum_ext. intros i H. replace (Z.to_nat (i + 1)) with (S (Z.to_nat i)) by lia. reflexivity.
Qed.
Lemma env_sum l : zsum (env l) (length l) = fold_right Z.add 0 (envelope (map Z.abs l)).
Proof. rewrite <- zsum_nth, envelope_length, map_length. reflexivity. Qed.
Lemma interp_env l f j : 0 <= f -> 0 <= j <= f / 4096 -> Z.abs (interp (entry l) f) <= 4096 * env l j.
Proof.
  intros Hf Hj. unfold interp. assert (A := env_entry l j (f / 4096) Hj). assert (B := env_entry l j (f / 4096 + 1) ltac:(lia)).
  assert (R := Z.mod_pos_bound f 4096 ltac:(lia)). set (r := f mod 4096) in *. nia.
Qed.

(** ** What is checked about a table *)
Definition all_steps (n : Z) (l : list Z) : bool := forallb (fun p => Z.abs (snd p) <=? n) (removelast (pairs l)).
Definition table_gain (t : Z * list f32) : Prop :=
  let '(inc, coeffs) := t in let l := map units coeffs in
  table_ok t /\ zlen coeffs <= 64 * inc /\ Forall (fun c : f32 => is_finite c = true) coeffs /\
  (forall k, Z.abs (entry l k) <= 2 ^ 30 - 16) /\
  (forall k, 0 <= k <= zlen coeffs - 2 -> Z.abs (entry l (k + 1) - entry l k) <= 2 ^ 25 - 2) /\
  10 * (inc * env l 0 + zsum (env l) (length l)) <= 24 * inc * 2 ^ 30.

Definition gain_check (inc : Z) (l : list Z) : bool :=
  forallb (fun a => Z.abs a <=? 2 ^ 30 - 16) l && all_steps (2 ^ 25 - 2) l &&
  (let e := envelope (map Z.abs l) in 10 * (inc * hd 0 e + fold_right Z.add 0 e) <=? 24 * inc * 2 ^ 30).

Lemma removelast_nth {A} (z : A) l : forall k, (S k < length l)%nat -> nth k (removelast l) z = nth k l z.
Proof.
  induction l as [|x r IH]; intros k L; [cbn in L; lia|]. destruct r as [|y r]; [cbn in L; lia|].
  change (removelast (x :: y :: r)) with (x :: removelast (y :: r)). destruct k as [|k]; [reflexivity|]. cbn [nth]. apply IH. cbn [length] in *. lia.
Qed.
Lemma removelast_length {A} (l : list A) : length (removelast l) = (length l - 1)%nat.
Proof.
  induction l as [|x r IH]; [reflexivity|]. destruct r as [|y r]; [reflexivity|].
  change (removelast (x :: y :: r)) with (x :: removelast (y :: r)). cbn [length] in *. lia.
Qed.
Lemma gain_check_ok inc coeffs : table_ok (inc, coeffs) -> zlen coeffs <= 64 * inc -> Forall (fun c : f32 => is_finite c = true) coeffs ->
  gain_check inc (map units coeffs) = true -> table_gain (inc, coeffs).
Proof.
  intros Ht C1 C2 C. unfold gain_check in C. unfold table_gain. set (l := map units coeffs) in *.
  apply andb_prop in C as [C C5]. apply andb_prop in C as [C3 C4].
  apply Z.leb_le in C5. rewrite forallb_forall in C3. unfold all_steps in C4. rewrite forallb_forall in C4.
  split; [exact Ht|]. split; [exact C1|]. split; [exact C2|]. split; [|split].
  - intros k. unfold entry. destruct (nth_in_or_default (Z.to_nat (Z.abs k)) l 0) as [I|E]; [apply Z.leb_le, C3, I|rewrite E; cbn; lia].
  - intros k Hk. assert (Ll : zlen coeffs = Z.of_nat (length l)) by (unfold zlen, l; now rewrite map_length).
    assert (N : nth (Z.to_nat k) (removelast (pairs l)) (0, 0) = (4096 * entry l k, entry l (k + 1) - entry l k)).
    { rewrite removelast_nth by (rewrite pairs_length; lia). rewrite pairs_nth. unfold entry. rewrite !Z.abs_eq by lia.
      now replace (Z.to_nat (k + 1)) with (S (Z.to_nat k)) by lia. }
    assert (M : (Z.to_nat k < length (removelast (pairs l)))%nat) by (rewrite removelast_length, pairs_length; lia).
    assert (Q := C4 _ (nth_In _ (0, 0) M)). rewrite N in Q. cbn [snd] in Q. apply Z.leb_le in Q. exact Q.
  - rewrite env_sum. unfold env. change (Z.to_nat 0) with 0%nat. rewrite <- hd_nth. exact C5.
Qed.

(** ** The sample *)
Local Open Scope R_scope.
Section Sample.
  Variables (inc : Z) (coeffs : list f32).
  Hypothesis Hg : table_gain (inc, coeffs).
  Let l := map units coeffs.
  Lemma gain_table : table_ok (inc, coeffs).
  Proof. exact (proj1 Hg). Qed.

  Lemma gain_weight f : (0 <= f <= (zlen coeffs - 2) * 4096)%Z ->
    fin (weight coeffs f) /\ Rabs (val (weight coeffs f) - plain coeffs f) <= / 268435456 /\ Rabs (val (weight coeffs f)) <= 1.
  Proof. destruct Hg as (_ & _ & A & B & C & _). intros Hf. now apply weight_close. Qed.
  Lemma weight_env f : (0 <= f <= (zlen coeffs - 2) * 4096)%Z -> Rabs (val (weight coeffs f)) <= IZR (env l (f / 4096)) / one30 + / 268435456.
  Proof.
    intros Hf. destruct (gain_weight f Hf) as (_ & A & _).
    assert (B : Rabs (plain coeffs f) <= IZR (env l (f / 4096)) / one30).
    { unfold plain. fold l. assert (C := interp_env l f (f / 4096) ltac:(lia) ltac:(split; [apply Z.div_pos; lia|lia])).
      apply IZR_le in C. rewrite abs_IZR, mult_IZR in C. unfold Rdiv, one30. rewrite Rabs_mult, (Rabs_pos_eq (/ _)) by lra. lra. }
    assert (T := Rabs_triang (val (weight coeffs f) - plain coeffs f) (plain coeffs f)).
    replace (val (weight coeffs f) - plain coeffs f + plain coeffs f) with (val (weight coeffs f)) in T by ring. lra.
  Qed.

  Definition wsum (I t : Z) (n : nat) : R := rsum (fun i => Rabs (val (weight coeffs (t + i * I)))) n.
  Lemma rsum_IZR g n : rsum (fun i => IZR (g i)) n = IZR (zsum g n).
  Proof. induction n as [|n IH]; [reflexivity|]. cbn [rsum zsum]. rewrite IH, plus_IZR. reflexivity. Qed.
  (** One wing: everything the table reaches, from index t in steps of I. *)
  Lemma wing_bound I t n : (0 < I <= 4096 * inc)%Z -> (0 <= t)%Z -> (forall i, (0 <= i < Z.of_nat n)%Z -> (t + i * I <= (zlen coeffs - 2) * 4096)%Z) ->
    IZR I * (wsum I t n + INR n * slip) <= 4096 * IZR inc * (2401 / 1000) /\ IZR I * INR n <= 4096 * 65 * IZR inc.
  Proof.
    intros HI H0 Hn. destruct Hg as (_ & HL & _ & _ & _ & HE).
    assert (Nn : IZR I * INR n <= 4096 * 65 * IZR inc).
    { rewrite INR_IZR_INZ, <- !mult_IZR. apply IZR_le. destruct n as [|n]; [lia|]. specialize (Hn (Z.of_nat n) ltac:(lia)). nia. }
    split; [|exact Nn].
    assert (W : wsum I t n <= (IZR (zsum (fun i => env l ((t + i * I) / 4096)) n) + 4 * INR n) / one30).
    { unfold wsum. apply Rle_trans with (rsum (fun i => IZR (env l ((t + i * I) / 4096)) * / one30 + / 268435456) n).
      - apply rsum_le. intros i Hi. apply weight_env. specialize (Hn i Hi). nia.
      - rewrite rsum_plus, rsum_const. rewrite (rsum_ext _ (fun i => / one30 * IZR (env l ((t + i * I) / 4096)))) by (intros; ring).
        rewrite rsum_scale, rsum_IZR. unfold one30. lra. }
    assert (G := progression (env l) (length l) (env_dec l) (env_end l) I t n ltac:(lia) H0).
    assert (PI : 0 < IZR I) by (apply IZR_lt; lia). assert (Pi : 0 < IZR inc) by (apply IZR_lt; lia).
    assert (A : IZR I * IZR (zsum (fun i => env l ((t + i * I) / 4096)) n) <= 4096 * (24 / 10 * IZR inc * one30)).
    { rewrite <- mult_IZR. apply Rle_trans with (IZR (4096 * (inc * env l 0 + zsum (env l) (length l)))).
      - apply IZR_le. assert (E0 := env_dec l 0 0 ltac:(lia)). nia.
      - rewrite mult_IZR. apply Rmult_le_compat_l; [lra|]. apply IZR_le in HE. rewrite !mult_IZR in HE. unfold one30.
        change (IZR (2 ^ 30)) with 1073741824 in HE. fold l in HE. lra. }
    set (Z0 := IZR (zsum (fun i => env l ((t + i * I) / 4096)) n)) in *. set (N := INR n) in *.
    assert (W1 : IZR I * wsum I t n <= (IZR I * Z0 + 4 * (IZR I * N)) / one30).
    { apply Rmult_le_compat_l with (r := IZR I) in W; [|lra]. unfold Rdiv in *. lra. }
    unfold one30, slip in *. lra.
  Qed.

  (** The output before its conversion to single precision. *)
  Lemma sample_close (ro : f64) (t : Z) (nl nr : nat) (xl xr : Z -> f32) M :
    let step := table_step inc ro in let I := fixed_point step in let s0 := val step / IZR inc in
    good_ratio ro -> (0 <= t < I)%Z -> sized M -> M <= bpow radix2 128 ->
    (forall i, (0 <= i < Z.of_nat nl)%Z -> (t + i * I <= (zlen coeffs - 2) * 4096)%Z /\ fin (xl i) /\ Rabs (val (xl i)) <= M) ->
    (forall i, (0 <= i < Z.of_nat nr)%Z -> (I - t + i * I <= (zlen coeffs - 2) * 4096)%Z /\ fin (xr i) /\ Rabs (val (xr i)) <= M) ->
    let v := dmul (ddiv step (d_of_Z inc)) (dadd (weigh (fun i => weight coeffs (t + i * I)) xl nl dzero) (weigh (fun i => weight coeffs (I - t + i * I)) xr nr dzero)) in
    let exact := s0 * (rsum (fun i => val (weight coeffs (t + i * I)) * val (xl i)) nl + rsum (fun i => val (weight coeffs (I - t + i * I)) * val (xr i)) nr) in
    fin v /\ Rabs (val v - exact) <= / 1000000000 * M /\ Rabs exact <= 496 / 100 * M /\
    s0 * INR nl <= 68 /\ s0 * INR nr <= 68 /\ 4096 * IZR inc * s0 = 4096 * val step.
  Proof.
    intros step I s0 G HtI HM UM Hl Hr v exact. assert (PM := sized_pos M HM).
    assert (Fz : frac dzero). { repeat split; try reflexivity; simpl; try lra. } 
    destruct (index_facts inc coeffs gain_table ro dzero G Fz) as (_ & _ & _ & BI & _). fold step in BI. fold I in BI.
    destruct (step_facts inc coeffs gain_table ro G) as (Ff & Vf & Bz & Ez & Bf). fold step in Ff, Vf, Ez, Bf.
    destruct (tab_R inc coeffs gain_table) as (Ri & _).
    destruct (fixed_facts coeffs step Ff) as (_ & _ & _ & AI); [lra|]. fold I in AI. apply Rabs_le_inv in AI.
    destruct (wing_bound I t nl ltac:(lia) ltac:(lia) ltac:(intros i Hi; apply Hl; exact Hi)) as [WL NL].
    destruct (wing_bound I (I - t) nr ltac:(lia) ltac:(lia) ltac:(intros i Hi; apply Hr; exact Hi)) as [WR NR].
    assert (BIr : 16 * IZR inc <= IZR I) by (rewrite <- mult_IZR; apply IZR_le; lia).
    assert (PI : 16 <= IZR I) by lra.
    assert (S0 : 0 < s0 <= 1).
    { unfold s0. split; [apply Rdiv_lt_0_compat; lra|]. apply (Rmult_le_reg_r (IZR inc)); [lra|]. unfold Rdiv. rewrite Rmult_assoc, Rinv_l by lra. lra. }
    assert (Es0 : 4096 * IZR inc * s0 = 4096 * val step) by (unfold s0; field; lra).
    (* s0 in terms of I *)
    assert (Si : 4096 * IZR inc * s0 <= (1 + / 31) * IZR I) by lra.
    assert (Hs : forall V, 0 <= V -> IZR I * V <= 4096 * IZR inc * (2401 / 1000) -> s0 * V <= 2479 / 1000 /\ V <= 700).
    { intros V PV HV. split.
      - apply (Rmult_le_reg_l (4096 * IZR inc)); [lra|]. replace (4096 * IZR inc * (s0 * V)) with (4096 * IZR inc * s0 * V) by ring.
        apply Rle_trans with ((1 + / 31) * (IZR I * V)); [|lra]. rewrite <- Rmult_assoc. apply Rmult_le_compat_r; assumption.
      - apply (Rmult_le_reg_l (16 * IZR inc)); [lra|]. apply Rle_trans with (IZR I * V); [apply Rmult_le_compat_r; assumption|]. lra. }
    set (VL := wsum I t nl + INR nl * slip) in *. set (VR := wsum I (I - t) nr + INR nr * slip) in *.
    assert (Pl := pos_INR nl). assert (Pr := pos_INR nr). assert (Psl : 0 < slip) by (unfold slip; lra).
    assert (Wl0 : forall a n, 0 <= wsum I a n). { intros a n. unfold wsum. rewrite <- (Rmult_0_r (INR n)), <- rsum_const. apply rsum_le. intros; apply Rabs_pos. }
    assert (PVL : 0 <= VL) by (unfold VL; assert (A := Wl0 t nl); assert (0 <= INR nl * slip) by (apply Rmult_le_pos; lra); lra).
    assert (PVR : 0 <= VR) by (unfold VR; assert (A := Wl0 (I - t)%Z nr); assert (0 <= INR nr * slip) by (apply Rmult_le_pos; lra); lra).
    destruct (Hs VL PVL WL) as [SL BL]. destruct (Hs VR PVR WR) as [SR BR].
    assert (Hn : forall N, 0 <= N -> IZR I * N <= 4096 * 65 * IZR inc -> s0 * N <= 68).
    { intros N PN HN. apply (Rmult_le_reg_l (4096 * IZR inc)); [lra|]. replace (4096 * IZR inc * (s0 * N)) with (4096 * IZR inc * s0 * N) by ring.
      apply Rle_trans with ((1 + / 31) * (IZR I * N)); [|lra]. rewrite <- Rmult_assoc. apply Rmult_le_compat_r; assumption. }
    assert (NL' := Hn _ Pl NL). assert (NR' := Hn _ Pr NR).
    (* the two sums *)
    assert (Fd0 : fin dzero /\ val dzero = 0) by (split; reflexivity). destruct Fd0 as [Fd0 Vd0].
    destruct (weigh_err M (fun i => weight coeffs (t + i * I)) xl HM UM nl) with (a := dzero) as [FL EL].
    { intros i Hi. destruct (Hl i Hi) as (A & _). destruct (gain_weight (t + i * I)) as (B & _ & C); [nia|]. auto. }
    { intros i Hi. apply Hl. exact Hi. }
    { exact Fd0. }
    { rewrite Vd0, Rabs_R0, Rplus_0_l. apply Rmult_le_compat_r; [exact PM|]. fold (wsum I t nl). fold VL. lra. }
    destruct (weigh_err M (fun i => weight coeffs (I - t + i * I)) xr HM UM nr) with (a := dzero) as [FR ER].
    { intros i Hi. destruct (Hr i Hi) as (A & _). destruct (gain_weight (I - t + i * I)) as (B & _ & C); [nia|]. auto. }
    { intros i Hi. apply Hr. exact Hi. }
    { exact Fd0. }
    { rewrite Vd0, Rabs_R0, Rplus_0_l. apply Rmult_le_compat_r; [exact PM|]. fold (wsum I (I - t) nr). fold VR. lra. }
    rewrite Vd0, Rplus_0_l in EL, ER.
    set (left := weigh (fun i => weight coeffs (t + i * I)) xl nl dzero) in *. set (right := weigh (fun i => weight coeffs (I - t + i * I)) xr nr dzero) in *.
    set (PL := rsum (fun i => val (weight coeffs (t + i * I)) * val (xl i)) nl) in *. set (PR := rsum (fun i => val (weight coeffs (I - t + i * I)) * val (xr i)) nr) in *.
    assert (APL : Rabs PL <= wsum I t nl * M).
    { unfold PL, wsum. rewrite Rmult_comm, <- rsum_scale. apply rsum_abs. intros i Hi. rewrite Rabs_mult, Rmult_comm. apply Rmult_le_compat_r; [apply Rabs_pos|apply Hl, Hi]. }
    assert (APR : Rabs PR <= wsum I (I - t) nr * M).
    { unfold PR, wsum. rewrite Rmult_comm, <- rsum_scale. apply rsum_abs. intros i Hi. rewrite Rabs_mult, Rmult_comm. apply Rmult_le_compat_r; [apply Rabs_pos|apply Hr, Hi]. }
    assert (Tr : forall a b, Rabs a <= Rabs (a - b) + Rabs b) by (intros a b; replace a with (a - b + b) at 1 by ring; apply Rabs_triang).
    assert (AL : Rabs (val left) <= VL * M) by (eapply Rle_trans; [apply (Tr _ PL)|]; unfold VL; lra).
    assert (AR : Rabs (val right) <= VR * M) by (eapply Rle_trans; [apply (Tr _ PR)|]; unfold VR; lra).
    assert (Big : forall z, Rabs z <= 4096 * M -> Rabs z <= bpow radix2 1000).
    { intros z H. apply Rle_trans with (1 := H). apply Rle_trans with (bpow radix2 12 * bpow radix2 128).
      - change (bpow radix2 12) with 4096. lra.
      - rewrite <- bpow_plus. apply bpow_le. lia. }
    assert (A2 : Rabs (val left + val right) <= 1400 * M).
    { eapply Rle_trans; [apply Rabs_triang|]. assert (VL * M <= 700 * M) by (apply Rmult_le_compat_r; lra). assert (VR * M <= 700 * M) by (apply Rmult_le_compat_r; lra). lra. }
    destruct (dadd_val left right FL FR) as [Vs Fs]; [apply Big; lra|].
    assert (Esum := rnd64_sized M 1400 (val left + val right) HM A2). rewrite <- Vs in Esum. set (sm := dadd left right) in *.
    (* the scale *)
    destruct gain_table as (Hi & _). destruct (d_of_Z_val inc) as [Vi Fi]; [lia|].
    destruct (ddiv_val step (d_of_Z inc) Ff) as [Vd Fd]; [rewrite Vi; lra|rewrite Vi; fold s0; apply small_1000, Rabs_le; lra|].
    rewrite Vi in Vd. fold s0 in Vd. set (sc := ddiv step (d_of_Z inc)) in *.
    assert (Esc := rnd64_err s0 0 ltac:(lia) ltac:(change (bpow radix2 0) with 1; apply Rabs_le; lra)). rewrite <- Vd in Esc.
    change (bpow radix2 (0 - 53)) with (/ 9007199254740992) in Esc. apply Rabs_le_inv in Esc.
    assert (T := tiny_small). unfold eps in *.
    assert (Asm : Rabs (val sm) <= 1401 * M).
    { eapply Rle_trans; [apply (Tr _ (val left + val right))|]. assert ((/ 9007199254740992 * 1400 + tiny) * M <= 1 * M) by (apply Rmult_le_compat_r; lra). lra. }
    assert (Asc : Rabs (val sc) <= 2) by (apply Rabs_le; lra).
    assert (Apr : Rabs (val sc * val sm) <= 2802 * M).
    { rewrite Rabs_mult. apply Rle_trans with (2 * (1401 * M)); [apply Rmult_le_compat; try apply Rabs_pos; assumption|lra]. }
    destruct (dmul_val sc sm Fd Fs) as [Vv Fv]; [apply Big; lra|].
    assert (Ev := rnd64_sized M 2802 (val sc * val sm) HM Apr). rewrite <- Vv in Ev. fold v in Vv, Fv, Ev.
    split; [exact Fv|]. unfold eps in *.
    assert (X1 : Rabs (val sc * val sm - s0 * val sm) <= / 9007199254740992 * (1401 * M)).
    { replace (val sc * val sm - s0 * val sm) with ((val sc - s0) * val sm) by ring. rewrite Rabs_mult. apply Rmult_le_compat; try apply Rabs_pos; [apply Rabs_le; lra|exact Asm]. }
    assert (X2 : Rabs (s0 * val sm - s0 * (val left + val right)) <= (/ 9007199254740992 * 1400 + tiny) * M).
    { replace (s0 * val sm - s0 * (val left + val right)) with (s0 * (val sm - (val left + val right))) by ring. rewrite Rabs_mult, (Rabs_pos_eq s0) by lra.
      apply Rle_trans with (1 * Rabs (val sm - (val left + val right))); [apply Rmult_le_compat_r; [apply Rabs_pos|lra]|lra]. }
    assert (X3 : Rabs (s0 * (val left + val right) - exact) <= 136 * slip * M).
    { unfold exact. replace (s0 * (val left + val right) - s0 * (PL + PR)) with (s0 * ((val left - PL) + (val right - PR))) by ring.
      rewrite Rabs_mult, (Rabs_pos_eq s0) by lra.
      apply Rle_trans with (s0 * (INR nl * slip * M + INR nr * slip * M)).
      - apply Rmult_le_compat_l; [lra|]. eapply Rle_trans; [apply Rabs_triang|]. lra.
      - replace (s0 * (INR nl * slip * M + INR nr * slip * M)) with ((s0 * INR nl + s0 * INR nr) * (slip * M)) by ring.
        replace (136 * slip * M) with (136 * (slip * M)) by ring. apply Rmult_le_compat_r; [apply Rmult_le_pos; lra|lra]. }
    split.
    { replace (val v - exact) with ((val v - val sc * val sm) + (val sc * val sm - s0 * val sm) + (s0 * val sm - s0 * (val left + val right)) + (s0 * (val left + val right) - exact)) by ring.
      eapply Rle_trans; [apply Rabs_triang|]. eapply Rle_trans; [apply Rplus_le_compat_r, Rabs_triang|]. eapply Rle_trans; [apply Rplus_le_compat_r, Rplus_le_compat_r, Rabs_triang|].
      apply Rle_trans with ((/ 9007199254740992 * 2802 + tiny + / 9007199254740992 * 1401 + (/ 9007199254740992 * 1400 + tiny) + 136 * slip) * M); [lra|].
      apply Rmult_le_compat_r; [exact PM|]. unfold slip. lra. }
    split; [|auto].
    unfold exact. rewrite Rabs_mult, (Rabs_pos_eq s0) by lra.
    assert (Y1 : Rabs (PL + PR) <= (VL + VR) * M).
    { eapply Rle_trans; [apply Rabs_triang|]. assert (0 <= INR nl * slip * M) by (apply Rmult_le_pos; [apply Rmult_le_pos; lra|lra]).
      assert (0 <= INR nr * slip * M) by (apply Rmult_le_pos; [apply Rmult_le_pos; lra|lra]). unfold VL, VR. lra. }
    apply Rle_trans with (s0 * ((VL + VR) * M)); [apply Rmult_le_compat_l; lra|].
    replace (s0 * ((VL + VR) * M)) with ((s0 * VL + s0 * VR) * M) by ring. apply Rmult_le_compat_r; lra.
  Qed.
End Sample.
