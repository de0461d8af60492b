(** What the checks of ToneCheck.v mean. *)
From Coq Require Import ZArith Reals List Bool Lia Lra Psatz.
From Verif Require Import ToneTrig ToneCheck.
Import ListNotations.
Local Open Scope R_scope.

Lemma abs_inv x y : Rabs x <= y -> - y <= x <= y.
Proof. intros H. unfold Rabs in H. destruct (Rcase_abs x); lra. Qed.
(** Errors counted in units of the last place. *)
Definition close (n : Z) (z : Z * Z) (a : R) (E : Z) : Prop := around n z a (IZR E / unitb n).
Lemma close_weaken n z a E E' : (0 <= n)%Z -> close n z a E -> (E <= E')%Z -> close n z a E'.
Proof.
  intros Hn H L. eapply around_weaken; [exact H|]. apply Rmult_le_compat_r; [left; apply Rinv_0_lt_compat; now apply unitb_pos|]. now apply IZR_le.
Qed.
Lemma close_turn n z a E z' b E' : (0 <= n)%Z -> (0 <= E)%Z -> (0 <= E')%Z -> (E * E' <= 2 ^ n)%Z ->
  close n z a E -> close n z' b E' -> close n (turn n z z') (a + b) (E + E' + 3).
Proof.
  intros Hn HE HE' L H H'. eapply around_weaken; [apply (around_turn n _ _ _ _ _ _ Hn H H')|]. pose proof (unitb_pos n Hn) as P.
  assert (I : 0 < / unitb n) by (apply Rinv_0_lt_compat; exact P). apply IZR_le in HE, HE', L. rewrite mult_IZR in L. fold (unitb n) in L. rewrite !plus_IZR.
  assert (M : IZR E / unitb n * (IZR E' / unitb n) <= / unitb n).
  { replace (IZR E / unitb n * (IZR E' / unitb n)) with (IZR E * IZR E' * / unitb n * / unitb n) by (field; lra).
    rewrite <- (Rmult_1_l (/ unitb n)) at 3. apply Rmult_le_compat_r; [lra|]. replace 1 with (unitb n * / unitb n) by (field; lra). apply Rmult_le_compat_r; lra. }
  unfold Rdiv in *. lra.
Qed.
Lemma base_ok : close 60 base (/ 512) 4.
Proof.
  unfold close, around, off. eapply Rle_trans; [apply dist_sum|]. unfold base, unitb. cbn [fst snd]. change (2 ^ 60)%Z with 1152921504606846976%Z.
  assert (A : Rabs (/ 512) <= 2) by (rewrite Rabs_pos_eq by lra; lra). pose proof (cosP_ok _ A) as C. pose proof (sinP_ok _ A) as S.
  rewrite (Rabs_pos_eq (/ 512)) in S by lra. unfold cosP in C. unfold sinP in S. cbn [pow] in C, S. apply abs_inv in C. apply abs_inv in S.
  assert (Rabs (1152919305584290474 / 1152921504606846976 - cos (/ 512)) <= 2 / 1152921504606846976) by (apply Rabs_le; lra).
  assert (Rabs (2251798382029755 / 1152921504606846976 - sin (/ 512)) <= 2 / 1152921504606846976) by (apply Rabs_le; lra). lra.
Qed.
Lemma squares_ok k : forall z a E, (0 <= E)%Z -> ((E + 3) * 2 ^ Z.of_nat k <= 2 ^ 30)%Z -> close 60 z a E -> close 60 (squares k z) (IZR (2 ^ Z.of_nat k) * a) ((E + 3) * 2 ^ Z.of_nat k - 3).
Proof.
  induction k as [|k IH]; intros z a E HE L H; cbn [squares].
  - change (2 ^ Z.of_nat 0)%Z with 1%Z in *. rewrite Rmult_1_l. replace ((E + 3) * 1 - 3)%Z with E by lia. exact H.
  - rewrite Nat2Z.inj_succ, Z.pow_succ_r in * by lia. assert (P : (0 < 2 ^ Z.of_nat k)%Z) by (apply Z.pow_pos_nonneg; lia).
    replace (IZR (2 * 2 ^ Z.of_nat k) * a) with (IZR (2 ^ Z.of_nat k) * (a + a)) by (rewrite mult_IZR; ring).
    replace ((E + 3) * (2 * 2 ^ Z.of_nat k) - 3)%Z with ((E + E + 3 + 3) * 2 ^ Z.of_nat k - 3)%Z by lia. apply IH; [lia|nia|].
    apply close_turn; try lia; try assumption. change (2 ^ 60)%Z with (2 ^ 30 * 2 ^ 30)%Z. nia.
Qed.
Lemma coarse_ok z a E : (0 <= E <= 2 ^ 28)%Z -> close 60 z a E -> close 30 (coarse 30 z) a 3.
Proof.
  intros HE H. eapply around_weaken; [apply (around_coarse 60 30 z a _ ltac:(lia) H)|]. change (60 - 30)%Z with 30%Z. unfold unitb.
  destruct HE as [_ HE]. apply IZR_le in HE. change (2 ^ 28)%Z with 268435456%Z in HE. change (2 ^ 60)%Z with 1152921504606846976%Z. change (2 ^ 30)%Z with 1073741824%Z. lra.
Qed.
Lemma blocks_ok n : forall lim rows st2 big2 st big a b da db E F E2 F2, blocks n lim rows st2 big2 st big = true ->
  (0 <= E)%Z -> (0 <= F)%Z -> (0 <= E2 <= 2 ^ 28)%Z -> (0 <= F2 <= 2 ^ 28)%Z -> (E + Z.of_nat n * (E2 + 3) <= 2 ^ 28)%Z -> (F + Z.of_nat n * (F2 + 3) <= 2 ^ 28)%Z ->
  close 60 st a E -> close 60 big b F -> close 60 st2 da E2 -> close 60 big2 db F2 ->
  forall g, (g < n)%nat -> exists st' big', close 30 st' (a + INR g * da) 3 /\ close 30 big' (b + INR g * db) 3 /\ block lim rows st' big' = true.
Proof.
  induction n as [|n IH]; intros lim rows st2 big2 st big a b da db E F E2 F2 H HE HF HE2 HF2 LE LF Cs Cb C2 D2 g Hg; [lia|].
  cbn [blocks] in H. apply andb_prop in H as [H0 H]. destruct g as [|g].
  - exists (coarse 30 st), (coarse 30 big). cbn [INR]. rewrite !Rmult_0_l, !Rplus_0_r. split; [apply (coarse_ok _ _ E); [lia|exact Cs]|].
    split; [apply (coarse_ok _ _ F); [lia|exact Cb]|exact H0].
  - destruct (IH _ _ _ _ _ _ (a + da) (b + db) da db (E + E2 + 3)%Z (F + F2 + 3)%Z E2 F2 H ltac:(lia) ltac:(lia) HE2 HF2 ltac:(lia) ltac:(lia)
      ltac:(apply close_turn; try lia; try assumption; nia) ltac:(apply close_turn; try lia; try assumption; nia) C2 D2 g ltac:(lia)) as (s & t & P & Q & B).
    exists s, t. rewrite S_INR. replace (a + (INR g + 1) * da) with (a + da + INR g * da) by ring. replace (b + (INR g + 1) * db) with (b + db + INR g * db) by ring. auto.
Qed.

(** Rows. *)
Fixpoint wave (f : R -> R) (ks : list Z) (Y : Z) : R := match ks with [] => 0 | k :: ks => IZR k * f (IZR Y) + wave f ks (Y + 128) end.
Definition cw (w : R) (Y : R) : R := cos (w * (Y / 128)).
Definition sw (w : R) (Y : R) : R := sin (w * (Y / 128)).
Definition polyC (m : mom) (h : R) : R :=
  IZR (mc0 m) - IZR (mc1 m) * h - IZR (mc2 m) * h ^ 2 / 2 + IZR (mc3 m) * h ^ 3 / 6 + IZR (mc4 m) * h ^ 4 / 24 - IZR (mc5 m) * h ^ 5 / 120.
Definition polyS (m : mom) (h : R) : R :=
  IZR (ms0 m) + IZR (ms1 m) * h - IZR (ms2 m) * h ^ 2 / 2 - IZR (ms3 m) * h ^ 3 / 6 + IZR (ms4 m) * h ^ 4 / 24 + IZR (ms5 m) * h ^ 5 / 120.
Lemma polyC_add p q h : polyC (madd p q) h = polyC p h + polyC q h.
Proof. unfold polyC, madd. cbn [mc0 mc1 mc2 mc3 mc4 mc5]. rewrite !plus_IZR. field. Qed.
Lemma polyS_add p q h : polyS (madd p q) h = polyS p h + polyS q h.
Proof. unfold polyS, madd. cbn [ms0 ms1 ms2 ms3 ms4 ms5]. rewrite !plus_IZR. field. Qed.
Lemma polyC_tap Y a b h : polyC (tap Y a b) h = IZR a * cosP (h * IZR Y) - IZR b * sinP (h * IZR Y).
Proof. unfold polyC, tap, cosP, sinP. cbn [mc0 mc1 mc2 mc3 mc4 mc5]. rewrite !mult_IZR. field. Qed.
Lemma polyS_tap Y a b h : polyS (tap Y a b) h = IZR b * cosP (h * IZR Y) + IZR a * sinP (h * IZR Y).
Proof. unfold polyS, tap, cosP, sinP. cbn [ms0 ms1 ms2 ms3 ms4 ms5]. rewrite !mult_IZR. field. Qed.

(** One coefficient: its cosine and sine from c, s. *)
Lemma product_close x y x' y' e f : Rabs (x - x') <= e -> Rabs y <= 1 -> Rabs x' <= 1001 / 1000 -> Rabs (y - y') <= f -> Rabs (x * y - x' * y') <= e + 1001 / 1000 * f.
Proof.
  intros A B C D. replace (x * y - x' * y') with ((x - x') * y + x' * (y - y')) by ring. eapply Rle_trans; [apply Rabs_triang|]. rewrite !Rabs_mult.
  pose proof (Rabs_pos (x - x')). pose proof (Rabs_pos y). pose proof (Rabs_pos x'). pose proof (Rabs_pos (y - y')).
  apply Rplus_le_compat; [rewrite <- (Rmult_1_r e)|]; apply Rmult_le_compat; assumption.
Qed.
Lemma tap_close z v q E : close 30 z v E -> (0 <= E <= 330)%Z -> Rabs q <= 13 / 10 ->
  let err := 660 / 1073741824 + q ^ 6 / 600 in
  Rabs (cos (v + q) - (IZR (fst z) / unitb 30 * cosP q - IZR (snd z) / unitb 30 * sinP q)) <= err /\
  Rabs (sin (v + q) - (IZR (snd z) / unitb 30 * cosP q + IZR (fst z) / unitb 30 * sinP q)) <= err.
Proof.
  intros H HE Hq err. apply around_parts in H as [C S].
  assert (E9 : IZR E / unitb 30 <= 330 / 1073741824).
  { unfold unitb. change (2 ^ 30)%Z with 1073741824%Z. destruct HE as [_ HE]. apply IZR_le in HE. lra. }
  pose proof (cosP_ok q ltac:(lra)) as PC. pose proof (sinP_ok q ltac:(lra)) as PS.
  set (c := IZR (fst z) / unitb 30) in *. set (s := IZR (snd z) / unitb 30) in *.
  assert (Bq : q ^ 6 / 720 + Rabs q ^ 7 / 5040 <= q ^ 6 / 606).
  { assert (S6 : Rabs q ^ 7 = Rabs q * q ^ 6) by (change (Rabs q ^ 7) with (Rabs q * Rabs q ^ 6); rewrite RPow_abs; rewrite (Rabs_pos_eq (q ^ 6)); [reflexivity|]; replace (q ^ 6) with ((q * q * q) * (q * q * q)) by ring; nra).
    rewrite S6. assert (0 <= q ^ 6) by (replace (q ^ 6) with ((q * q * q) * (q * q * q)) by ring; nra).
    assert (Rabs q * q ^ 6 <= 13 / 10 * q ^ 6) by (apply Rmult_le_compat_r; assumption). lra. }
  assert (P6 : 0 <= q ^ 6) by (replace (q ^ 6) with ((q * q * q) * (q * q * q)) by ring; nra).
  assert (P7 : 0 <= Rabs q ^ 7) by (apply pow_le, Rabs_pos).
  assert (Bc : Rabs (cos v) <= 1) by (apply Rabs_le; apply COS_bound). assert (Bs : Rabs (sin v) <= 1) by (apply Rabs_le; apply SIN_bound).
  assert (Bc' : Rabs (cos q) <= 1) by (apply Rabs_le; apply COS_bound). assert (Bs' : Rabs (sin q) <= 1) by (apply Rabs_le; apply SIN_bound).
  assert (C' : Rabs (cos v - c) <= 330 / 1073741824) by (rewrite Rabs_minus_sym; lra). assert (S' : Rabs (sin v - s) <= 330 / 1073741824) by (rewrite Rabs_minus_sym; lra).
  assert (Nc : Rabs c <= 1001 / 1000) by (replace c with (cos v - (cos v - c)) by ring; eapply Rle_trans; [apply Rabs_triang|]; rewrite Rabs_Ropp; lra).
  assert (Ns : Rabs s <= 1001 / 1000) by (replace s with (sin v - (sin v - s)) by ring; eapply Rle_trans; [apply Rabs_triang|]; rewrite Rabs_Ropp; lra).
  pose proof (product_close _ _ _ _ _ _ C' Bc' Nc PC) as A1. pose proof (product_close _ _ _ _ _ _ S' Bs' Ns PS) as A2.
  pose proof (product_close _ _ _ _ _ _ S' Bc' Ns PC) as A3. pose proof (product_close _ _ _ _ _ _ C' Bs' Nc PS) as A4.
  rewrite cos_plus, sin_plus. unfold err. split.
  - replace (cos v * cos q - sin v * sin q - (c * cosP q - s * sinP q)) with (cos v * cos q - c * cosP q + - (sin v * sin q - s * sinP q)) by ring.
    eapply Rle_trans; [apply Rabs_triang|]. rewrite Rabs_Ropp. lra.
  - replace (sin v * cos q + cos v * sin q - (s * cosP q + c * sinP q)) with (sin v * cos q - s * cosP q + (cos v * sin q - c * sinP q)) by ring.
    eapply Rle_trans; [apply Rabs_triang|]. lra.
Qed.
Lemma row_ok v h big : close 30 big v 3 -> Rabs h <= / 2048 -> forall ks Y z E, close 30 z (v * (IZR Y / 128)) E -> (0 <= E)%Z -> (E + 6 * Z.of_nat (length ks) <= 330)%Z ->
  (0 <= Y)%Z -> (Y + 128 * Z.of_nat (length ks) <= 2790)%Z -> let w := v + 128 * h in
  let err := 660 / 1073741824 * IZR (row_size ks) + IZR (row_six Y ks) / IZR (600 * 2 ^ 66) in
  Rabs (wave (cw w) ks Y - polyC (row_mom big z Y ks) h / unitb 30) <= err /\ Rabs (wave (sw w) ks Y - polyS (row_mom big z Y ks) h / unitb 30) <= err.
Proof.
  intros Hb Hh. induction ks as [|k ks IH]; intros Y z E Hz HE LE HY LY w err.
  - cbn [wave row_mom] in *. unfold err. cbn [row_size row_six]. unfold polyC, polyS, mom0. cbn [mc0 mc1 mc2 mc3 mc4 mc5 ms0 ms1 ms2 ms3 ms4 ms5].
    assert (P : 0 < IZR (600 * 2 ^ 66)) by (apply IZR_lt; reflexivity). assert (U : 0 < unitb 30) by (apply unitb_pos; lia).
    split; match goal with |- Rabs ?x <= _ => replace x with 0 by (field; lra) end; rewrite Rabs_R0; right; field; lra.
  - cbn [length] in *. rewrite Nat2Z.inj_succ in *. cbn [wave row_mom].
    assert (Hz' : close 30 (turn 30 z big) (v * (IZR (Y + 128) / 128)) (E + 6)).
    { replace (v * (IZR (Y + 128) / 128)) with (v * (IZR Y / 128) + v) by (rewrite plus_IZR; field). replace (E + 6)%Z with (E + 3 + 3)%Z by lia.
      apply close_turn; try lia; try assumption. }
    destruct (IH (Y + 128)%Z _ (E + 6)%Z Hz' ltac:(lia) ltac:(lia) ltac:(lia) ltac:(lia)) as [IC IS]. clear IH. fold w in IC, IS.
    assert (Yq : Rabs (h * IZR Y) <= IZR Y / 2048).
    { rewrite Rabs_mult. assert (0 <= IZR Y) by (now apply IZR_le). rewrite (Rabs_pos_eq (IZR Y)) by assumption. unfold Rdiv. rewrite Rmult_comm. apply Rmult_le_compat_l; assumption. }
    assert (Y13 : IZR Y <= 2662) by (apply IZR_le; lia). assert (Y0 : 0 <= IZR Y) by (now apply IZR_le).
    destruct (tap_close z (v * (IZR Y / 128)) (h * IZR Y) E Hz ltac:(lia) ltac:(lra)) as [TC TS].
    assert (A : v * (IZR Y / 128) + h * IZR Y = w * (IZR Y / 128)) by (unfold w; field). rewrite A in TC, TS.
    assert (Q6 : (h * IZR Y) ^ 6 / 600 <= IZR (Y ^ 6) / IZR (600 * 2 ^ 66)).
    { assert (E6 : (h * IZR Y) ^ 6 = Rabs (h * IZR Y) ^ 6).
      { rewrite RPow_abs. rewrite Rabs_pos_eq; [reflexivity|]. replace ((h * IZR Y) ^ 6) with (((h * IZR Y) ^ 3) * ((h * IZR Y) ^ 3)) by ring. nra. }
      rewrite E6. assert (L6 : Rabs (h * IZR Y) ^ 6 <= (IZR Y / 2048) ^ 6) by (apply pow_incr; split; [apply Rabs_pos|exact Yq]).
      assert (Z6 : IZR (Y ^ 6) = IZR Y ^ 6) by (symmetry; apply (pow_IZR Y 6)). rewrite Z6.
      assert (W : (IZR Y / 2048) ^ 6 / 600 = IZR Y ^ 6 / IZR (600 * 2 ^ 66)).
      { change (600 * 2 ^ 66)%Z with (600 * (2048 * 2048 * 2048 * 2048 * 2048 * 2048))%Z. rewrite !mult_IZR. field. }
      lra. }
    set (err1 := 660 / 1073741824 + IZR (Y ^ 6) / IZR (600 * 2 ^ 66)).
    assert (TC' : Rabs (cos (w * (IZR Y / 128)) - (IZR (fst z) / unitb 30 * cosP (h * IZR Y) - IZR (snd z) / unitb 30 * sinP (h * IZR Y))) <= err1) by (unfold err1; lra).
    assert (TS' : Rabs (sin (w * (IZR Y / 128)) - (IZR (snd z) / unitb 30 * cosP (h * IZR Y) + IZR (fst z) / unitb 30 * sinP (h * IZR Y))) <= err1) by (unfold err1; lra).
    clear TC TS.
    assert (Ee : err = IZR (Z.abs k) * err1 + (660 / 1073741824 * IZR (row_size ks) + IZR (row_six (Y + 128) ks) / IZR (600 * 2 ^ 66))).
    { unfold err, err1. cbn [row_size row_six]. rewrite !plus_IZR, mult_IZR. field. apply not_0_IZR. discriminate. }
    assert (U : 0 < unitb 30) by (apply unitb_pos; lia).
    rewrite Ee, abs_IZR. split.
    + rewrite polyC_add, polyC_tap, (mult_IZR k (fst z)), (mult_IZR k (snd z)). unfold cw at 1.
      match goal with |- Rabs ?x <= _ => replace x with (IZR k * (cos (w * (IZR Y / 128)) - (IZR (fst z) / unitb 30 * cosP (h * IZR Y) - IZR (snd z) / unitb 30 * sinP (h * IZR Y))) +
        (wave (cw w) ks (Y + 128) - polyC (row_mom big (turn 30 z big) (Y + 128) ks) h / unitb 30)) by (field; lra) end.
      eapply Rle_trans; [apply Rabs_triang|]. rewrite Rabs_mult. apply Rplus_le_compat; [apply Rmult_le_compat_l; [apply Rabs_pos|exact TC']|exact IC].
    + rewrite polyS_add, polyS_tap, (mult_IZR k (fst z)), (mult_IZR k (snd z)). unfold sw at 1.
      match goal with |- Rabs ?x <= _ => replace x with (IZR k * (sin (w * (IZR Y / 128)) - (IZR (snd z) / unitb 30 * cosP (h * IZR Y) + IZR (fst z) / unitb 30 * sinP (h * IZR Y))) +
        (wave (sw w) ks (Y + 128) - polyS (row_mom big (turn 30 z big) (Y + 128) ks) h / unitb 30)) by (field; lra) end.
      eapply Rle_trans; [apply Rabs_triang|]. rewrite Rabs_mult. apply Rplus_le_compat; [apply Rmult_le_compat_l; [apply Rabs_pos|exact TS']|exact IS].
Qed.

(** The rows of a block. *)
Lemma rows_ok st big b : close 30 st b 3 -> forall rows z r0 a E, close 30 z a E -> (0 <= E)%Z -> (E + 6 * Z.of_nat (length rows) <= 330)%Z ->
  forall r, (r < length rows)%nat -> exists z', close 30 z' (a + INR r * b) (E + 6 * Z.of_nat r) /\
  nth r (rows_mom st big z r0 rows) mom0 = row_mom big z' (r0 + 4 * Z.of_nat r) (nth r rows []).
Proof.
  intros Hs. induction rows as [|ks rows IH]; intros z r0 a E Hz HE LE r Hr; cbn [length] in *; [lia|]. rewrite Nat2Z.inj_succ in LE. destruct r as [|r]; cbn [rows_mom nth].
  - exists z. cbn [INR Z.of_nat]. rewrite Rmult_0_l, Rplus_0_r, Z.mul_0_r, !Z.add_0_r. auto.
  - assert (Hz' : close 30 (turn 30 z st) (a + b) (E + 6)).
    { replace (E + 6)%Z with (E + 3 + 3)%Z by lia. apply close_turn; try lia; try assumption. }
    destruct (IH _ (r0 + 4)%Z _ _ Hz' ltac:(lia) ltac:(lia) r ltac:(lia)) as (z' & Q & N). exists z'. rewrite S_INR, Nat2Z.inj_succ.
    replace (a + (INR r + 1) * b) with (a + b + INR r * b) by ring. replace (E + 6 * Z.succ (Z.of_nat r))%Z with (E + 6 + 6 * Z.of_nat r)%Z by lia.
    replace (r0 + 4 * Z.succ (Z.of_nat r))%Z with (r0 + 4 + 4 * Z.of_nat r)%Z by lia. auto.
Qed.
Lemma rows_len st big : forall rows z r0, length (rows_mom st big z r0 rows) = length rows.
Proof. induction rows as [|ks rows IH]; intros z r0; cbn [rows_mom length]; [reflexivity|now rewrite IH]. Qed.
Lemma paired {A} (d : A) l r : (r < length l)%nat -> In (nth r l d, nth (length l - S r) l d) (combine l (rev l)).
Proof.
  intros H. rewrite <- rev_nth by exact H. rewrite <- combine_nth by (now rewrite rev_length). apply nth_In. rewrite combine_length, rev_length. lia.
Qed.
Lemma block_gap lim rows st big r : block lim rows st big = true -> (r < length rows)%nat ->
  let l := rows_mom st big (2 ^ 30, 0)%Z 0 rows in (gap (nth r l mom0) (nth (length rows - S r) l mom0) <= lim)%Z.
Proof.
  intros H Hr l. unfold block in H. rewrite forallb_forall in H. fold l in H. apply Z.leb_le, H. unfold gaps.
  apply (in_map (fun '(p, q) => gap p q) _ (nth r l mom0, nth (length rows - S r) l mom0)). unfold l. rewrite <- (rows_len st big rows (2 ^ 30, 0)%Z 0). apply paired. now rewrite rows_len.
Qed.
(** A polynomial at a small argument. *)
Lemma poly_bound a0 a1 a2 a3 a4 a5 h e1 e2 e3 e4 e5 : Rabs h <= / 2048 -> (forall e, In e [e1; e2; e3; e4; e5] -> e = 1 \/ e = -1) ->
  Rabs (a0 + e1 * a1 * h + e2 * a2 * h ^ 2 / 2 + e3 * a3 * h ^ 3 / 6 + e4 * a4 * h ^ 4 / 24 + e5 * a5 * h ^ 5 / 120) <=
  Rabs a0 + Rabs a1 / 2048 + Rabs a2 / 2048 ^ 2 / 2 + Rabs a3 / 2048 ^ 3 / 6 + Rabs a4 / 2048 ^ 4 / 24 + Rabs a5 / 2048 ^ 5 / 120.
Proof.
  intros H He.
  assert (T : forall e a n c, In e [e1; e2; e3; e4; e5] -> 0 < c -> Rabs (e * a * h ^ n / c) <= Rabs a / 2048 ^ n / c).
  { intros e a n c Hi Hc. unfold Rdiv. rewrite !Rabs_mult. assert (E : Rabs e = 1) by (destruct (He e Hi) as [->| ->]; unfold Rabs; destruct (Rcase_abs _); lra).
    rewrite E, Rmult_1_l. assert (Ic : 0 < / c) by (now apply Rinv_0_lt_compat). rewrite (Rabs_pos_eq (/ c)) by lra. apply Rmult_le_compat_r; [lra|].
    apply Rmult_le_compat_l; [apply Rabs_pos|]. rewrite <- RPow_abs. replace (/ 2048 ^ n) with ((/ 2048) ^ n) by (rewrite pow_inv; reflexivity).
    apply pow_incr. split; [apply Rabs_pos|exact H]. }
  pose proof (T e1 a1 1%nat 1 ltac:(cbn; auto 10) ltac:(lra)) as T1. pose proof (T e2 a2 2%nat 2 ltac:(cbn; auto 10) ltac:(lra)) as T2. pose proof (T e3 a3 3%nat 6 ltac:(cbn; auto 10) ltac:(lra)) as T3.
  pose proof (T e4 a4 4%nat 24 ltac:(cbn; auto 10) ltac:(lra)) as T4. pose proof (T e5 a5 5%nat 120 ltac:(cbn; auto 10) ltac:(lra)) as T5.
  replace (e1 * a1 * h) with (e1 * a1 * h ^ 1 / 1) by field. replace (Rabs a1 / 2048) with (Rabs a1 / 2048 ^ 1 / 1) by field.
  repeat (eapply Rle_trans; [apply Rabs_triang|]; apply Rplus_le_compat; [|assumption]). lra.
Qed.
Lemma gap_bound p q h : Rabs h <= / 2048 ->
  Rabs (polyC p h + polyC q h - IZR (2 ^ 60)) + Rabs (polyS q h - polyS p h) <= IZR (gap p q) / IZR (2 ^ 55 * 120).
Proof.
  intros H. pose proof (poly_bound (IZR (mc0 p + mc0 q - 2 ^ 60)) (IZR (mc1 p + mc1 q)) (IZR (mc2 p + mc2 q)) (IZR (mc3 p + mc3 q)) (IZR (mc4 p + mc4 q)) (IZR (mc5 p + mc5 q)) h
    (-1) (-1) 1 1 (-1) H ltac:(cbn; intros e Hi; lra)) as A.
  pose proof (poly_bound (IZR (ms0 q - ms0 p)) (IZR (ms1 q - ms1 p)) (IZR (ms2 q - ms2 p)) (IZR (ms3 q - ms3 p)) (IZR (ms4 q - ms4 p)) (IZR (ms5 q - ms5 p)) h
    1 (-1) (-1) 1 1 H ltac:(cbn; intros e Hi; lra)) as B.
  assert (EA : polyC p h + polyC q h - IZR (2 ^ 60) = IZR (mc0 p + mc0 q - 2 ^ 60) + -1 * IZR (mc1 p + mc1 q) * h + -1 * IZR (mc2 p + mc2 q) * h ^ 2 / 2 + 1 * IZR (mc3 p + mc3 q) * h ^ 3 / 6 +
    1 * IZR (mc4 p + mc4 q) * h ^ 4 / 24 + -1 * IZR (mc5 p + mc5 q) * h ^ 5 / 120) by (unfold polyC; rewrite minus_IZR, !plus_IZR; field).
  assert (EB : polyS q h - polyS p h = IZR (ms0 q - ms0 p) + 1 * IZR (ms1 q - ms1 p) * h + -1 * IZR (ms2 q - ms2 p) * h ^ 2 / 2 + -1 * IZR (ms3 q - ms3 p) * h ^ 3 / 6 +
    1 * IZR (ms4 q - ms4 p) * h ^ 4 / 24 + 1 * IZR (ms5 q - ms5 p) * h ^ 5 / 120) by (unfold polyS; rewrite !minus_IZR; field).
  rewrite EA, EB. eapply Rle_trans; [apply Rplus_le_compat; [exact A|exact B]|]. clear A B EA EB. right. unfold gap. rewrite <- !abs_IZR.
  generalize (Z.abs (mc0 p + mc0 q - 2 ^ 60)) (Z.abs (mc1 p + mc1 q)) (Z.abs (mc2 p + mc2 q)) (Z.abs (mc3 p + mc3 q)) (Z.abs (mc4 p + mc4 q)) (Z.abs (mc5 p + mc5 q))
    (Z.abs (ms0 q - ms0 p)) (Z.abs (ms1 q - ms1 p)) (Z.abs (ms2 q - ms2 p)) (Z.abs (ms3 q - ms3 p)) (Z.abs (ms4 q - ms4 p)) (Z.abs (ms5 q - ms5 p)).
  intros c0 c1 c2 c3 c4 c5 s0 s1 s2 s3 s4 s5. rewrite !plus_IZR, !mult_IZR.
  change (2 ^ 55)%Z with (2048 * 2048 * 2048 * 2048 * 2048)%Z. change (2 ^ 44)%Z with (2048 * 2048 * 2048 * 2048)%Z. change (2 ^ 33)%Z with (2048 * 2048 * 2048)%Z. change (2 ^ 22)%Z with (2048 * 2048)%Z.
  change (2 ^ 11)%Z with 2048%Z. rewrite !mult_IZR. field.
Qed.
