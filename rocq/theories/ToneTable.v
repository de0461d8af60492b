(** The checks of ToneCheck.v together: what two rows do to a tone. *)
From Coq Require Import ZArith Reals List Bool Lia Lra Psatz.
From Verif Require Import ToneTrig ToneCheck ToneSound.
Import ListNotations.
Local Open Scope R_scope.

Lemma sizes_nth : forall rows r0 r, (r < length rows)%nat -> nth r (sizes r0 rows) (0, 0)%Z = (row_size (nth r rows []), row_six (r0 + 4 * Z.of_nat r) (nth r rows [])).
Proof.
  induction rows as [|ks rows IH]; intros r0 r Hr; cbn [length] in *; [lia|]. destruct r as [|r]; cbn [sizes nth]; [now rewrite Z.add_0_r|].
  rewrite IH by lia. rewrite Nat2Z.inj_succ. now replace (r0 + 4 + 4 * Z.of_nat r)%Z with (r0 + 4 * Z.succ (Z.of_nat r))%Z by lia.
Qed.
Lemma sizes_len : forall rows r0, length (sizes r0 rows) = length rows.
Proof. induction rows as [|ks rows IH]; intros r0; cbn [sizes length]; [reflexivity|now rewrite IH]. Qed.
Lemma eighth n : forall w, 0 <= w <= INR (S n) / 8 -> exists g, (g < S n)%nat /\ INR g / 8 <= w <= INR (S g) / 8.
Proof.
  induction n as [|n IH]; intros w H.
  - exists 0%nat. split; [lia|]. cbn [INR] in *. lra.
  - destruct (Rle_dec w (INR (S n) / 8)) as [L|L]; [destruct (IH w ltac:(lra)) as (g & Hg & B); exists g; split; [lia|exact B]|]. exists (S n). split; [lia|lra].
Qed.
Section Table.
  Variable ints : list Z.
  Lemma rows_length : length (rows ints) = 33%nat.
  Proof. unfold rows. now rewrite map_length, seq_length. Qed.
  Lemma rows_nth r : (r <= 32)%nat -> nth r (rows ints) [] = pick ints 20 (4 * Z.of_nat r).
  Proof.
    intros H. unfold rows. rewrite (nth_indep _ _ (pick ints 20 (4 * Z.of_nat 0))) by (rewrite map_length, seq_length; lia).
    rewrite (map_nth (fun r => pick ints 20 (4 * Z.of_nat r))). rewrite seq_nth by lia. reflexivity.
  Qed.
  Lemma pick_len n : forall q, length (pick ints n q) = n.
  Proof. induction n as [|n IH]; intros q; cbn [pick length]; [reflexivity|now rewrite IH]. Qed.
  Lemma size_bounds size six r : size_check ints size six = true -> (r <= 32)%nat ->
    let p := pick ints 20 (4 * Z.of_nat r) in let q := pick ints 20 (4 * Z.of_nat (32 - r)) in
    (row_size p + row_size q <= size)%Z /\ (row_six (4 * Z.of_nat r) p + row_six (4 * Z.of_nat (32 - r)) q <= six)%Z.
  Proof.
    intros H Hr p q. unfold size_check in H. rewrite forallb_forall in H.
    pose proof (paired (0, 0)%Z (sizes 0 (rows ints)) r) as I. rewrite sizes_len, rows_length in I. specialize (I ltac:(lia)). apply H in I.
    replace (33 - S r)%nat with (32 - r)%nat in I by lia. rewrite !sizes_nth in I by (rewrite rows_length; lia). rewrite !rows_nth in I by lia. rewrite !Z.add_0_l in I.
    apply andb_prop in I as [I J]. apply Z.leb_le in I, J. auto.
  Qed.
  Lemma big_ok : close 60 (squares 5 base) (/ 16) 221.
  Proof.
    replace (/ 16) with (IZR (2 ^ Z.of_nat 5) * / 512) by (change (2 ^ Z.of_nat 5)%Z with 32%Z; field).
    change 221%Z with ((4 + 3) * 2 ^ Z.of_nat 5 - 3)%Z. apply squares_ok; [lia|cbn; lia|exact base_ok].
  Qed.
  Definition checked (lim : Z) : Prop :=
    exists b1 big, close 60 b1 (/ 512) 4 /\ close 60 big (/ 16) 221 /\ blocks 16 lim (rows ints) (turn 60 b1 b1) (turn 60 big big) b1 big = true.
  Lemma block_at lim g : checked lim -> (g < 16)%nat -> let v := / 16 + INR g * (/ 16 + / 16) in
    exists st big, close 30 st (v / 32) 3 /\ close 30 big v 3 /\ block lim (rows ints) st big = true.
  Proof.
    intros (b1 & big & C1 & Cb & Hc) Hg v.
    assert (C2 : close 60 (turn 60 b1 b1) (/ 512 + / 512) 11).
    { change 11%Z with (4 + 4 + 3)%Z. apply close_turn; try lia; exact C1. }
    assert (D2 : close 60 (turn 60 big big) (/ 16 + / 16) 445).
    { change 445%Z with (221 + 221 + 3)%Z. apply close_turn; try lia; exact Cb. }
    destruct (blocks_ok 16 lim (rows ints) _ _ _ _ (/ 512) (/ 16) (/ 512 + / 512) (/ 16 + / 16) 4 221 11 445 Hc ltac:(lia) ltac:(lia) ltac:(lia) ltac:(lia) ltac:(cbn; lia) ltac:(cbn; lia)
      C1 Cb C2 D2 g Hg) as (st' & big' & Cst & Cbig & B).
    exists st', big'. split; [|auto]. replace (v / 32) with (/ 512 + INR g * (/ 512 + / 512)) by (unfold v; field). exact Cst.
  Qed.
  Lemma zero_angle : close 30 (2 ^ 30, 0)%Z 0 0.
  Proof.
    unfold close, around, off. cbn [fst snd]. rewrite cos_0, sin_0. unfold dist_euc. fold (unitb 30). assert (U : 0 < unitb 30) by (apply unitb_pos; lia).
    replace (Rsqr (unitb 30 / unitb 30 - 1) + Rsqr (0 / unitb 30 - 0)) with 0 by (unfold Rsqr; field; lra). rewrite sqrt_0. unfold Rdiv. rewrite Rmult_0_l. lra.
  Qed.
  Lemma table_point lim size six w r : checked lim -> size_check ints size six = true -> 0 <= w <= 2 -> (r <= 32)%nat ->
    let Y := (4 * Z.of_nat r)%Z in let Y' := (4 * Z.of_nat (32 - r))%Z in let p := pick ints 20 Y in let q := pick ints 20 Y' in
    Rabs (wave (cw w) p Y + wave (cw w) q Y' - IZR (2 ^ 30)) + Rabs (wave (sw w) q Y' - wave (sw w) p Y) <=
    IZR lim / IZR (2 ^ 55 * 120) / unitb 30 + 2 * (660 / 1073741824 * IZR size + IZR six / IZR (600 * 2 ^ 66)).
  Proof.
    intros Hc Hs Hw Hr Y Y' p q. destruct (eighth 15 w ltac:(cbn [INR]; lra)) as (g & Hg & Bg). rewrite S_INR in Bg.
    destruct (block_at lim g Hc Hg) as (st' & big' & Cst & Cbig & B). clear Hc.
    set (v := / 16 + INR g * (/ 16 + / 16)) in *. set (h := (w - v) / 128).
    assert (Hh : Rabs h <= / 2048) by (apply Rabs_le; unfold h, v; lra).
    assert (Ew : v + 128 * h = w) by (unfold h; field).
    assert (R : forall r, (r <= 32)%nat -> exists z', close 30 z' (v * (IZR (4 * Z.of_nat r) / 128)) (6 * Z.of_nat r) /\
      nth r (rows_mom st' big' (2 ^ 30, 0)%Z 0 (rows ints)) mom0 = row_mom big' z' (4 * Z.of_nat r) (pick ints 20 (4 * Z.of_nat r))).
    { intros i Hi. destruct (rows_ok st' big' _ Cst (rows ints) _ 0%Z _ _ zero_angle ltac:(lia) ltac:(rewrite rows_length; cbn; lia) i ltac:(rewrite rows_length; lia)) as (z' & Q & N).
      exists z'. rewrite rows_nth in N by lia. rewrite Z.add_0_l in N. split; [|exact N].
      replace (v * (IZR (4 * Z.of_nat i) / 128)) with (0 + INR i * (v / 32)) by (rewrite mult_IZR, <- INR_IZR_INZ; field). exact Q. }
    destruct (R r Hr) as (z1 & Q1 & N1). destruct (R (32 - r)%nat ltac:(lia)) as (z2 & Q2 & N2).
    pose proof (block_gap lim (rows ints) st' big' r B ltac:(rewrite rows_length; lia)) as G. cbv zeta in G. rewrite rows_length in G.
    replace (33 - S r)%nat with (32 - r)%nat in G by lia. rewrite N1, N2 in G. fold Y in G. fold Y' in G. fold p in G. fold q in G. fold Y in Q1. fold Y' in Q2.
    destruct (row_ok v h big' Cbig Hh p Y z1 _ Q1 ltac:(lia) ltac:(unfold p; rewrite pick_len; lia) ltac:(lia) ltac:(unfold p; rewrite pick_len; lia)) as [P1 P2].
    destruct (row_ok v h big' Cbig Hh q Y' z2 _ Q2 ltac:(lia) ltac:(unfold q; rewrite pick_len; lia) ltac:(lia) ltac:(unfold q; rewrite pick_len; lia)) as [P3 P4].
    rewrite Ew in P1, P2, P3, P4. clear N1 N2 Q1 Q2 R.
    destruct (size_bounds size six r Hs Hr) as [S1 S2]. fold Y in S1, S2. fold Y' in S1, S2. fold p in S1, S2. fold q in S1, S2.
    set (m1 := row_mom big' z1 Y p) in *. set (m2 := row_mom big' z2 Y' q) in *.
    pose proof (gap_bound m1 m2 h Hh) as GB. apply IZR_le in G, S1, S2. rewrite plus_IZR in S1, S2.
    assert (U : 0 < unitb 30) by (apply unitb_pos; lia). assert (IU : 0 < / unitb 30) by (now apply Rinv_0_lt_compat).
    assert (E30 : IZR (2 ^ 30) = IZR (2 ^ 60) / unitb 30) by (unfold unitb; change (2 ^ 60)%Z with (2 ^ 30 * 2 ^ 30)%Z; rewrite mult_IZR; field; apply not_0_IZR; discriminate).
    assert (T1 : Rabs (wave (cw w) p Y + wave (cw w) q Y' - IZR (2 ^ 30)) <=
      Rabs (polyC m1 h + polyC m2 h - IZR (2 ^ 60)) / unitb 30 + (Rabs (wave (cw w) p Y - polyC m1 h / unitb 30) + Rabs (wave (cw w) q Y' - polyC m2 h / unitb 30))).
    { unfold Rdiv at 1. rewrite <- (Rabs_pos_eq (/ unitb 30)) at 1 by lra. rewrite <- Rabs_mult.
      match goal with |- Rabs ?x <= Rabs ?a + (Rabs ?b + Rabs ?c) => replace x with (a + (b + c)) by (rewrite E30; unfold Rdiv; ring) end.
      eapply Rle_trans; [apply Rabs_triang|]. apply Rplus_le_compat_l, Rabs_triang. }
    assert (T2 : Rabs (wave (sw w) q Y' - wave (sw w) p Y) <=
      Rabs (polyS m2 h - polyS m1 h) / unitb 30 + (Rabs (wave (sw w) q Y' - polyS m2 h / unitb 30) + Rabs (wave (sw w) p Y - polyS m1 h / unitb 30))).
    { unfold Rdiv at 1. rewrite <- (Rabs_pos_eq (/ unitb 30)) at 1 by lra. rewrite <- Rabs_mult.
      rewrite <- (Rabs_Ropp (wave (sw w) p Y - polyS m1 h / unitb 30)).
      match goal with |- Rabs ?x <= Rabs ?a + (Rabs ?b + Rabs ?c) => replace x with (a + (b + c)) by (unfold Rdiv; ring) end.
      eapply Rle_trans; [apply Rabs_triang|]. apply Rplus_le_compat_l, Rabs_triang. }
    assert (G' : IZR (gap m1 m2) / IZR (2 ^ 55 * 120) <= IZR lim / IZR (2 ^ 55 * 120)).
    { apply Rmult_le_compat_r; [left; apply Rinv_0_lt_compat, IZR_lt; reflexivity|exact G]. }
    assert (GG : (Rabs (polyC m1 h + polyC m2 h - IZR (2 ^ 60)) + Rabs (polyS m2 h - polyS m1 h)) / unitb 30 <= IZR lim / IZR (2 ^ 55 * 120) / unitb 30) by (apply Rmult_le_compat_r; lra).
    assert (X : (IZR (row_six Y p) + IZR (row_six Y' q)) / IZR (600 * 2 ^ 66) <= IZR six / IZR (600 * 2 ^ 66)).
    { apply Rmult_le_compat_r; [left; apply Rinv_0_lt_compat, IZR_lt; reflexivity|exact S2]. }
    clear - T1 T2 P1 P2 P3 P4 GG X S1. unfold Rdiv in *.
    generalize dependent (IZR lim * / IZR (2 ^ 55 * 120) * / unitb 30). generalize dependent (/ IZR (600 * 2 ^ 66)). generalize dependent (/ unitb 30). generalize dependent (IZR (2 ^ 60)).
    generalize dependent (IZR (2 ^ 30)). intros. lra.
  Qed.
End Table.
