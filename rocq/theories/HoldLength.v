(** C38 and C34, sharper: the number of frames is r*N or at most one more, up to rounding. *)
From Coq Require Import ZArith Reals List Bool Lia Lra.
From Flocq Require Import Core IEEE754.BinarySingleNaN.
From Verif Require Import Base FloatFacts PosFacts Types Common Zoh Linear Api Heap Callback ApiHist HoldSpec HoldFacts HoldRamp
  HoldCore HoldCall HoldProcess LinAny HoldStream HoldValue HoldMain HoldCases RunCases SincApi SincCases.
Import ListNotations.
Local Open Scope Z_scope.

Local Notation u52 := (bpow radix2 (-52)).
Local Notation u53 := (bpow radix2 (-53)).
Lemma u53_small : (0 < u53 /\ u53 <= / 1000 /\ u52 = 2 * u53)%R.
Proof.
  split; [apply bpow_gt_0|]. split.
  - assert (H := bpow_m53_val). assert (P := bpow_m53_pos). lra.
  - change 2%R with (bpow radix2 1). now rewrite <- bpow_plus.
Qed.

(** The double computation of the end of the input, against exact arithmetic. *)
Lemma reach_near ch u t : 0 < ch -> ch <= 2 ^ 31 -> 0 <= u -> u * ch <= 2 ^ 52 -> frac t ->
  (IZR ch * (IZR u + val t) - IZR ch * u53 <= IZR (u * ch) + rnd64 (IZR ch * val t) <= IZR ch * (IZR u + val t) + IZR ch * u53)%R.
Proof.
  intros Hc Hci Hu Huc (_ & _ & T0 & T1). destruct u53_small as (P & S & _).
  assert (C1 : (1 <= IZR ch)%R) by (apply (IZR_le 1); lia).
  rewrite mult_IZR. rewrite Rmult_plus_distr_l. rewrite (Rmult_comm (IZR u) (IZR ch)).
  destruct (Rle_lt_dec (bpow radix2 (-1000)) (IZR ch * val t)) as [B|B].
  - destruct (rnd64_rel_pos _ B) as [L U].
    assert (Q : (IZR ch * val t * u53 <= IZR ch * u53)%R).
    { apply Rmult_le_compat_r; [lra|]. assert (Z := Rmult_le_compat_l (IZR ch) (val t) 1 ltac:(lra) ltac:(lra)). lra. }
    lra.
  - assert (T : (0 <= IZR ch * val t)%R) by (apply Rmult_le_pos; lra).
    assert (R0 : (0 <= rnd64 (IZR ch * val t))%R) by (apply rnd64_ge; [apply (fmt64_Z 0); discriminate|exact T]).
    assert (R1 : (rnd64 (IZR ch * val t) <= bpow radix2 (-1000))%R) by (apply rnd64_le; [apply fmt64_bpow; lia|lra]).
    assert (E : (bpow radix2 (-1000) <= u53)%R) by (apply bpow_le; lia).
    assert (Q := Rmult_le_compat_r u53 1 (IZR ch) ltac:(lra) C1). lra.
Qed.

Lemma avail_stop kd ch n p : 0 < ch -> ch <= 2 ^ 31 -> 0 < n -> n * ch <= 2 ^ 50 -> 0 <= fst p -> frac (snd p) ->
  avail kd ch n p = false -> (IZR n - IZR n * u52 <= pval p)%R.
Proof.
  intros Hc Hci Hn Hnc Hu Hf H. destruct u53_small as (P & S & D). unfold pval.
  assert (N1 : (1 <= IZR n)%R) by (apply (IZR_le 1); lia).
  assert (Nu : (0 <= IZR n * u52)%R) by (apply Rmult_le_pos; lra).
  destruct (Z_le_gt_dec n (fst p)) as [L|L].
  { apply IZR_le in L. destruct Hf as (_ & _ & Hf). lra. }
  assert (Huc : fst p * ch <= 2 ^ 52) by nia.
  destruct (reach_val ch (fst p) (snd p) Hc Hci Hu Huc Hf) as (F & B & V & Y).
  destruct (nc_val ch n Hc Hn Hnc) as [V1 F1].
  assert (C1 : (1 <= IZR ch)%R) by (apply (IZR_le 1); lia).
  assert (Ge : (IZR (n * ch) <= val (reach ch (fst p) (snd p)))%R).
  { apply Rnot_lt_le. intros Lt. unfold avail in H. destruct kd.
    - assert (T : dle (reach ch (fst p) (snd p)) (d_of_Z (n * ch)) = true) by (apply dle_true; auto; rewrite V1; lra).
      unfold dle, reach, dadd, dmul in T. rewrite T in H. discriminate H.
    - assert (T : dlt (reach ch (fst p) (snd p)) (d_of_Z (n * ch)) = true) by (apply dlt_true; auto; rewrite V1; lra).
      unfold dlt, reach, dadd, dmul in T. rewrite T in H. discriminate H. }
  destruct (reach_near ch (fst p) (snd p) Hc Hci Hu Huc Hf) as [_ X].
  rewrite V in Ge. set (x := (IZR (fst p * ch) + rnd64 (IZR ch * val (snd p)))%R) in *.
  assert (x0 : (1 / 2 <= x)%R).
  { apply Rnot_lt_le. intros Lt. assert (rnd64 x <= bpow radix2 (-1))%R.
    { apply rnd64_le; [apply fmt64_bpow; lia|]. change (bpow radix2 (-1)) with (/ 2)%R. lra. }
    change (bpow radix2 (-1)) with (/ 2)%R in *. assert (1 <= IZR (n * ch))%R by (apply (IZR_le 1); nia). lra. }
  assert (xb : (bpow radix2 (-1000) <= x)%R).
  { apply Rle_trans with (bpow radix2 (-1)); [apply bpow_le; lia|]. change (bpow radix2 (-1)) with (/ 2)%R. lra. }
  destruct (rnd64_rel_pos x xb) as [_ U].
  rewrite mult_IZR in Ge.
  assert (K : (IZR ch * IZR n <= IZR ch * ((IZR (fst p) + val (snd p) + u53) * (1 + u53)))%R).
  { rewrite (Rmult_comm (IZR ch) (IZR n)). apply Rle_trans with (1 := Ge). apply Rle_trans with (1 := U).
    rewrite <- Rmult_assoc. apply Rmult_le_compat_r; [lra|]. lra. }
  apply Rmult_le_reg_l in K; [|lra].
  assert (Lp : (IZR (fst p) <= IZR n - 1)%R) by (rewrite <- minus_IZR; apply IZR_le; lia).
  destruct Hf as (_ & _ & Hf0 & Hf1). set (z := (IZR (fst p) + val (snd p))%R) in *.
  assert (Z1 : (z * u53 <= (IZR n - u53) * u53 \/ IZR n - u53 < z)%R).
  { destruct (Rle_lt_dec z (IZR n - u53)) as [A|A]; [left; apply Rmult_le_compat_r; lra|now right]. }
  assert (N2 : (u53 <= IZR n * u53)%R) by (assert (Q := Rmult_le_compat_r u53 1 (IZR n) ltac:(lra) N1); lra).
  destruct Z1 as [Z1|Z1]; [|rewrite D; lra].
  replace ((z + u53) * (1 + u53))%R with (z + u53 + z * u53 + u53 * u53)%R in K by ring. rewrite D. lra.
Qed.

Lemma avail_zoh_upto ch n p : 0 < ch -> ch <= 2 ^ 31 -> 0 < n -> n * ch <= 2 ^ 50 -> 0 <= fst p -> fst p <= n -> frac (snd p) ->
  avail Zoh ch n p = true -> (pval p <= IZR n + IZR n * u52)%R.
Proof.
  intros Hc Hci Hn Hnc Hu Hun Hf H. destruct u53_small as (P & S & D). unfold pval.
  assert (N1 : (1 <= IZR n)%R) by (apply (IZR_le 1); lia).
  assert (Nu : (0 <= IZR n * u52)%R) by (apply Rmult_le_pos; lra).
  destruct (Z.eq_dec (fst p) n) as [E|E].
  2: { assert (L : (IZR (fst p) <= IZR n - 1)%R) by (rewrite <- minus_IZR; apply IZR_le; lia). destruct Hf as (_ & _ & Hf). lra. }
  assert (Huc : fst p * ch <= 2 ^ 52) by nia.
  destruct (reach_val ch (fst p) (snd p) Hc Hci Hu Huc Hf) as (F & B & V & Y).
  destruct (nc_val ch n Hc Hn Hnc) as [V1 F1].
  assert (C1 : (1 <= IZR ch)%R) by (apply (IZR_le 1); lia).
  assert (Le : (val (reach ch (fst p) (snd p)) <= IZR (n * ch))%R).
  { assert (T : dle (reach ch (fst p) (snd p)) (d_of_Z (n * ch)) = true) by exact H.
    apply dle_true in T; auto. now rewrite V1 in T. }
  rewrite V, E in Le. set (y := rnd64 (IZR ch * val (snd p))) in *.
  assert (M1 : (1 <= IZR (n * ch))%R) by (apply (IZR_le 1); nia).
  assert (xb : (bpow radix2 (-1000) <= IZR (n * ch) + y)%R).
  { apply Rle_trans with (bpow radix2 0); [apply bpow_le; lia|]. change (bpow radix2 0) with 1%R. lra. }
  destruct (rnd64_rel_pos _ xb) as [L _]. rewrite mult_IZR in *. rewrite E.
  assert (Yl : (y * (1 - u53) <= IZR n * IZR ch * u53)%R) by lra.
  assert (Yu : (y <= IZR n * IZR ch * (3 / 2 * u53))%R).
  { assert (Q : (y * (1 - / 1000) <= IZR n * IZR ch * u53)%R) by (apply Rle_trans with (2 := Yl); apply Rmult_le_compat_l; lra). lra. }
  destruct Hf as (_ & _ & Hf0 & Hf1).
  destruct (Rle_lt_dec (bpow radix2 (-1000)) (IZR ch * val (snd p))) as [G|G].
  - destruct (rnd64_rel_pos _ G) as [L2 _]. fold y in L2.
    assert (K : (IZR ch * val (snd p) * (1 - / 1000) <= IZR ch * (IZR n * (3 / 2 * u53)))%R).
    { apply Rle_trans with y; [|lra]. apply Rle_trans with (2 := L2). apply Rmult_le_compat_l; [apply Rmult_le_pos; lra|lra]. }
    replace (IZR ch * val (snd p) * (1 - / 1000))%R with (IZR ch * (val (snd p) * (1 - / 1000)))%R in K by ring.
    apply Rmult_le_reg_l in K; [|lra]. rewrite D in *. lra.
  - assert (A : (val (snd p) <= IZR ch * val (snd p))%R) by (assert (Q := Rmult_le_compat_r (val (snd p)) 1 (IZR ch) Hf0 C1); lra).
    assert (Q1 : (bpow radix2 (-1000) <= u53)%R) by (apply bpow_le; lia).
    assert (Q2 : (u53 <= IZR n * u53)%R) by (assert (Q := Rmult_le_compat_r u53 1 (IZR n) ltac:(lra) N1); lra).
    rewrite D. lra.
Qed.

(** The call that made frame k. *)
Lemma frame_call ch X (allowed : f64 -> Prop) (legal : Z -> SRC_DATA -> mem -> Prop) :
  forall st o log out st' o', streaming ch X allowed legal st o log out st' o' ->
  forall k, 0 <= k < total_gen log ->
  exists log1 out1 st1 o1 d m e st2 d2 m2, streaming ch X allowed legal st o log1 out1 st1 o1 /\
    valid_call ch d m /\ holds m (data_in d) ch (input_frames d) X o1 /\ allowed (src_ratio d) /\ legal o1 d m /\
    src_process (Some st1) (Some d) m = Ok (e, Some st2, Some d2, m2) /\
    o1 + input_frames d <= presented o log /\ total_gen log1 <= k < total_gen log1 + output_frames_gen d2.
Proof.
  induction 1 as [st o|st o d0 m0 e0 st1 d1 m1 chunk0 log out st2 o2 Hv Hin Ha Hl E Hc Hs IH|st o r st1 log out st2 o2 Hr Ha E Hs IH];
    intros k Hk; cbn [total_gen presented] in *.
  - lia.
  - destruct (Z_lt_ge_dec k (output_frames_gen d1)) as [L|L].
    + exists [], [], st, o, d0, m0, e0, st1, d1, m1. split; [constructor|].
      split; [exact Hv|]. split; [exact Hin|]. split; [exact Ha|]. split; [exact Hl|]. split; [exact E|]. split; [lia|]. cbn. lia.
    + destruct (IH (k - output_frames_gen d1)) as (l & w & s1 & p1 & d & m & e & s2 & d2 & m2 & A1 & A2 & A3 & A4 & A5 & A6 & A7 & A8); [lia|].
      exists (Ev_call d0 d1 :: l), (chunk0 ++ w), s1, p1, d, m, e, s2, d2, m2. split; [econstructor; eassumption|].
      split; [exact A2|]. split; [exact A3|]. split; [exact A4|]. split; [exact A5|]. split; [exact A6|]. split; [lia|].
      cbn [total_gen]. lia.
  - destruct (IH k Hk) as (l & w & s1 & p1 & d & m & e & s2 & d2 & m2 & A1 & A).
    exists (Ev_ratio r :: l), w, s1, p1, d, m, e, s2, d2, m2. split; [econstructor; eassumption|exact A].
Qed.

(** Where a frame that came out lies. *)
Lemma frame_upto kd ch X r st log out st1 o1 N k :
  at_start kd ch st -> channels_fit ch -> in_range r ->
  streaming ch X (eq r) (lin_legal kd ch X) st 0 log out st1 o1 -> presented 0 log <= N -> 0 <= k < total_gen log ->
  (pval (pos_at (0%Z, dzero) (fun _ => r) (Z.to_nat k)) <= IZR N + IZR N * u52)%R.
Proof.
  intros A F Hr Hs Hp Hk. destruct u53_small as (P & S & D).
  set (p := pos_at (0, dzero) (fun _ => r) (Z.to_nat k)).
  assert (Fp : frac (snd p)) by (apply pos_at_frac; [apply frac_zero|intros; exact Hr]).
  destruct kd.
  2: { destruct (const_run Lin ch X (lin_legal Lin ch X) r st log out st1 o1 A F Hr (fun o d m H => H) Hs) as (G0 & _ & _ & _ & _ & R & _).
    specialize (R k Hk). unfold reads in R. fold p in R. unfold pval.
    assert (L : (IZR (fst p) <= IZR N - 1)%R) by (rewrite <- minus_IZR; apply IZR_le; lia).
    destruct Fp as (_ & _ & Fp).
    destruct (Z_le_gt_dec 0 N) as [N0|N0].
    - assert (0 <= IZR N)%R by (apply (IZR_le 0); exact N0). assert (0 <= IZR N * u52)%R by (apply Rmult_le_pos; lra). lra.
    - exfalso. destruct (frame_call ch X (eq r) (lin_legal Lin ch X) st 0 log out st1 o1 Hs k Hk)
        as (l & w & s1 & p1 & d & m & e & s2 & d2 & m2 & B1 & B2 & B3 & B4 & B5 & B6 & B7 & B8).
      destruct (const_run Lin ch X (lin_legal Lin ch X) r st l w s1 p1 A F Hr (fun o d m H => H) B1) as (_ & O & _).
      assert (0 <= p1) by apply O. assert (0 <= input_frames d) by apply B2. lia. }
  destruct (frame_call ch X (eq r) (lin_legal Zoh ch X) st 0 log out st1 o1 Hs k Hk)
    as (l & w & s1 & p1 & d & m & e & s2 & d2 & m2 & B1 & B2 & B3 & B4 & B5 & B6 & B7 & B8).
  destruct (const_run Zoh ch X (lin_legal Zoh ch X) r st l w s1 p1 A F Hr (fun o d m H => H) B1) as (G0 & O & B & C & Pp & _).
  assert (Bd : band (val r) (val r) (src_ratio d)) by (rewrite <- B4; split; [exact Hr|lra]).
  assert (Vd' : valid_call (st_channels s1) d m) by now rewrite C.
  assert (Hd' : holds m (data_in d) (st_channels s1) (input_frames d) X p1) by now rewrite C.
  assert (Ld' : lin_legal Zoh (st_channels s1) X p1 d m) by exact I.
  assert (Fs : frac (snd (split_pos (st_last_position s1)))).
  { assert (Q := cpos_frac Zoh s1 d m 0 (os_ok _ _ _ _ O) Vd' ltac:(assert (0 <= output_frames d) by apply B2; lia)). exact Q. }
  destruct (stream_call Zoh X s1 p1 d m e s2 d2 m2 (val r) (val r) O B Vd' Hd' Bd Ld' B6)
    as (_ & _ & _ & _ & _ & _ & Br & _ & Rd & _ & _ & Cc).
  rewrite C in *. set (rho := ramp (start_ratio s1 (src_ratio d)) (src_ratio d) ch (output_frames d)) in *.
  set (j := Z.to_nat (k - total_gen l)).
  assert (Hj : (j < Z.to_nat (output_frames_gen d2))%nat) by (unfold j; lia).
  assert (Ep : pos_at (stream_pos s1 p1) rho j = p).
  { unfold p. replace (Z.to_nat k) with (Z.to_nat (total_gen l) + j)%nat by (unfold j; lia).
    rewrite pos_at_add, <- Pp. apply pos_at_ext. intros i Hi. apply (band_exact r Hr). apply Br. lia. }
  destruct (Rd j Hj) as [R1 R2]. rewrite Ep in R1, R2. unfold reads in R2.
  unfold call_counts in Cc. destruct (Z.eqb_spec (input_frames d) 0) as [E0|E0].
  { exfalso. injection Cc as _ Cc. lia. }
  injection Cc as _ Cc.
  assert (Hn : 0 < input_frames d) by (assert (0 <= input_frames d) by apply B2; lia).
  assert (Sv := served_spec (Z.to_nat (output_frames d))
    (fun k => avail Zoh ch (input_frames d) (cpos ch (output_frames d) (st_last_position s1) (start_ratio s1 (src_ratio d)) (src_ratio d) k))).
  fold (cgen Zoh ch (input_frames d) (output_frames d) (st_last_position s1) (start_ratio s1 (src_ratio d)) (src_ratio d)) in Sv.
  destruct Sv as (_ & Sv & _). specialize (Sv j ltac:(lia)). cbv beta in Sv.
  assert (Es : shift p1 (cpos ch (output_frames d) (st_last_position s1) (start_ratio s1 (src_ratio d)) (src_ratio d) j) = p).
  { rewrite <- Ep. unfold stream_pos. rewrite pos_at_shift. reflexivity. }
  set (q := cpos ch (output_frames d) (st_last_position s1) (start_ratio s1 (src_ratio d)) (src_ratio d) j) in *.
  assert (Hc0 : 0 < ch) by (rewrite <- C; apply O).
  assert (Fq : frac (snd q)) by (rewrite <- Es in Fp; exact Fp).
  assert (O1 : 0 <= p1) by apply O.
  assert (Q0 : 0 <= fst q).
  { unfold q, cpos. rewrite <- (Nat.add_0_l j).
    assert (Bl : forall i, (i < j)%nat -> rho i = r) by (intros i Hi; apply (band_exact r Hr); apply Br; lia).
    assert (U0 : 0 <= fst (split_pos (st_last_position s1))) by (apply split_lt258; apply O).
    assert (M : forall i p', (forall h, (h < i)%nat -> rho h = r) -> frac (snd p') -> 0 <= fst p' -> 0 <= fst (pos_at p' rho i)).
    { intros i p' Hi Fp' Hp'. rewrite (pos_at_ext p' rho (fun _ => r) i Hi). clear Hi. induction i as [|i IH]; [exact Hp'|].
      cbn [pos_at]. set (p2 := pos_at p' (fun _ => r) i) in *.
      assert (F2 : frac (snd p2)) by (apply pos_at_frac; auto; intros; exact Hr).
      destruct (step_val (snd p2) r F2 Hr) as (V & X1 & Xl & Xg). unfold move. cbn [fst].
      assert (0 <= Btrunc (Bplus mode_NE (snd p2) (Bdiv mode_NE (d_of_Z 1) r))); [|lia].
      assert (Sp := split_lt258 (Bplus mode_NE (snd p2) (Bdiv mode_NE (d_of_Z 1) r))). unfold split_pos in Sp. cbn [fst] in Sp.
      destruct X1 as (Y1 & Y2 & Y3). apply Sp; [|unfold dadd, ddiv, done_ in *; lra].
      split; [exact Y1|]. split; [exact Y2|]. unfold dadd, ddiv, done_ in *; lra. }
    apply M; auto. }
  rewrite <- Es in R2. unfold shift in R2. cbn [fst] in R2.
  assert (Qn : fst q <= input_frames d) by lia.
  unfold channels_fit in F.
  assert (Up := avail_zoh_upto ch (input_frames d) q Hc0 ltac:(lia) Hn ltac:(apply B2) Q0 Qn Fq Sv).
  assert (Ev : pval p = (IZR p1 + pval q)%R) by (rewrite <- Es; unfold pval, shift; cbn [fst snd]; rewrite plus_IZR; ring).
  rewrite Ev. assert (Np : (IZR p1 + IZR (input_frames d) <= IZR N)%R) by (rewrite <- plus_IZR; apply IZR_le; lia).
  assert (0 <= IZR p1)%R by (apply (IZR_le 0); exact O1).
  assert (IZR (input_frames d) * u52 <= IZR N * u52)%R by (apply Rmult_le_compat_r; lra). lra.
Qed.

Lemma length_sharp kd ch X r N st log out st1 o1 d m e st2 d2 m2 :
  at_start kd ch st -> channels_fit ch -> in_range r ->
  streaming ch X (eq r) (lin_legal kd ch X) st 0 log out st1 o1 ->
  presented 0 log <= N ->
  valid_call ch d m -> holds m (data_in d) ch (input_frames d) X o1 -> src_ratio d = r -> lin_legal kd ch X o1 d m ->
  o1 + input_frames d = N ->
  src_process (Some st1) (Some d) m = Ok (e, Some st2, Some d2, m2) ->
  output_frames_gen d2 < output_frames d ->
  let G := IZR (total_gen log + output_frames_gen d2) in
  let eps := ((B2R r * IZR N + (B2R r + 1) * G) * / IZR (2 ^ 52))%R in
  (- eps <= G - B2R r * IZR N <= 1 + eps)%R.
Proof.
  intros A F Hr Hs Hp Vd Hd Er Ld EN Ed Lt G eps.
  destruct (const_run kd ch X (lin_legal kd ch X) r st log out st1 o1 A F Hr (fun o d m H => H) Hs) as (G0 & O & B & C & P & R & _).
  assert (Bd : band (val r) (val r) (src_ratio d)) by (rewrite Er; split; [exact Hr|lra]).
  assert (Vd' : valid_call (st_channels st1) d m) by now rewrite C.
  assert (Hd' : holds m (data_in d) (st_channels st1) (input_frames d) X o1) by now rewrite C.
  assert (Ld' : lin_legal kd (st_channels st1) X o1 d m) by now rewrite C.
  destruct (stream_call kd X st1 o1 d m e st2 d2 m2 (val r) (val r) O B Vd' Hd' Bd Ld' Ed)
    as (O2 & B2 & C2 & (He & HD & HU & HG & _) & _ & _ & _ & Pg & _ & Wr & Av & _).
  rewrite C in *.
  assert (Hc0 : 0 < ch) by (rewrite <- C; apply O).
  assert (Ck : exists chunk, mread_n m2 (data_out d) (Z.to_nat (output_frames_gen d2 * ch)) = Ok chunk).
  { apply mread_n_ok. intros j Hj.
    destruct Wr as [W1 _]. assert (M := Z.mod_pos_bound j ch Hc0). assert (Q := Z.div_mod j ch ltac:(lia)).
    assert (0 <= j / ch) by (apply Z.div_pos; lia).
    assert (j / ch < output_frames_gen d2) by (apply Z.div_lt_upper_bound; nia).
    replace j with (j / ch * ch + j mod ch) by lia. rewrite W1 by lia. discriminate. }
  destruct Ck as [chunk Ck].
  destruct (streaming_snoc ch X (eq r) (lin_legal kd ch X) st 0 log out st1 o1 Hs d m e st2 d2 m2 chunk Vd Hd (eq_sym Er) Ld Ed Ck)
    as (S1 & S2 & S3).
  destruct (const_run kd ch X (lin_legal kd ch X) r st _ _ st2 _ A F Hr (fun o d m H => H) S1) as (T0 & T1 & _ & T2 & T3 & _ & _).
  assert (Pr : presented 0 (log ++ [Ev_call d d2]) <= N) by lia.
  assert (Fu := fun k => frame_upto kd ch X r st _ _ st2 _ N k A F Hr S1 Pr).
  rewrite S2 in *. set (Gz := total_gen log + output_frames_gen d2) in *.
  set (P0 := (0, dzero) : position) in *.
  assert (F0 : frac (snd P0)) by apply frac_zero.
  assert (Gr : good_ratio r) by exact Hr.
  assert (Pp : 0 <= fst (split_pos (st_last_position st2))) by (apply split_lt258; apply T1).
  assert (Hn0 : 0 <= input_frames d) by apply Vd.
  assert (N0 : (0 <= IZR N)%R) by (apply (IZR_le 0); assert (0 <= o1) by apply O; lia).
  destruct u53_small as (U0 & U1 & U2).
  assert (Low : (IZR N - IZR N * u52 <= pval (pos_at P0 (fun _ => r) (Z.to_nat Gz)))%R).
  { assert (Fg : frac (snd (pos_at P0 (fun _ => r) (Z.to_nat Gz)))) by (apply pos_at_frac; auto).
    assert (Nu : (0 <= IZR N * u52)%R) by (apply Rmult_le_pos; lra).
    destruct (Z.eq_dec (input_frames d) 0) as [Z0|Z0].
    { (* nothing presented: all N frames had been used, the position is past them *)
      assert (Lo : N <= fst (pos_at P0 (fun _ => r) (Z.to_nat Gz))) by (rewrite <- T3; unfold stream_pos, shift; cbn [fst]; lia).
      unfold pval. apply IZR_le in Lo. destruct Fg as (_ & _ & Fg). lra. }
    assert (Hn : 0 < input_frames d) by lia.
    destruct (Av Lt) as [Z1|Af]; [lia|]. rewrite <- Pg in Af. rewrite T3 in Af. set (p := pos_at P0 (fun _ => r) (Z.to_nat Gz)) in *.
    assert (Pos : 0 <= fst (shift (- o1) p)).
    { rewrite <- T3. unfold stream_pos, shift. cbn [fst]. lia. }
    unfold channels_fit in F.
    assert (Q := avail_stop kd ch (input_frames d) (shift (- o1) p) Hc0 ltac:(lia) Hn ltac:(apply Vd) Pos Fg Af).
    assert (Ev : pval p = (IZR o1 + pval (shift (- o1) p))%R) by (unfold pval, shift; cbn [fst snd]; rewrite plus_IZR, opp_IZR; ring).
    assert (En : (IZR N = IZR o1 + IZR (input_frames d))%R) by (rewrite <- plus_IZR; f_equal; lia).
    assert (0 <= IZR o1)%R by (apply (IZR_le 0), O).
    assert (0 <= IZR o1 * u52)%R by (apply Rmult_le_pos; lra). rewrite Ev, En. lra. }
  assert (D := drift P0 r (Z.to_nat Gz) F0 Gr).
  rewrite INR_IZR_INZ, Z2Nat.id in D by exact T0. fold G in D. change (pval P0) with (0 + 0)%R in D.
  assert (B52 : u52 = (/ IZR (2 ^ 52))%R) by reflexivity.
  unfold eps. rewrite <- B52. clear eps B52.
  assert (Rp : (0 < val r)%R) by (destruct Hr as [_ Hr]; lra).
  assert (Ri : (val r * / val r = 1)%R) by (apply Rinv_r; lra).
  set (u := u52) in *. assert (Up : (0 < u)%R) by lra.
  assert (Gp : (0 <= G)%R) by (apply (IZR_le 0); exact T0).
  assert (Rn : (0 <= val r * IZR N)%R) by (apply Rmult_le_pos; lra).
  apply Rabs_le_inv in D. split.
  - assert (H1 : (IZR N - IZR N * u - G * / val r <= G * (u * (1 + / val r)))%R) by lra.
    apply (Rmult_le_compat_l (val r)) in H1; [|lra].
    replace (val r * (IZR N - IZR N * u - G * / val r))%R with (val r * IZR N - val r * IZR N * u - G * (val r * / val r))%R in H1 by ring.
    replace (val r * (G * (u * (1 + / val r))))%R with (G * u * (val r + val r * / val r))%R in H1 by ring.
    rewrite Ri in H1. lra.
  - destruct (Z.eq_dec Gz 0) as [Z0|Z0].
    { unfold G in *. rewrite Z0 in *. assert (0 <= (val r * IZR N + (val r + 1) * 0) * u)%R by (apply Rmult_le_pos; lra). lra. }
    assert (Up1 := Fu (Gz - 1) ltac:(lia)).
    assert (D1 := drift P0 r (Z.to_nat (Gz - 1)) F0 Gr).
    rewrite INR_IZR_INZ, Z2Nat.id in D1 by lia. change (pval P0) with (0 + 0)%R in D1. fold u in D1.
    rewrite minus_IZR in D1. fold G in D1. apply Rabs_le_inv in D1.
    assert (H1 : ((G - 1) * / val r - (IZR N + IZR N * u) <= (G - 1) * (u * (1 + / val r)))%R) by lra.
    apply (Rmult_le_compat_l (val r)) in H1; [|lra].
    replace (val r * ((G - 1) * / val r - (IZR N + IZR N * u)))%R with ((G - 1) * (val r * / val r) - val r * IZR N - val r * IZR N * u)%R in H1 by ring.
    replace (val r * ((G - 1) * (u * (1 + / val r))))%R with ((G - 1) * u * (val r + val r * / val r))%R in H1 by ring.
    rewrite Ri in H1. assert (0 <= u * (val r + 1))%R by (apply Rmult_le_pos; lra). lra.
Qed.

Lemma zoh_length_sharp ch X r N st log out st1 o1 d m e st2 d2 m2 :
  at_start Zoh ch st -> channels_fit ch -> in_range r ->
  streaming ch X (eq r) (fun _ _ _ => True) st 0 log out st1 o1 ->
  presented 0 log <= N ->
  valid_call ch d m -> holds m (data_in d) ch (input_frames d) X o1 -> src_ratio d = r ->
  o1 + input_frames d = N ->
  src_process (Some st1) (Some d) m = Ok (e, Some st2, Some d2, m2) ->
  output_frames_gen d2 < output_frames d ->
  let G := IZR (total_gen log + output_frames_gen d2) in
  let eps := ((B2R r * IZR N + (B2R r + 1) * G) * / IZR (2 ^ 52))%R in
  (- eps <= G - B2R r * IZR N <= 1 + eps)%R.
Proof.
  intros A F Hr Hs Hp Vd Hd Er EN Ed Lt.
  exact (length_sharp Zoh ch X r N st log out st1 o1 d m e st2 d2 m2 A F Hr Hs Hp Vd Hd Er I EN Ed Lt).
Qed.

Lemma within_one_case kd :
  at_start kd 2 (ex_conv kd 2) /\ valid_call 2 (ex_data (d_of_Z 2)) ex_mem /\ holds ex_mem 100 2 4 ex_stream 0 /\
  lin_legal kd 2 ex_stream 0 (ex_data (d_of_Z 2)) ex_mem /\ 0 < input_frames (ex_data (d_of_Z 2)) /\
  (exists st' d' m', src_process (Some (ex_conv kd 2)) (Some (ex_data (d_of_Z 2))) ex_mem = Ok (0, Some st', Some d', m')) /\
  gen_of (src_process (Some (ex_conv kd 2)) (Some (ex_data (d_of_Z 2))) ex_mem) = match kd with Zoh => 9 | Lin => 8 end.
Proof.
  destruct (ex_call kd (d_of_Z 2) two_range) as (st' & d' & m' & E).
  split; [apply ex_start|]. split; [apply ex_valid, two_range|]. split; [apply ex_holds|].
  split. { destruct kd; [exact I|right; left; cbn; lia]. }
  split; [cbn; lia|]. split; [exists st', d', m'; exact E|].
  destruct kd; vm_compute; reflexivity.
Qed.

(** ** C34 *)
Lemma counted_length kd ch r N G : channels_fit ch -> in_range r -> converted kd ch r N G -> (B2R r * IZR N <= IZR (2 ^ 40))%R ->
  (- / 4 <= IZR G - B2R r * IZR N <= 1 + / 4)%R.
Proof.
  intros F Hr (X & st & log & out & st1 & o1 & d & m & st2 & d2 & m2 & A & S & P & V & H & E & L & EN & Ed & Lt & EG) Big.
  assert (Q := length_sharp kd ch X r N st log out st1 o1 d m 0 st2 d2 m2 A F Hr S P V H E L EN Ed Lt). cbv zeta in Q. rewrite <- EG in Q.
  assert (N0 : 0 <= N).
  { destruct (const_run kd ch X (lin_legal kd ch X) r st log out st1 o1 A F Hr (fun o d m H => H) S) as (_ & O & _).
    assert (0 <= o1) by apply O. assert (0 <= input_frames d) by apply V. lia. }
  assert (G0 : 0 <= G).
  { destruct (const_run kd ch X (lin_legal kd ch X) r st log out st1 o1 A F Hr (fun o d m H => H) S) as (g & O & B & C & _).
    assert (Bd : band (val r) (val r) (src_ratio d)) by (rewrite E; split; [exact Hr|lra]).
    assert (Vd' : valid_call (st_channels st1) d m) by now rewrite C.
    assert (Hd' : holds m (data_in d) (st_channels st1) (input_frames d) X o1) by now rewrite C.
    assert (Ld' : lin_legal kd (st_channels st1) X o1 d m) by now rewrite C.
    destruct (stream_call kd X st1 o1 d m 0 st2 d2 m2 (val r) (val r) O B Vd' Hd' Bd Ld' Ed) as (_ & _ & _ & (_ & _ & _ & HG & _) & _).
    lia. }
  apply IZR_le in N0, G0. set (g := IZR G) in *. set (a := (B2R r * IZR N)%R) in *.
  destruct Hr as [_ Hr]. assert (A0 : (0 <= a)%R) by (apply Rmult_le_pos; lra).
  assert (R1 : (0 <= (B2R r + 1) * g <= 257 * g)%R).
  { split; [apply Rmult_le_pos; lra|apply Rmult_le_compat_r; lra]. }
  set (b := ((B2R r + 1) * g)%R) in *.
  assert (B40 : IZR (2 ^ 40) = 1099511627776%R) by reflexivity. rewrite B40 in Big.
  assert (B52 : (/ IZR (2 ^ 52) = / 4503599627370496)%R) by reflexivity. rewrite B52 in Q. clearbody a b g. lra.
Qed.

Lemma hold_counts_close kd ch ch' r N G G' : channels_fit ch -> channels_fit ch' -> in_range r -> (B2R r * IZR N <= IZR (2 ^ 40))%R ->
  converted kd ch r N G -> converted kd ch' r N G' -> Z.abs (G - G') <= 1.
Proof.
  intros F F' Hr Big A B. assert (LA := counted_length _ _ _ _ _ F Hr A Big). assert (LB := counted_length _ _ _ _ _ F' Hr B Big).
  assert (-2 < G - G'); [|assert (G - G' < 2); [|lia]]; apply lt_IZR; rewrite minus_IZR; lra.
Qed.

Lemma counts_case :
  in_range (quotient 5 2) /\ (B2R (quotient 5 2) * 2 <= IZR (2 ^ 40))%R /\ in_range (quotient 5 9) /\ (B2R (quotient 5 9) * 9 <= IZR (2 ^ 40))%R /\
  (converted Zoh 1 (quotient 5 2) 2 6 /\ converted Zoh 3 (quotient 5 2) 2 5) /\
  (converted Lin 1 (quotient 5 9) 9 5 /\ converted Lin 3 (quotient 5 9) 9 6).
Proof.
  assert (Q1 : in_range (quotient 5 2)) by (apply quotient_range; lia). assert (Q2 : in_range (quotient 5 9)) by (apply quotient_range; lia).
  assert (B : (100000 <= IZR (2 ^ 40))%R) by (apply (IZR_le 100000); lia).
  split; [exact Q1|]. split; [destruct Q1; lra|]. split; [exact Q2|]. split; [destruct Q2; lra|]. exact hold_counts_differ.
Qed.
