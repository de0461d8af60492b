(** tests/streaming_test.c: the whole function passes (C60). *)
From Coq Require Import ZArith Reals List Bool Lia Lra.
From Flocq Require Import Core IEEE754.BinarySingleNaN.
From Verif Require Import Base FloatFacts HoldFacts ErrFacts PosFacts Types Common Sinc Api Heap ApiHist HoldSpec HoldCore HoldStream LifeSpec HeapFacts LifeFacts LifeThms
  SincSpec SincApi StreamTest StreamTestSpec StreamTestThms.
Import ListNotations.
Local Open Scope Z_scope.

Lemma round_int mode (x : f64) : Btrunc (Bnearbyint mode x) = round_mode mode (B2R x).
Proof.
  apply eq_IZR. rewrite (Btrunc_correct 53 1024 _), round_FIX0.
  destruct (Bnearbyint_correct 53 1024 _ mode x) as [H _]. rewrite H. rewrite round_FIX0, Ztrunc_IZR. reflexivity.
Qed.
Lemma int_floor_val x : is_finite x = true -> - 2 ^ 31 <= Zfloor (B2R x) <= 2 ^ 31 - 1 -> int_floor x = Ok (Zfloor (B2R x)).
Proof. intros F H. unfold int_floor, int_of_round. rewrite F, round_int. cbn [round_mode]. apply int_ok. lia. Qed.
Lemma int_ceil_val x : is_finite x = true -> - 2 ^ 31 <= Zceil (B2R x) <= 2 ^ 31 - 1 -> int_ceil x = Ok (Zceil (B2R x)).
Proof. intros F H. unfold int_ceil, int_of_round. rewrite F, round_int. cbn [round_mode]. apply int_ok. lia. Qed.

Local Open Scope R_scope.
Lemma one64 : fmt64 1. Proof. apply (fmt64_Z 1). simpl. lia. Qed.
Lemma err15 x : Rabs x <= 32768 -> Rabs (rnd64 x - x) <= / 1000000.
Proof.
  intros H. eapply Rle_trans; [apply (rnd64_err x 15); [lia|]|].
  - eapply Rle_trans; [exact H|]. simpl. lra.
  - simpl. lra.
Qed.
Lemma buf_val : B2R (d_of_Z TEST_BUFFER_LEN) = 32768 /\ is_finite (d_of_Z TEST_BUFFER_LEN) = true.
Proof. destruct (d_of_Z_val TEST_BUFFER_LEN) as [V F]; [unfold TEST_BUFFER_LEN; lia|]. rewrite V. split; [reflexivity|exact F]. Qed.
Lemma small_pow x : Rabs x <= 1000000000 -> Rabs x <= bpow radix2 1000.
Proof. intros H. apply small_1000. lra. Qed.

(** The lengths: long enough for one block, short enough for the buffers, and the output array has room. *)
Lemma lengths_ok r : in_range r -> / 4 <= B2R r -> exists N L, test_lengths r = Ok (N, L) /\
  (100 <= N <= 32758)%Z /\ (100 <= L <= 32768)%Z /\ room_for r N L /\ B2R r * IZR N <= 32768.
Proof.
  intros [F Hr] Lo. destruct buf_val as [Vb Fb]. destruct done_val as [V1 F1]. unfold test_lengths. rewrite dge_spec, V1 by assumption.
  destruct (Rle_bool_spec 1 (B2R r)) as [H|H].
  - assert (Rr : (B2R r * / B2R r = 1)) by (apply Rinv_r; lra). assert (Iv : / 256 <= / B2R r <= 1). { split; [apply Rinv_le; lra|]. rewrite <- Rinv_1. apply Rinv_le; lra. }
    assert (Bq : 128 <= 32768 / B2R r <= 32768) by (unfold Rdiv; lra).
    destruct (ddiv_val (d_of_Z TEST_BUFFER_LEN) r) as [V Fi]; [exact Fb|lra|rewrite Vb; apply small_pow; rewrite Rabs_pos_eq by lra; lra|].
    rewrite Vb in V. set (q := 32768 / B2R r) in *.
    assert (Q1 : 128 <= rnd64 q) by (apply rnd64_ge; [apply (fmt64_Z 128); simpl; lia|lra]).
    assert (Q2 : rnd64 q <= 32768) by (apply rnd64_le; [apply (fmt64_Z 32768); simpl; lia|lra]).
    assert (Q3 := err15 q ltac:(rewrite Rabs_pos_eq; lra)). apply Rabs_le_inv in Q3.
    assert (Fl1 : (128 <= Zfloor (rnd64 q))%Z) by (apply Zfloor_lub; exact Q1).
    assert (Fl2 : IZR (Zfloor (rnd64 q)) <= rnd64 q) by apply Zfloor_lb.
    assert (Fl3 : (Zfloor (rnd64 q) <= 32768)%Z) by (apply le_IZR; lra).
    rewrite int_floor_val; [|exact Fi|rewrite V; lia]. cbn [bind]. rewrite V. rewrite int_ok by lia. cbn [bind].
    exists (Zfloor (rnd64 q) - 10)%Z, TEST_BUFFER_LEN. split; [reflexivity|]. split; [lia|]. split; [unfold TEST_BUFFER_LEN; lia|].
    assert (M : B2R r * IZR (Zfloor (rnd64 q) - 10) <= 32768 - 9 * B2R r).
    { rewrite minus_IZR. apply Rle_trans with (B2R r * (q + / 1000000 - 10)); [apply Rmult_le_compat_l; lra|].
      replace (B2R r * (q + / 1000000 - 10)) with (32768 * (B2R r * / B2R r) + B2R r * (/ 1000000 - 10)) by (unfold q; field; lra). rewrite Rr. lra. }
    split; [|lra]. unfold room_for. change (IZR TEST_BUFFER_LEN) with 32768. simpl (2 ^ 20)%Z. lra.
  - destruct (dmul_val (d_of_Z TEST_BUFFER_LEN) r) as [V Fi]; [exact Fb|exact F|rewrite Vb; apply small_pow; rewrite Rabs_pos_eq by lra; lra|].
    rewrite Vb in V. set (q := 32768 * B2R r) in *. assert (Bq : 8192 <= q <= 32768) by (unfold q; lra).
    assert (Q1 : 8192 <= rnd64 q) by (apply rnd64_ge; [apply (fmt64_Z 8192); simpl; lia|lra]).
    assert (Q2 : rnd64 q <= 32768) by (apply rnd64_le; [apply (fmt64_Z 32768); simpl; lia|lra]).
    assert (Q3 := err15 q ltac:(rewrite Rabs_pos_eq; lra)). apply Rabs_le_inv in Q3.
    assert (Fl1 : (8192 <= Zfloor (rnd64 q))%Z) by (apply Zfloor_lub; exact Q1).
    assert (Fl2 : IZR (Zfloor (rnd64 q)) <= rnd64 q) by apply Zfloor_lb.
    assert (Fl4 : rnd64 q < IZR (Zfloor (rnd64 q)) + 1) by apply Zfloor_ub.
    assert (Fl3 : (Zfloor (rnd64 q) <= 32768)%Z) by (apply le_IZR; lra).
    rewrite int_floor_val; [|exact Fi|rewrite V; lia]. cbn [bind]. rewrite V. rewrite int_ok by (unfold TEST_BUFFER_LEN; lia). cbn [bind].
    exists (TEST_BUFFER_LEN - 10)%Z, (Zfloor (rnd64 q)). split; [reflexivity|]. split; [unfold TEST_BUFFER_LEN; lia|]. split; [lia|].
    change (IZR (TEST_BUFFER_LEN - 10)) with 32758. split; [|lra]. unfold room_for. change (IZR (TEST_BUFFER_LEN - 10)) with 32758. simpl (2 ^ 20)%Z. unfold q in *. lra.
Qed.

(** The checks at the end accept every count within the bounds of C38. *)
Lemma above_one x : 1 + bpow radix2 (-53) < x -> x < 2 -> 1 < rnd64 x.
Proof.
  intros H1 H2. assert (V : Valid_exp (FLT_exp (-1074) 53)) by (apply FLT_exp_valid; reflexivity).
  pose proof (error_le_half_ulp radix2 (FLT_exp (-1074) 53) (fun z => negb (Z.even z)) x) as H. change (round radix2 (FLT_exp (-1074) 53) _ x) with (rnd64 x) in H.
  assert (P := bpow_gt_0 radix2 (-53)).
  assert (U : ulp radix2 (FLT_exp (-1074) 53) x = bpow radix2 (-52)).
  { rewrite ulp_neq_0 by lra. f_equal. unfold cexp. rewrite (mag_unique_pos radix2 x 1); [reflexivity|]. simpl. lra. }
  rewrite U in H. apply Rabs_le_inv in H. replace (bpow radix2 (-52)) with (2 * bpow radix2 (-53)) in H by (simpl; lra). lra.
Qed.

Lemma checks_ok r N G : in_range r -> / 4 <= B2R r -> (100 <= N <= 32758)%Z -> B2R r * IZR N <= 32768 -> (0 <= G <= 32768)%Z ->
  Rabs (IZR G - B2R r * IZR N) <= (B2R r + 1) * (1 + / IZR (2 ^ 20)) -> test_checks r N N G = Ok true.
Proof.
  intros [F Hr] Lo HN HrN HG Hc. destruct done_val as [V1 F1]. unfold test_checks. rewrite dge_spec, V1 by assumption. simpl (2 ^ 20)%Z in Hc.
  destruct (d_of_Z_val G) as [Vg Fg]; [lia|]. destruct (d_of_Z_val N) as [Vn Fn]; [lia|].
  assert (N0 : 0 <= IZR N) by (apply (IZR_le 0); lia). assert (G0 : 0 <= IZR G <= 32768) by (split; apply IZR_le; lia).
  assert (P0 : 0 <= B2R r * IZR N) by (apply Rmult_le_pos; lra).
  destruct (dmul_val r (d_of_Z N)) as [Vm Fm]; [exact F|exact Fn|rewrite Vn; apply small_pow; rewrite Rabs_pos_eq by lra; lra|]. rewrite Vn in Vm.
  assert (Q := err15 (B2R r * IZR N) ltac:(rewrite Rabs_pos_eq; lra)).
  assert (E : exists t, (1 <= t <= 256)%Z /\ int_ceil (if Rle_bool 1 (B2R r) then r else ddiv done_ r) = Ok t /\ Rabs (IZR G - rnd64 (B2R r * IZR N)) <= 2 * IZR t).
  { assert (Q' := Q). apply Rabs_le_inv in Q'. assert (Hc' := Hc). apply Rabs_le_inv in Hc'.
    destruct (Rle_bool_spec 1 (B2R r)) as [H|H].
    - assert (C1 : B2R r <= IZR (Zceil (B2R r))) by apply Zceil_ub. assert (C2 : (1 <= Zceil (B2R r))%Z) by (apply le_IZR; lra).
      assert (C3 : (Zceil (B2R r) <= 256)%Z) by (apply Zceil_glb; lra). exists (Zceil (B2R r)). split; [lia|]. split; [apply int_ceil_val; [exact F|lia]|].
      destruct (Rle_lt_or_eq_dec 1 (B2R r) H) as [H1|H1].
      + assert (C4 : (2 <= Zceil (B2R r))%Z). { apply Z.lt_pred_le. apply lt_IZR. simpl. lra. } apply IZR_le in C4. apply Rabs_le. lra.
      + rewrite <- H1 in *. rewrite Rmult_1_l in *. assert (R1 : rnd64 (IZR N) = IZR N) by (apply rnd64_id, fmt64_Z; lia). rewrite R1.
        rewrite <- minus_IZR, <- abs_IZR in Hc |- *. assert (Z.abs (G - N) < 3)%Z by (apply lt_IZR; lra).
        apply Rle_trans with 2; [apply IZR_le; lia|]. apply IZR_le in C2. lra.
    - assert (Iv : 1 < / B2R r <= 4). { split; [rewrite <- Rinv_1 at 1; apply Rinv_lt_contravar; lra|]. replace 4 with (/ / 4) by lra. apply Rinv_le; lra. }
      destruct (ddiv_val done_ r) as [Vd Fd]; [exact F1|lra|rewrite V1; unfold Rdiv; rewrite Rmult_1_l; apply small_pow; rewrite Rabs_pos_eq by lra; lra|].
      rewrite V1 in Vd. unfold Rdiv in Vd. rewrite Rmult_1_l in Vd.
      assert (D1 : rnd64 (/ B2R r) <= 4) by (apply rnd64_le; [apply (fmt64_Z 4); simpl; lia|lra]).
      assert (D2 : 1 < rnd64 (/ B2R r)).
      { destruct (Rlt_le_dec (/ B2R r) 2) as [Lt|Ge].
        - apply above_one; [|exact Lt]. assert (Pr := lt1_pred r H). assert (Pb := bpow_gt_0 radix2 (-53)). assert (Pb1 : bpow radix2 (-53) < 1) by (simpl; lra).
          apply Rlt_le_trans with (/ (1 - bpow radix2 (-53))); [|apply Rinv_le; lra].
          apply Rmult_lt_reg_r with (1 - bpow radix2 (-53)); [lra|]. rewrite Rinv_l by lra.
          replace ((1 + bpow radix2 (-53)) * (1 - bpow radix2 (-53))) with (1 - bpow radix2 (-53) * bpow radix2 (-53)) by ring.
          assert (0 < bpow radix2 (-53) * bpow radix2 (-53)) by (apply Rmult_lt_0_compat; lra). lra.
        - apply Rlt_le_trans with 2; [lra|]. apply rnd64_ge; [apply (fmt64_Z 2); simpl; lia|exact Ge]. }
      assert (C1 : rnd64 (/ B2R r) <= IZR (Zceil (rnd64 (/ B2R r)))) by apply Zceil_ub.
      assert (C4 : (2 <= Zceil (rnd64 (/ B2R r)))%Z). { apply Z.lt_pred_le. apply lt_IZR. simpl. lra. }
      assert (C3 : (Zceil (rnd64 (/ B2R r)) <= 4)%Z) by (apply Zceil_glb; lra).
      exists (Zceil (rnd64 (/ B2R r))). split; [lia|]. split; [rewrite <- Vd in *; apply int_ceil_val; [exact Fd|lia]|]. apply IZR_le in C4. apply Rabs_le. lra. }
  destruct E as (t & Ht & -> & B). cbn [bind]. rewrite int_ok by lia. cbn [bind].
  assert (T0 : 2 * IZR t <= 512) by (assert (IZR t <= 256) by (apply IZR_le; lia); lra).
  destruct (dsub_val (d_of_Z G) (dmul r (d_of_Z N))) as [Vs Fs]; [exact Fg|exact Fm|rewrite Vg, Vm; apply small_pow; lra|]. rewrite Vg, Vm in Vs.
  destruct (d_of_Z_val (2 * t)) as [Vt Ft]; [lia|]. rewrite mult_IZR in Vt.
  unfold dgt. rewrite (Bltb_correct 53 1024) by (try exact Ft; unfold dabs; rewrite is_finite_Babs; exact Fs).
  unfold dabs. rewrite B2R_Babs, Vs, Vt. rewrite Rlt_bool_false; [now rewrite Z.eqb_refl|].
  assert (F2 : fmt64 (2 * IZR t)) by (rewrite <- mult_IZR; apply fmt64_Z; lia). apply Rabs_le_inv in B. apply Rabs_le. split.
  - apply rnd64_ge; [|lra]. apply generic_format_opp. exact F2.
  - apply rnd64_le; [exact F2|lra].
Qed.
Local Close Scope R_scope.

Lemma loop_sized N L B : forall fuel s s', sized (sl_state s) -> sl_loop N L B fuel s = Ok (Some s') -> sized (sl_state s').
Proof.
  induction fuel as [|k IH]; intros s s' S E; [discriminate E|]. cbn [sl_loop] in E. unfold sl_pass in E.
  destruct (src_process (Some (sl_state s)) (Some (sl_data s)) (sl_mem s)) as [[[[e so] dop] m]|f] eqn:Ep; [|discriminate E]. cbn [bind] in E.
  destruct (process_sized _ _ _ _ _ _ _ S Ep) as (st1 & -> & S1). destruct dop as [d1|]; [|discriminate E].
  destruct (negb (e =? 0)); [discriminate E|]. destruct (negb (end_of_input d1 =? 0) && (output_frames_gen d1 =? 0)).
  - cbn [bind] in E. injection E as <-. exact S1.
  - destruct (int_op (sl_in s + input_frames_used d1)) as [ci|]; [|discriminate E]. cbn [bind] in E.
    destruct (int_op (sl_out s + output_frames_gen d1)) as [co|]; [|discriminate E]. cbn [bind] in E.
    destruct (int_op (N - ci)) as [n|]; [|discriminate E]. cbn [bind] in E. destruct (int_op (L - co)) as [j|]; [|discriminate E]. cbn [bind] in E.
    refine (IH _ _ _ E). exact S1.
Qed.

Definition samples_at (m : mem) (a N : Z) : stream :=
  fun i _ => if (0 <=? i) && (i <? N) then match m (a + i) with Some x => x | None => fzero end else fzero.

Lemma stream_test_passes bld orc ty r input output u g fuel h m c h1 :
  build_ok bld -> heap_ok h -> (forall t, sinc_table bld ty = Some t -> table_fit t) -> src_new bld orc ty 1 h = Ok (0, Some c, h1) ->
  in_range r -> (/ 4 <= B2R r)%R -> 0 < input <= 2 ^ 59 -> 0 < output <= 2 ^ 59 -> disjoint_ranges input TEST_BUFFER_LEN output TEST_BUFFER_LEN ->
  (forall i, 0 <= i < TEST_BUFFER_LEN -> m (input + i) <> None /\ m (output + i) <> None) -> 2 * TEST_BUFFER_LEN <= Z.of_nat fuel ->
  exists s h2, stream_test bld orc ty r input output u g fuel h m = Ok (T_ok s, h2) /\ hp_live h2 = hp_live h.
Proof.
  intros Hb Hh Ht Hn Hr Lo Hi Ho Ha Hm Fu. destruct (lengths_ok r Hr Lo) as (N & L & El & HN & HL & Rm & HrN).
  unfold stream_test. rewrite El. cbn [bind]. unfold TEST_BUFFER_LEN in Ha, Hm, Fu |- *. change (2 ^ 15) with 32768 in *. destruct (Z.gtb_spec L 32768); [lia|].
  rewrite Hn. cbn [bind].
  assert (BF : block_fits TEST_BLOCK_LEN N L) by (unfold block_fits, TEST_BLOCK_LEN; lia).
  assert (Ap : input + N < output \/ output + L <= input) by (unfold disjoint_ranges in Ha; lia).
  set (X := samples_at m input N).
  assert (Zl : forall i k, i < 0 -> X i k = fzero). { intros i k Q. unfold X, samples_at. destruct (Z.leb_spec 0 i); [lia|reflexivity]. }
  assert (Zh : forall i k, N <= i -> X i k = fzero). { intros i k Q. unfold X, samples_at. destruct (Z.ltb_spec i N); [lia|]. now rewrite andb_false_r. }
  assert (TA : two_arrays m X N L input output).
  { split; [exact Hi|]. split; [exact Ho|]. split; [exact Ap|]. split; [|intros j Hj; apply Hm; lia].
    intros i Hi'. unfold X, samples_at. destruct (Z.leb_spec 0 i), (Z.ltb_spec i N); try lia. cbn [andb]. destruct (m (input + i)) eqn:E; [reflexivity|].
    exfalso. apply (proj1 (Hm i ltac:(lia)) E). }
  assert (Q : exists s, sl_loop N L TEST_BLOCK_LEN fuel (sl_init TEST_BLOCK_LEN input output r u g (c_state c) m) = Ok (Some s) /\ sl_in s = N /\ 0 <= sl_out s < L /\
    (Rabs (IZR (sl_out s) - B2R r * IZR N) <= (B2R r + 1) * (1 + / IZR (2 ^ 20)))%R).
  { destruct (sinc_table bld ty) as [[inc coeffs]|] eqn:T.
    - assert (St : sinc_new (inc, coeffs) 1 (c_state c)) by (exists bld, orc, ty, h, c, h1; auto).
      destruct (sinc_streaming_test inc coeffs r N L TEST_BLOCK_LEN input output X (c_state c) (Ht _ eq_refl) Hr ltac:(lra) BF Ap Rm St Zl Zh u g m fuel TA ltac:(lia)) as (s & E1 & E2 & E3 & E4 & _).
      exists s. split; [exact E1|]. split; [exact E2|]. split; [exact E3|]. eapply Rle_trans; [exact E4|]. destruct Hr as [_ Hr]. simpl (2 ^ 19). simpl (2 ^ 20). lra.
    - destruct (new_fresh _ _ _ _ _ _ _ _ Hn) as [Fr _].
      assert (K : exists kd, ty = type_of kd). { destruct Fr as [t bl T' _ _ _ _|_ -> _|_ -> _]; [congruence|exists Zoh; reflexivity|exists Lin; reflexivity]. }
      destruct K as [kd ->]. assert (St : at_start kd 1 (c_state c)) by (left; exists bld, orc, h, c, h1; auto).
      destruct (hold_streaming_test kd r N L TEST_BLOCK_LEN input output X (c_state c) Hr BF ltac:(destruct kd; [exact I|unfold TEST_BLOCK_LEN; lia]) Ap Rm St u g m fuel TA ltac:(lia)) as (s & E1 & E2 & E3 & E4 & _).
      exists s. split; [exact E1|]. split; [exact E2|]. split; [exact E3|]. eapply Rle_trans; [exact E4|]. destruct Hr as [_ Hr]. simpl (2 ^ 19). simpl (2 ^ 20). lra. }
  destruct Q as (s & Es & E2 & E3 & E4). rewrite Es. cbn [bind].
  destruct (new_fresh _ _ _ _ _ _ _ _ Hn) as [Fr Hc]. assert (Sz := loop_sized _ _ _ _ _ _ (fresh_sized _ _ _ _ Hc Fr : sized (sl_state (sl_init TEST_BLOCK_LEN input output r u g (c_state c) m))) Es).
  destruct (new_any _ _ _ _ _ _ _ _ Hh Hb Hn) as (K1 & _ & _ & K2 & _).
  destruct (delete_new h c h1 (sl_state s) K1 K2 Sz) as (h2 & -> & _ & Lv & _). cbn [bind]. rewrite E2.
  rewrite (checks_ok r N (sl_out s) Hr Lo HN HrN ltac:(lia) E4). cbn [bind]. exists s, h2. auto.
Qed.
