(** tests/termination_test.c: the whole of stream_test passes (C62). *)
From Coq Require Import ZArith Reals List Bool Lia Lra.
From Flocq Require Import Core IEEE754.BinarySingleNaN.
From Verif Require Import Base FloatFacts HoldFacts ErrFacts PosFacts Types Common Sinc Api Heap ApiHist HoldSpec HoldCore HoldStream LifeSpec HeapFacts LifeFacts LifeThms
  SincSpec SincApi SincLoop StreamTest StreamTestSpec StreamTestThms StreamFunc TermTest TermTestThms.
Import ListNotations.
Local Open Scope Z_scope.

Local Open Scope R_scope.
Lemma err16 x : Rabs x <= 65536 -> Rabs (rnd64 x - x) <= / 1000000.
Proof.
  intros H. eapply Rle_trans; [apply (rnd64_err x 16); [lia|]|].
  - eapply Rle_trans; [exact H|]. simpl. lra.
  - simpl. lra.
Qed.
Lemma long_val : B2R (d_of_Z LONG_BUFFER_LEN) = 65516 /\ is_finite (d_of_Z LONG_BUFFER_LEN) = true.
Proof. destruct (d_of_Z_val LONG_BUFFER_LEN) as [V F]; [unfold LONG_BUFFER_LEN; lia|]. rewrite V. split; [reflexivity|exact F]. Qed.

(** terminate is at least 2. *)
Lemma slack_ok r : in_range r -> exists T, term_slack r = Ok T /\ (2 <= T <= 257)%Z.
Proof.
  intros [F Hr]. destruct done_val as [V1 F1]. unfold term_slack. rewrite dge_spec, V1 by assumption.
  assert (E : exists t, (1 <= t <= 256)%Z /\ int_ceil (if Rle_bool 1 (B2R r) then r else ddiv done_ r) = Ok t).
  { destruct (Rle_bool_spec 1 (B2R r)) as [H|H].
    - exists (Zceil (B2R r)). assert (C1 : B2R r <= IZR (Zceil (B2R r))) by apply Zceil_ub.
      assert (C2 : (1 <= Zceil (B2R r))%Z) by (apply le_IZR; lra). assert (C3 : (Zceil (B2R r) <= 256)%Z) by (apply Zceil_glb; lra).
      split; [lia|]. apply int_ceil_val; [exact F|lia].
    - assert (Iv : 1 < / B2R r <= 256). { split; [rewrite <- Rinv_1 at 1; apply Rinv_lt_contravar; lra|]. replace 256 with (/ / 256) by lra. apply Rinv_le; lra. }
      destruct (ddiv_val done_ r) as [Vd Fd]; [exact F1|lra|rewrite V1; unfold Rdiv; rewrite Rmult_1_l; apply small_pow; rewrite Rabs_pos_eq by lra; lra|].
      rewrite V1 in Vd. unfold Rdiv in Vd. rewrite Rmult_1_l in Vd.
      assert (D1 : rnd64 (/ B2R r) <= 256) by (apply rnd64_le; [apply (fmt64_Z 256); simpl; lia|lra]).
      assert (D2 : 1 <= rnd64 (/ B2R r)) by (apply rnd64_ge; [exact one64|lra]).
      assert (C1 : rnd64 (/ B2R r) <= IZR (Zceil (rnd64 (/ B2R r)))) by apply Zceil_ub.
      assert (C2 : (1 <= Zceil (rnd64 (/ B2R r)))%Z) by (apply le_IZR; lra).
      assert (C3 : (Zceil (rnd64 (/ B2R r)) <= 256)%Z) by (apply Zceil_glb; lra).
      exists (Zceil (rnd64 (/ B2R r))). split; [lia|]. rewrite <- Vd in *. apply int_ceil_val; [exact Fd|lia]. }
  destruct E as (t & Ht & ->). cbn [bind]. rewrite int_ok by lia. exists (1 + t)%Z. split; [reflexivity|lia].
Qed.

Lemma term_lengths_ok r : in_range r -> / 16 <= B2R r -> exists N K, term_lengths r = Ok (N, K) /\
  (200 <= N <= 65496)%Z /\ (100 <= K <= 65516)%Z /\ room_for r N LONG_BUFFER_LEN /\ room_for r N (K + 1) /\ B2R r * IZR N <= 65516.
Proof.
  intros [F Hr] Lo. destruct long_val as [Vb Fb]. destruct done_val as [V1 F1]. unfold term_lengths. rewrite dge_spec, V1 by assumption.
  destruct (Rle_bool_spec 1 (B2R r)) as [H|H].
  - assert (Rr : (B2R r * / B2R r = 1)) by (apply Rinv_r; lra). assert (Iv : / 256 <= / B2R r <= 1). { split; [apply Rinv_le; lra|]. rewrite <- Rinv_1. apply Rinv_le; lra. }
    assert (Bq : 255 <= 65516 / B2R r <= 65516) by (unfold Rdiv; lra).
    destruct (ddiv_val (d_of_Z LONG_BUFFER_LEN) r) as [V Fi]; [exact Fb|lra|rewrite Vb; apply small_pow; rewrite Rabs_pos_eq by lra; lra|].
    rewrite Vb in V. set (q := 65516 / B2R r) in *.
    assert (Q1 : 255 <= rnd64 q) by (apply rnd64_ge; [apply (fmt64_Z 255); simpl; lia|lra]).
    assert (Q2 : rnd64 q <= 65516) by (apply rnd64_le; [apply (fmt64_Z 65516); simpl; lia|lra]).
    assert (Q3 := err16 q ltac:(rewrite Rabs_pos_eq; lra)). apply Rabs_le_inv in Q3.
    assert (Fl1 : (255 <= Zfloor (rnd64 q))%Z) by (apply Zfloor_lub; exact Q1).
    assert (Fl2 : IZR (Zfloor (rnd64 q)) <= rnd64 q) by apply Zfloor_lb.
    assert (Fl3 : (Zfloor (rnd64 q) <= 65516)%Z) by (apply le_IZR; lra).
    rewrite int_floor_val; [|exact Fi|rewrite V; lia]. cbn [bind]. rewrite V. rewrite int_ok by lia. cbn [bind].
    exists (Zfloor (rnd64 q) - 20)%Z, LONG_BUFFER_LEN. split; [reflexivity|]. split; [lia|]. split; [unfold LONG_BUFFER_LEN; lia|].
    assert (M : B2R r * IZR (Zfloor (rnd64 q) - 20) <= 65516 - 19 * B2R r).
    { rewrite minus_IZR. apply Rle_trans with (B2R r * (q + / 1000000 - 20)); [apply Rmult_le_compat_l; lra|].
      replace (B2R r * (q + / 1000000 - 20)) with (65516 * (B2R r * / B2R r) + B2R r * (/ 1000000 - 20)) by (unfold q; field; lra). rewrite Rr. lra. }
    unfold room_for. change (IZR LONG_BUFFER_LEN) with 65516. change (IZR (LONG_BUFFER_LEN + 1)) with 65517. simpl (2 ^ 20)%Z. split; [lra|]. split; lra.
  - destruct (dmul_val (d_of_Z LONG_BUFFER_LEN) r) as [V Fi]; [exact Fb|exact F|rewrite Vb; apply small_pow; rewrite Rabs_pos_eq by lra; lra|].
    rewrite Vb in V. set (q := 65516 * B2R r) in *. assert (Bq : 4000 <= q <= 65516) by (unfold q; lra).
    assert (Q1 : 4000 <= rnd64 q) by (apply rnd64_ge; [apply (fmt64_Z 4000); simpl; lia|lra]).
    assert (Q2 : rnd64 q <= 65516) by (apply rnd64_le; [apply (fmt64_Z 65516); simpl; lia|lra]).
    assert (Q3 := err16 q ltac:(rewrite Rabs_pos_eq; lra)). apply Rabs_le_inv in Q3.
    assert (Fl1 : (4000 <= Zfloor (rnd64 q))%Z) by (apply Zfloor_lub; exact Q1).
    assert (Fl2 : IZR (Zfloor (rnd64 q)) <= rnd64 q) by apply Zfloor_lb.
    assert (Fl4 : rnd64 q < IZR (Zfloor (rnd64 q)) + 1) by apply Zfloor_ub.
    assert (Fl3 : (Zfloor (rnd64 q) <= 65516)%Z) by (apply le_IZR; lra).
    rewrite int_floor_val; [|exact Fi|rewrite V; lia]. cbn [bind]. rewrite V. rewrite int_ok by (unfold LONG_BUFFER_LEN; lia). cbn [bind].
    exists (LONG_BUFFER_LEN - 20)%Z, (Zfloor (rnd64 q)). split; [reflexivity|]. split; [unfold LONG_BUFFER_LEN; lia|]. split; [lia|].
    unfold room_for. rewrite plus_IZR. change (IZR (LONG_BUFFER_LEN - 20)) with 65496. change (IZR LONG_BUFFER_LEN) with 65516. simpl (2 ^ 20)%Z. unfold q in *. split; [lra|]. split; lra.
Qed.

Lemma term_checks_ok r N T G : in_range r -> (0 <= N <= 65516)%Z -> B2R r * IZR N <= 65516 -> (0 <= G <= 65516)%Z -> (2 <= T <= 257)%Z ->
  Rabs (IZR G - B2R r * IZR N) <= 1 + (B2R r + 1) * / IZR (2 ^ 19) -> term_checks r N T N G = true.
Proof.
  intros [F Hr] HN HrN HG HT Hc. unfold term_checks. simpl (2 ^ 19)%Z in Hc.
  destruct (d_of_Z_val G) as [Vg Fg]; [lia|]. destruct (d_of_Z_val N) as [Vn Fn]; [lia|].
  assert (N0 : 0 <= IZR N) by (apply (IZR_le 0); lia). assert (G0 : 0 <= IZR G <= 65516) by (split; apply IZR_le; lia).
  assert (T0 : 2 <= IZR T <= 257) by (split; apply IZR_le; lia).
  assert (P0 : 0 <= B2R r * IZR N) by (apply Rmult_le_pos; lra).
  destruct (dmul_val r (d_of_Z N)) as [Vm Fm]; [exact F|exact Fn|rewrite Vn; apply small_pow; rewrite Rabs_pos_eq by lra; lra|]. rewrite Vn in Vm.
  assert (Q := err16 (B2R r * IZR N) ltac:(rewrite Rabs_pos_eq; lra)). apply Rabs_le_inv in Q. apply Rabs_le_inv in Hc.
  assert (B : - IZR T <= IZR G - rnd64 (B2R r * IZR N) <= IZR T) by lra.
  destruct (dsub_val (d_of_Z G) (dmul r (d_of_Z N))) as [Vs Fs]; [exact Fg|exact Fm|rewrite Vg, Vm; apply small_pow; apply Rabs_le; lra|]. rewrite Vg, Vm in Vs.
  destruct (d_of_Z_val T) as [Vt Ft]; [lia|].
  unfold dgt. rewrite (Bltb_correct 53 1024) by (try exact Ft; unfold dabs; rewrite is_finite_Babs; exact Fs).
  unfold dabs. rewrite B2R_Babs, Vs, Vt. rewrite Rlt_bool_false; [now rewrite Z.eqb_refl|].
  assert (F2 : fmt64 (IZR T)) by (apply fmt64_Z; lia). apply Rabs_le. split.
  - apply rnd64_ge; [|lra]. apply generic_format_opp. exact F2.
  - apply rnd64_le; [exact F2|lra].
Qed.
Local Close Scope R_scope.

Lemma tt_sized N K T L : forall fuel t t', sized (sl_state (tt_sl t)) -> tt_loop N K T L fuel t = Ok (Some t') -> sized (sl_state (tt_sl t')).
Proof.
  induction fuel as [|k IH]; intros t t' S E; [discriminate E|]. cbn [tt_loop] in E. unfold tt_pass in E. cbv zeta in E.
  destruct (next_block_length (tt_idx t)) as [[b i]|]; [|discriminate E]. cbn [bind] in E.
  destruct (int_op (N - sl_in (tt_sl t))) as [n|]; [|discriminate E]. cbn [bind] in E. destruct (int_op (L - sl_out (tt_sl t))) as [j|]; [|discriminate E]. cbn [bind] in E.
  match type of E with context [src_process ?s ?d ?m] => destruct (src_process s d m) as [[[[e so] dop] m2]|f] eqn:Ep; [|discriminate E] end. cbn [bind] in E.
  destruct (process_sized _ _ _ _ _ _ _ S Ep) as (st1 & -> & S1). destruct dop as [d1|]; [|discriminate E].
  destruct (negb (e =? 0)); [discriminate E|]. destruct (negb (end_of_input d1 =? 0) && (output_frames_gen d1 =? 0)).
  - cbn [bind] in E. injection E as <-. exact S1.
  - destruct ((input_frames d1 <? input_frames_used d1) || (input_frames_used d1 <? 0) || (output_frames_gen d1 <? 0)); [discriminate E|].
    destruct (int_op (sl_in (tt_sl t) + input_frames_used d1)) as [ci|]; [|discriminate E]. cbn [bind] in E.
    destruct (int_op (sl_out (tt_sl t) + output_frames_gen d1)) as [co|]; [|discriminate E]. cbn [bind] in E.
    destruct (int_op (N + T)) as [lim|]; [|discriminate E]. cbn [bind] in E.
    destruct ((lim <? ci) || (K <? co) || (N <? input_frames_used d1) || (K <? output_frames_gen d1)); [discriminate E|].
    destruct ((data_in d1 =? 0) && (output_frames_gen d1 =? 0)); cbn [bind] in E; [injection E as <-; exact S1|].
    refine (IH _ _ _ E). exact S1.
Qed.

Lemma term_test_passes bld orc ty r input output n u g idx fuel h m c h1 :
  build_ok bld -> heap_ok h -> (forall t, sinc_table bld ty = Some t -> table_fit t) -> src_new bld orc ty 1 h = Ok (0, Some c, h1) ->
  in_range r -> (/ 16 <= B2R r)%R -> 0 < input <= 2 ^ 59 -> 0 < output <= 2 ^ 59 -> disjoint_ranges input LONG_BUFFER_LEN output LONG_BUFFER_LEN ->
  (forall i, 0 <= i < LONG_BUFFER_LEN -> m (input + i) <> None /\ m (output + i) <> None) -> 0 <= idx <= 8 -> 2 * LONG_BUFFER_LEN < Z.of_nat fuel ->
  exists s h2, term_test bld orc ty r input output n u g idx fuel h m = Ok (T_ok s, h2) /\ hp_live h2 = hp_live h.
Proof.
  intros Hb Hh Ht Hn Hr Lo Hi Ho Ha Hm Ix Fu. destruct (term_lengths_ok r Hr Lo) as (N & K & El & HN & HK & Rm & Rk & HrN).
  destruct (slack_ok r Hr) as (T & Es & HT). unfold term_test. assert (EL : LONG_BUFFER_LEN = 65516) by reflexivity.
  set (L := LONG_BUFFER_LEN) in *. clearbody L.
  assert (P0 : 0 <= L) by lia.
  destruct (mwrite_list_ok f_of_Z (Z.to_nat L) 0 input m) as (m1 & Em & W1 & W2). { intros j Hj. apply Hm. lia. }
  rewrite Z2Nat.id in W1, W2 by exact P0. unfold ramp_samples. rewrite Em. cbn [bind]. clear Em. rewrite El. cbn [bind].
  destruct (Z.gtb_spec K L); [lia|]. rewrite Hn, Es. cbn [bind].
  assert (Sz : term_sizes r N K T L) by (unfold term_sizes; repeat split; auto; lia).
  assert (Ap : input + N < output \/ output + L <= input) by (unfold disjoint_ranges in Ha; lia).
  assert (Hm1 : forall i, 0 <= i < L -> m1 (input + i) <> None /\ m1 (output + i) <> None).
  { intros i Hi'. split; [rewrite W1 by lia; discriminate|]. rewrite W2 by (unfold disjoint_ranges in Ha; lia). now apply Hm. }
  set (X := samples_at m1 input N).
  assert (Zl : forall i k, i < 0 -> X i k = fzero). { intros i k Q. unfold X, samples_at. destruct (Z.leb_spec 0 i); [lia|reflexivity]. }
  assert (Zh : forall i k, N <= i -> X i k = fzero). { intros i k Q. unfold X, samples_at. destruct (Z.ltb_spec i N); [lia|]. now rewrite andb_false_r. }
  assert (TA : two_arrays m1 X N L input output).
  { split; [exact Hi|]. split; [exact Ho|]. split; [exact Ap|]. split; [|intros j Hj; apply Hm1; lia].
    intros i Hi'. unfold X, samples_at. destruct (Z.leb_spec 0 i), (Z.ltb_spec i N); try lia. cbn [andb]. destruct (m1 (input + i)) eqn:E; [reflexivity|].
    exfalso. apply (proj1 (Hm1 i ltac:(lia)) E). }
  assert (Q : exists t, tt_loop N K T L fuel (tt_init L input output r n u g idx (c_state c) m1) = Ok (Some t) /\ sl_in (tt_sl t) = N /\ 0 <= sl_out (tt_sl t) < L /\
    (Rabs (IZR (sl_out (tt_sl t)) - B2R r * IZR N) <= 1 + (B2R r + 1) * / IZR (2 ^ 19))%R).
  { destruct (sinc_table bld ty) as [[inc coeffs]|] eqn:Tb.
    - assert (St : sinc_new (inc, coeffs) 1 (c_state c)) by (exists bld, orc, ty, h, c, h1; auto).
      destruct (sinc_term_test inc coeffs r N K T L input output X (c_state c) (Ht _ eq_refl) Hr ltac:(lra) Sz St Zl Zh n u g idx m1 fuel TA Ix ltac:(lia)) as (s & E1 & E2 & E3 & _ & E4 & _).
      exists s. auto.
    - destruct (new_fresh _ _ _ _ _ _ _ _ Hn) as [Fr _].
      assert (Kd : exists kd, ty = type_of kd). { destruct Fr as [t bl T' _ _ _ _|_ -> _|_ -> _]; [congruence|exists Zoh; reflexivity|exists Lin; reflexivity]. }
      destruct Kd as [kd ->]. assert (St : at_start kd 1 (c_state c)) by (left; exists bld, orc, h, c, h1; auto).
      destruct (hold_term_test kd r N K T L input output X (c_state c) Hr Sz St n u g idx m1 fuel TA Ix ltac:(lia)) as (s & E1 & E2 & E3 & _ & E4 & _).
      exists s. auto. }
  destruct Q as (t & Et & E2 & E3 & E4). rewrite Et. cbn [bind].
  destruct (new_fresh _ _ _ _ _ _ _ _ Hn) as [Fr Hc].
  assert (Sd := tt_sized _ _ _ _ _ _ _ (fresh_sized _ _ _ _ Hc Fr : sized (sl_state (tt_sl (tt_init L input output r n u g idx (c_state c) m1)))) Et).
  destruct (new_any _ _ _ _ _ _ _ _ Hh Hb Hn) as (K1 & _ & _ & K2 & _).
  destruct (delete_new h c h1 (sl_state (tt_sl t)) K1 K2 Sd) as (h2 & -> & _ & Lv & _). cbn [bind]. rewrite E2.
  rewrite (term_checks_ok r N T (sl_out (tt_sl t)) Hr ltac:(lia) HrN ltac:(lia) HT E4). exists (tt_sl t), h2. auto.
Qed.
