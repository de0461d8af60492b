(** tests/termination_test.c, stream_test: the loop (C62). *)
From Coq Require Import ZArith Reals List Bool Lia Lra.
From Flocq Require Import Core IEEE754.BinarySingleNaN.
From Verif Require Import Base FloatFacts PosFacts Types Common Sinc Api Callback ApiHist HoldSpec HoldFacts HoldCore HoldCall HoldStream HoldProcess HoldRamp HoldValue
  SincSpec SincApi SincLoop SincStream SincMain SincThms HoldMain HoldLength LifeSpec CbStream StreamTest StreamTestSpec StreamTestThms TermTest.
Import ListNotations.
Local Open Scope Z_scope.

Lemma next_block idx : 0 <= idx <= 8 -> exists b i, next_block_length idx = Ok (b, i) /\ 5 <= b <= 400 /\ 0 <= i <= 8.
Proof.
  intros H. assert (E : idx = 0 \/ idx = 1 \/ idx = 2 \/ idx = 3 \/ idx = 4 \/ idx = 5 \/ idx = 6 \/ idx = 7 \/ idx = 8) by lia.
  decompose [or] E; subst idx; eexists _, _; (split; [cbv; reflexivity|lia]).
Qed.

Section Client.
  Variables (r : f64) (N K T L input output : Z) (X : stream) (st0 : SRC_STATE) (m0 : mem).
  Variable Run : list event -> list f32 -> SRC_STATE -> Z -> Prop.
  Hypothesis Hr : in_range r.
  Hypothesis HN : 5 <= N <= 2 ^ 30.
  Hypothesis HL : 0 < L <= 2 ^ 30.
  Hypothesis HT : 0 <= T <= 2 ^ 20.
  Hypothesis Hin : 0 < input <= 2 ^ 59.
  Hypothesis Hout : 0 < output <= 2 ^ 59.
  Hypothesis Hap : input + N < output \/ output + L <= input.

  Hypothesis Run0 : Run [] [] st0 0.
  Hypothesis Bound : forall log out st o, Run log out st o -> 0 <= o <= N -> 0 <= total_gen log <= L -> total_gen log < L /\ total_gen log <= K.
  Hypothesis Call : forall log out st o d m, Run log out st o -> 0 <= o <= N -> mem_ok N L input output X m -> 0 <= total_gen log < L ->
    ask r N L input output d o (total_gen log) -> (0 < input_frames d < 3 -> 1 <= o) ->
    valid_call 1 d m -> holds m (data_in d) 1 (input_frames d) X o ->
    exists st' d' m' chunk, src_process (Some st) (Some d) m = Ok (0, Some st', Some d', m') /\ honest_reply 1 d m 0 d' m' /\
      mread_n m' (data_out d) (Z.to_nat (output_frames_gen d' * 1)) = Ok chunk /\
      Run (log ++ [Ev_call d d']) (out ++ chunk) st' (o + input_frames_used d') /\
      (0 < input_frames d -> 0 < output_frames d -> 0 < input_frames_used d' \/ 0 < output_frames_gen d').

  Record tt_inv (t : tt) (log : list event) (out : list f32) : Prop := {
    ti_run : Run log out (sl_state (tt_sl t)) (sl_in (tt_sl t));
    ti_in : 0 <= sl_in (tt_sl t) <= N;
    ti_count : sl_out (tt_sl t) = total_gen log;
    ti_out : 0 <= sl_out (tt_sl t) <= L;
    ti_pin : data_in (sl_data (tt_sl t)) = input + sl_in (tt_sl t);
    ti_pout : data_out (sl_data (tt_sl t)) = output + sl_out (tt_sl t);
    ti_ratio : src_ratio (sl_data (tt_sl t)) = r;
    ti_idx : 0 <= tt_idx t <= 8;
    ti_mem : mem_ok N L input output X (sl_mem (tt_sl t));
    ti_done : written output m0 (sl_mem (tt_sl t)) (sl_out (tt_sl t)) out }.
  Record tt_end (t : tt) (log : list event) (out : list f32) : Prop := {
    te_last : exists st d m st2 d2 m2, Run log out st N /\ ask r N L input output d N (total_gen log) /\ end_of_input d <> 0 /\ valid_call 1 d m /\ 0 < output_frames d /\
      src_process (Some st) (Some d) m = Ok (0, Some st2, Some d2, m2) /\ output_frames_gen d2 = 0;
    te_in : sl_in (tt_sl t) = N;
    te_count : sl_out (tt_sl t) = total_gen log;
    te_out : 0 <= sl_out (tt_sl t) < L;
    te_done : written output m0 (sl_mem (tt_sl t)) (sl_out (tt_sl t)) out }.

  Lemma tt_pass_ok t log out : tt_inv t log out -> exists n, tt_pass N K T L t = Ok n /\
    match n with
    | Tt_again t' => (exists log' out', tt_inv t' log' out') /\
        (N - sl_in (tt_sl t')) + (L - sl_out (tt_sl t')) < (N - sl_in (tt_sl t)) + (L - sl_out (tt_sl t))
    | Tt_break t' => tt_end t' log out
    | Tt_exit => False
    end.
  Proof.
    intros I. destruct t as [s idx]. assert (I1 := ti_in _ _ _ I). assert (I2 := ti_out _ _ _ I). assert (I3 := ti_count _ _ _ I).
    assert (P1 := ti_pin _ _ _ I). assert (P2 := ti_pout _ _ _ I). assert (P3 := ti_ratio _ _ _ I). assert (Ix := ti_idx _ _ _ I).
    destruct (ti_mem _ _ _ I) as [M1 M2]. destruct (ti_done _ _ _ I) as (D1 & D2 & D3). assert (Ru := ti_run _ _ _ I).
    cbn [tt_sl tt_idx] in *. unfold tt_pass. cbn [tt_sl tt_idx]. cbv zeta.
    destruct (next_block idx Ix) as (b & i & -> & Hb & Hi). cbn [bind]. repeat (rewrite int_ok by lia; cbn [bind]).
    set (d := mkData (data_in (sl_data s)) (data_out (sl_data s)) (Z.min b (N - sl_in s)) (L - sl_out s) (input_frames_used (sl_data s)) (output_frames_gen (sl_data s))
                (if N <=? sl_in s then 1 else 0) (src_ratio (sl_data s))).
    destruct (Bound _ _ _ _ Ru I1 ltac:(lia)) as [Gl Gk].
    assert (Ee0 : end_of_input d = if N <=? sl_in s then 1 else 0) by reflexivity.
    assert (En0 : input_frames d = Z.min b (N - sl_in s)) by reflexivity.
    assert (Ek0 : output_frames d = L - sl_out s) by reflexivity.
    assert (Ei0 : data_in d = input + sl_in s) by exact P1.
    assert (Eo0 : data_out d = output + sl_out s) by exact P2.
    assert (Er0 : src_ratio d = r) by exact P3.
    clearbody d.
    assert (A : ask r N L input output d (sl_in s) (total_gen log)).
    { constructor; try lia; try exact Er0. intros Q. rewrite Ee0 in Q. destruct (Z.leb_spec N (sl_in s)); lia. }
    assert (V : valid_call 1 d (sl_mem s)).
    { unfold valid_call. rewrite Ei0, Eo0, En0, Ek0, Er0. split; [lia|]. split; [lia|]. split; [lia|]. split; [lia|]. split; [exact Hr|]. split; [lia|]. split; [lia|].
      split; [lia|]. split; [lia|]. split; [|split].
      - intros j Hj. rewrite <- Z.add_assoc, M1 by lia. discriminate.
      - intros j Hj. rewrite <- Z.add_assoc. apply M2. lia.
      - unfold apart. lia. }
    assert (Hh : holds (sl_mem s) (data_in d) 1 (input_frames d) X (sl_in s)).
    { rewrite Ei0, En0. intros j c Hj Hc. assert (c = 0) by lia. subst c. replace (input + sl_in s + (j * 1 + 0)) with (input + (sl_in s + j)) by lia. apply M1. lia. }
    destruct (Call log out (sl_state s) (sl_in s) d (sl_mem s) Ru I1 (conj M1 M2) ltac:(lia) A ltac:(lia) V Hh) as (st' & d' & m' & chunk & E & H & Ck & R' & P).
    rewrite E. cbn [bind]. change (negb (0 =? 0)) with false. cbv iota.
    destruct H as (_ & Ed & Hu & Hg & value & Wr).
    set (used := input_frames_used d') in *. set (gen := output_frames_gen d') in *.
    assert (Ee : end_of_input d' = end_of_input d) by (rewrite Ed; reflexivity).
    assert (Edi : data_in d' = data_in d) by (rewrite Ed; reflexivity).
    assert (Edo : data_out d' = data_out d) by (rewrite Ed; reflexivity).
    assert (Er : src_ratio d' = src_ratio d) by (rewrite Ed; reflexivity).
    assert (Ein : input_frames d' = input_frames d) by (rewrite Ed; reflexivity).
    rewrite Z.mul_1_r in Ck. destruct (mread_n_spec _ _ _ _ Ck) as [Lc Rc].
    destruct Wr as [W1 W2]. rewrite Z.mul_1_r in W2. rewrite Eo0 in W2, Rc. unfold zlen in D1.
    assert (W3 : written output m0 m' (sl_out s + gen) (out ++ chunk)).
    { split; [unfold zlen; rewrite app_length; lia|]. split.
      - intros k Hk. destruct (Z_lt_ge_dec k (sl_out s)) as [Lk|Lk].
        + rewrite W2 by lia. rewrite D2 by lia. rewrite nth_error_app1 by lia. reflexivity.
        + rewrite nth_error_app2 by lia. rewrite Rc by lia. f_equal. lia.
      - intros a Ha. rewrite W2 by lia. apply D3. lia. }
    rewrite Ee. destruct (negb (end_of_input d =? 0) && (gen =? 0)) eqn:Bk.
    - apply andb_prop in Bk. destruct Bk as [B1 B2]. apply Z.eqb_eq in B2. assert (B1' := B1). rewrite Ee0 in B1. destruct (Z.leb_spec N (sl_in s)) as [Le|Le]; [|discriminate B1].
      assert (En : sl_in s = N) by lia. eexists. split; [reflexivity|]. cbv iota beta.
      rewrite B2, Z.add_0_r in W3. assert (chunk = []). { destruct chunk; [reflexivity|]. cbn [length] in Lc. lia. } subst chunk. rewrite app_nil_r in W3.
      constructor; cbn [tt_sl sl_in sl_out sl_mem]; auto; try lia.
      rewrite En in Ru, A. exists (sl_state s), d, (sl_mem s), st', d', m'. split; [exact Ru|]. split; [exact A|]. split.
      { apply negb_true_iff, Z.eqb_neq in B1'. exact B1'. } split; [exact V|]. split; [lia|]. split; [exact E|exact B2].
    - assert (C1 : (input_frames d' <? used) || (used <? 0) || (gen <? 0) = false).
      { rewrite Ein. destruct (Z.ltb_spec (input_frames d) used), (Z.ltb_spec used 0), (Z.ltb_spec gen 0); try lia; reflexivity. }
      rewrite C1. repeat (rewrite int_ok by lia; cbn [bind]).
      assert (Tg : total_gen (log ++ [Ev_call d d']) = total_gen log + gen).
      { clear. induction log as [|[a b|x] l IH]; cbn [app total_gen]; unfold gen in *; lia. }
      destruct (Bound _ _ _ _ R' ltac:(lia) ltac:(lia)) as [_ Gk']. rewrite Tg in Gk'.
      assert (C2 : (N + T <? sl_in s + used) || (K <? sl_out s + gen) || (N <? used) || (K <? gen) = false).
      { destruct (Z.ltb_spec (N + T) (sl_in s + used)), (Z.ltb_spec K (sl_out s + gen)), (Z.ltb_spec N used), (Z.ltb_spec K gen); try lia; reflexivity. }
      rewrite C2. rewrite Edi, Ei0. destruct (Z.eqb_spec (input + sl_in s) 0); [lia|]. cbn [andb].
      eexists. split; [reflexivity|]. cbv iota beta. cbn [tt_sl sl_in sl_out]. split.
      + exists (log ++ [Ev_call d d']), (out ++ chunk).
        constructor; cbn [tt_sl tt_idx sl_in sl_out sl_mem sl_state sl_data data_in data_out src_ratio]; auto; try lia; try congruence.
        split.
        * intros j Hj. rewrite W2 by lia. now apply M1.
        * intros j Hj. destruct (Z_lt_ge_dec j (sl_out s)) as [Lk|Lk]; [rewrite W2 by lia; now apply M2|].
          destruct (Z_lt_ge_dec j (sl_out s + gen)) as [Lk2|Lk2]; [|rewrite W2 by lia; now apply M2].
          specialize (W1 (j - sl_out s) 0 ltac:(lia) ltac:(lia)). rewrite Eo0 in W1. replace (output + sl_out s + ((j - sl_out s) * 1 + 0)) with (output + j) in W1 by lia. rewrite W1. discriminate.
      + assert (0 < used + gen); [|lia]. destruct (Z.eq_dec gen 0) as [G0|G0]; [|lia]. rewrite G0 in Bk. cbn in Bk. rewrite andb_true_r in Bk. apply negb_false_iff, Z.eqb_eq in Bk.
        rewrite Ee0 in Bk. destruct (Z.leb_spec N (sl_in s)); [discriminate Bk|]. destruct P as [P|P]; lia.
  Qed.

  Lemma tt_loop_ok : forall fuel t log out, tt_inv t log out -> (N - sl_in (tt_sl t)) + (L - sl_out (tt_sl t)) < Z.of_nat fuel ->
    exists t' log' out', tt_loop N K T L fuel t = Ok (Some t') /\ tt_end t' log' out'.
  Proof.
    induction fuel as [|k IH]; intros t log out I M; [assert (I1 := ti_in _ _ _ I); assert (I2 := ti_out _ _ _ I); lia|].
    cbn [tt_loop]. destruct (tt_pass_ok t log out I) as (n & -> & H). cbn [bind]. destruct n as [t'|t'|]; [|exists t', log, out; auto|destruct H].
    destruct H as ((log' & out' & I') & D). apply (IH t' log' out'); [exact I'|lia].
  Qed.
  Lemma tt_run n u g idx fuel : mem_ok N L input output X m0 -> 0 <= idx <= 8 -> N + L < Z.of_nat fuel ->
    exists t' log' out', tt_loop N K T L fuel (tt_init L input output r n u g idx st0 m0) = Ok (Some t') /\ tt_end t' log' out'.
  Proof.
    intros M Ix F. apply (tt_loop_ok fuel _ [] []); [|cbn [tt_init tt_sl sl_in sl_out]; lia].
    constructor; cbn [tt_init tt_sl tt_idx sl_in sl_out sl_state sl_data sl_mem data_in data_out src_ratio]; auto; try (cbn; lia).
    split; [reflexivity|]. split; [intros; lia|]. reflexivity.
  Qed.
End Client.

Section Hold.
  Variables (kd : kind) (r : f64) (N K T L input output : Z) (X : stream) (st0 : SRC_STATE).
  Hypothesis Hr : in_range r.
  Hypothesis Sz : term_sizes r N K T L.
  Hypothesis St : at_start kd 1 st0.
  Let fit1 : channels_fit 1. Proof. unfold channels_fit. lia. Qed.

  Lemma hold_term_test n u g idx m0 fuel : two_arrays m0 X N L input output -> 0 <= idx <= 8 -> N + L < Z.of_nat fuel ->
    exists t, tt_loop N K T L fuel (tt_init L input output r n u g idx st0 m0) = Ok (Some t) /\ sl_in (tt_sl t) = N /\ 0 <= sl_out (tt_sl t) < L /\ sl_out (tt_sl t) <= K /\
      (Rabs (IZR (sl_out (tt_sl t)) - val r * IZR N) <= 1 + (val r + 1) * / IZR (2 ^ 19))%R /\
      converted_to m0 (sl_mem (tt_sl t)) output (sl_out (tt_sl t)) (fun k => value kd (from0 X) (pos_at (0, dzero) (fun _ => r) (Z.to_nat k)) 0).
  Proof.
    intros (I1 & I2 & Hap & M1 & M2) Ix Fu. destruct Sz as (SN & SL & ST & Rm & Rk).
    assert (HB : block_fits 5 N L) by (unfold block_fits; lia).
    assert (Hl : match kd with Zoh => True | Lin => 3 <= 5 end) by (destruct kd; [exact I|lia]).
    assert (Bd : forall log out st o, hold_run kd r N X st0 log out st o -> 0 <= o <= N -> 0 <= total_gen log <= L -> total_gen log < L /\ total_gen log <= K).
    { intros log out st o R Ho Hg. split.
      - apply (hold_below kd r N L 5 X st0 Hr HB Hl St log out st o L R Ho); [lia|exact Rm].
      - assert (total_gen log < K + 1); [|lia]. apply (hold_below kd r N L 5 X st0 Hr HB Hl St log out st o _ R Ho); [lia|exact Rk]. }
    destruct (tt_run r N K T L input output X st0 m0 (hold_run kd r N X st0) Hr SN ltac:(lia) ST I1 I2 Hap (hold_run0 kd r N L 5 X st0 HB St) Bd)
      with (n := n) (u := u) (g := g) (idx := idx) (fuel := fuel) as (t & log & out & E & Fi).
    { intros log out st o d m R1 R2 R3 R4 R5 R6 R7 R8. apply (hold_step kd r N L 5 input output X st0 Hl Hap St log out st o d m R1 R2 R3 R4 R5); auto. }
    { exact (conj M1 M2). } { exact Ix. } { exact Fu. }
    exists t. split; [exact E|]. destruct (te_last _ _ _ _ _ _ _ _ _ _ Fi) as (st & d & m & st2 & d2 & m2 & Rn & A & Ee & V & Hk & Ep & G0).
    assert (C := te_count _ _ _ _ _ _ _ _ _ _ Fi). assert (Go := te_out _ _ _ _ _ _ _ _ _ _ Fi). destruct (te_done _ _ _ _ _ _ _ _ _ _ Fi) as (D1 & D2 & D3).
    split; [exact (te_in _ _ _ _ _ _ _ _ _ _ Fi)|]. split; [exact Go|].
    split. { rewrite C. apply (Bd _ _ _ _ Rn); lia. }
    destruct Rn as (S & Pr & _). assert (Zn : input_frames d = 0) by (assert (Q := ak_n _ _ _ _ _ _ _ _ A); lia). split.
    - assert (Lg : lin_legal kd 1 X N d m) by (unfold lin_legal; destruct kd; [exact I|left; exact Zn]).
      assert (Hh : holds m (data_in d) 1 (input_frames d) X N) by (apply no_block; lia).
      assert (Q := length_sharp kd 1 X r N st0 log out st N d m 0 st2 d2 m2 St fit1 Hr S Pr V Hh (ak_ratio _ _ _ _ _ _ _ _ A) Lg).
      rewrite Zn, G0, Z.add_0_r in Q. specialize (Q ltac:(lia) Ep Hk). cbv zeta in Q. rewrite Z.add_0_r in Q. rewrite C.
      apply (sharp_abs r N (total_gen log) L); [exact Hr|lia|lia|lia|exact Q].
    - split; [|exact D3]. intros k Hk'. rewrite D2 by lia.
      destruct (const_run kd 1 X (lin_legal kd 1 X) r st0 log out st N St fit1 Hr ltac:(auto) S) as (_ & _ & _ & _ & _ & _ & _ & Fr).
      specialize (Fr k 0 ltac:(lia) ltac:(lia)). unfold sample in Fr. rewrite Z.mul_1_r, Z.add_0_r in Fr. exact Fr.
  Qed.
End Hold.

Section SincLoop_.
  Variables (inc : Z) (coeffs : list f32) (r : f64) (N K T L input output : Z) (X : stream) (st0 : SRC_STATE).
  Hypothesis Ht : table_fit (inc, coeffs).
  Hypothesis Hr : in_range r.
  Hypothesis Lo : (/ 191 <= val r)%R.
  Hypothesis Sz : term_sizes r N K T L.
  Hypothesis St : sinc_new (inc, coeffs) 1 st0.
  Hypothesis Zl : forall i c, i < 0 -> X i c = fzero.
  Hypothesis Zh : forall i c, N <= i -> X i c = fzero.

  Lemma sinc_term_test n u g idx m0 fuel : two_arrays m0 X N L input output -> 0 <= idx <= 8 -> N + L < Z.of_nat fuel ->
    exists t, tt_loop N K T L fuel (tt_init L input output r n u g idx st0 m0) = Ok (Some t) /\ sl_in (tt_sl t) = N /\ 0 <= sl_out (tt_sl t) < L /\ sl_out (tt_sl t) <= K /\
      (Rabs (IZR (sl_out (tt_sl t)) - val r * IZR N) <= 1 + (val r + 1) * / IZR (2 ^ 19))%R /\
      converted_to m0 (sl_mem (tt_sl t)) output (sl_out (tt_sl t)) (fun k => sinc_value inc coeffs (fun i => X i 0) (pos_at (0, dzero) (fun _ => r) (Z.to_nat k)) r).
  Proof.
    intros (I1 & I2 & Hap & M1 & M2) Ix Fu. destruct Sz as (SN & SL & ST & Rm & Rk). assert (Ss : sinc_start (inc, coeffs) 1 st0) by now left.
    assert (HB : block_fits 5 N L) by (unfold block_fits; lia).
    assert (Bd : forall log out st o, sinc_run inc coeffs r N X st0 log out st o -> 0 <= o <= N -> 0 <= total_gen log <= L -> total_gen log < L /\ total_gen log <= K).
    { intros log out st o R Ho Hg. split.
      - apply (sinc_below inc coeffs r N L 5 X st0 Ht Hr HB St Zl log out st o L R Ho); [lia|exact Rm].
      - assert (total_gen log < K + 1); [|lia]. apply (sinc_below inc coeffs r N L 5 X st0 Ht Hr HB St Zl log out st o _ R Ho); [lia|exact Rk]. }
    destruct (tt_run r N K T L input output X st0 m0 (sinc_run inc coeffs r N X st0) Hr SN ltac:(lia) ST I1 I2 Hap (sinc_run0 inc coeffs r N X st0 Ht St) Bd)
      with (n := n) (u := u) (g := g) (idx := idx) (fuel := fuel) as (t & log & out & E & Fi).
    { intros log out st o d m R1 R2 R3 R4 R5 R6 R7 R8.
      apply (sinc_step inc coeffs r N L 5 input output X st0 Ht Hr Lo HB St Zl Zh log out st o d m R1 R2 R3 R4 R5 R7 R8). rewrite (ak_in _ _ _ _ _ _ _ _ R5). lia. }
    { exact (conj M1 M2). } { exact Ix. } { exact Fu. }
    exists t. split; [exact E|]. destruct (te_last _ _ _ _ _ _ _ _ _ _ Fi) as (st & d & m & st2 & d2 & m2 & Rn & A & Ee & V & Hk & Ep & G0).
    assert (C := te_count _ _ _ _ _ _ _ _ _ _ Fi). assert (Go := te_out _ _ _ _ _ _ _ _ _ _ Fi). destruct (te_done _ _ _ _ _ _ _ _ _ _ Fi) as (D1 & D2 & D3).
    split; [exact (te_in _ _ _ _ _ _ _ _ _ _ Fi)|]. split; [exact Go|].
    split. { rewrite C. apply (Bd _ _ _ _ Rn); lia. }
    destruct Rn as (S & _). assert (Zn : input_frames d = 0) by (assert (Q := ak_n _ _ _ _ _ _ _ _ A); lia).
    assert (Rp : (0 < val r)%R) by (destruct Hr as [_ Hr']; lra). split.
    - assert (Q := sinc_flush inc coeffs 1 X r st0 log out st N d m st2 d2 m2 Ht Ss Zl Zh Hr Lo S V Zn Ee). rewrite (ak_in _ _ _ _ _ _ _ _ A), G0, Z.add_0_r in Q.
      specialize (Q ltac:(lia) (ak_ratio _ _ _ _ _ _ _ _ A) Ep Hk). cbv zeta in Q. rewrite C. eapply Rle_trans; [exact Q|].
      apply Rplus_le_compat_l, Rmult_le_compat_l; [lra|]. assert (Tm := small_gu (total_gen log) L ltac:(lia) ltac:(lia)). unfold Rdiv. simpl (2 ^ 20) in *. simpl (2 ^ 19). lra.
    - split; [|exact D3]. intros k Hk'. rewrite D2 by lia.
      destruct (sinc_convolution inc coeffs 1 X r st0 log out st N Ht Ss Zl Hr S) as [_ Fr].
      specialize (Fr k 0 ltac:(lia) ltac:(lia)). unfold sample in Fr. rewrite Z.mul_1_r, Z.add_0_r in Fr. exact Fr.
  Qed.
End SincLoop_.
