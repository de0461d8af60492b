(** Streams through a sinc converter. *)
From Coq Require Import ZArith Reals List Bool Lia Lra.
From Flocq Require Import Core IEEE754.BinarySingleNaN.
From Verif Require Import Base FloatFacts PosFacts Types Common Sinc Api Heap Callback ApiHist HoldSpec HoldFacts HoldRamp HoldCore
  HoldProcess HoldStream LifeSpec ErrFacts ProcFacts HeapFacts LifeFacts SincSpec SincFacts SincCalc SincPrep SincLoop SincProcess SincCall
  SincApi SincHist.
Import ListNotations.
Local Open Scope Z_scope.

Lemma sample_value inc coeffs x d p r :
  let I := fixed_point (table_step inc r) in
  let st := fixed_point (Bmult mode_NE (snd p) (table_step inc r)) in
  let M := (zlen coeffs - 2) * 4096 in
  1 <= I -> 0 <= st <= I -> M / I <= d ->
  sinc_sample inc coeffs x d p r = sinc_value inc coeffs x p r.
Proof.
  destruct p as [pz pf]. intros I st M HI Hst Hd. unfold sinc_sample, sinc_value. cbv zeta. cbn [fst snd]. fold I. fold M.
  change (fixed_point (Bmult mode_NE pf (table_step inc r))) with st. cbn [snd] in st.
  destruct (Z.eqb_spec st I) as [E|N].
  - replace (Z.min ((M - 0) / I) (d + 1)) with ((M - 0) / I) by (rewrite Z.sub_0_r; lia). reflexivity.
  - replace (Z.min ((M - st) / I) d) with ((M - st) / I); [reflexivity|].
    assert ((M - st) / I <= M / I) by (apply Z.div_le_mono; lia). lia.
Qed.

Lemma same_close r : good_ratio r -> Bleb (Babs (Bminus mode_NE r r)) (Bdiv mode_NE (d_of_Z 1) (d_of_Z 10000000000)) = true.
Proof.
  intros Gn. destruct (dsub_val r r (proj1 Gn) (proj1 Gn)) as [Vs Fs].
  { rewrite Rminus_diag_eq, Rabs_R0 by reflexivity. apply bpow_ge_0. }
  rewrite Rminus_diag_eq, rnd64_0 in Vs by reflexivity.
  change (dle (dabs (dsub r r)) (lit_1em 10) = true). rewrite dle_spec.
  - unfold dabs. rewrite B2R_Babs. rewrite Vs, Rabs_R0. apply Rle_bool_true. vm_compute. lra.
  - unfold fin, dabs. rewrite is_finite_Babs. exact Fs.
  - reflexivity.
Qed.

Section Conv.
  Variables (inc : Z) (coeffs : list f32) (ch : Z).
  Hypothesis Ht : table_fit (inc, coeffs).
  Hypothesis Hch : 1 <= ch <= 128.
  Variable X : stream.

  Definition on_tape (st : SRC_STATE) (o : Z) (ph : phase) : Prop :=
    st_mode st = MODE_PROCESS /\ exists base s, sinc_ok inc coeffs ch X base ph s st /\ base + end_of ph = o /\
      sinc_position st o = (base + cur_of ph, st_last_position st).

  Lemma position_ok base ph s st o : sinc_ok inc coeffs ch X base ph s st -> base + end_of ph = o ->
    sinc_position st o = (base + cur_of ph, st_last_position st).
  Proof.
    intros [A B C D _ _ _] E. unfold sinc_position. rewrite A, C. f_equal. destruct D as (_ & _ & D1 & D2).
    destruct ph as [|c e|c e]; cbn [cur_of end_of] in *.
    - destruct D2 as (_ & D3 & D4 & _). rewrite D4. cbn [Z.ltb Z.compare]. rewrite D3, D1. replace (0 - ch * 0) with 0 by lia. rewrite Z.div_0_l by lia. lia.
    - destruct D2 as (D3 & D4 & _). rewrite D4. cbn [Z.ltb Z.compare]. rewrite D3, D1. replace (ch * e - ch * c) with ((e - c) * ch) by ring.
      rewrite Z.div_mul by lia. lia.
    - destruct D2 as (D3 & _ & D4 & _). rewrite D3. replace (ch * e <? 0) with false by (symmetry; apply Z.ltb_ge; nia). rewrite D1.
      replace (ch * e - ch * c) with ((e - c) * ch) by ring. rewrite Z.div_mul by lia. lia.
  Qed.

  (** A closed tape is followed by h frames of zeros (and 5 samples), or as many as fit. *)
  Definition sealed (st : SRC_STATE) (h : Z) (ph : phase) : Prop :=
    match st_priv st, ph with P_sinc s, Closed _ e => padded ch (width inc coeffs) s e h | _, _ => True end.

  (** Where a converter stops at the end of the input. *)
  Lemma end_near mono s c e idx last : good_ratio last -> frac idx -> s_b_current s = ch * c -> s_b_real_end s = ch * e ->
    0 <= c <= 2 ^ 20 -> 0 <= e <= 2 ^ 20 -> at_end mono s idx (dadd (ddiv done_ last) (lit_1em 20)) = true ->
    (IZR e <= IZR c + val idx + / val last + / IZR (2 ^ 20))%R.
  Proof.
    change (IZR (2 ^ 20)) with 1048576%R. intros G Fi Ec Ee Hc He A. assert (Fi' := Fi). destruct Fi' as (F1 & _ & L1 & U1). unfold at_end in A. rewrite Ec, Ee in A. apply andb_prop in A as [_ A].
    destruct (end_point last (ch * c) idx G Fi) as [Fy _]; [nia|]. destruct (d_of_Z_val (ch * e)) as [Ve Fe]; [nia|].
    destruct (d_of_Z_val (ch * c)) as [Vc Fc]; [nia|].
    set (term := dadd (ddiv done_ last) (lit_1em 20)) in *. set (y := dadd (dadd (d_of_Z (ch * c)) idx) term) in *.
    assert (B : (IZR (ch * e) <= val y)%R).
    { destruct mono.
      - rewrite dgt_spec in A by assumption. rewrite Ve in A. destruct (Rlt_bool_spec (IZR (ch * e)) (val y)); [lra|discriminate].
      - rewrite dge_spec in A by assumption. rewrite Ve in A. destruct (Rle_bool_spec (IZR (ch * e)) (val y)); [lra|discriminate]. }
    destruct (inv_ratio_val last G) as (Vq & Fq & Bq). destruct lit20 as (T1 & T2 & T3).
    assert (T4 : (val (lit_1em 20) <= / 1152921504606846976)%R) by (apply Rle_trans with (bpow radix2 (-61)); [lra|cbn; lra]).
    assert (Rr : (/ 256 <= / val last <= 256)%R).
    { destruct G as [_ G]. split; [apply Rinv_le; lra|]. rewrite <- (Rinv_inv 256). apply Rinv_le; lra. }
    assert (P := bpow_m53_pos). assert (Q := bpow_m53_val). set (u := bpow radix2 (-53)) in *.
    assert (Sm : forall x, (/ 256 <= x)%R -> (bpow radix2 (-1000) <= x)%R).
    { intros x Hx. apply Rle_trans with (bpow radix2 (-8)); [apply bpow_le; lia|]. replace (bpow radix2 (-8)) with (/ 256)%R by (cbn; lra). exact Hx. }
    assert (Rc : (0 <= IZR (ch * c) <= 134217728)%R) by (split; apply IZR_le; nia).
    destruct (rnd64_rel_pos (/ val last) (Sm (/ val last)%R ltac:(lra))) as [_ Q1]. fold u in Q1. rewrite <- Vq in Q1.
    set (i := (/ val last)%R) in *. set (q := val (ddiv done_ last)) in *.
    assert (I1 : (i * u <= 256 * u)%R) by (apply Rmult_le_compat_r; lra). assert (I0 : (0 <= i * u)%R) by (apply Rmult_le_pos; lra).
    destruct (dadd_val (ddiv done_ last) (lit_1em 20) Fq T2) as [Vt Ft].
    { fold q. rewrite Rabs_pos_eq by lra. apply Rle_trans with 1024%R; [lra|]. change 1024%R with (bpow radix2 10). apply bpow_le; lia. }
    fold term q in Vt, Ft.
    destruct (rnd64_rel_pos (q + val (lit_1em 20)) (Sm (q + val (lit_1em 20))%R ltac:(lra))) as [_ Q2]. fold u in Q2. rewrite <- Vt in Q2.
    assert (Lt : (0 <= val term)%R). { rewrite Vt. apply rnd64_ge; [apply generic_format_0|]. lra. }
    assert (Q2' : (val term <= i + / 1099511627776)%R).
    { assert ((q + val (lit_1em 20)) * (1 + u) <= (i * (1 + u) + / 1152921504606846976) * (1 + u))%R by (apply Rmult_le_compat_r; lra).
      assert ((i * (1 + u) + / 1152921504606846976) * (1 + u) = i + 2 * (i * u) + (i * u) * u + / 1152921504606846976 * (1 + u))%R by ring.
      assert ((i * u) * u <= (i * u) * 1)%R by (apply Rmult_le_compat_l; lra). lra. }
    destruct (dadd_val (d_of_Z (ch * c)) idx Fc F1) as [Va Fa].
    { rewrite Vc. rewrite Rabs_pos_eq by lra. apply Rle_trans with (bpow radix2 28); [|apply bpow_le; lia]. cbn. lra. }
    rewrite Vc in Va. set (a := val (dadd (d_of_Z (ch * c)) idx)) in *.
    assert (Ha : (a <= IZR (ch * c) + val idx + / 16777216)%R).
    { rewrite Va. destruct (Rle_or_lt (/ 256) (IZR (ch * c) + val idx)) as [Q3|Q3].
      - destruct (rnd64_rel_pos _ (Sm _ Q3)) as [_ Q4]. fold u in Q4. set (w := (IZR (ch * c) + val idx)%R) in *.
        assert (w * u <= 134217729 * u)%R by (apply Rmult_le_compat_r; unfold w; lra). lra.
      - assert (E0 : ch * c = 0). { assert (ch * c < 1) by (apply lt_IZR; lra). assert (0 <= ch * c) by nia. lia. }
        rewrite E0, Rplus_0_l. rewrite rnd64_val. lra. }
    assert (La : (0 <= a)%R). { rewrite Va. apply rnd64_ge; [apply generic_format_0|]. lra. }
    destruct (dadd_val (dadd (d_of_Z (ch * c)) idx) term Fa Ft) as [Vy _].
    { fold a. rewrite Rabs_pos_eq by lra. apply Rle_trans with (bpow radix2 28); [|apply bpow_le; lia]. cbn. lra. }
    fold a y in Vy.
    assert (Hy : (val y <= a + val term + / 16777216)%R).
    { assert (Lt2 : (/ 256 <= val term)%R).
      { rewrite Vt. apply rnd64_ge; [replace (/ 256)%R with (bpow radix2 (-8)) by (cbn; lra); apply fmt64_bpow; lia|]. lra. }
      rewrite Vy. destruct (rnd64_rel_pos (a + val term) (Sm (a + val term)%R ltac:(lra))) as [_ Q4]. fold u in Q4.
      assert ((a + val term) * u <= 134218728 * u)%R by (apply Rmult_le_compat_r; [lra|lra]). lra. }
    assert (Hs : (IZR (ch * e) <= IZR (ch * c) + (val idx + i + / 1048576))%R) by (lra).
    rewrite !mult_IZR in Hs. assert (C1 : (1 <= IZR ch)%R) by (apply IZR_le; lia).
    destruct (Rle_or_lt (IZR e) (IZR c)) as [Le|Lt3]; [lra|].
    assert ((IZR e - IZR c) * 1 <= (IZR e - IZR c) * IZR ch)%R by (apply Rmult_le_compat_l; lra). lra.
  Qed.

  (** One call of a stream. *)
  Lemma tape_call st o ph d m st1 d1 m1 : on_tape st o ph -> valid_call ch d m ->
    holds m (data_in d) ch (input_frames d) X o -> (end_of_input d <> 0 -> forall i c, o + input_frames d <= i -> X i c = fzero) ->
    src_process (Some st) (Some d) m = Ok (0, Some st1, Some d1, m1) ->
    let last := start_ratio st (src_ratio d) in
    let new := src_ratio d in
    let h := hl inc coeffs last new in
    let rho := sinc_ramp last new ch (output_frames d) in
    exists ph1 depth,
    on_tape st1 (o + input_frames_used d1) ph1 /\
    0 <= input_frames_used d1 <= input_frames d /\ 0 <= output_frames_gen d1 <= output_frames d /\
    d1 = set_counts d (input_frames_used d1) (output_frames_gen d1) /\
    (forall g, g <= h -> deep g ph -> deep g ph1 /\ forall k, (Z.of_nat k < output_frames_gen d1) -> g <= depth k) /\
    wrote m m1 (data_out d) ch (output_frames_gen d1)
      (fun k c => sinc_sample inc coeffs (fun i => X i c) (depth (Z.to_nat k)) (pos_at (sinc_position st o) rho (Z.to_nat k)) (rho (Z.to_nat k))) /\
    sinc_position st1 (o + input_frames_used d1) = pos_at (sinc_position st o) rho (Z.to_nat (output_frames_gen d1)) /\
    st_last_ratio st1 = match Z.to_nat (output_frames_gen d1) with O => last | S j => rho j end /\
    good_ratio (st_last_ratio st1) /\
    (sealed st h ph -> sealed st1 h ph1) /\ (lead inc coeffs last new ph -> lead inc coeffs last new ph1) /\
    (closed ph -> closed ph1 /\ input_frames_used d1 = 0) /\
    (closed ph1 -> closed ph \/ (end_of_input d <> 0 /\ input_frames_used d1 = input_frames d)) /\
    (forall j, Z.of_nat j < output_frames_gen d1 -> fst (pos_at (sinc_position st o) rho j) < o + input_frames_used d1) /\
    (output_frames_gen d1 < output_frames d -> data_in d <> 0 -> input_frames d * ch < 2 ^ 31 -> 3 * h < width inc coeffs ->
     lead inc coeffs last new ph ->
     (~ closed ph1 /\ input_frames_used d1 = input_frames d /\ end_of_input d = 0) \/
     (closed ph1 /\ (roomy (width inc coeffs) h -> sealed st h ph ->
        let p := sinc_position st1 (o + input_frames_used d1) in
        (IZR (o + input_frames_used d1) <= IZR (fst p) + val (snd p) + / val last + / IZR (2 ^ 20))%R))).
  Proof.
    intros (Hm & base & s & Hok & Eo & Ep) V Hin Hend E last new h rho.
    destruct (sinc_src_call inc coeffs ch Ht Hch X base ph s st d m Hok Hm V) as [(f & E' & _)|R].
    - intros _. rewrite Eo. exact Hin.
    - intros _. rewrite Eo. exact Hend.
    - rewrite E in E'. discriminate E'.
    - destruct R as (e & used & k & base' & ph' & s' & st' & d' & m' & dep & E' & R). rewrite E in E'. injection E' as <- <- <- <-.
      assert (Gn : good_ratio (src_ratio d)) by apply V.
      destruct (sinc_ok_primed _ _ _ _ _ _ _ _ _ Hok Gn) as (Pok & Es & Gs & Pk & Pp & _).
      assert (V' : valid_call ch (set_counts d 0 0) m) by exact V.
      assert (Gs' : good_ratio (st_last_ratio (primed st (src_ratio d)))) by (rewrite Es; exact Gs).
      destruct (reply_ratio inc coeffs ch Hch _ _ _ _ _ _ _ _ _ _ _ _ _ _ _ _ _ Gs' V' R) as (G1 & _).
      destruct R as [Rc Ru Rg Rw Rok Rn Rl Rk Rp Rr _ _ Rd Ry Rb].
      cbn [set_counts input_frames output_frames data_out src_ratio end_of_input] in *. rewrite Es, Pp in *.
      destruct Rc as [[_ Ed]|(Q & _)]; [|discriminate Q]. rewrite Ed. cbn [set_counts input_frames_used output_frames_gen].
      rewrite Nat2Z.id. exists ph', dep. specialize (Rp eq_refl). specialize (Rr eq_refl).
      assert (Nx : base' + end_of ph' = o + used) by lia.
      assert (Pq := position_ok _ _ _ _ _ Rok Nx).
      split. { split; [|exists base', s'; auto]. rewrite <- (k_mode _ _ Rk). rewrite <- (k_mode _ _ Pk). exact Hm. }
      split; [exact Ru|]. split; [lia|]. split; [reflexivity|].
      split. { intros g Hg Dp. split; [now apply Rl|]. intros j Hj. apply Rd; [exact Hg|exact Dp|lia]. }
      split. { rewrite Ep. exact Rw. }
      split. { rewrite Pq, Ep. exact Rp. }
      split; [exact Rr|]. split; [exact G1|].
      assert (Es0 : st_priv st = P_sinc s) by apply Hok. assert (Es1 : st_priv st1 = P_sinc s') by apply Rok.
      destruct Rl as (_ & Rl0 & _ & Rl). unfold sealed. rewrite Es0, Es1.
      assert (Sl : match ph with Closed _ e => padded ch (width inc coeffs) s e h | _ => True end ->
                   match ph' with Closed _ e => padded ch (width inc coeffs) s' e h | _ => True end).
      { destruct ph' as [|c' e'|c' e']; auto. destruct Rl as [(c & -> & Rl1 & _)|(_ & _ & _ & Rl1)]; [|intros _; exact Rl1].
        unfold padded. now rewrite Rl1. }
      split; [exact Sl|]. split; [exact Rl0|].
      split.
      { intros Cl. destruct ph' as [|c' e'|c' e']; [rewrite Rl in Cl; contradiction|contradiction|]. split; [exact I|].
        destruct Rl as [(c & _ & _ & Rl)|(Rl & _)]; [exact Rl|contradiction]. }
      split.
      { intros Cl. destruct ph' as [|c' e'|c' e']; [contradiction|contradiction|].
        destruct Rl as [(c & -> & _)|(_ & Rl & Rl1 & _)]; [left; exact I|right; auto]. }
      split. { intros j Hj. rewrite Ep, Eo in *. apply Rb. lia. }
      intros Hlt Hdi Hsm H3 Hld. specialize (Ry eq_refl). destruct Ry as [Ry|[(Y1 & Y2 & Y3)|Ry]]; [lia| |].
      { left. split; [exact Y1|]. destruct Y3 as [Y3|[Y3|[Y3|[_ [_ [Y3|[Y3 _]]]]]]]; [contradiction|exact Y3|nia| |contradiction].
        change (width inc coeffs <= 3 * h) in Y3. lia. }
      right. assert (Cl : closed ph') by (destruct Ry as [[Ry _]|[Ry _]]; exact Ry). split; [exact Cl|].
      intros Rm Sl0. specialize (Sl Sl0). rewrite Pq. cbn [fst snd]. cbv zeta.
      destruct ph' as [|c' e'|c' e']; [contradiction|contradiction|]. cbn [cur_of end_of] in *.
      assert (Fr : frac (st_last_position st1)) by apply Rok.
      assert (Rp0 : (0 < / val last)%R) by (destruct Gs as [_ Gs]; apply Rinv_0_lt_compat; unfold last; lra).
      assert (R20 : (0 < / IZR (2 ^ 20))%R) by (apply Rinv_0_lt_compat, IZR_lt; lia).
      destruct (so_tape _ _ _ _ _ _ _ _ Rok) as (Tr & _ & Tc & Te & T1 & T2 & T3 & T4). cbn [cur_of] in Tc.
      assert (Wr := W_range inc coeffs Ht dzero dzero). fold (width inc coeffs) in Wr.
      destruct Ry as [[_ Ry]|[_ Ry]].
      + assert (e' <= c').
        { change (s_b_end s' - s_b_current s' <= ch * h) in Ry. destruct Sl as [Sl|(_ & _ & Sl)]; [|contradiction]. rewrite Sl, Tc in Ry.
          destruct (Z_le_gt_dec e' c'); [assumption|]. assert (Q := sc ch Hch (c' + 1) e' ltac:(lia)). lia. }
        assert (Le : (IZR (o + used) <= IZR (base' + c'))%R) by (apply IZR_le; lia). destruct Fr as (_ & _ & Fr). lra.
      + assert (Q := end_near (ch =? 1) s' c' e' (st_last_position st1) last Gs Fr Tc Te).
        assert (ce : 0 <= c' <= 2 ^ 20) by lia.
        assert (ee : 0 <= e' <= 2 ^ 20). { split; [lia|]. destruct (Z_le_gt_dec e' (2 ^ 20)) as [|Gt]; [assumption|]. assert (Q2 := sc ch Hch (2 ^ 20) e' ltac:(lia)). nia. }
        specialize (Q ce ee Ry). rewrite <- Nx, !plus_IZR. lra.
  Qed.

  Lemma ramp_same r frames k : good_ratio r -> sinc_ramp r r ch frames k = r.
  Proof. intros Gn. unfold sinc_ramp. now rewrite same_close. Qed.

  Lemma pos_const_frac p r k : frac (snd p) -> good_ratio r -> frac (snd (pos_at p (fun _ => r) k)).
  Proof. intros F G. induction k as [|k IH]; [exact F|]. cbn [pos_at]. now apply move_ok. Qed.

  (** A stream at constant ratio. *)
  Lemma const_run r : good_ratio r -> forall st o log out st' o', sinc_streaming ch X (eq r) st o log out st' o' ->
    forall ph, on_tape st o ph -> st_last_ratio st = dzero \/ st_last_ratio st = r -> deep (hlen inc coeffs r) ph ->
    0 <= total_gen log /\
    is_frames ch out (total_gen log) (fun k c => sinc_value inc coeffs (fun i => X i c) (pos_at (sinc_position st o) (fun _ => r) (Z.to_nat k)) r) /\
    exists ph', on_tape st' o' ph' /\ deep (hlen inc coeffs r) ph' /\ (st_last_ratio st' = dzero \/ st_last_ratio st' = r) /\
    sinc_position st' o' = pos_at (sinc_position st o) (fun _ => r) (Z.to_nat (total_gen log)).
  Proof.
    intros G st o log out st' o' S. induction S as [st o|st o d m st1 d1 m1 chunk log out st2 o2 V Hin Ha Hend E Hc S IH|st o r' st1 log out st2 o2 Ir Ha E S IH];
      intros ph Ot Hl Hd.
    - split; [cbn; lia|]. split; [split; [reflexivity|intros; cbn in *; lia]|]. exists ph. auto.
    - subst r. assert (Er : st_last_ratio st = dzero \/ good_ratio (st_last_ratio st)) by (destruct Hl as [Hl|Hl]; [now left|right; rewrite Hl; exact G]).
      assert (Es : start_ratio st (src_ratio d) = src_ratio d) by (apply (start_val st _ (fun x => x = src_ratio d) Er Hl); reflexivity).
      destruct (tape_call st o ph d m st1 d1 m1 Ot V Hin Hend E) as (ph1 & dep & Ot1 & Hu & Hg & _ & Dp & Wr & Po & Lr & _).
      rewrite Es in *. set (r := src_ratio d) in *.
      assert (Eh : hl inc coeffs r r = hlen inc coeffs r) by (unfold hl; f_equal; unfold dmin; now destruct (dlt _ _)).
      rewrite Eh in Dp. destruct (Dp _ (Z.le_refl _) Hd) as [Hd1 Hdep].
      assert (Rho : forall k, sinc_ramp r r ch (output_frames d) k = r) by (intros; now apply ramp_same).
      assert (Pe : forall k, pos_at (sinc_position st o) (sinc_ramp r r ch (output_frames d)) k = pos_at (sinc_position st o) (fun _ => r) k)
        by (intros k; apply pos_at_ext; intros; apply Rho).
      destruct Ot as (Hm & base & s & Hok & Eo & Ep).
      assert (Lr1 : st_last_ratio st1 = dzero \/ st_last_ratio st1 = r).
      { right. rewrite Lr. destruct (Z.to_nat (output_frames_gen d1)); [reflexivity|apply Rho]. }
      destruct (IH ph1 Ot1 Lr1 Hd1) as (Tg & Fr & ph' & O' & D' & L' & P').
      cbn [total_gen]. rewrite Pe in Po.
      assert (Sum : forall k, pos_at (sinc_position st1 (o + input_frames_used d1)) (fun _ => r) k =
                     pos_at (sinc_position st o) (fun _ => r) (Z.to_nat (output_frames_gen d1) + k)%nat).
      { intros k. rewrite Po. now rewrite pos_at_add. }
      split; [lia|]. split.
      + assert (F1 := wrote_chunk _ _ _ ch _ _ _ ltac:(lia) (proj1 Hg) Wr Hc).
        eapply is_frames_ext; [apply (is_frames_app ch _ _ _ _ _ _ ltac:(lia) (proj1 Hg) Tg F1 Fr)|].
        intros k c Hk Hcc. cbv beta. destruct (Z.ltb_spec k (output_frames_gen d1)) as [L|L].
        * rewrite Rho, Pe. set (p := pos_at (sinc_position st o) (fun _ => r) (Z.to_nat k)).
          assert (Fp : frac (snd p)) by (apply pos_const_frac; [rewrite Ep; cbn [snd]; apply Hok|exact G]).
          destruct Ht as (T1 & T2 & T3).
          destruct (index_facts inc coeffs T1 r (snd p) G Fp) as (_ & _ & B0 & B1 & _).
          assert (I0 : 1 <= fixed_point (table_step inc r)) by (destruct T1; lia).
          apply sample_value; [exact I0|exact B0|].
          assert (Rb := reach_bound inc coeffs T1 T2 r r (snd p) 0 G G ltac:(lra) Fp ltac:(lia)). rewrite Z.sub_0_r in Rb.
          assert (Hdk := Hdep (Z.to_nat k) ltac:(lia)). lia.
        * rewrite Sum. f_equal. f_equal. lia.
      + exists ph'. split; [exact O'|]. split; [exact D'|]. split; [exact L'|]. rewrite P', Sum. f_equal. lia.
    - subst r'. cbn [total_gen].
      destruct Ot as (Hm & base & s & Hok & Eo & Ep).
      assert (E1 : st1 = set_ratio st r).
      { unfold src_set_ratio in E. destruct (is_bad_src_ratio r); [discriminate E|]. injection E as E. now symmetry. }
      assert (Ok1 : sinc_ok inc coeffs ch X base ph s st1) by (rewrite E1; destruct Hok; constructor; try assumption; now right).
      assert (Ot1 : on_tape st1 o ph).
      { split; [rewrite E1; exact Hm|]. exists base, s. split; [exact Ok1|]. split; [exact Eo|]. now apply (position_ok base ph s). }
      destruct (IH ph Ot1) as (Tg & Fr & Rest); [right; rewrite E1; reflexivity|exact Hd|].
      assert (Pp : sinc_position st1 o = sinc_position st o) by (rewrite E1; reflexivity).
      rewrite Pp in *. auto.
  Qed.
End Conv.

Lemma start_tape inc coeffs ch X st : table_fit (inc, coeffs) -> sinc_start (inc, coeffs) ch st -> (forall i k, i < 0 -> X i k = fzero) ->
  1 <= ch <= 128 /\ on_tape inc coeffs ch X st 0 Fresh /\ st_last_ratio st = dzero /\ sinc_position st 0 = (0, dzero).
Proof.
  intros Ht S Hx.
  assert (A : 1 <= ch <= 128 /\ exists s, sinc_ok inc coeffs ch silence 0 Fresh s st /\ st_mode st = MODE_PROCESS /\ st_last_ratio st = dzero /\ st_last_position st = dzero).
  { destruct S as [N|(CS & cb & dummy & st0 & cs & rs & st1 & N & V & E & Er)]; destruct (sinc_new_state _ _ _ _ N) as (Hch & b & Eb & Es); (split; [exact Hch|]).
    - rewrite Es. destruct (sinc_created inc coeffs ch Ht Hch b Eb) as (s & P). exists s. exact P.
    - assert (G := good_start inc coeffs ch Ht Hch PAny b Eb ltac:(discriminate)). rewrite <- Es in G.
      assert (F : forall floor, all_fit ch PAny floor cs).
      { clear E. induction cs as [|c cs IH]; intros floor; [exact I|]. split; [|apply IH; inversion V; assumption].
        destruct c as [[d|] m| | | | |]; cbn; auto. split; [exact I|discriminate]. }
      destruct (history_run inc coeffs ch Ht Hch PAny CS cb dummy cs 0 _ G V (F 0%R)) as [(rs' & st' & E' & _ & fl & Hm & X0 & base & ph & s & Ok' & _)|(_ & f & E' & _)];
        rewrite E in E'; [|discriminate E']. injection E' as <- <-.
      destruct (sinc_reset_call inc coeffs ch Ht Hch X0 base ph s st1 Ok') as (st' & s' & E2 & Ok2 & Hm2 & Hr & Hp).
      rewrite Er in E2. injection E2 as <-. exists s'. split; [exact Ok2|]. split; [congruence|]. auto. }
  destruct A as (Hch & s & Hok & Hm & Hr & Hp). split; [exact Hch|].
  assert (Ok' : sinc_ok inc coeffs ch X 0 Fresh s st).
  { destruct Hok as [A B C D E F G]. constructor; try assumption. destruct D as (D1 & D2 & D3 & D4 & D5 & D6). split; [exact D1|]. split; [|split; [exact D3|repeat split; apply D6 || assumption]].
    intros i Hi. lia. }
  assert (P := position_ok inc coeffs ch Hch X 0 Fresh s st 0 Ok' eq_refl). cbn [cur_of] in P. rewrite Hp in P.
  split; [|auto]. split; [exact Hm|]. exists 0, s. split; [exact Ok'|]. split; [reflexivity|]. rewrite P, Hp. reflexivity.
Qed.

(** Constant ratio: every output sample is one fixed function of the stream. *)
Lemma sinc_convolution inc coeffs ch X r st log out st' o' : table_fit (inc, coeffs) -> sinc_start (inc, coeffs) ch st ->
  (forall i k, i < 0 -> X i k = fzero) -> in_range r -> sinc_streaming ch X (eq r) st 0 log out st' o' ->
  is_frames ch out (total_gen log) (fun k c => sinc_value inc coeffs (fun i => X i c) (pos_at (0, dzero) (fun _ => r) (Z.to_nat k)) r).
Proof.
  intros Ht S Hx G Run. destruct (start_tape inc coeffs ch X st Ht S Hx) as (Hch & Ot & Lr & P).
  destruct (const_run inc coeffs ch Ht Hch X r G _ _ _ _ _ _ Run Fresh Ot (or_introl Lr) I) as (_ & F & _). rewrite P in F. exact F.
Qed.
