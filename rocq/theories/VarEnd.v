(** C53, sinc converters at any speeds. *)
From Coq Require Import ZArith Reals List Bool Lia Lra.
From Flocq Require Import Core IEEE754.BinarySingleNaN.
From Verif Require Import Base FloatFacts PosFacts Types Common Sinc Api ApiHist HoldSpec HoldFacts HoldCore HoldProcess HoldStream HoldRamp HoldMain LifeSpec ErrFacts ProcFacts SincCalc
  SincSpec SincFacts SincPrep SincLoop SincProcess SincCall SincApi SincHist SincStream SincLen SincMain AccSpec AccThms CbStream VarSpec VarThms VarEndSpec.
Import ListNotations.
Local Open Scope Z_scope.

Section Conv.
  Variables (inc : Z) (coeffs : list f32) (ch : Z).
  Hypothesis Ht : table_fit (inc, coeffs).
  Hypothesis Hch : 1 <= ch <= 128.
  Variable X : stream.
  Notation W := (width inc coeffs).
  Notation on_tape := (on_tape inc coeffs ch X).
  Notation sealed := (sealed inc coeffs ch).

  (** One call, as [tape_call]: how it leaves the end of the tape. *)
  Lemma tape_end st o ph d m st1 d1 m1 : on_tape st o ph -> valid_call ch d m ->
    holds m (data_in d) ch (input_frames d) X o -> (end_of_input d <> 0 -> forall i c, o + input_frames d <= i -> X i c = fzero) ->
    src_process (Some st) (Some d) m = Ok (0, Some st1, Some d1, m1) ->
    let last := start_ratio st (src_ratio d) in
    let new := src_ratio d in
    let h := hl inc coeffs last new in
    exists ph1, on_tape st1 (o + input_frames_used d1) ph1 /\ good_ratio last /\ good_ratio (st_last_ratio st1) /\ (val (dmin last new) <= val (st_last_ratio st1))%R /\
    (forall g, closed ph -> sealed st g ph -> sealed st1 g ph1) /\ (~ closed ph -> sealed st1 h ph1) /\
    (closed ph -> closed ph1 /\ input_frames_used d1 = 0) /\
    (closed ph1 -> closed ph \/ (end_of_input d <> 0 /\ input_frames_used d1 = input_frames d)) /\
    (output_frames_gen d1 < output_frames d -> data_in d <> 0 -> input_frames d * ch < 2 ^ 31 -> input_frames_used d1 = input_frames d -> end_of_input d <> 0 ->
     closed ph1 /\ forall g, h <= g -> roomy W g -> sealed st1 g ph1 ->
        let p := sinc_position st1 (o + input_frames_used d1) in
        (IZR (o + input_frames_used d1) <= IZR (fst p) + val (snd p) + / val last + / IZR (2 ^ 20))%R).
  Proof.
    intros (Hm & base & s & Hok & Eo & Ep) V Hin Hend E last new h.
    destruct (sinc_src_call inc coeffs ch Ht Hch X base ph s st d m Hok Hm V) as [(f & E' & _)|R].
    - intros _. rewrite Eo. exact Hin.
    - intros _. rewrite Eo. exact Hend.
    - rewrite E in E'. discriminate E'.
    - destruct R as (e & used & k & base' & ph' & s' & st' & d' & m' & dep & E' & R). rewrite E in E'. injection E' as <- <- <- <-.
      assert (Gn : good_ratio (src_ratio d)) by apply V.
      destruct (sinc_ok_primed _ _ _ _ _ _ _ _ _ Hok Gn) as (Pok & Es & Gs & Pk & Pp & _).
      assert (V' : valid_call ch (set_counts d 0 0) m) by exact V.
      assert (Gs' : good_ratio (st_last_ratio (primed st (src_ratio d)))) by (rewrite Es; exact Gs).
      destruct (reply_ratio inc coeffs ch Hch _ _ _ _ _ _ _ _ _ _ _ _ _ _ _ _ _ Gs' V' R) as (G1 & G2 & _). rewrite Es in G2.
      destruct R as [Rc Ru Rg Rw Rok Rn Rl Rk Rp Rr _ _ Rd Ry Rb].
      cbn [set_counts input_frames output_frames data_out src_ratio end_of_input] in *. rewrite Es, Pp in *.
      destruct Rc as [[_ Ed]|(Q & _)]; [|discriminate Q]. rewrite Ed. cbn [set_counts input_frames_used output_frames_gen].
      exists ph'. specialize (Rp eq_refl). specialize (Rr eq_refl).
      assert (Nx : base' + end_of ph' = o + used) by lia.
      assert (Pq := position_ok inc coeffs ch Hch X _ _ _ _ _ Rok Nx).
      split. { split; [|exists base', s'; auto]. rewrite <- (k_mode _ _ Rk). rewrite <- (k_mode _ _ Pk). exact Hm. }
      split; [exact Gs|]. split; [exact G1|]. split; [exact G2|].
      assert (Es0 : st_priv st = P_sinc s) by apply Hok. assert (Es1 : st_priv st1 = P_sinc s') by apply Rok.
      destruct Rl as (_ & Rl0 & _ & Rl). unfold SincStream.sealed. rewrite Es0, Es1.
      split.
      { intros g Cp. destruct ph' as [|c' e'|c' e']; auto. destruct Rl as [(c & -> & Rl1 & _)|(Rl1 & _)]; [|contradiction].
        unfold padded. now rewrite Rl1. }
      split.
      { intros Cp. destruct ph' as [|c' e'|c' e']; auto. destruct Rl as [(c & -> & _)|(_ & _ & _ & Rl1)]; [exfalso; apply Cp; exact I|exact Rl1]. }
      split.
      { intros Cl. destruct ph' as [|c' e'|c' e']; [rewrite Rl in Cl; contradiction|contradiction|]. split; [exact I|].
        destruct Rl as [(c & _ & _ & Rl)|(Rl & _)]; [exact Rl|contradiction]. }
      split.
      { intros Cl. destruct ph' as [|c' e'|c' e']; [contradiction|contradiction|].
        destruct Rl as [(c & -> & _)|(_ & Rl & Rl1 & _)]; [left; exact I|right; auto]. }
      intros Hlt Hdi Hsm Hus Hee. specialize (Ry eq_refl). destruct Ry as [Ry|[(Y1 & Y2 & Y3)|Ry]]; [lia| |].
      { exfalso. destruct Y3 as [Y3|[[_ Y3]|[Y3|[_ [[Y3|Y3] _]]]]]; [contradiction|contradiction|nia|lia|contradiction]. }
      assert (Cl : closed ph') by (destruct Ry as [[Ry _]|[Ry _]]; exact Ry). split; [exact Cl|].
      intros g Hg Rm Sl. rewrite Pq. cbn [fst snd]. cbv zeta.
      destruct ph' as [|c' e'|c' e']; [contradiction|contradiction|]. cbn [cur_of end_of] in *.
      assert (Fr : frac (st_last_position st1)) by apply Rok.
      assert (Rp0 : (0 < / val last)%R) by (destruct Gs as [_ Gs]; apply Rinv_0_lt_compat; unfold last; lra).
      assert (R20 : (0 < / IZR (2 ^ 20))%R) by (apply Rinv_0_lt_compat, IZR_lt; lia).
      destruct (so_tape _ _ _ _ _ _ _ _ Rok) as (Tr & _ & Tc & Te & T1 & T2 & T3 & T4). cbn [cur_of] in Tc.
      assert (Wr := W_range inc coeffs Ht dzero dzero). fold (width inc coeffs) in Wr.
      destruct Ry as [[_ Ry]|[_ Ry]].
      + assert (e' <= c').
        { change (s_b_end s' - s_b_current s' <= ch * h) in Ry. destruct Sl as [Sl|(_ & _ & Sl)]; [|contradiction]. rewrite Sl, Tc in Ry.
          destruct (Z_le_gt_dec e' c'); [assumption|]. assert (Q := sc ch Hch (c' + 1) e' ltac:(lia)). assert (Q2 := sc ch Hch h g Hg). lia. }
        assert (Le : (IZR (o + used) <= IZR (base' + c'))%R) by (apply IZR_le; lia). destruct Fr as (_ & _ & Fr). lra.
      + assert (Q := end_near ch Hch (ch =? 1) s' c' e' (st_last_position st1) last Gs Fr Tc Te).
        assert (ce : 0 <= c' <= 2 ^ 20) by lia.
        assert (ee : 0 <= e' <= 2 ^ 20). { split; [lia|]. destruct (Z_le_gt_dec e' (2 ^ 20)) as [|Gt]; [assumption|]. assert (Q2 := sc ch Hch (2 ^ 20) e' ltac:(lia)). nia. }
        specialize (Q ce ee Ry). rewrite <- Nx, !plus_IZR. lra.
  Qed.

  (** The padding at the end is enough for all that follows. *)
  Definition ready (r : f64) (st : SRC_STATE) (ph : phase) : Prop :=
    closed ph -> good_ratio (st_last_ratio st) /\ exists g, roomy W g /\ sealed st g ph /\ hl inc coeffs (st_last_ratio st) r <= g.

  Lemma hl_mono a b r : good_ratio a -> good_ratio b -> good_ratio r -> (val (dmin a r) <= val b)%R -> hl inc coeffs b r <= hl inc coeffs a r.
  Proof.
    intros Ga Gb Gr L. unfold hl. destruct (dmin_good a r Ga Gr) as (G1 & _ & Q1 & _). destruct (dmin_good b r Gb Gr) as (G2 & _ & _ & Q2).
    apply hlen_mono; [apply Ht|exact G1|exact G2|]. rewrite Q2. apply Rmin_glb; assumption.
  Qed.

  Lemma settling lo r N : (/ 191 <= lo)%R -> good_ratio r ->
    forall st o log out st' o', sinc_streaming ch X (fun x => (lo <= B2R x)%R) st o log out st' o' ->
    forall ph, on_tape st o ph -> (st_last_ratio st = dzero \/ (lo <= B2R (st_last_ratio st))%R) -> settles r log -> ends_at N o log ->
    (closed ph -> Forall (at_ratio r) log /\ o = N) -> ready r st ph ->
    exists ph', on_tape st' o' ph' /\ (st_last_ratio st' = dzero \/ (lo <= B2R (st_last_ratio st'))%R) /\ (closed ph' -> o' = N) /\ ready r st' ph'.
  Proof.
    intros Hlo Gr st o log out st' o' S. induction S as [st o|st o d m st1 d1 m1 chunk log out st2 o2 V Hin Ha Hend E Hc S IH|st o x st1 log out st2 o2 Ir Ha E S IH];
      intros ph Ot Lr Se En Cp Rd.
    - exists ph. split; [exact Ot|]. split; [exact Lr|]. split; [intros C; apply (Cp C)|exact Rd].
    - destruct (tape_end st o ph d m st1 d1 m1 Ot V Hin Hend E) as (ph1 & Ot1 & Gl & G1 & Lo1 & Sk & Sn & Cs & Cl & _).
      set (last := start_ratio st (src_ratio d)) in *.
      assert (Ll : (lo <= B2R last)%R).
      { unfold last, start_ratio. destruct Lr as [->|Lr]; [rewrite zero_low; exact Ha|].
        destruct (dlt (st_last_ratio st) _); assumption. }
      assert (Gd : good_ratio (src_ratio d)) by apply V.
      destruct (dmin_good last (src_ratio d) Gl Gd) as (Gm & _ & _ & Vm).
      assert (Lm : (lo <= B2R (dmin last (src_ratio d)))%R) by (rewrite Vm; apply Rmin_glb; assumption).
      destruct Se as [Se1 Se2]. destruct En as [En1 En2].
      apply (IH ph1 Ot1); [right; lra|exact Se2|exact En2| |].
      + intros C1. destruct (Cl C1) as [C2|[C2 C3]].
        * destruct (Cp C2) as [Q1 Q2]. inversion Q1; subst. split; [assumption|]. destruct (Cs C2) as [_ ->]. lia.
        * specialize (Se1 C2). inversion Se1; subst. split; [assumption|]. rewrite C3. now apply En1.
      + intros C1. split; [exact G1|]. destruct (Cl C1) as [C2|[C2 C3]].
        * destruct (Cp C2) as [Q1 _]. inversion Q1 as [|? ? Er]; subst. cbn [at_ratio] in Er.
          destruct (Rd C2) as (Gq & g & Rg & Sg & Hg). exists g. split; [exact Rg|]. split; [now apply Sk|].
          apply Z.le_trans with (2 := Hg). assert (El : last = st_last_ratio st) by (unfold last, start_ratio; now rewrite good_not_low).
          apply hl_mono; auto. rewrite <- El, <- Er. exact Lo1.
        * assert (Er : src_ratio d = r) by (specialize (Se1 C2); inversion Se1; subst; assumption).
          assert (Dec : closed ph \/ ~ closed ph) by (destruct ph; cbn; tauto). destruct Dec as [C4|C4].
          -- destruct (Rd C4) as (Gq & g & Rg & Sg & Hg). exists g. split; [exact Rg|]. split; [now apply Sk|].
             apply Z.le_trans with (2 := Hg). assert (El : last = st_last_ratio st) by (unfold last, start_ratio; now rewrite good_not_low).
             apply hl_mono; auto. rewrite <- El, <- Er. exact Lo1.
          -- exists (hl inc coeffs last (src_ratio d)). split; [|split; [now apply Sn|]].
             ++ unfold roomy, hl. apply wide_roomy; [apply Ht|exact Gm|lra].
             ++ rewrite Er. apply hl_mono; auto. rewrite <- Er. exact Lo1.
    - destruct Ot as (Hm & base & s & Hok & Eo & Ep).
      assert (E1 : st1 = set_ratio st x).
      { unfold src_set_ratio in E. destruct (is_bad_src_ratio x); [discriminate E|]. injection E as E. now symmetry. }
      assert (Ok1 : sinc_ok inc coeffs ch X base ph s st1) by (rewrite E1; destruct Hok; constructor; try assumption; now right).
      cbn [settles ends_at] in *. apply (IH ph); auto.
      + split; [rewrite E1; exact Hm|]. exists base, s. split; [exact Ok1|]. split; [exact Eo|]. now apply (position_ok inc coeffs ch Hch X base ph s).
      + right. rewrite E1. exact Ha.
      + intros C. destruct (Cp C) as [Q _]. inversion Q as [|? ? Q1]; subst. contradiction Q1.
      + intros C. destruct (Cp C) as [Q _]. inversion Q as [|? ? Q1]; subst. contradiction Q1.
  Qed.
End Conv.

Lemma sinc_duration_any inc coeffs ch X N lo r st log out st1 o1 d m st2 d2 m2 :
  table_fit (inc, coeffs) -> sinc_start (inc, coeffs) ch st -> (forall i k, i < 0 -> X i k = fzero) -> (/ 191 <= lo)%R ->
  sinc_streaming ch X (fun x => (lo <= B2R x)%R) st 0 log out st1 o1 -> ends_at N 0 log -> settles r log ->
  valid_call ch d m -> holds m (data_in d) ch (input_frames d) X o1 -> src_ratio d = r -> (lo <= B2R r)%R -> end_of_input d <> 0 ->
  (forall i c, N <= i -> X i c = fzero) -> data_in d <> 0 -> input_frames d * ch < 2 ^ 31 -> o1 + input_frames d = N ->
  src_process (Some st1) (Some d) m = Ok (0, Some st2, Some d2, m2) -> output_frames_gen d2 < output_frames d -> input_frames_used d2 = input_frames d ->
  exists rho, follows (/ IZR (2 ^ 33)) None (log ++ [Ev_call d d2]) rho /\ covers rho (total_gen log + output_frames_gen d2) N (/ lo + / IZR (2 ^ 20)) 0.
Proof.
  intros Ht S Z0 Hlo Run En Se Vd Hd Er Lr He Hend Hdi Hn EN E Lt U. destruct (start_tape inc coeffs ch X st Ht S Z0) as (Hch & Ot & Sr & Sp).
  assert (Gd : good_ratio r) by (rewrite <- Er; apply Vd).
  destruct (d_of_Z_val 256) as [V F]; [lia|]. assert (G : in_range (d_of_Z 256)). { split; [exact F|]. rewrite V. lra. }
  assert (Hend' : end_of_input d <> 0 -> forall i c, o1 + input_frames d <= i -> X i c = fzero) by (rewrite EN; auto).
  destruct (settling inc coeffs ch Ht Hch X lo r N Hlo Gd st 0 log out st1 o1 Run Fresh Ot (or_introl Sr) Se En) as (ph1 & Ot1 & L1 & C1 & Rd1); [intros []|intros []|].
  destruct (tape_end inc coeffs ch Ht Hch X st1 o1 ph1 d m st2 d2 m2 Ot1 Vd Hd Hend' E) as (ph2 & Ot2 & Gl & G1 & Lo1 & Sk & Sn & Cs & Cl & Why).
  set (last := start_ratio st1 (src_ratio d)) in *.
  assert (Ll : (lo <= B2R last)%R).
  { unfold last, start_ratio. destruct L1 as [->|L1]; [rewrite zero_low, Er; exact Lr|]. destruct (dlt (st_last_ratio st1) _); [rewrite Er|]; assumption. }
  destruct (Why Lt Hdi Hn U He) as [C2 Q]. rewrite U, EN in Q.
  assert (Q2 : exists g, hl inc coeffs last (src_ratio d) <= g /\ roomy (width inc coeffs) g /\ sealed inc coeffs ch st2 g ph2).
  { assert (Dec : closed ph1 \/ ~ closed ph1) by (destruct ph1; cbn; tauto). destruct Dec as [C4|C4].
    - destruct (Rd1 C4) as (Gq & g & Rg & Sg & Hg). exists g. rewrite Er. split; [|split; [exact Rg|now apply Sk]].
      unfold last, start_ratio. rewrite good_not_low by exact Gq. exact Hg.
    - exists (hl inc coeffs last (src_ratio d)). split; [lia|]. split; [|now apply Sn]. unfold roomy, hl.
      assert (Gd' : good_ratio (src_ratio d)) by apply Vd. destruct (dmin_good last (src_ratio d) Gl Gd') as (Gm & _ & _ & Vm).
      apply wide_roomy; [apply Ht|exact Gm|]. rewrite Vm. apply Rmin_glb; [lra|rewrite Er; lra]. }
  destruct Q2 as (g & Hg & Rg & Sg). specialize (Q g Hg Rg Sg). cbv zeta in Q.
  destruct (tape_call inc coeffs ch Ht Hch X st1 o1 ph1 d m st2 d2 m2 Ot1 Vd Hd Hend' E) as (ph2' & dep & _ & _ & Hgn & _ & _ & Wr & _).
  destruct (wrote_read _ _ _ ch _ _ ltac:(lia) (proj1 Hgn) Wr) as [chunk Ck].
  assert (Ad : (lo <= B2R (src_ratio d))%R) by (rewrite Er; exact Lr).
  assert (Run2 := CbStream.sinc_streaming_snoc ch X _ st 0 log out st1 o1 d m st2 d2 m2 chunk Run Vd Hd Ad Hend' E Ck). rewrite U, EN in Run2.
  assert (Tg : total_gen (log ++ [Ev_call d d2]) = total_gen log + output_frames_gen d2).
  { clear. induction log as [|[x y|x] l IH]; cbn [app total_gen]; [lia|lia|exact IH]. }
  assert (Run3 : sinc_streaming ch X (fun r => (lo <= B2R r <= B2R (d_of_Z 256))%R) st 0 (log ++ [Ev_call d d2]) (out ++ chunk) st2 N).
  { revert Run2. generalize (log ++ [Ev_call d d2]), (out ++ chunk), st, 0, st2, N. clear - V. intros lg ou a b c e' H.
    induction H; [constructor|eapply SS_call; eauto; rewrite V; split; [assumption|apply H]|eapply SS_ratio; eauto; rewrite V; split; [assumption|apply H]]. }
  destruct (sinc_vari inc coeffs ch Ht Hch X lo (d_of_Z 256) G st 0 _ _ st2 N Run3 Fresh None Ot Sr ltac:(discriminate) I)
    as (T0 & rho & dep' & Fo & Gr & Fr2 & Pe & _ & Bl2 & _).
  rewrite Tg, Sp in *. set (Gz := total_gen log + output_frames_gen d2) in *. exists rho. split; [exact Fo|]. split.
  - destruct (placed rho Gz T0) as [Fg N0]. { intros j Hj. now apply Gr. } rewrite Pe in Q.
    destruct N0 as [_ N0]. fold (wander rho Gz) in N0. apply Rabs_le_inv in N0.
    assert (I1 : (/ B2R last <= / lo)%R) by (apply Rinv_le; lra). lra.
  - intros k Hk. destruct (placed rho k ltac:(lia)) as [Fg N0]. { intros j Hj. apply Gr. lia. } destruct (reached_near _ _ _ _ N0) as [_ N1].
    assert (Q3 := Bl2 (Z.to_nat k) ltac:(lia)). apply Zlt_le_succ, IZR_le in Q3. rewrite succ_IZR in Q3. lra.
Qed.
