(** Histories of API calls on a sinc converter. *)
From Coq Require Import ZArith Reals List Bool Lia Lra.
From Flocq Require Import Core IEEE754.BinarySingleNaN.
From Verif Require Import Base FloatFacts PosFacts Types Common Sinc Api Heap Callback ApiHist HoldSpec HoldFacts HoldRamp HoldCore
  HoldProcess LifeSpec ErrFacts ProcFacts HeapFacts LifeFacts SincSpec SincFacts SincCalc SincPrep SincLoop SincProcess SincCall SincApi.
Import ListNotations.
Local Open Scope Z_scope.

(** Kinds of histories. *)
Inductive plan := PAny | PNoEnd | PWide | PConst (r : f64).

Section Conv.
  Variables (inc : Z) (coeffs : list f32) (ch : Z).
  Hypothesis Ht : table_fit (inc, coeffs).
  Hypothesis Hch : 1 <= ch <= 128.
  Notation W := (width inc coeffs).

  Lemma hlen_above a b : good_ratio a -> good_ratio b -> (Rmin 1 (val a) <= val b)%R -> hlen inc coeffs b <= hlen inc coeffs a.
  Proof.
    intros Ga Gb L. assert (T := proj1 Ht). destruct (hlen_val inc coeffs T a Ga) as [-> _], (hlen_val inc coeffs T b Gb) as [-> _].
    destruct (count_facts inc coeffs T a Ga) as (_ & -> & _), (count_facts inc coeffs T b Gb) as (_ & -> & _).
    apply Zplus_le_compat_r, ZnearestE_mono, rnd64_mono. destruct (q_facts inc coeffs T) as (_ & _ & Bq & _). unfold Rdiv.
    apply Rmult_le_compat_l; [lra|]. destruct Ga as [_ Ga], Gb as [_ Gb]. revert L. unfold Rmin. intros L. apply Rinv_le; destruct (Rle_dec 1 (val a)), (Rle_dec 1 (val b)); lra.
  Qed.

  Definition settled (floor : R) (last : f64) (s : sinc_data) (ph : phase) : Prop :=
    match ph with
    | Closed _ e => exists mn, good_ratio mn /\ (Rmin 1 (val mn) <= floor)%R /\ (last = dzero \/ (Rmin 1 (val mn) <= val last)%R) /\
                      ch * (e + hlen inc coeffs mn) <= s_b_end s
    | _ => True
    end.
  Definition inv (p : plan) (floor : R) (s : sinc_data) (ph : phase) (st : SRC_STATE) : Prop :=
    match p with
    | PAny => True
    | PNoEnd => ~ closed ph
    | PWide => (st_last_ratio st = dzero \/ (/ 191 <= val (st_last_ratio st))%R) /\ (ch = 1 \/ settled floor (st_last_ratio st) s ph)
    | PConst r => ch = 1 /\ (st_last_ratio st = dzero \/ st_last_ratio st = r) /\ deep (hlen inc coeffs r) ph
    end.
  Definition ratio_fits (p : plan) (floor : R) (r : f64) : Prop :=
    match p with
    | PAny | PNoEnd => True
    | PWide => (/ 191 <= val r)%R /\ (ch = 1 \/ (floor <= val r)%R)
    | PConst r0 => r = r0
    end.
  Definition op_fits {CS} (p : plan) (floor : R) (c : api_call CS) : Prop :=
    match c with
    | A_process (Some d) _ => ratio_fits p floor (src_ratio d) /\ (p = PNoEnd -> end_of_input d = 0)
    | A_set_ratio r => in_range r -> ratio_fits p floor r
    | _ => True
    end.
  Definition next_floor {CS} (floor : R) (c : api_call CS) : R :=
    match c with
    | A_process (Some d) _ => if end_of_input d =? 0 then floor else Rmin 1 (B2R (src_ratio d))
    | A_reset => 0%R
    | _ => floor
    end.
  Fixpoint all_fit {CS} (p : plan) (floor : R) (cs : list (api_call CS)) : Prop :=
    match cs with
    | [] => True
    | c :: r => op_fits p floor c /\ all_fit p (next_floor floor c) r
    end.

  Definition good_at (p : plan) (floor : R) (st : SRC_STATE) : Prop :=
    st_mode st = MODE_PROCESS /\ exists X base ph s, sinc_ok inc coeffs ch X base ph s st /\ 0 <= base + end_of ph /\ inv p floor s ph st.

  (** The ratio after a call. *)
  Lemma reply_ratio X base ph s st d m e used k base' ph' s' st' d' m' dep :
    good_ratio (st_last_ratio st) -> valid_call ch d m ->
    reply inc coeffs ch X base ph s st d m e used k base' ph' s' st' d' m' dep ->
    good_ratio (st_last_ratio st') /\ (val (dmin (st_last_ratio st) (src_ratio d)) <= val (st_last_ratio st'))%R /\
    (st_last_ratio st = src_ratio d -> st_last_ratio st' = src_ratio d).
  Proof.
    intros Gl V R. assert (Gn : good_ratio (src_ratio d)) by apply V. destruct (dmin_good _ _ Gl Gn) as (_ & M1 & M2 & _).
    destruct (Z.eq_dec e 0) as [E0|E0].
    - rewrite (re_ratio _ _ _ _ _ _ _ _ _ _ _ _ _ _ _ _ _ _ _ _ R E0). destruct k as [|j]; cbn [cur_ratio].
      + auto.
      + assert (Hk := re_gen _ _ _ _ _ _ _ _ _ _ _ _ _ _ _ _ _ _ _ _ R).
        destruct (rho_ok inc coeffs ch Hch (output_frames d) (st_last_ratio st) (src_ratio d) ltac:(apply V) Gl Gn j ltac:(lia)) as (_ & G & L).
        split; [exact G|]. split; [exact L|]. intros E. unfold sinc_ramp. rewrite E.
        replace (Bleb (Babs (Bminus mode_NE (src_ratio d) (src_ratio d))) (Bdiv mode_NE (d_of_Z 1) (d_of_Z 10000000000))) with true; [reflexivity|].
        symmetry. destruct (dsub_val (src_ratio d) (src_ratio d) (proj1 Gn) (proj1 Gn)) as [Vs Fs].
        { rewrite Rminus_diag_eq, Rabs_R0 by reflexivity. apply bpow_ge_0. }
        rewrite Rminus_diag_eq, rnd64_0 in Vs by reflexivity.
        change (dle (dabs (dsub (src_ratio d) (src_ratio d))) (lit_1em 10) = true). rewrite dle_spec.
        * unfold dabs. rewrite B2R_Babs. rewrite Vs, Rabs_R0. apply Rle_bool_true. vm_compute. lra.
        * unfold fin, dabs. rewrite is_finite_Babs. exact Fs.
        * reflexivity.
    - destruct (re_bad _ _ _ _ _ _ _ _ _ _ _ _ _ _ _ _ _ _ _ _ R E0) as (_ & -> & _). auto.
  Qed.

  Lemma start_val st r (P : f64 -> Prop) : (st_last_ratio st = dzero \/ good_ratio (st_last_ratio st)) ->
    (st_last_ratio st = dzero \/ P (st_last_ratio st)) -> P r -> P (start_ratio st r).
  Proof.
    intros [G|G] H Hr; unfold start_ratio.
    - rewrite G, zero_low. exact Hr.
    - rewrite (good_not_low _ G). destruct H as [H|H]; [|exact H]. exfalso. rewrite H in G. destruct G as [_ G]. cbn in G. lra.
  Qed.

  (** A fitting call on a fitting state is safe. *)
  Lemma fits_safe p floor X base ph s st d : p <> PAny -> sinc_ok inc coeffs ch X base ph s st -> inv p floor s ph st ->
    good_ratio (src_ratio d) -> ratio_fits p floor (src_ratio d) -> (p = PNoEnd -> end_of_input d = 0) ->
    safe inc coeffs ch d (start_ratio st (src_ratio d)) (src_ratio d) s ph.
  Proof.
    intros Np Hok Hi Gn Hf He. destruct (sinc_ok_primed _ _ _ _ _ _ _ _ _ Hok Gn) as (_ & _ & Gs & _).
    destruct (dmin_good _ _ Gs Gn) as (Gm & M1 & M2 & M3). assert (T1 := proj1 Ht). assert (Er := so_ratio _ _ _ _ _ _ _ _ Hok).
    destruct p as [| | |r]; [tauto| | |]; cbn [inv ratio_fits] in *.
    - specialize (He eq_refl). split.
      + right. intros Q. congruence.
      + right. split; [intros Q; congruence|]. destruct ph; auto. cbn in Hi. tauto.
    - destruct Hi as [Hl Hc]. destruct Hf as [Hf1 Hf2].
      assert (L : (/ 191 <= val (dmin (start_ratio st (src_ratio d)) (src_ratio d)))%R).
      { rewrite M3. apply Rmin_glb; [|exact Hf1]. exact (start_val st _ (fun x => (/ 191 <= val x)%R) Er Hl Hf1). }
      assert (Ro : roomy (Z.max (3 * full_len inc coeffs) 4096) (hl inc coeffs (start_ratio st (src_ratio d)) (src_ratio d))).
      { unfold roomy, hl. now apply wide_roomy. }
      split.
      + right. intros _. right. exact Ro.
      + destruct Hc as [Hc|Hc]; [now left|]. destruct Hf2 as [Hf2|Hf2]; [now left|]. right. split; [intros _; right; exact Ro|].
        destruct ph as [|c e|c e]; auto. cbn [settled] in Hc. destruct Hc as (mn & G & A & B & C).
        assert (hl inc coeffs (start_ratio st (src_ratio d)) (src_ratio d) <= hlen inc coeffs mn).
        { unfold hl. apply hlen_above; try assumption. rewrite M3. apply Rmin_glb.
          - apply (start_val st _ (fun x => (Rmin 1 (val mn) <= val x)%R) Er B). lra.
          - lra. }
        nia.
    - destruct Hi as (H1 & Hl & Hd). subst r. assert (E : start_ratio st (src_ratio d) = src_ratio d).
      { apply (start_val st _ (fun x => x = src_ratio d) Er Hl). reflexivity. }
      split; [|now left]. right. intros _. left. rewrite E.
      assert (Eh : hl inc coeffs (src_ratio d) (src_ratio d) = hlen inc coeffs (src_ratio d)).
      { unfold hl. f_equal. unfold dmin. now destruct (dlt _ _). }
      rewrite Eh. exact Hd.
  Qed.

  (** ... and leaves a fitting state. *)
  Lemma fits_after p floor X X' base ph s st d m e used k base' ph' s' st' d' m' dep :
    sinc_ok inc coeffs ch X' base ph s st -> inv p floor s ph st -> valid_call ch d m ->
    ratio_fits p floor (src_ratio d) -> (p = PNoEnd -> end_of_input d = 0) ->
    reply inc coeffs ch X base ph s (primed st (src_ratio d)) (set_counts d 0 0) m e used k base' ph' s' st' d' m' dep ->
    inv p (if end_of_input d =? 0 then floor else Rmin 1 (val (src_ratio d))) s' ph' st'.
  Proof.
    intros Hok Hi V Hf He R. assert (Gn : good_ratio (src_ratio d)) by apply V.
    destruct (sinc_ok_primed _ _ _ _ _ _ _ _ _ Hok Gn) as (_ & Es & Gs & _). rewrite <- Es in Gs.
    destruct (reply_ratio _ _ _ _ _ _ _ _ _ _ _ _ _ _ _ _ _ Gs (V : valid_call ch (set_counts d 0 0) m) R) as (G' & L' & C'). cbn [src_ratio set_counts] in L', C'.
    destruct (dmin_good _ _ Gs Gn) as (Gm & M1 & M2 & M3). assert (T1 := proj1 Ht). assert (Er := so_ratio _ _ _ _ _ _ _ _ Hok).
    destruct (re_link _ _ _ _ _ _ _ _ _ _ _ _ _ _ _ _ _ _ _ _ R) as (Ld & _ & _ & Lk). specialize (Ld _ (Z.le_refl _)). cbn [src_ratio set_counts end_of_input input_frames] in Ld, Lk.
    rewrite Es in *.
    destruct p as [| | |r]; cbn [inv ratio_fits] in *; [exact I| | |].
    - specialize (He eq_refl). destruct ph' as [|c' e'|c' e']; cbn [closed]; try tauto.
      destruct Lk as [(c & -> & _)|(_ & Q & _)]; [now apply Hi|contradiction].
    - destruct Hi as [Hl Hc]. destruct Hf as [Hf1 Hf2].
      assert (L : (/ 191 <= val (dmin (start_ratio st (src_ratio d)) (src_ratio d)))%R).
      { rewrite M3. apply Rmin_glb; [|exact Hf1]. exact (start_val st _ (fun x => (/ 191 <= val x)%R) Er Hl Hf1). }
      split; [right; lra|]. destruct Hc as [Hc|Hc]; [now left|]. destruct Hf2 as [Hf2|Hf2]; [now left|]. right.
      destruct ph' as [|c' e'|c' e']; cbn [settled]; auto. destruct Lk as [(c & -> & Eb & _)|(_ & Q & _ & Pd)].
      + cbn [settled] in Hc. destruct Hc as (mn & G & A & B & C). exists mn. split; [exact G|].
        assert (B' : (Rmin 1 (val mn) <= val (start_ratio st (src_ratio d)))%R) by (apply (start_val st _ (fun x => (Rmin 1 (val mn) <= val x)%R) Er B); lra).
        split; [destruct (end_of_input d =? 0); [exact A|apply Rmin_glb; [apply Rmin_l|lra]]|].
        split; [right; apply Rle_trans with (2 := L'); rewrite M3; apply Rmin_glb; lra|].
        rewrite Eb. exact C.
      + exists (dmin (start_ratio st (src_ratio d)) (src_ratio d)). split; [exact Gm|].
        replace (end_of_input d =? 0) with false by (symmetry; apply Z.eqb_neq; exact Q).
        split; [apply Rmin_glb; [apply Rmin_l|apply Rle_trans with (1 := Rmin_r _ _); exact M2]|]. split; [right; apply Rle_trans with (1 := Rmin_r _ _); exact L'|].
        destruct Pd as [Eb|(_ & _ & Nr)].
        * rewrite Eb. unfold hl. lia.
        * exfalso. apply Nr. unfold roomy, hl. now apply wide_roomy.
    - destruct Hi as (H1 & Hl & Hd). split; [exact H1|]. subst r. assert (E : start_ratio st (src_ratio d) = src_ratio d).
      { apply (start_val st _ (fun x => x = src_ratio d) Er Hl). reflexivity. }
      split; [right; apply C'; exact E|]. rewrite E in Ld.
      assert (Eh : hl inc coeffs (src_ratio d) (src_ratio d) = hlen inc coeffs (src_ratio d)).
      { unfold hl. f_equal. unfold dmin. now destruct (dlt _ _). }
      rewrite Eh in Ld. auto.
  Qed.

  Lemma reply_truthful X base ph s st d m e used k base' ph' s' st' d' m' dep :
    valid_call ch d m -> reply inc coeffs ch X base ph s st (set_counts d 0 0) m e used k base' ph' s' st' d' m' dep ->
    truthful_reply ch d m e d' m'.
  Proof.
    intros V R. assert (Hk := re_gen _ _ _ _ _ _ _ _ _ _ _ _ _ _ _ _ _ _ _ _ R). assert (Hu := re_used _ _ _ _ _ _ _ _ _ _ _ _ _ _ _ _ _ _ _ _ R).
    assert (Hw := re_wrote _ _ _ _ _ _ _ _ _ _ _ _ _ _ _ _ _ _ _ _ R). cbn [output_frames input_frames data_out set_counts] in *.
    destruct (re_code _ _ _ _ _ _ _ _ _ _ _ _ _ _ _ _ _ _ _ _ R) as [[E Ed]|(E & B & Ed)]; cbn [input_frames set_counts] in *.
    - left. rewrite Ed. split; [exact E|]. cbn [input_frames_used output_frames_gen set_counts input_frames output_frames data_out].
      split; [reflexivity|]. split; [exact Hu|]. split; [lia|]. eexists. exact Hw.
    - right. split; [exact E|]. split; [lia|]. split; [exact Ed|]. intros a Ha. apply Hw. nia.
  Qed.

  Lemma history_step p floor CS (cb : callback_t CS) dummy st c : good_at p floor st -> valid_op ch c -> op_fits p floor c ->
    (exists r st1, api_step CS cb dummy st c = Ok (r, st1) /\ truthful ch c r /\ good_at p (next_floor floor c) st1) \/
    (p = PAny /\ exists f, api_step CS cb dummy st c = Fault f /\ f <> F_fuel).
  Proof.
    intros [Hm (X & base & ph & s & Hok & O & Hi)] V F.
    destruct c as [[d|] m|fuel ratio frames data cs0 m|r| | |]; cbn [api_step op_fits valid_op next_floor] in *.
    - destruct F as [F1 F2]. assert (Gn : good_ratio (src_ratio d)) by apply V.
      destruct (sinc_any_call inc coeffs ch Ht Hch X base ph s st d m Hok O Hm V) as [(f & E & Nf & Ns)|R].
      + right. assert (Pd : p = PAny \/ p <> PAny) by (destruct p; [left; reflexivity|right; discriminate..]).
        destruct Pd as [->|Pd].
        * split; [reflexivity|]. exists f. rewrite E. split; [reflexivity|exact Nf].
        * exfalso. apply Ns. now apply (fits_safe p floor X base).
      + left. destruct R as (X' & e & used & k & base' & ph' & s' & st' & d' & m' & dep & E & R). rewrite E. cbn [bind keep].
        eexists _, _. split; [reflexivity|]. split; [exact (reply_truthful _ _ _ _ _ _ _ _ _ _ _ _ _ _ _ _ _ V R)|].
        assert (K := re_kept _ _ _ _ _ _ _ _ _ _ _ _ _ _ _ _ _ _ _ _ R).
        assert (Km := k_mode _ _ K). assert (Pm : st_mode (primed st (src_ratio d)) = st_mode st) by (unfold primed; now destruct (dlt _ _)).
        split; [congruence|]. exists X', base', ph', s'.
        split; [exact (re_ok _ _ _ _ _ _ _ _ _ _ _ _ _ _ _ _ _ _ _ _ R)|].
        assert (Nx := re_next _ _ _ _ _ _ _ _ _ _ _ _ _ _ _ _ _ _ _ _ R). assert (Us := re_used _ _ _ _ _ _ _ _ _ _ _ _ _ _ _ _ _ _ _ _ R).
        split; [lia|]. exact (fits_after _ _ _ _ _ _ _ _ _ _ _ _ _ _ _ _ _ _ _ _ Hok Hi V F1 F2 R).
    - left. unfold src_process. rewrite Hm. cbn. eexists _, _. split; [reflexivity|]. split; [discriminate|]. split; [exact Hm|]. eauto 10.
    - left. unfold src_callback_read. destruct (frames <=? 0); [|rewrite Hm]; cbn; eexists _, _; (split; [reflexivity|]); (split; [exact I|]).
      + split; [exact Hm|]. eauto 10.
      + split; [exact Hm|]. exists X, base, ph, s. split; [destruct Hok; constructor; assumption|]. split; [exact O|]. exact Hi.
    - left. destruct (sinc_set_ratio_call inc coeffs ch X base ph s st r Hok V) as (e & st' & E & Ok' & M' & Alt). rewrite E. cbn [keep].
      eexists _, _. split; [reflexivity|]. split; [exact I|]. split; [congruence|]. exists X, base, ph, s. split; [exact Ok'|]. split; [exact O|].
      destruct Alt as [(_ & Ir & El)|(_ & ->)]; [|exact Hi]. specialize (F Ir).
      destruct p as [| | |r0]; cbn [inv ratio_fits] in *; auto.
      + rewrite El. destruct F as [F1 F2]. destruct Hi as [Hl Hc]. split; [now right|]. destruct Hc as [Hc|Hc]; [now left|].
        destruct F2 as [F2|F2]; [now left|]. right. destruct ph as [|c e0|c e0]; cbn [settled] in *; auto.
        destruct Hc as (mn & G & A & B & C). exists mn. split; [exact G|]. split; [exact A|]. split; [right; lra|exact C].
      + rewrite El. destruct Hi as (H1 & Hl & Hd). auto.
    - left. destruct (sinc_reset_call inc coeffs ch Ht Hch X base ph s st Hok) as (st' & s' & E & Ok' & M' & Lr & Lp). rewrite E. cbn [bind keep].
      eexists _, _. split; [reflexivity|]. split; [exact I|]. split; [congruence|]. exists silence, 0, Fresh, s'. split; [exact Ok'|]. split; [cbn; lia|].
      destruct p as [| | |r0]; cbn [inv settled closed deep] in *; auto. split; [apply Hi|]. auto.
    - left. eexists _, _. split; [reflexivity|]. split; [exact I|]. split; [exact Hm|]. eauto 10.
    - left. eexists _, _. split; [reflexivity|]. split; [exact I|]. split; [exact Hm|]. eauto 10.
  Qed.

  Lemma history_run p CS (cb : callback_t CS) dummy : forall cs floor st, good_at p floor st -> Forall (valid_op ch) cs -> all_fit p floor cs ->
    (exists rs st', api_run CS cb dummy st cs = Ok (rs, st') /\ Forall2 (truthful ch) cs rs /\ exists fl, good_at p fl st') \/
    (p = PAny /\ exists f, api_run CS cb dummy st cs = Fault f /\ f <> F_fuel).
  Proof.
    induction cs as [|c cs IH]; intros floor st G V F.
    - left. exists [], st. split; [reflexivity|]. split; [constructor|]. eauto.
    - inversion V as [|? ? V1 V2]; subst. destruct F as [F1 F2]. cbn [api_run].
      destruct (history_step p floor CS cb dummy st c G V1 F1) as [(r & st1 & E & T & G1)|(P & f & E & Nf)].
      + rewrite E. cbn [bind]. destruct (IH _ st1 G1 V2 F2) as [(rs & st2 & E2 & T2 & G2)|(P & f & E2 & Nf)].
        * left. rewrite E2. cbn [bind]. exists (r :: rs), st2. split; [reflexivity|]. split; [constructor; assumption|exact G2].
        * right. split; [exact P|]. rewrite E2. cbn [bind]. eauto.
      + right. split; [exact P|]. rewrite E. cbn [bind]. eauto.
  Qed.

  Lemma good_start p b_len : sinc_b_len (zlen coeffs - 2) inc ch = Ok b_len -> (forall r, p = PConst r -> ch = 1) ->
    good_at p 0 (fresh_sinc (inc, coeffs) ch b_len).
  Proof.
    intros E H1. destruct (sinc_created inc coeffs ch Ht Hch b_len E) as (s & Ok' & Hm & Hr & Hp). split; [exact Hm|].
    exists silence, 0, Fresh, s. split; [exact Ok'|]. split; [cbn; lia|].
    destruct p as [| | |r0]; cbn [inv settled closed deep] in *; auto. split; [now apply (H1 r0)|]. auto.
  Qed.
End Conv.

Lemma sinc_new_state inc coeffs ch st : sinc_new (inc, coeffs) ch st -> 1 <= ch <= 128 /\
  exists b_len, sinc_b_len (zlen coeffs - 2) inc ch = Ok b_len /\ st = fresh_sinc (inc, coeffs) ch b_len.
Proof.
  intros (bld & orc & ty & h & c & h' & T & E & ->). destruct (new_fresh _ _ _ _ _ _ _ _ E) as [F H1].
  assert (H2 : ch <= 128).
  { unfold src_new in E. rewrite T in E. unfold sinc_state_new in E. destruct (ch <=? 0); [discriminate E|].
    destruct (MAX_CHANNELS <? ch) eqn:Q; [discriminate E|]. apply Z.ltb_ge in Q. unfold MAX_CHANNELS in Q. exact Q. }
  split; [lia|]. destruct F as [t bl T' Eb H3 H4 Es|T'|T']; try congruence. rewrite T in T'. injection T' as <-. exists bl. split; [exact Eb|exact Es].
Qed.

(** Any legal history. *)
Lemma sinc_any_history t ch st : table_fit t -> sinc_new t ch st ->
  forall CS (cb : callback_t CS) dummy cs, Forall (valid_op ch) cs ->
  match api_run CS cb dummy st cs with
  | Ok (rs, st') => Forall2 (truthful ch) cs rs /\ (st_last_ratio st' = dzero \/ in_range (st_last_ratio st'))
  | Fault f => f <> F_fuel
  end.
Proof.
  intros Ht N CS cb dummy cs V. destruct t as [inc coeffs]. destruct (sinc_new_state _ _ _ _ N) as (Hch & b & Eb & ->).
  assert (G := good_start inc coeffs ch Ht Hch PAny b Eb ltac:(discriminate)).
  assert (F : forall floor, all_fit ch PAny floor cs).
  { induction cs as [|c cs IH]; intros floor; [exact I|]. split; [|apply IH; inversion V; assumption].
    destruct c as [[d|] m| | | | |]; cbn; auto. split; [exact I|discriminate]. }
  destruct (history_run inc coeffs ch Ht Hch PAny CS cb dummy cs 0 _ G V (F 0%R)) as [(rs & st' & E & T & fl & _ & X & base & ph & s & Ok' & _)|(_ & f & E & Nf)]; rewrite E.
  - split; [exact T|]. exact (so_ratio _ _ _ _ _ _ _ _ Ok').
  - exact Nf.
Qed.

Lemma sinc_tame_history t ch st : table_fit t -> sinc_new t ch st ->
  forall CS (cb : callback_t CS) dummy cs, Forall (valid_op ch) cs -> tame ch cs ->
  exists rs st', api_run CS cb dummy st cs = Ok (rs, st') /\ Forall2 (truthful ch) cs rs.
Proof.
  intros Ht N CS cb dummy cs V T. destruct t as [inc coeffs]. destruct (sinc_new_state _ _ _ _ N) as (Hch & b & Eb & ->).
  assert (P : exists p, p <> PAny /\ (forall r, p = PConst r -> ch = 1) /\ all_fit ch p 0 cs).
  { destruct T as [T|[[T1 T2]|[T1 [r T2]]]].
    - exists PNoEnd. split; [discriminate|]. split; [discriminate|]. generalize 0%R as floor.
      induction cs as [|c cs IH]; intros floor; [exact I|]. inversion T; subst. inversion V; subst. split; [|apply IH; assumption].
      destruct c as [[d|] m| | | | |]; cbn; auto.
    - exists PWide. split; [discriminate|]. split; [discriminate|]. revert T2. generalize 0%R as floor.
      induction cs as [|c cs IH]; intros floor T2; [exact I|]. inversion T1; subst. inversion V; subst.
      assert (IH' := IH ltac:(assumption) ltac:(assumption)). clear IH.
      destruct c as [[d|] m| |r| | |]; cbn [all_fit op_fits next_floor ratio_fits op_ratio no_drop] in *; (split; [|apply IH'; tauto]); auto.
      + split; [|discriminate]. split; [assumption|]. destruct T2 as [T2|T2]; [now left|right; apply T2].
      + intros Ir. split; [auto|]. destruct T2 as [T2|[T2 _]]; auto.
    - exists (PConst r). split; [discriminate|]. split; [intros; exact T1|]. generalize 0%R as floor.
      induction cs as [|c cs IH]; intros floor; [exact I|]. inversion T2; subst. inversion V; subst. split; [|apply IH; assumption].
      destruct c as [[d|] m| | | | |]; cbn in *; auto. split; [assumption|discriminate]. }
  destruct P as (p & Np & H1 & F).
  destruct (history_run inc coeffs ch Ht Hch p CS cb dummy cs 0 _ (good_start inc coeffs ch Ht Hch p b Eb H1) V F) as [(rs & st' & E & T' & _)|(Q & _)].
  - exists rs, st'. split; [exact E|exact T'].
  - contradiction.
Qed.
