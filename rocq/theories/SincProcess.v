(** src_process on a sinc converter: one call. *)
From Coq Require Import ZArith Reals List Bool Lia Lra.
From Flocq Require Import Core IEEE754.BinarySingleNaN.
From Verif Require Import Base SincCopies SincCopiesEq FloatFacts PosFacts Types Common Sinc Api Heap Callback ApiHist HoldSpec HoldFacts HoldRamp HoldCore
  HoldProcess LifeSpec ErrFacts ProcFacts SincSpec SincFacts SincCalc SincPrep SincLoop.
Import ListNotations.
Local Open Scope Z_scope.

(** The process function of a sinc converter. *)
Lemma vt_sinc st d m : st_vt st = sinc_vt (st_channels st) -> vt_process st d m = sinc_process (st_channels st =? 1) (st_channels st) st d m.
Proof.
  intros H. unfold vt_process. rewrite H. unfold sinc_vt.
  destruct (Z.eqb_spec (st_channels st) 1) as [E|E]; [now rewrite E, mono_copy|].
  destruct (Z.eqb_spec (st_channels st) 2) as [E2|E2]; [now rewrite E2, stereo_copy|].
  destruct (Z.eqb_spec (st_channels st) 4) as [E4|E4]; [now rewrite E4, quad_copy|].
  destruct (Z.eqb_spec (st_channels st) 6) as [E6|E6]; [now rewrite E6, hex_copy|]. apply multichan_copy.
Qed.

Lemma frac_fixed x : frac x -> fmod_one x = x /\ psf_lrint (dsub x (fmod_one x)) = 0.
Proof.
  intros (F & S & A & B). assert (P : pos_le 2147483647 x) by (repeat split; [exact F|exact S|exact A|lra]).
  destruct (split_ok x P) as (E1 & E2 & _). destruct (split_lt1 x) as [E _]; [repeat split; [exact F|exact S|exact A|lra]|exact B|].
  unfold split_pos in E. injection E as Ea Eb. rewrite E2, E1. auto.
Qed.

Section Conv.
  Variables (inc : Z) (coeffs : list f32) (ch : Z).
  Hypothesis Ht : table_fit (inc, coeffs).
  Hypothesis Hch : 1 <= ch <= 128.
  Definition width : Z := Z.max (3 * full_len inc coeffs) 4096.

  (** A sinc converter between two calls: the ring buffer holds frames base, base+1, .. of X. *)
  Record sinc_ok (X : stream) (base : Z) (ph : phase) (s : sinc_data) (st : SRC_STATE) : Prop := {
    so_priv : st_priv st = P_sinc s;
    so_vt : st_vt st = sinc_vt ch;
    so_ch : st_channels st = ch;
    so_tape : tape inc coeffs ch width X base s ph;
    so_zero : forall i k, i < 0 -> X i k = fzero;
    so_pos : frac (st_last_position st);
    so_ratio : st_last_ratio st = dzero \/ good_ratio (st_last_ratio st)
  }.

  Lemma sinc_ok_primed X base ph s st new : sinc_ok X base ph s st -> good_ratio new ->
    sinc_ok X base ph s (primed st new) /\ st_last_ratio (primed st new) = start_ratio st new /\ good_ratio (start_ratio st new) /\
    kept st (primed st new) /\ st_last_position (primed st new) = st_last_position st /\ st_error (primed st new) = st_error st.
  Proof.
    intros [A B C D E F G] Gn. unfold primed, start_ratio. destruct G as [G|G].
    - rewrite G, zero_low. split; [|split; [reflexivity|split; [exact Gn|split; [|split; reflexivity]]]].
      + constructor; auto.
      + constructor; try reflexivity. apply shape_refl.
    - rewrite (good_not_low _ G). split; [|split; [reflexivity|split; [exact G|split; [|split; reflexivity]]]].
      + constructor; auto.
      + apply kept_refl.
  Qed.

  (** The parts of a reply. *)
  Section Call.
    Variables (X : stream) (base : Z) (ph : phase) (s : sinc_data) (st : SRC_STATE) (d : SRC_DATA) (m : mem).
    Hypothesis Hok : sinc_ok X base ph s st.
    Hypothesis Hlast : good_ratio (st_last_ratio st).
    Hypothesis Hv : valid_call ch d m.
    Let o := base + end_of ph.
    Let n := input_frames d.
    Let mo := output_frames d.
    Let last := st_last_ratio st.
    Let new := src_ratio d.
    Hypothesis Hin : ~ closed ph -> holds m (data_in d) ch n X o.
    Hypothesis Hend : ~ closed ph -> end_of_input d <> 0 -> forall i k, o + n <= i -> X i k = fzero.
    Let p0 : position := (base + cur_of ph, st_last_position st).
    Let rho := sinc_ramp last new ch mo.
    Let mono := ch =? 1.

    Record reply (e used : Z) (k : nat) (base' : Z) (ph' : phase) (s' : sinc_data) (st' : SRC_STATE) (d' : SRC_DATA) (m' : mem) (dep : nat -> Z) : Prop := {
      re_code : (e = 0 /\ d' = set_counts d used (Z.of_nat k)) \/
                (e = SRC_ERR_SINC_PREPARE_DATA_BAD_LEN /\ 2 ^ 31 <= ch * n /\ d' = d);
      re_used : 0 <= used <= n;
      re_gen : Z.of_nat k <= mo;
      re_wrote : wrote m m' (data_out d) ch (Z.of_nat k) (out_value inc coeffs ch X mo last new p0 dep);
      re_ok : sinc_ok X base' ph' s' st';
      re_next : base' + end_of ph' = o + used;
      re_link : link inc coeffs ch n d last new 0 s ph used s' ph';
      re_kept : kept st st';
      re_pos : e = 0 -> (base' + cur_of ph', st_last_position st') = pos_at p0 rho k;
      re_ratio : e = 0 -> st_last_ratio st' = cur_ratio ch mo last new k;
      re_bad : e <> 0 -> st_last_position st' = st_last_position st /\ st_last_ratio st' = last /\ st_error st' = e;
      re_err : e = 0 -> st_error st' = st_error st \/ st_error st' = 0;
      re_deep : forall g, g <= hl inc coeffs last new -> deep g ph -> forall j, (j < k)%nat -> g <= dep j;
      re_why : e = 0 -> Z.of_nat k = mo \/ starved inc coeffs ch n d last new ph used s' ph' \/ drained inc coeffs ch last new s' ph' \/
                 (closed ph' /\ at_end mono s' (st_last_position st') (dadd (ddiv done_ last) (lit_1em 20)) = true);
      re_below : forall j, (j < k)%nat -> fst (pos_at p0 rho j) < o + used
    }.

    Lemma half_len_ok s0 : s_coeff_half_len s0 = zlen coeffs - 2 -> s_index_inc s0 = inc ->
      good_ratio new -> half_filter_len s0 ch last new = Ok (ch * hl inc coeffs last new).
    Proof.
      intros E1 E2 G. unfold half_filter_len. rewrite E1, E2.
      change (if dlt (dmin last new) done_ then ddiv (ddiv (dadd (d_of_Z (zlen coeffs - 2)) (d_of_Z 2)) (d_of_Z inc)) (dmin last new)
              else ddiv (dadd (d_of_Z (zlen coeffs - 2)) (d_of_Z 2)) (d_of_Z inc)) with (count_of inc coeffs (dmin last new)).
      change (psf_lrint (count_of inc coeffs (dmin last new)) + 1) with (hl inc coeffs last new).
      assert (M : good_ratio (dmin last new)) by (apply dmin_good; assumption).
      destruct Ht as (T1 & _). destruct (hlen_val inc coeffs T1 _ M) as [_ B]. fold (hl inc coeffs last new) in B.
      rewrite int_ok by lia. cbn [bind]. apply int_ok. nia.
    Qed.

    (** The state in which the loop starts. *)
    Lemma first_iter : at_iter inc coeffs ch (~ closed ph) X o n mo d m last new p0 0 base 0
        (s_set_counts s (n * ch) 0 (mo * ch) 0) ph (st_last_position st) last m (fun _ => 0).
    Proof.
      destruct Hok as [Ep Ev Ec Et Ez Epos Er].
      destruct Hv as (V1 & V2 & V3 & V4 & V5 & V6 & V7 & V8 & V9 & V10 & V11 & V12).
      assert (Gn : good_ratio new) by exact V5.
      assert (R := proj1 Et).
      constructor; try reflexivity; try assumption; try auto.
        - constructor; cbn [s_set_counts s_in_count s_in_used]; try lia.
          + destruct Et as (A & B & C & D). split; [destruct A; constructor; assumption|]. split; [exact B|]. split; [exact C|exact D].
        - split; [intros; lia|auto].
        - intros; lia.
    Qed.

    (** The call as its loop. *)
    Lemma vt_unfold : vt_process st d m =
        do (e, s2, err, idx2, r2, m2) <-
           sinc_loop (S (Z.to_nat (mo * ch))) mono ch ch (ch * hl inc coeffs last new) d last (dadd (ddiv done_ last) (lit_1em 20))
                     (s_set_counts s (n * ch) 0 (mo * ch) 0) (st_error st) (st_last_position st) last m ;
        if negb (e =? 0) then Ok (e, set_priv (set_error st err) (P_sinc s2), d, m2)
        else
        do used <- c_div (s_in_used s2) ch ;
        do gen <- c_div (s_out_gen s2) ch ;
        Ok (SRC_ERR_NO_ERROR, set_priv (set_ratio (set_position (set_error st err) idx2) r2) (P_sinc s2), set_counts d used gen, m2).
    Proof.
      destruct Hok as [Ep Ev Ec Et Ez Epos Er].
      destruct Hv as (V1 & V2 & V3 & V4 & V5 & V6 & V7 & V8 & V9 & V10 & V11 & V12).
      assert (Gn : good_ratio new) by exact V5.
      assert (R := proj1 Et).
      assert (Adv : sinc_advance (s_set_counts s (n * ch) 0 (mo * ch) 0) ch (st_last_position st) =
        Ok (s_set_counts s (n * ch) 0 (mo * ch) 0, st_last_position st)).
      { destruct (frac_fixed _ Epos) as [E1 E2]. unfold sinc_advance. rewrite E2, E1. rewrite Z.mul_0_r. rewrite int_ok by lia. cbn [bind].
        destruct (tape_cells inc coeffs ch Ht Hch X last new _ _ _ Et) as (A1 & A2 & A3 & A4 & A5 & _).
        assert (Wr := W_range inc coeffs Ht last new). fold width in Wr, A2, A3, A4.
        cbn [s_set_counts s_b_current s_b_len]. rewrite Z.add_0_r. rewrite int_ok by lia. cbn [bind]. rewrite A3.
        assert (C1 : s_b_current s <= width * ch) by (destruct Et as (_ & _ & Q & Et); rewrite Q, (Z.mul_comm width); apply (sc ch Hch); destruct ph; cbn [cur_of]; lia).
        rewrite c_rem_ok by nia. cbn [bind]. rewrite Z.mod_small by lia. destruct s; reflexivity. }
      rewrite vt_sinc by congruence. rewrite Ec. unfold sinc_process. rewrite Ep, Ec.
        change (input_frames d) with n. change (output_frames d) with mo.
        rewrite long_ok by (unfold n; nia). cbn [bind]. rewrite long_ok by (unfold mo; nia). cbn [bind].
        change (st_last_ratio st) with last. change (src_ratio d) with new. rewrite (good_not_bad last Hlast).
        rewrite half_len_ok by (try assumption; apply R). cbn [bind]. rewrite Adv. reflexivity.
    Qed.

    Lemma vt_call :
      (exists f, vt_process st d m = Fault f /\ f <> F_fuel /\ ~ safe inc coeffs ch d last new s ph) \/
      (exists e used k base' ph' s' st' d' m' dep,
         vt_process st d m = Ok (e, st', d', m') /\ reply e used k base' ph' s' st' d' m' dep).
    Proof.
      destruct Hok as [Ep Ev Ec Et Ez Epos Er].
      destruct Hv as (V1 & V2 & V3 & V4 & V5 & V6 & V7 & V8 & V9 & V10 & V11 & V12).
      assert (Gn : good_ratio new) by exact V5.
      assert (R := proj1 Et).
      assert (It := first_iter). assert (EQ := vt_unfold).
      rewrite EQ.
      assert (Ok := loop_ok inc coeffs ch Ht Hch (~ closed ph) X o n mo d m last new p0 V1 V3 V2 V4 Hlast Gn eq_refl Epos Ez Hend Hin V11
        (apart_disjoint _ _ _ _ V12) mono).
      specialize (Ok ltac:(unfold mono; intros Q; now apply Z.eqb_eq)).
      specialize (Ok (S (Z.to_nat (mo * ch))) 0%nat base 0 _ ph (st_last_position st) last m (fun _ => 0) (st_error st) It).
      specialize (Ok ltac:(lia)).
      destruct Ok as [(f & E & Nf & Ns)|(e & k & base' & u & s' & ph' & err' & idx & r & m' & dep & E & It' & Lk & _ & _ & Dp & Fin & Er0 & Er1)].
      { left. exists f. rewrite E. cbn [bind]. split; [reflexivity|]. split; [exact Nf|exact Ns]. }
      right. rewrite E in EQ |- *. cbn [bind] in EQ |- *.
      destruct It' as [Mid Oc Og Hk Hp Hr Hw Hal Hb]. destruct Mid as [T' Mc Mu Mub Me].
      assert (Lk' : link inc coeffs ch n d last new 0 s ph u s' ph') by exact Lk.
      assert (P0 : frac idx).
      { assert (Q := pos_frac inc coeffs ch Hch mo last new p0 V4 Hlast Gn Epos k Hk). cbv beta in Q. rewrite Hp in Q. exact Q. }
      assert (Gr : good_ratio r).
      { rewrite Hr. destruct k as [|j]; [exact Hlast|]. cbn [cur_ratio].
        apply (rho_ok inc coeffs ch Hch mo last new V4 Hlast Gn). lia. }
      destruct (Z.eqb_spec e 0) as [E0|E0]; cbn [negb] in EQ |- *.
      - assert (C1 : c_div (s_in_used s') ch = Ok u) by (rewrite Mu, c_div_ok by lia; rewrite Z.mul_comm; now rewrite Z.div_mul by lia).
        assert (C2 : c_div (s_out_gen s') ch = Ok (Z.of_nat k)) by (rewrite Og, c_div_ok by lia; now rewrite Z.div_mul by lia).
        rewrite C1, C2 in EQ |- *. cbn [bind] in EQ |- *.
        set (st2 := set_priv (set_ratio (set_position (set_error st err') idx) r) (P_sinc s')) in EQ |- *.
        exists 0, u, k, base', ph', s', st2, (set_counts d u (Z.of_nat k)), m', dep.
        split; [reflexivity|].
        constructor; try assumption; try (intros; congruence).
        + now left.
        + constructor; try assumption; try reflexivity. now right.
        + exact (proj1 (proj2 (vt_shape _ _ _ _ EQ))).
        + intros _. symmetry. exact Hp.
        + intros _. exact Hr.
        + intros _. exact (Er0 E0).
        + intros g Hg Dh j Hj. apply Dp; [exact Hg|exact Dh|lia].
        + intros _. destruct Fin as [(F1 & _)|(_ & F)]; [rewrite E0 in F1; discriminate F1|]. exact F.
      - set (st2 := set_priv (set_error st err') (P_sinc s')) in EQ |- *.
        exists e, u, k, base', ph', s', st2, d, m', dep. split; [reflexivity|].
        destruct Fin as [(F1 & F2 & _)|(F1 & _)]; [|congruence].
        constructor; try assumption; try (intros; congruence).
        + right. split; [exact F1|]. split; [exact F2|reflexivity].
        + constructor; try assumption; try reflexivity.
        + exact (proj1 (proj2 (vt_shape _ _ _ _ EQ))).
        + intros _. split; [reflexivity|]. split; [reflexivity|]. cbn. auto.
        + intros g Hg Dh j Hj. apply Dp; [exact Hg|exact Dh|lia].
    Qed.
  End Call.
End Conv.
