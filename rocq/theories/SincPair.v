(** Two sinc converters that have seen streams with one channel in common, given the same requests: what one channel
    carries does not affect the others. *)
From Coq Require Import ZArith Reals List Bool Lia.
From Flocq Require Import Core IEEE754.BinarySingleNaN.
From Verif Require Import Base FloatFacts PosFacts Types Common Sinc Api Heap Callback ApiHist HoldSpec HoldFacts HoldRamp HoldCore
  HoldProcess HoldStream HoldValue LifeSpec ErrFacts ProcFacts SincSpec SincFacts SincCalc SincPrep SincLoop SincProcess SincCall SincApi SincHist SincStream
  SincAlike.
Import ListNotations.
Local Open Scope Z_scope.

Lemma both_oks {A B} (R : A -> B -> Prop) x y a b : both False R x y -> x = Ok a -> y = Ok b -> R a b.
Proof. intros H -> ->. exact H. Qed.
Lemma any_mem m m' : like_mem False m m'.
Proof. intros []. Qed.

(** A sample depends on its own channel only. *)
Lemma sinc_sample_same inc coeffs x x' d p r : (forall i, x i = x' i) -> sinc_sample inc coeffs x d p r = sinc_sample inc coeffs x' d p r.
Proof.
  intros H. destruct p as [pz pf]. unfold sinc_sample. cbv zeta. cbn [fst snd].
  destruct (_ =? _); do 3 f_equal; apply weigh_ext; intros i _; (split; [reflexivity|apply H]).
Qed.

Section Pair.
  Variables (inc : Z) (coeffs : list f32) (ch : Z).
  Hypothesis Ht : table_fit (inc, coeffs).
  Hypothesis Hch : 1 <= ch <= 128.

  (** ** One turn of the loop *)
  Section Turn.
    Variables (d : SRC_DATA) (last new : f64).
    Let h := hl inc coeffs last new.
    Let term := dadd (ddiv done_ last) (lit_1em 20).
    Let mono := ch =? 1.
    Notation run fuel := (sinc_loop fuel (ch =? 1) ch ch (ch * hl inc coeffs last new) d last (dadd (ddiv done_ last) (lit_1em 20))).

    Definition stop_of (s : sinc_data) (idx : f64) (x : outcome (sinc_data * Z * bool)) : bool :=
      if s_out_gen s <? s_out_count s then
        match x with Ok (s1, _, stop) => stop || at_end mono s1 idx term | Fault _ => true end
      else true.

    Lemma turn (al : Prop) X o n mo m0 p0 : 0 <= n -> n * ch <= 2 ^ 50 -> 0 <= mo -> mo * ch <= 2 ^ 50 -> good_ratio last -> good_ratio new ->
      src_ratio d = new -> frac (snd p0) -> (forall i k, i < 0 -> X i k = fzero) ->
      (al -> end_of_input d <> 0 -> forall i k, o + n <= i -> X i k = fzero) ->
      (al -> holds m0 (data_in d) ch n X o) -> writable m0 (data_out d) ch mo ->
      disjoint_ranges (data_in d) (n * ch) (data_out d) (mo * ch) ->
      forall fuel k base u s ph idx r m dep err R, at_iter inc coeffs ch al X o n mo d m0 last new p0 k base u s ph idx r m dep ->
      run (S fuel) s err idx r m = Ok R ->
      (s_out_gen s < s_out_count s -> exists x, reload inc coeffs ch d last new s err m = Ok x) /\
      if stop_of s idx (reload inc coeffs ch d last new s err m) then snd R = m /\ s_out_gen (snd (fst (fst (fst (fst R))))) = Z.of_nat k * ch
      else exists s1 ph1 e1 b1 u1 s2 ph2 idx2 m2, reload inc coeffs ch d last new s err m = Ok (s1, e1, false) /\
        s_b_current s1 = ch * cur_of ph1 /\
        sinc_advance (s_set_out_gen s1 (Z.of_nat k * ch + ch)) ch (next_index idx (sinc_ramp last new ch mo k)) = Ok (s2, idx2) /\
        at_iter inc coeffs ch al X o n mo d m0 last new p0 (S k) b1 u1 s2 ph2 idx2 (sinc_ramp last new ch mo k) m2
          (fun j => if Nat.eqb j k then cur_of ph1 else dep j) /\
        run fuel s2 e1 idx2 (sinc_ramp last new ch mo k) m2 = Ok R.
    Proof.
      intros Hn Hnc Hmo Hmc G1 G2 Hnew Hp0 Hx0 Hxe Hin Hout Hdis fuel k base u s ph idx r m dep err R It E.
      rewrite loop_unfold in E. unfold stop_of.
      destruct (Z.ltb_spec (s_out_gen s) (s_out_count s)) as [Hlt|Hge].
      2: { injection E as <-. split; [lia|]. split; [reflexivity|]. exact (it_gen _ _ _ _ _ _ _ _ _ _ _ _ _ _ _ _ _ _ _ _ _ _ It). }
      rewrite (it_gen _ _ _ _ _ _ _ _ _ _ _ _ _ _ _ _ _ _ _ _ _ _ It), (it_out _ _ _ _ _ _ _ _ _ _ _ _ _ _ _ _ _ _ _ _ _ _ It) in Hlt.
      assert (Hk2 : Z.of_nat k < mo) by nia.
      destruct (reload_ok inc coeffs ch Ht Hch al X o n mo d m0 last new p0 Hn Hnc Hmo Hmc G1 G2 Hx0 Hxe Hin Hdis k base u s ph idx r m dep err It)
        as [(f & E1 & _)|(b1 & u1 & s1 & ph1 & e1 & stop & E1 & It1 & _ & Fin)]; rewrite E1 in E |- *; cbn [bind] in E; [discriminate E|].
      split; [eauto|]. destruct stop; cbn [orb].
      { injection E as <-. split; [reflexivity|]. exact (it_gen _ _ _ _ _ _ _ _ _ _ _ _ _ _ _ _ _ _ _ _ _ _ It1). }
      unfold term, mono. destruct (at_end (ch =? 1) s1 idx (dadd (ddiv done_ last) (lit_1em 20))) eqn:Hend.
      { injection E as <-. split; [reflexivity|]. exact (it_gen _ _ _ _ _ _ _ _ _ _ _ _ _ _ _ _ _ _ _ _ _ _ It1). }
      destruct Fin as [_ Fin].
      rewrite (it_gen _ _ _ _ _ _ _ _ _ _ _ _ _ _ _ _ _ _ _ _ _ _ It1), (it_out _ _ _ _ _ _ _ _ _ _ _ _ _ _ _ _ _ _ _ _ _ _ It1), Hnew,
        (it_r _ _ _ _ _ _ _ _ _ _ _ _ _ _ _ _ _ _ _ _ _ _ It1) in E.
      destruct (rho_ok inc coeffs ch Hch mo last new Hmc G1 G2 k Hk2) as (Er & Gr & _). rewrite Er in E. cbv zeta in E.
      assert (T1 := mi_tape _ _ _ _ _ _ _ _ _ _ _ (it_mid _ _ _ _ _ _ _ _ _ _ _ _ _ _ _ _ _ _ _ _ _ _ It1)).
      assert (Ei : s_index_inc s1 = inc) by apply T1. rewrite Ei in E.
      set (rho := sinc_ramp last new ch mo) in *.
      change (dmul (d_of_Z inc) (if dlt (rho k) done_ then rho k else done_)) with (table_step inc (rho k)) in E.
      destruct (output_ok inc coeffs ch Ht Hch al X o n mo d m0 last new p0 Hn Hnc Hmo Hmc G1 G2 Hp0 Hxe Hin Hout Hdis (ch =? 1)
        ltac:(intros Q; now apply Z.eqb_eq) k b1 u1 s1 ph1 idx r m dep It1 Hk2 Fin Hend) as (NF & Hce & Out). cbv zeta in Out. fold rho in Out.
      destruct Out as [(f & E2 & _)|E2]; rewrite E2 in E; cbn [bind] in E; [discriminate E|].
      destruct (mwrite_list_ok (fun q => sinc_sample inc coeffs (fun i => X i q) (cur_of ph1) (pos_at p0 rho k) (rho k)) (Z.to_nat ch) 0
         (data_out d + Z.of_nat k * ch) m) as (m' & Em & M1 & M2).
      { intros j Hj. rewrite <- Z.add_assoc.
        apply (written_out inc coeffs ch Hch X mo d m0 last new p0 Hout _ _ _ (it_mem _ _ _ _ _ _ _ _ _ _ _ _ _ _ _ _ _ _ _ _ _ _ It1)); [lia|]. nia. }
      rewrite Em in E. cbn [bind] in E. rewrite Z2Nat.id in M1, M2 by lia.
      rewrite long_ok in E by nia. cbn [bind] in E.
      destruct (advance_step inc coeffs ch Ht Hch al X o n mo d m0 last new p0 Hmo Hmc G1 G2 Hp0 Hxe Hin k b1 u1 s1 ph1 idx r m m' dep It1 Hk2 NF Hce Fin)
        as (s2 & ph2 & idx2 & E3 & It2 & _).
      { split; [intros q Hq; rewrite M1 by lia; do 2 f_equal; lia|exact M2]. }
      fold rho in E3, It2. rewrite E3 in E. cbn [bind] in E.
      exists s1, ph1, e1, b1, u1, s2, ph2, idx2, m'. split; [reflexivity|]. split; [apply T1|]. split; [exact E3|]. split; [exact It2|exact E].
    Qed.
  End Turn.

  Lemma reload_of_eq d last new s err m : reload inc coeffs ch d last new s err m =
    bind (samples_in_hand s) (reload_of s ch (ch * hl inc coeffs last new) d err m).
  Proof. reflexivity. Qed.

  Lemma reload_like d last new s s' err m m' x x' : like s s' ->
    reload inc coeffs ch d last new s err m = Ok x -> reload inc coeffs ch d last new s' err m' = Ok x' ->
    like (fst (fst x)) (fst (fst x')) /\ snd (fst x) = snd (fst x') /\ snd x = snd x'.
  Proof.
    intros (b & -> & L) E E'. rewrite reload_of_eq in E, E'. change (samples_in_hand (with_buf s b)) with (samples_in_hand s) in E'.
    refine (both_oks (fun x y => like (fst (fst x)) (fst (fst y)) /\ snd (fst x) = snd (fst y) /\ snd x = snd y) _ _ _ _ _ E E'). apply both_same. intros sih. apply reload_both; [exact L|apply any_mem].
  Qed.

  (** ** The loop *)
  Section Loop.
    Variables (o n mo : Z) (d : SRC_DATA) (last new : f64) (p0 : position).
    Hypothesis Hn : 0 <= n.
    Hypothesis Hnc : n * ch <= 2 ^ 50.
    Hypothesis Hmo : 0 <= mo.
    Hypothesis Hmc : mo * ch <= 2 ^ 50.
    Hypothesis G1 : good_ratio last.
    Hypothesis G2 : good_ratio new.
    Hypothesis Hnew : src_ratio d = new.
    Hypothesis Hp0 : frac (snd p0).
    Hypothesis Hdis : disjoint_ranges (data_in d) (n * ch) (data_out d) (mo * ch).
    Definition feed (al : Prop) (X : stream) (m0 : mem) : Prop :=
      (forall i k, i < 0 -> X i k = fzero) /\ (al -> end_of_input d <> 0 -> forall i k, o + n <= i -> X i k = fzero) /\
      (al -> holds m0 (data_in d) ch n X o) /\ writable m0 (data_out d) ch mo.
    Notation iter al X m0 := (at_iter inc coeffs ch al X o n mo d m0 last new p0).
    Notation run fuel := (sinc_loop fuel (ch =? 1) ch ch (ch * hl inc coeffs last new) d last (dadd (ddiv done_ last) (lit_1em 20))).

    (** How many frames come out and how deep the buffer is for each does not depend on the stream. *)
    Lemma loop_plan al X m0 : feed al X m0 -> forall fuel k base u s ph idx r m dep err R,
      iter al X m0 k base u s ph idx r m dep -> run fuel s err idx r m = Ok R ->
      exists k1 dep1, s_out_gen (snd (fst (fst (fst (fst R))))) = Z.of_nat k1 * ch /\
        written inc coeffs ch X mo d m0 last new p0 (snd R) dep1 k1 /\
        forall al' X' m0' base' u' s' ph' m' R', feed al' X' m0' ->
          iter al' X' m0' k base' u' s' ph' idx r m' dep -> like s s' -> run fuel s' err idx r m' = Ok R' ->
          written inc coeffs ch X' mo d m0' last new p0 (snd R') dep1 k1.
    Proof.
      intros (Hx0 & Hxe & Hin & Hout).
      induction fuel as [|fuel IH]; intros k base u s ph idx r m dep err R It E; [discriminate E|].
      destruct (turn d last new al X o n mo m0 p0 Hn Hnc Hmo Hmc G1 G2 Hnew Hp0 Hx0 Hxe Hin Hout Hdis _ _ _ _ _ _ _ _ _ _ _ _ It E) as [Rl T].
      assert (Sp : exists b, stop_of last s idx (reload inc coeffs ch d last new s err m) = b) by eauto. destruct Sp as [b Sp]. rewrite Sp in T.
      assert (ES : forall s' m', like s s' -> (s_out_gen s' < s_out_count s' -> exists x, reload inc coeffs ch d last new s' err m' = Ok x) ->
        stop_of last s' idx (reload inc coeffs ch d last new s' err m') = b).
      { intros s' m' Lk Rl'. rewrite <- Sp. symmetry.
        unfold stop_of. assert (Eg : s_out_gen s' = s_out_gen s /\ s_out_count s' = s_out_count s) by (destruct Lk as (bf & -> & _); auto).
        destruct Eg as [Eg Ec]. rewrite Eg, Ec. destruct (Z.ltb_spec (s_out_gen s) (s_out_count s)) as [L|L]; [|reflexivity].
        destruct (Rl L) as [x Ex]. rewrite Eg, Ec in Rl'. destruct (Rl' L) as [x' Ex'].
        destruct (reload_like _ _ _ _ _ _ _ _ _ _ Lk Ex Ex') as ((bf & Eb & _) & _ & Q).
        rewrite Ex, Ex'. destruct x as [[s1 e1] stop], x' as [[s1' e1'] stop']. cbn [fst snd] in *. rewrite Eb, Q. reflexivity. }
      destruct b.
      { destruct T as [T1 T2]. exists k, dep. split; [exact T2|]. rewrite T1. split; [exact (it_mem _ _ _ _ _ _ _ _ _ _ _ _ _ _ _ _ _ _ _ _ _ _ It)|].
        intros al' X' m0' base' u' s' ph' m' R' (Hx0' & Hxe' & Hin' & Hout') It' Lk E'.
        destruct (turn d last new al' X' o n mo m0' p0 Hn Hnc Hmo Hmc G1 G2 Hnew Hp0 Hx0' Hxe' Hin' Hout' Hdis _ _ _ _ _ _ _ _ _ _ _ _ It' E') as [Rl' T'].
        rewrite (ES _ _ Lk Rl') in T'. destruct T' as [T1' _]. rewrite T1'. exact (it_mem _ _ _ _ _ _ _ _ _ _ _ _ _ _ _ _ _ _ _ _ _ _ It'). }
      destruct T as (s1 & ph1 & e1 & b1 & u1 & s2 & ph2 & idx2 & m2 & Q1 & Q2 & Q3 & Q4 & Q5).
      destruct (IH _ _ _ _ _ _ _ _ _ _ _ Q4 Q5) as (k1 & dep1 & K1 & K2 & K3). exists k1, dep1. split; [exact K1|]. split; [exact K2|].
      intros al' X' m0' base' u' s' ph' m' R' Fd It' Lk E'. assert (Fd' := Fd). destruct Fd' as (Hx0' & Hxe' & Hin' & Hout').
      destruct (turn d last new al' X' o n mo m0' p0 Hn Hnc Hmo Hmc G1 G2 Hnew Hp0 Hx0' Hxe' Hin' Hout' Hdis _ _ _ _ _ _ _ _ _ _ _ _ It' E') as [Rl' T'].
      rewrite (ES _ _ Lk Rl') in T'.
      destruct T' as (s1' & ph1' & e1' & b1' & u1' & s2' & ph2' & idx2' & m2' & Q1' & Q2' & Q3' & Q4' & Q5').
      destruct (reload_like _ _ _ _ _ _ _ _ _ _ Lk Q1 Q1') as ((b & Eb & Lb) & Ee & _). cbn [fst snd] in Eb, Lb, Ee. subst s1' e1'.
      cbn [with_buf s_b_current] in Q2'. assert (Ec : cur_of ph1' = cur_of ph1) by nia. rewrite Ec in Q4'.
      assert (A := both_oks _ _ _ _ _ (advance_both False (s_set_out_gen s1 (Z.of_nat k * ch + ch)) b ch _ Lb) Q3 Q3'). destruct A as [A1 A2].
      cbn [fst snd] in A1, A2. subst idx2'. exact (K3 _ _ _ _ _ _ _ _ _ Fd Q4' A1 Q5').
    Qed.
  End Loop.

  (** ** One call *)
  Lemma like_primed st st' r : like_state st st' -> like_state (primed st r) (primed st' r).
  Proof.
    intros (s & s' & E & -> & L). unfold primed. change (st_last_ratio (set_priv st (P_sinc s'))) with (st_last_ratio st).
    destruct (dlt (st_last_ratio st) _); exists s, s'; auto.
  Qed.
  Lemma like_position st st' o : like_state st st' -> sinc_position st' o = sinc_position st o.
  Proof. intros (s & s' & E & -> & (b & -> & _)). unfold sinc_position. rewrite E. reflexivity. Qed.

  Lemma plan_call X st o ph d m st1 d1 m1 :
    on_tape inc coeffs ch X st o ph -> valid_call ch d m -> holds m (data_in d) ch (input_frames d) X o ->
    (end_of_input d <> 0 -> forall i c, o + input_frames d <= i -> X i c = fzero) ->
    src_process (Some st) (Some d) m = Ok (0, Some st1, Some d1, m1) ->
    let rho := sinc_ramp (start_ratio st (src_ratio d)) (src_ratio d) ch (output_frames d) in
    exists dep p, frac (snd p) /\
      wrote m m1 (data_out d) ch (output_frames_gen d1) (fun k c => sinc_sample inc coeffs (fun i => X i c) (dep (Z.to_nat k)) (pos_at p rho (Z.to_nat k)) (rho (Z.to_nat k))) /\
      forall X' st' ph' m' st1' d1' m1', on_tape inc coeffs ch X' st' o ph' -> like_state st st' ->
        valid_call ch d m' -> holds m' (data_in d) ch (input_frames d) X' o ->
        (end_of_input d <> 0 -> forall i c, o + input_frames d <= i -> X' i c = fzero) ->
        src_process (Some st') (Some d) m' = Ok (0, Some st1', Some d1', m1') ->
        like_state st1 st1' /\ d1 = d1' /\
        wrote m' m1' (data_out d) ch (output_frames_gen d1) (fun k c => sinc_sample inc coeffs (fun i => X' i c) (dep (Z.to_nat k)) (pos_at p rho (Z.to_nat k)) (rho (Z.to_nat k))).
  Proof.
    intros (Hm & base & s & Hok & Eo & Ep) V Hin Hend E.
    assert (Gn : good_ratio (src_ratio d)) by apply V.
    rewrite process_reduce in E; [|exact Hm|rewrite (so_ch _ _ _ _ _ _ _ _ Hok); lia|now rewrite (so_ch _ _ _ _ _ _ _ _ Hok)].
    destruct (sinc_ok_primed _ _ _ _ _ _ _ _ _ Hok Gn) as (Pok & Pr & Pg & _ & Pp & _).
    rewrite <- Pr in Pg |- *. cbv zeta.
    remember (primed st (src_ratio d)) as q eqn:Eq0. set (d0 := set_counts d 0 0) in *.
    assert (V0 : valid_call ch d0 m) by exact V.
    assert (Hi : ~ closed ph -> holds m (data_in d0) ch (input_frames d0) X (base + end_of ph)) by (intros _; rewrite Eo; exact Hin).
    assert (He : ~ closed ph -> end_of_input d0 <> 0 -> forall i k, base + end_of ph + input_frames d0 <= i -> X i k = fzero) by (intros _; rewrite Eo; exact Hend).
    destruct (vt_process q d0 m) as [[[[e2 q2] d2] m2]|f] eqn:EV; [|discriminate E]. cbn [bind] in E. injection E as -> -> -> ->.
    assert (EV0 := EV).
    rewrite (vt_unfold inc coeffs ch Ht Hch X base ph s q d0 m Pok Pg V0 Hi He) in EV.
    assert (It := first_iter inc coeffs ch Hch X base ph s q d0 m Pok V0).
    rewrite Eo in *.
    assert (Dj := apart_disjoint _ _ _ _ (proj2 (proj2 (proj2 (proj2 (proj2 (proj2 (proj2 (proj2 (proj2 (proj2 (proj2 V0)))))))))))).
    assert (VV := V0). destruct VV as (V1 & V2 & V3 & V4 & V5 & V6 & V7 & V8 & V9 & V10 & V11 & V12).
    match type of EV with bind ?x _ = _ => destruct x as [R|] eqn:ER; [|discriminate EV] end.
    assert (Fd : feed o (input_frames d0) (output_frames d0) d0 (~ closed ph) X m) by (split; [exact (so_zero _ _ _ _ _ _ _ _ Pok)|]; split; [exact He|]; split; [exact Hi|exact V11]).
    destruct (loop_plan o (input_frames d0) (output_frames d0) d0 (st_last_ratio q) (src_ratio d0)
      (base + cur_of ph, st_last_position q) V1 V3 V2 V4 Pg V5 eq_refl (so_pos _ _ _ _ _ _ _ _ Pok) (apart_disjoint _ _ _ _ V12)
      (~ closed ph) X m Fd _ _ _ _ _ _ _ _ _ _ _ _ It ER) as (k & dep & Gk & W1 & W2).
    destruct R as [[[[[e s2] err] i2] r2] mm]. cbn [bind fst snd] in *.
    exists dep, (base + cur_of ph, st_last_position q).
    assert (Em : mm = m1 /\ output_frames_gen d1 = Z.of_nat k).
    { rewrite Gk in EV. destruct (Z.eqb_spec e 0) as [E0|E0]; cbn [negb] in EV; [|injection EV as -> _ _ _; congruence].
      destruct (c_div (s_in_used s2) ch); [|discriminate EV]. cbn [bind] in EV. rewrite c_div_ok in EV by lia. cbn [bind] in EV.
      injection EV as _ <- <-. split; [reflexivity|]. cbn [set_counts output_frames_gen]. apply Z.div_mul. lia. }
    destruct Em as [<- Ek]. rewrite Ek. split; [exact (so_pos _ _ _ _ _ _ _ _ Pok)|]. split; [exact W1|].
    intros X' st' ph' m' st1' d1' m1' (Hm' & base' & s' & Hok' & Eo' & Ep') Lk V' Hin' Hend' E'.
    rewrite process_reduce in E'; [|exact Hm'|rewrite (so_ch _ _ _ _ _ _ _ _ Hok'); lia|now rewrite (so_ch _ _ _ _ _ _ _ _ Hok')].
    destruct (sinc_ok_primed _ _ _ _ _ _ _ _ _ Hok' Gn) as (Pok' & Pr' & Pg' & _ & Pp' & _).
    assert (Lp := like_primed _ _ (src_ratio d) Lk). rewrite <- Eq0 in Lp.
    assert (Eq := like_position _ _ o Lk). rewrite Ep, Ep' in Eq. injection Eq as Eq1 Eq2.
    rewrite <- Pp, <- Pp' in Eq2. rewrite <- Pr' in Pg'.
    set (q' := primed st' (src_ratio d)) in *. fold d0 in E'.
    assert (V0' : valid_call ch d0 m') by exact V'.
    assert (Hi' : ~ closed ph' -> holds m' (data_in d0) ch (input_frames d0) X' (base' + end_of ph')) by (intros _; rewrite Eo'; exact Hin').
    assert (He' : ~ closed ph' -> end_of_input d0 <> 0 -> forall i k, base' + end_of ph' + input_frames d0 <= i -> X' i k = fzero) by (intros _; rewrite Eo'; exact Hend').
    destruct (vt_process q' d0 m') as [[[[e2' q2'] d2'] m2']|f] eqn:EV'; [|discriminate E']. cbn [bind] in E'. injection E' as -> -> -> ->.
    assert (B : like_reply False (0, st1, d1, mm) (0, st1', d1', m1')).
    { refine (both_oks (like_reply False) _ _ _ _ _ EV0 EV').
      rewrite !vt_sinc by (rewrite ?(so_ch _ _ _ _ _ _ _ _ Pok), ?(so_ch _ _ _ _ _ _ _ _ Pok'); apply Pok || apply Pok').
      rewrite (so_ch _ _ _ _ _ _ _ _ Pok), (so_ch _ _ _ _ _ _ _ _ Pok'). apply process_both; [exact Lp|apply any_mem]. }
    destruct B as (_ & L1 & Ed & _). split; [exact L1|]. split; [exact Ed|].
    rewrite (vt_unfold inc coeffs ch Ht Hch X' base' ph' s' q' d0 m' Pok' Pg' V0' Hi' He') in EV'.
    assert (It' := first_iter inc coeffs ch Hch X' base' ph' s' q' d0 m' Pok' V0').
    assert (Er : st_last_ratio q' = st_last_ratio q) by (destruct Lp as (? & ? & _ & -> & _); reflexivity).
    assert (Ee : st_error q' = st_error q) by (destruct Lp as (? & ? & _ & -> & _); reflexivity).
    rewrite Er, Eq1, Eq2, Ee, Eo' in *.
    assert (Ls : like (s_set_counts s (input_frames d0 * ch) 0 (output_frames d0 * ch) 0) (s_set_counts s' (input_frames d0 * ch) 0 (output_frames d0 * ch) 0)).
    { destruct Lp as (x & x' & F1 & F2 & (b & F3 & F4)). rewrite (so_priv _ _ _ _ _ _ _ _ Pok) in F1. injection F1 as <-.
      assert (F5 := so_priv _ _ _ _ _ _ _ _ Pok'). rewrite F2 in F5. cbn [set_priv st_priv] in F5. injection F5 as <-. rewrite F3.
      exists b. split; [reflexivity|exact F4]. }
    match type of EV' with bind ?x _ = _ => destruct x as [R'|] eqn:ER'; [|discriminate EV'] end.
    assert (Fd' : feed o (input_frames d0) (output_frames d0) d0 (~ closed ph') X' m').
    { split; [exact (so_zero _ _ _ _ _ _ _ _ Pok')|]. split; [exact He'|]. split; [exact Hi'|]. apply V0'. }
    assert (W3 := W2 _ _ _ _ _ _ _ _ _ Fd' It' Ls ER').
    destruct R' as [[[[[e' s2'] err'] i2'] r2'] mm']. cbn [bind fst snd] in *.
    assert (Em' : mm' = m1').
    { destruct (Z.eqb_spec e' 0) as [E0|E0]; cbn [negb] in EV'; [|injection EV' as -> _ _ _; congruence].
      destruct (c_div (s_in_used s2') ch); [|discriminate EV']. cbn [bind] in EV'. destruct (c_div (s_out_gen s2') ch); [|discriminate EV'].
      injection EV' as _ _ <-. reflexivity. }
    subst mm'. exact W3.
  Qed.

  (** ** Streams *)
  Lemma ratio_tape X st o ph r st1 : on_tape inc coeffs ch X st o ph -> good_ratio r -> src_set_ratio (Some st) r = (0, Some st1) ->
    st1 = set_ratio st r /\ on_tape inc coeffs ch X st1 o ph.
  Proof.
    intros (Hm & base & s & Hok & Eo & Ep) G E.
    assert (E1 : st1 = set_ratio st r).
    { unfold src_set_ratio in E. destruct (is_bad_src_ratio r); [discriminate E|]. injection E as E. now symmetry. }
    split; [exact E1|]. assert (Ok1 : sinc_ok inc coeffs ch X base ph s st1) by (rewrite E1; destruct Hok; constructor; try assumption; now right).
    split; [rewrite E1; exact Hm|]. exists base, s. split; [exact Ok1|]. split; [exact Eo|]. now apply (position_ok inc coeffs ch Hch X base ph s).
  Qed.

  (** Where output frame k is taken: depth of the buffer, position, ratio. *)
  Definition sampled (X : stream) (c : Z) (q : Z * position * f64) : f32 :=
    sinc_sample inc coeffs (fun i => X i c) (fst (fst q)) (snd (fst q)) (snd q).
  Definition proper_point (q : Z * position * f64) : Prop := frac (snd (snd (fst q))) /\ good_ratio (snd q).

  (** The requests alone decide where the output frames are taken. *)
  Lemma plan_stream X st o log out st2 o2 : sinc_streaming ch X in_range st o log out st2 o2 -> forall ph, on_tape inc coeffs ch X st o ph ->
    0 <= total_gen log /\ exists P, (forall k, 0 <= k < total_gen log -> proper_point (P k)) /\
    is_frames ch out (total_gen log) (fun k c => sampled X c (P k)) /\
    forall X' st' log' out' st2' o2' ph', sinc_streaming ch X' in_range st' o log' out' st2' o2' ->
      on_tape inc coeffs ch X' st' o ph' -> like_state st st' -> requests log = requests log' ->
      log = log' /\ is_frames ch out' (total_gen log) (fun k c => sampled X' c (P k)).
  Proof.
    intros S.
    induction S as [st o|st o d m st1 d1 m1 chunk log out st2 o2 V Hin Ha Hend E Hr S IH|st o r st1 log out st2 o2 Ir Ha E S IH]; intros ph Ot.
    - cbn [total_gen]. split; [lia|]. exists (fun _ => (0, (0, dzero), dzero)). split; [intros; lia|]. split; [split; [reflexivity|intros; lia]|].
      intros X' st' log' out' st2' o2' ph' S' Ot' Lk Rq. destruct log' as [|ev log']; [|discriminate Rq]. inversion S'; subst.
      split; [reflexivity|]. split; [reflexivity|intros; lia].
    - destruct (plan_call X st o ph d m st1 d1 m1 Ot V Hin Hend E) as (dep & p & Fp & W & Pc). cbv zeta in W, Pc.
      destruct (tape_call inc coeffs ch Ht Hch X st o ph d m st1 d1 m1 Ot V Hin Hend E) as (ph1 & _ & Ot1 & _ & Hg & _).
      destruct (IH ph1 Ot1) as (Tg & P & Pp & F & Pl). cbn [total_gen]. split; [lia|].
      set (rho := sinc_ramp (start_ratio st (src_ratio d)) (src_ratio d) ch (output_frames d)) in *. set (g := output_frames_gen d1) in *.
      set (Q := fun k => if k <? g then (dep (Z.to_nat k), pos_at p rho (Z.to_nat k), rho (Z.to_nat k)) else P (k - g)).
      assert (Ext : forall X0 k c, (if k <? g then sinc_sample inc coeffs (fun i => X0 i c) (dep (Z.to_nat k)) (pos_at p rho (Z.to_nat k)) (rho (Z.to_nat k))
        else sampled X0 c (P (k - g))) = sampled X0 c (Q k)) by (intros; unfold Q, sampled; destruct (k <? g); reflexivity).
      exists Q. split; [|split].
      + intros k Hk. unfold Q. destruct (Z.ltb_spec k g) as [L|L]; [|apply Pp; lia].
        assert (Er : st_last_ratio st = dzero \/ in_range (st_last_ratio st)).
        { destruct Ot as (_ & base & s & Hok & _). exact (so_ratio _ _ _ _ _ _ _ _ Hok). }
        assert (Gs : good_ratio (start_ratio st (src_ratio d))) by (apply (start_val st (src_ratio d) good_ratio Er); [|exact Ha]; destruct Er as [Er|Er]; [now left|now right]).
        assert (Mc : output_frames d * ch <= 2 ^ 50) by apply V.
        assert (Gr : forall k, Z.of_nat k < output_frames d -> good_ratio (rho k)).
        { intros j Hj. apply (sinc_ramp_ok _ _ ch (output_frames d) j (start_ratio st (src_ratio d)) Gs Ha); auto; lia. }
        split; cbn [fst snd]; [apply pos_at_frac; [exact Fp|intros j Hj; apply Gr; lia]|apply Gr; lia].
      + refine (is_frames_ext ch _ _ _ _ (is_frames_app ch _ _ _ _ _ _ ltac:(lia) (proj1 Hg) Tg (wrote_chunk _ _ _ ch _ _ _ ltac:(lia) (proj1 Hg) W Hr) F) _).
        intros k c _ _. rewrite <- Ext. cbv beta. destruct (k <? g); reflexivity.
      + intros X' st' log' out' st2' o2' ph' S' Ot' Lk Rq.
        destruct log' as [|[d0 d1'|r'] log']; try discriminate Rq. cbn [requests map] in Rq. injection Rq as Ed Rq. subst d0.
        inversion S' as [|? ? ? m' st1' ? m1' chunk' ? out1' ? ? V' Hin' Ha' Hend' E' Hr' S1'|]; subst.
        destruct (Pc X' st' ph' m' st1' d1' m1' Ot' Lk V' Hin' Hend' E') as (L1 & Q1 & W'). subst d1'.
        destruct (tape_call inc coeffs ch Ht Hch X' st' o ph' d m' st1' d1 m1' Ot' V' Hin' Hend' E') as (ph1' & _ & Ot1' & _).
        destruct (Pl _ _ _ _ _ _ ph1' S1' Ot1' L1 Rq) as (-> & F'). split; [reflexivity|].
        refine (is_frames_ext ch _ _ _ _ (is_frames_app ch _ _ _ _ _ _ ltac:(lia) (proj1 Hg) Tg (wrote_chunk _ _ _ ch _ _ _ ltac:(lia) (proj1 Hg) W' Hr') F') _).
        intros k c _ _. rewrite <- Ext. cbv beta. destruct (k <? g); reflexivity.
    - destruct (ratio_tape X st o ph r st1 Ot Ir E) as [-> Ot1]. destruct (IH ph Ot1) as (Tg & P & Pp & F & Pl). cbn [total_gen]. split; [exact Tg|].
      exists P. split; [exact Pp|]. split; [exact F|].
      intros X' st' log' out' st2' o2' ph' S' Ot' Lk Rq.
      destruct log' as [|[d0 d1'|r'] log']; try discriminate Rq. cbn [requests map] in Rq. injection Rq as Er Rq. subst r'.
      inversion S' as [| |? ? ? st1' ? ? ? ? Ir' Ha' E' S1']; subst.
      destruct (ratio_tape X' st' o ph' r st1' Ot' Ir E') as [-> Ot1'].
      assert (L1 : like_state (set_ratio st r) (set_ratio st' r)) by (destruct Lk as (s & s' & F1 & -> & F2); exists s, s'; auto).
      destruct (Pl _ _ _ _ _ _ ph' S1' Ot1' L1 Rq) as (-> & F'). split; [reflexivity|exact F'].
  Qed.
End Pair.

(** From the start of a stream. *)
Lemma plan inc coeffs ch X st log out st1 o1 : table_fit (inc, coeffs) -> sinc_start (inc, coeffs) ch st ->
  (forall i k, i < 0 -> X i k = fzero) -> sinc_streaming ch X in_range st 0 log out st1 o1 ->
  exists P, (forall k, 0 <= k < total_gen log -> proper_point (P k)) /\
  is_frames ch out (total_gen log) (fun k c => sampled inc coeffs X c (P k)) /\
  forall X' log' out' st1' o1', (forall i k, i < 0 -> X' i k = fzero) -> sinc_streaming ch X' in_range st 0 log' out' st1' o1' ->
    requests log = requests log' -> log = log' /\ is_frames ch out' (total_gen log) (fun k c => sampled inc coeffs X' c (P k)).
Proof.
  intros Ht A Z0 S. destruct (start_tape inc coeffs ch X st Ht A Z0) as (Hch & Ot & _).
  assert (Lk : like_state st st).
  { destruct Ot as (_ & base & s & Hok & _). exists s, s. split; [apply Hok|]. split; [|apply like_refl].
    rewrite <- (so_priv _ _ _ _ _ _ _ _ Hok). destruct st; reflexivity. }
  destruct (plan_stream inc coeffs ch Ht Hch X _ _ _ _ _ _ S _ Ot) as (_ & P & Pp & F & Pl).
  exists P. split; [exact Pp|]. split; [exact F|]. intros X' log' out' st1' o1' Z0' S' Rq.
  destruct (start_tape inc coeffs ch X' st Ht A Z0') as (_ & Ot' & _). exact (Pl _ _ _ _ _ _ _ S' Ot' Lk Rq).
Qed.

(** Two streams, a channel of each: when the samples computed from them are always related, so are the outputs. *)
Lemma channels_related (R : f32 -> f32 -> Prop) inc coeffs ch X X' c c' st log out st1 o1 log' out' st1' o1' :
  table_fit (inc, coeffs) -> sinc_start (inc, coeffs) ch st -> 0 <= c < ch -> 0 <= c' < ch ->
  (forall dep p r, R (sinc_sample inc coeffs (fun i => X i c) dep p r) (sinc_sample inc coeffs (fun i => X' i c') dep p r)) ->
  (forall i k, i < 0 -> X i k = fzero) -> (forall i k, i < 0 -> X' i k = fzero) ->
  sinc_streaming ch X in_range st 0 log out st1 o1 -> sinc_streaming ch X' in_range st 0 log' out' st1' o1' ->
  requests log = requests log' ->
  log = log' /\ forall k, 0 <= k < total_gen log -> exists y y', sample ch out k c = Some y /\ sample ch out' k c' = Some y' /\ R y y'.
Proof.
  intros Ht A Hc Hc' Hx Z0 Z0' S S' Rq. destruct (plan inc coeffs ch X st log out st1 o1 Ht A Z0 S) as (P & _ & F & Pl).
  destruct (Pl _ _ _ _ _ Z0' S' Rq) as [E F']. split; [exact E|].
  intros k Hk. eexists _, _. split; [now apply (proj2 F)|]. split; [now apply (proj2 F')|apply Hx].
Qed.

Lemma channels_isolated t ch X X' c c' st log out st1 o1 log' out' st1' o1' : table_fit t -> sinc_start t ch st -> 0 <= c < ch -> 0 <= c' < ch ->
  (forall i, X i c = X' i c') -> (forall i k, i < 0 -> X i k = fzero) -> (forall i k, i < 0 -> X' i k = fzero) ->
  sinc_streaming ch X in_range st 0 log out st1 o1 -> sinc_streaming ch X' in_range st 0 log' out' st1' o1' ->
  requests log = requests log' ->
  log = log' /\ forall k, 0 <= k < total_gen log -> sample ch out k c = sample ch out' k c'.
Proof.
  destruct t as [inc coeffs]. intros Ht A Hc Hc' Hx Z0 Z0' S S' Rq.
  destruct (channels_related eq inc coeffs ch X X' c c' st log out st1 o1 log' out' st1' o1' Ht A Hc Hc') as [E H]; auto.
  - intros dep p r. apply sinc_sample_same. exact Hx.
  - split; [exact E|]. intros k Hk. destruct (H k Hk) as (y & y' & -> & -> & ->). reflexivity.
Qed.
