(** The callback interface with the sinc converters: reads end. *)
From Coq Require Import ZArith Reals List Bool Lia Lra.
From Flocq Require Import Core IEEE754.BinarySingleNaN.
From Verif Require Import Base FloatFacts PosFacts Types Common Sinc Api Heap Callback ApiHist HoldSpec HoldFacts HoldCore HoldProcess
  ProcFacts SincSpec SincFacts SincCalc SincPrep SincLoop SincProcess SincCall SincApi SincHist SincStream CbSpec CbCore CbHold.
Import ListNotations.
Local Open Scope Z_scope.

(** The end of the input has been marked in the buffer. *)
Definition over (st : SRC_STATE) : Prop := match st_priv st with P_sinc s => 0 <= s_b_real_end s | _ => False end.
(** Room for input, in samples. *)
Definition space (st : SRC_STATE) : Z := match st_priv st with P_sinc s => s_b_len s - (s_b_end s - s_b_current s) | _ => 0 end.

Section Sinc.
  Variables (inc : Z) (coeffs : list f32) (ch : Z).
  Hypothesis Ht : table_fit (inc, coeffs).
  Hypothesis Hch : 1 <= ch <= 128.

  Lemma over_closed X base ph s st : sinc_ok inc coeffs ch X base ph s st -> over st <-> closed ph.
  Proof.
    intros H. unfold over. rewrite (so_priv _ _ _ _ _ _ _ _ H). destruct (so_tape _ _ _ _ _ _ _ _ H) as (_ & _ & _ & T).
    destruct ph as [|c e|c e]; cbn [closed]; split; intros Q; try tauto; try lia; nia.
  Qed.

  Lemma space_bounds X base ph s st : sinc_ok inc coeffs ch X base ph s st -> 0 <= space st <= 2 ^ 27.
  Proof.
    intros H. unfold space. rewrite (so_priv _ _ _ _ _ _ _ _ H).
    destruct (tape_cells inc coeffs ch Ht Hch X dzero dzero _ _ _ (so_tape _ _ _ _ _ _ _ _ H)) as (A1 & A2 & A3 & A4 & A5 & _).
    assert (Wr := W_range inc coeffs Ht dzero dzero). rewrite A3. nia.
  Qed.

  Lemma sinc_turn st d m e st' d' m' : sinc_good inc coeffs ch st -> st_mode st = MODE_PROCESS -> valid_call ch d m -> input_frames d * ch < 2 ^ 31 ->
    src_process (Some st) (Some d) m = Ok (e, Some st', Some d', m') ->
    e = 0 /\ (over st' -> over st \/ (end_of_input d <> 0 /\ input_frames_used d' = input_frames d)) /\
    (over st -> over st' /\ input_frames_used d' = 0) /\
    (~ over st -> 0 < input_frames d -> 0 < output_frames d -> 0 < input_frames_used d' \/ 0 < output_frames_gen d') /\
    (output_frames_gen d' = 0 -> ~ over st' -> space st' <= space st - input_frames_used d').
  Proof.
    intros (X & base & ph & s & H & O) Hm V Hs E.
    destruct (sinc_any_call inc coeffs ch Ht Hch X base ph s st d m H O Hm V) as [(f & E' & _)|R]; [congruence|].
    destruct R as (X' & e1 & used & k & base' & ph' & s' & st1 & d1 & m1 & dep & E' & R). rewrite E in E'. injection E' as <- <- <- <-.
    assert (Oc := over_closed _ _ _ _ _ H). assert (Oc' := over_closed _ _ _ _ _ (re_ok _ _ _ _ _ _ _ _ _ _ _ _ _ _ _ _ _ _ _ _ R)).
    destruct (re_code _ _ _ _ _ _ _ _ _ _ _ _ _ _ _ _ _ _ _ _ R) as [[-> Ed]|(_ & Q & _)].
    2: { cbn [set_counts input_frames] in Q. nia. }
    assert (Lk := re_link _ _ _ _ _ _ _ _ _ _ _ _ _ _ _ _ _ _ _ _ R). assert (Wy := re_why _ _ _ _ _ _ _ _ _ _ _ _ _ _ _ _ _ _ _ _ R eq_refl).
    assert (Us := re_used _ _ _ _ _ _ _ _ _ _ _ _ _ _ _ _ _ _ _ _ R). assert (Nx := re_next _ _ _ _ _ _ _ _ _ _ _ _ _ _ _ _ _ _ _ _ R).
    assert (Ps := re_pos _ _ _ _ _ _ _ _ _ _ _ _ _ _ _ _ _ _ _ _ R eq_refl).
    assert (Rok := re_ok _ _ _ _ _ _ _ _ _ _ _ _ _ _ _ _ _ _ _ _ R).
    cbn [set_counts input_frames output_frames end_of_input data_in] in *. rewrite Ed. cbn [set_counts input_frames_used output_frames_gen].
    destruct Lk as (_ & _ & _ & Lk).
    split; [reflexivity|]. split; [|split; [|split]].
    - rewrite Oc, Oc'. intros C. destruct ph'; cbn [closed] in C; try tauto. destruct Lk as [(c0 & -> & _)|(_ & L2 & L3 & _)]; [left; exact I|right; auto].
    - rewrite Oc, Oc'. intros C. destruct ph' as [|c e|c e]; cbn [closed].
      + rewrite Lk in C. cbn in C. tauto.
      + tauto.
      + split; [exact I|]. destruct Lk as [(c0 & _ & _ & L)|(L & _)]; [exact L|tauto].
    - rewrite Oc. intros C Hn Ho. destruct Wy as [Wy|[Wy|Wy]]; [right; lia| |].
      + left. destruct Wy as (_ & _ & [Y|[[Y _]|[Y|[Y _]]]]); [|lia|nia|exact Y]. destruct V as (_ & _ & _ & _ & _ & Vi & _). specialize (Vi Hn). contradiction.
      + left. assert (Cl : closed ph') by (destruct Wy as [[Wy _]|[Wy _]]; exact Wy). destruct ph'; cbn [closed] in Cl; try tauto.
        destruct Lk as [(c0 & -> & _)|(_ & _ & L & _)]; [cbn in C; tauto|lia].
    - rewrite Oc'. intros Gk C'. assert (k = 0%nat) by lia. subst k. cbn [pos_at] in Ps. injection Ps as Pa _.
      assert (C : ~ closed ph). { destruct ph' as [|c e|c e]; cbn [closed] in C'; [rewrite Lk; cbn; tauto|exact Lk|tauto]. }
      unfold space. rewrite (so_priv _ _ _ _ _ _ _ _ H), (so_priv _ _ _ _ _ _ _ _ Rok).
      destruct (tape_cells inc coeffs ch Ht Hch X dzero dzero _ _ _ (so_tape _ _ _ _ _ _ _ _ H)) as (_ & _ & A3 & _).
      destruct (tape_cells inc coeffs ch Ht Hch X' dzero dzero _ _ _ (so_tape _ _ _ _ _ _ _ _ Rok)) as (_ & _ & A3' & _).
      rewrite A3, A3', (open_gap inc coeffs ch Hch X dzero dzero _ _ _ (so_tape _ _ _ _ _ _ _ _ H) C),
        (open_gap inc coeffs ch Hch X' dzero dzero _ _ _ (so_tape _ _ _ _ _ _ _ _ Rok) C'). nia.
  Qed.

  Variables (CS : Type) (cb : callback_t CS) (dummy : Z) (pool : Z -> Prop) (ended : CS -> Prop).
  Hypothesis Hcb : proper CS cb dummy pool ch.
  Hypothesis Hnn : nonnegative CS cb.
  Hypothesis Hib : int_blocks CS cb ch.
  Hypothesis Hme : marks_end CS cb ended.
  Hypothesis Hse : stays_ended CS cb ended.

  (** Before each turn of the loop. *)
  Definition fed (st : SRC_STATE) (n : Z) (cs : CS) : Prop := (over st -> ended cs /\ n = 0) /\ 0 <= n /\ n * ch < 2 ^ 31.
  Definition fed_loop (st : SRC_STATE) (d : SRC_DATA) (gen : Z) (cs : CS) (m : mem) : Prop :=
    fed st (input_frames d) cs /\ (end_of_input d = 0 \/ end_of_input d = 1) /\ (end_of_input d = 1 -> ended cs).
  Definition fed_end (r : loop_result CS) : Prop := let '(e, st, d, g, cs, m) := r in fed st (input_frames d) cs.

  Lemma fetch_fed st d cs m d1 cs1 m1 : fed_loop st d 0 cs m -> cb_fetch CS cb dummy st d cs m = (d1, cs1, m1) ->
    fed_loop st d1 0 cs1 m1 /\ (over st -> end_of_input d1 = 1) /\ (input_frames d1 = 0 -> end_of_input d1 = 1).
  Proof.
    intros ((A & B & C) & D & F) E. unfold cb_fetch in E. destruct (Z.eqb_spec (input_frames d) 0) as [Z0|Z0].
    - assert (M := Hme (st_callback st) (st_user_data st) cs m). assert (N := Hnn (st_callback st) (st_user_data st) cs m).
      assert (Bb := Hib (st_callback st) (st_user_data st) cs m). assert (Sd := Hse (st_callback st) (st_user_data st) cs m).
      destruct (cb (st_callback st) (st_user_data st) cs m) as [[[cs2 m2] ptr] n]. injection E as <- <- <-. destruct M as [M1 M2].
      unfold fed_loop, fed. cbn [input_frames end_of_input]. destruct (Z.eqb_spec n 0) as [N0|N0].
      + split; [|auto]. split; [|split; auto]. split; [|split; [lia|nia]]. auto.
      + assert (No : ~ over st) by (intros Q; apply N0, Sd, A, Q). split; [|split; [tauto|lia]]. split; [|split; auto]. split; [tauto|]. split; [exact N|exact Bb].
    - injection E as <- <- <-. split; [|split; [|lia]].
      + split; [split; [exact A|split; assumption]|split; assumption].
      + intros Q. destruct (A Q). lia.
  Qed.

  Notation Good := (sinc_good inc coeffs ch).
  Notation turn := (turn CS cb dummy ch Good).

  Lemma over_mode st x : over (set_mode st x) = over st. Proof. reflexivity. Qed.

  Lemma turn_fed ratio frames data m0 st d gen cs m k : inv CS cb pool ch Good ratio frames data m0 st d gen cs m -> fed_loop st d gen cs m ->
    gen < frames -> turn st d gen cs m k ->
    match k with
    | inl r => fed_end r
    | inr (st', d', gen', cs', m') => fed_loop st' d' gen' cs' m' /\
        (frames - gen') * (2 ^ 27 + 1) + space st' < (frames - gen) * (2 ^ 27 + 1) + space st
    end.
  Proof.
    intros Iv J L T. assert (G := i_good _ _ _ _ _ _ _ _ _ _ _ _ _ _ Iv).
    assert (Fe := fun d1 cs1 m1 => fetch_fed st d cs m d1 cs1 m1 J).
    assert (Gp := sg_mode inc coeffs ch st MODE_PROCESS G).
    assert (Cl : forall d1, 0 <= input_frames d1 -> clamp d1 = d1 \/ input_frames (clamp d1) = input_frames d1).
    { intros d1 Hd. right. cbn. lia. }
    assert (Sp : forall s0, Good s0 -> 0 <= space s0 <= 2 ^ 27) by (intros s0 (X & b & p & s & H & _); exact (space_bounds _ _ _ _ _ H)).
    destruct T as [d1 cs1 m1 e d2 Ef Ne Dd|d1 cs1 m1 e st2 d2 m2 Ef V E R G2 Ne|d1 cs1 m1 st2 d2 m2 Ef V E R G2 Ee Eg|d1 cs1 m1 st2 d2 m2 Ef V E R G2 Nx];
      destruct (Fe _ _ _ Ef) as (((F1 & F2 & F3) & F4 & F5) & F6 & F7).
    - unfold fed_end. split; [|split].
      + rewrite over_mode. intros Q. destruct (F1 Q) as [F8 F9]. split; [exact F8|]. destruct Dd as [->| ->]; cbn; lia.
      + destruct Dd as [->| ->]; cbn; lia.
      + destruct Dd as [->| ->]; [exact F3|]. cbn. now rewrite Z.max_r by lia.
    - assert (Hs : input_frames (clamp d1) * ch < 2 ^ 31) by (cbn; rewrite Z.max_r by lia; exact F3).
      destruct (sinc_turn _ _ _ _ _ _ _ Gp eq_refl V Hs E) as (E0 & _). contradiction.
    - assert (Hs : input_frames (clamp d1) * ch < 2 ^ 31) by (cbn; rewrite Z.max_r by lia; exact F3).
      destruct (sinc_turn _ _ _ _ _ _ _ Gp eq_refl V Hs E) as (_ & S1 & S2 & _).
      destruct R as (_ & Td & Tu & Tg & _). assert (X2 : input_frames d2 = input_frames d1) by (rewrite Td; cbn; lia).
      cbn [clamp set_frames input_frames output_frames end_of_input] in *. rewrite Z.max_r in * by lia.
      unfold fed_end, fed. cbn [rest input_frames]. rewrite over_mode, X2. split; [|split; [lia|nia]].
      intros Q. split; [exact (F5 Ee)|]. destruct (S1 Q) as [S3|[_ S3]]; [|lia]. destruct (F1 S3). lia.
    - assert (Hs : input_frames (clamp d1) * ch < 2 ^ 31) by (cbn; rewrite Z.max_r by lia; exact F3).
      destruct (sinc_turn _ _ _ _ _ _ _ Gp eq_refl V Hs E) as (_ & S1 & S2 & S3 & S4).
      destruct R as (_ & Td & Tu & Tg & _). assert (X2 : input_frames d2 = input_frames d1 /\ end_of_input d2 = end_of_input d1) by (rewrite Td; cbn; lia).
      destruct X2 as [X2 X3]. rewrite over_mode in *. change (space (set_mode st MODE_PROCESS)) with (space st) in S4.
      assert (M1 := Sp _ G). assert (M2 := Sp _ G2). change (space (set_mode st2 MODE_CALLBACK)) with (space st2).
      assert (Ho := i_room _ _ _ _ _ _ _ _ _ _ _ _ _ _ Iv). assert (Hf : output_frames d1 = output_frames d).
      { unfold cb_fetch in Ef. destruct (input_frames d =? 0); [|congruence]. destruct (cb _ _ _ _) as [[[? ?] ?] ?]. now injection Ef as <- _ _. }
      cbn [clamp set_frames input_frames output_frames end_of_input] in *. rewrite Z.max_r in * by lia.
      set (us := input_frames_used d2) in *. set (ge := output_frames_gen d2) in *.
      split.
      + unfold fed_loop, fed. cbn [rest input_frames end_of_input]. rewrite over_mode, X2, X3. fold us. split; [|split; assumption].
        split; [|split; [lia|nia]]. intros Q. destruct (S1 Q) as [S5|[S5 S6]].
        * destruct (F1 S5). split; [assumption|lia].
        * split; [|lia]. apply F5. destruct F4; [contradiction|assumption].
      + destruct (Z.eq_dec ge 0) as [G0|G0]; [|clearbody ge; nia].
        assert (Ne1 : end_of_input d1 <> 1) by tauto. assert (No : ~ over st) by tauto.
        assert (0 < us \/ 0 < ge). { apply S3; [exact No| |lia]. destruct (Z.eq_dec (input_frames d1) 0); [tauto|lia]. }
        assert (No2 : ~ over st2). { intros Q. destruct (S1 Q) as [Q1|[Q1 _]]; [contradiction|]. destruct F4; contradiction. }
        specialize (S4 G0 No2). rewrite G0. lia.
  Qed.

  Definition sinc_session_ok (st : SRC_STATE) (cs : CS) : Prop := cb_good pool ch Good st /\ fed st (st_saved_frames st) cs.

  Lemma sinc_read_fed st ratio frames data cs m fuel : sinc_session_ok st cs -> legal_read pool ch ratio frames data m ->
    (exists n st' cs' m', src_callback_read CS cb dummy fuel (Some st) ratio frames data cs m = Ok (n, Some st', cs', m') /\
       sinc_session_ok st' cs' /\ read_ok CS cb ch ratio frames data st m n st' cs' m') \/
    (exists f, src_callback_read CS cb dummy fuel (Some st) ratio frames data cs m = Fault f /\
       (f <> F_fuel \/ (f = F_fuel /\ Z.of_nat fuel <= frames * (2 ^ 27 + 1) + 2 ^ 27))).
  Proof.
    intros [G Fd] Lg.
    destruct (read_cases CS cb dummy pool ch Good sinc_faults ltac:(lia) (sg_ch inc coeffs ch) (sg_mode inc coeffs ch)
      (sg_saved inc coeffs ch) (sg_error inc coeffs ch) (sg_call inc coeffs ch Ht Hch) Hcb st ratio frames data cs m fed_loop fed_end True
      (fun st _ gen => (frames - gen) * (2 ^ 27 + 1) + space st)) with (fuel := fuel)
      as [(n & st' & cs' & m' & E & K & R & Q)|(f & E & Fp & [Af|[-> Af]])]; try assumption.
    - intros s d g c x _ (J & _) _. exact J.
    - intros s d g c x r _ Iv J L T. exact (turn_fed _ _ _ _ _ _ _ _ _ _ Iv J L T).
    - intros s d g c x s' d' g' c' x' _ Iv J L T _. destruct (turn_fed _ _ _ _ _ _ _ _ _ _ Iv J L T) as [J' S']. split; [exact J'|]. intros _. exact S'.
    - intros s d g c x Iv J _. destruct (i_good _ _ _ _ _ _ _ _ _ _ _ _ _ _ Iv) as (X & b & p & s0 & H & _).
      assert (B := space_bounds _ _ _ _ _ H). assert (Gn := i_gen _ _ _ _ _ _ _ _ _ _ _ _ _ _ Iv). lia.
    - intros _ _. split; [exact Fd|]. split; [now left|]. intros Q; discriminate Q.
    - left. exists n, st', cs', m'. split; [exact E|]. split; [split; [exact K|]|exact R].
      destruct Q as [(_ & -> & _ & [[-> _]| ->])|(_ & _ & r & Hq & Ho)]; [exact Fd|exact Fd|].
      destruct r as [[[[[e st1] d1] g] cs1] m1]. destruct Ho as (-> & -> & [(_ & _ & ->)|(_ & _ & ->)]); exact Hq.
    - right. exists f. auto.
    - right. exists F_fuel. split; [exact E|]. right. split; [reflexivity|]. specialize (Af I). destruct G as ((X & b & p & s0 & H & _) & _).
      assert (B := space_bounds _ _ _ _ _ H). lia.
  Qed.

  Lemma sinc_session st cs : session CS cb dummy (sinc_cb_new (inc, coeffs) ch) pool ch st cs -> sinc_session_ok st cs.
  Proof.
    induction 1 as [st cs C|fuel st ratio frames data cs m n st' cs' m' _ IH Lg E|st cs r e st' _ IH Nn E|st cs e st' cs' _ IH E].
    - destruct (sinc_cb_state inc coeffs ch st pool Ht C) as [_ G]. split; [exact G|].
      destruct C as (bld & orc & func & ty & ud & h & c & h' & T & E & ->). destruct (cb_new_shape _ _ _ _ _ _ _ _ _ E) as (Nf & c0 & E0 & ->).
      assert (C : sinc_new (inc, coeffs) ch (c_state c0)) by (exists bld, orc, ty, h, c0, h'; auto).
      destruct (sinc_new_state _ _ _ _ C) as (_ & b & Eb & Es). destruct (sinc_created inc coeffs ch Ht Hch b Eb) as (s & Ok' & _). rewrite <- Es in Ok'.
      assert (Oc := over_closed _ _ _ _ _ Ok'). split.
      + intros Q. apply Oc in Q. destruct Q.
      + rewrite Es. cbn. lia.
    - destruct (sinc_read_fed st ratio frames data cs m fuel IH Lg) as [(n1 & st1 & cs1 & m1 & E1 & K & _)|(f & E1 & _)]; [|congruence].
      rewrite E in E1. injection E1 as _ <- <- _. exact K.
    - destruct IH as [(G & K) F]. unfold src_set_ratio in E. destruct (is_bad_src_ratio r) eqn:B; injection E as _ <-; (split; [|exact F]); [split; assumption|].
      split; [apply sg_ratio; assumption|exact K].
    - destruct IH as [(G & K1 & K2 & K3) F]. destruct (sg_reset inc coeffs ch Ht Hch st G) as (st1 & E1 & G1 & M1 & C1). rewrite E in E1. injection E1 as _ <-.
      destruct G as (X & base & ph & s & H & O). destruct (sinc_reset_call inc coeffs ch Ht Hch X base ph s st H) as (st2 & s2 & E2 & Ok2 & _).
      rewrite E in E2. injection E2 as _ <-. assert (Oc := over_closed _ _ _ _ _ Ok2).
      assert (Z0 : st_saved_frames st' = 0 /\ st_saved_data st' = 0).
      { unfold src_reset in E. destruct (vt_reset st) as [q|] eqn:Vr; [|discriminate E]. cbn [bind] in E. injection E as _ <-. split; reflexivity. }
      destruct Z0 as [Z0 Z1]. split.
      + split; [exact G1|]. split; [congruence|]. split; [congruence|]. rewrite Z0, Z1. split; [lia|left; lia].
      + split; [|rewrite Z0; lia]. intros Q. apply Oc in Q. destruct Q.
  Qed.
End Sinc.

Lemma sinc_read_ends t ch CS (cb : callback_t CS) dummy pool ended st ratio frames data cs m fuel : table_fit t -> 1 <= ch <= 128 -> proper CS cb dummy pool ch ->
  nonnegative CS cb -> int_blocks CS cb ch -> marks_end CS cb ended -> stays_ended CS cb ended ->
  session CS cb dummy (sinc_cb_new t ch) pool ch st cs -> legal_read pool ch ratio frames data m ->
  Z.max 0 frames * (2 ^ 27 + 1) + 2 ^ 27 < Z.of_nat fuel ->
  src_callback_read CS cb dummy fuel (Some st) ratio frames data cs m <> Fault F_fuel.
Proof.
  intros Ht Hch Hcb Hnn Hib Hme Hse S Lg Hf. destruct t as [inc coeffs].
  assert (K := sinc_session inc coeffs ch Ht Hch CS cb dummy pool ended Hcb Hnn Hib Hme Hse st cs S).
  destruct (sinc_read_fed inc coeffs ch Ht Hch CS cb dummy pool ended Hcb Hnn Hib Hme Hse st ratio frames data cs m fuel K Lg)
    as [(n1 & st1 & cs1 & m1 & E1 & _)|(f & E1 & [Af|[-> Af]])]; rewrite E1; [discriminate|congruence|].
  exfalso. nia.
Qed.

(** A sinc converter that has not been told of the end of its input makes progress. *)
Lemma sinc_progress t ch st0 CS (cb : callback_t CS) dummy cs rs st d m : table_fit t -> sinc_start t ch st0 ->
  Forall (valid_op ch) cs -> Forall op_open cs -> api_run CS cb dummy st0 cs = Ok (rs, st) ->
  valid_call ch d m -> input_frames d * ch < 2 ^ 31 -> end_of_input d = 0 ->
  exists st' d' m', src_process (Some st) (Some d) m = Ok (0, Some st', Some d', m') /\
    (0 < input_frames d -> 0 < output_frames d -> 0 < input_frames_used d' \/ 0 < output_frames_gen d').
Proof.
  intros Ht S V O E Vd Hs He. destruct t as [inc coeffs].
  destruct (start_tape inc coeffs ch silence st0 Ht S ltac:(reflexivity)) as (Hch & (Hm & base & s & Ok0 & Eo & _) & _).
  assert (G : good_at inc coeffs ch PNoEnd 0 st0).
  { split; [exact Hm|]. exists silence, base, Fresh, s. split; [exact Ok0|]. split; [lia|]. cbn. tauto. }
  assert (F : all_fit ch PNoEnd 0 cs).
  { generalize 0%R as floor. clear - V O. induction cs as [|c cs IH]; intros floor; [exact I|]. inversion O; subst. inversion V; subst. split; [|apply IH; assumption].
    destruct c as [[x|] y| | | | |]; cbn; auto. }
  destruct (history_run inc coeffs ch Ht Hch PNoEnd CS cb dummy cs 0 st0 G V F) as [(rs' & st' & E' & _ & fl & Hm1 & X1 & b1 & ph1 & s1 & Ok1 & O1 & C1)|(Q & _)]; [|discriminate Q].
  rewrite E in E'. injection E' as <- <-. cbn [SincHist.inv] in C1.
  assert (Gd : sinc_good inc coeffs ch st) by (exists X1, b1, ph1, s1; auto).
  assert (Oc := over_closed inc coeffs ch Hch _ _ _ _ _ Ok1).
  destruct (sinc_any_call inc coeffs ch Ht Hch X1 b1 ph1 s1 st d m Ok1 O1 Hm1 Vd) as [(f & _ & _ & Ns)|R].
  - exfalso. apply Ns. apply (fits_safe inc coeffs ch Ht Hch PNoEnd fl X1 b1); try assumption; [discriminate|apply Vd|exact I|auto].
  - destruct R as (X' & e & used & k & base' & ph' & s' & st' & d' & m' & dep & E1 & _).
    destruct (sinc_turn inc coeffs ch Ht Hch st d m e st' d' m' Gd Hm1 Vd Hs E1) as (-> & _ & _ & P & _). exists st', d', m'. split; [exact E1|].
    apply P. tauto.
Qed.
