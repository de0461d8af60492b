(** Reads of sinc converters that never fault (C28, C30). *)
From Coq Require Import ZArith Reals List Bool Lia Lra.
From Flocq Require Import Core IEEE754.BinarySingleNaN.
From Verif Require Import Base FloatFacts PosFacts Types Common Sinc Api Heap Callback ApiHist HoldSpec HoldFacts HoldCore HoldProcess ProcFacts
  SincSpec SincFacts SincCalc SincPrep SincLoop SincProcess SincCall SincApi SincHist SincStream CbSpec CbCore CbHold CbSinc SincReadsSpec.
Import ListNotations.
Local Open Scope Z_scope.

Section Sinc.
  Variables (inc : Z) (coeffs : list f32) (ch : Z) (CS : Type) (cb : callback_t CS) (dummy : Z) (pool : Z -> Prop) (allowed : f64 -> Prop).
  Hypothesis Ht : table_fit (inc, coeffs).
  Hypothesis Hch : 1 <= ch <= 128.
  Hypothesis Hcb : proper CS cb dummy pool ch.
  Hypothesis Hst : steady ch allowed.
  Notation Good := (sinc_good inc coeffs ch).
  Notation inv := (CbCore.inv CS cb pool ch Good).

  (** The invariant of SincHist, with a floor that no allowed ratio is below. *)
  Definition strong (st : SRC_STATE) : Prop := exists floor X base ph s, (ch = 1 \/ forall r, allowed r -> (floor <= val r)%R) /\
    sinc_ok inc coeffs ch X base ph s st /\ 0 <= base + end_of ph /\ SincHist.inv inc coeffs ch PWide floor s ph st.

  Lemma strong_good st : strong st -> Good st.
  Proof. intros (fl & X & base & ph & s & _ & H & O & _). exists X, base, ph, s. auto. Qed.
  Ltac same := intros (fl & X & base & ph & s & F & H & O & I); exists fl, X, base, ph, s; split; [exact F|]; split; [destruct H; constructor; assumption|]; split; [exact O|exact I].
  Lemma strong_mode st x : strong st -> strong (set_mode st x). Proof. same. Qed.
  Lemma strong_saved st x y : strong st -> strong (set_saved st x y). Proof. same. Qed.
  Lemma strong_error st x : strong st -> strong (set_error st x). Proof. same. Qed.
  Lemma fits_allowed fl r : (ch = 1 \/ forall r, allowed r -> (fl <= val r)%R) -> allowed r -> ratio_fits ch PWide fl r.
  Proof. intros F A. split; [apply Hst; exact A|]. destruct F as [F|F]; auto. Qed.
  Lemma next_allowed fl (d : SRC_DATA) : (ch = 1 \/ forall r, allowed r -> (fl <= val r)%R) -> allowed (src_ratio d) ->
    ch = 1 \/ forall r, allowed r -> ((if end_of_input d =? 0 then fl else Rmin 1 (val (src_ratio d))) <= val r)%R.
  Proof.
    intros F A. destruct (end_of_input d =? 0); [exact F|]. destruct Hst as [_ [E|[E|E]]]; [now left|right|right]; intros r Hr.
    - apply Rle_trans with 1%R; [apply Rmin_l|auto].
    - rewrite (E _ _ Hr A). apply Rmin_r.
  Qed.
  Lemma strong_call st d m : strong st -> st_mode st = MODE_PROCESS -> valid_call ch d m -> allowed (src_ratio d) ->
    exists e st' d' m', src_process (Some st) (Some d) m = Ok (e, Some st', Some d', m') /\ truthful_reply ch d m e d' m' /\ strong st'.
  Proof.
    intros (fl & X & base & ph & s & F & H & O & I) Hm V A. assert (Ff := fits_allowed fl _ F A). assert (Gn : good_ratio (src_ratio d)) by apply V.
    destruct (sinc_any_call inc coeffs ch Ht Hch X base ph s st d m H O Hm V) as [(f & E & Nf & Ns)|R].
    - exfalso. apply Ns. apply (fits_safe inc coeffs ch Ht Hch PWide fl X base); auto; discriminate.
    - destruct R as (X' & e & used & k & base' & ph' & s' & st' & d' & m' & dep & E & R). exists e, st', d', m'. split; [exact E|].
      split; [exact (reply_truthful inc coeffs ch Hch _ _ _ _ _ _ _ _ _ _ _ _ _ _ _ _ _ V R)|].
      exists (if end_of_input d =? 0 then fl else Rmin 1 (val (src_ratio d))), X', base', ph', s'. split; [now apply next_allowed|].
      split; [exact (re_ok _ _ _ _ _ _ _ _ _ _ _ _ _ _ _ _ _ _ _ _ R)|].
      assert (Nx := re_next _ _ _ _ _ _ _ _ _ _ _ _ _ _ _ _ _ _ _ _ R). assert (Us := re_used _ _ _ _ _ _ _ _ _ _ _ _ _ _ _ _ _ _ _ _ R).
      split; [lia|]. refine (fits_after inc coeffs ch Ht Hch PWide fl _ _ _ _ _ _ _ _ _ _ _ _ _ _ _ _ _ _ H I V Ff _ R). discriminate.
  Qed.
  Lemma strong_ratio st r : strong st -> is_nan r = false -> is_bad_src_ratio r = false -> allowed r -> strong (set_ratio st r).
  Proof.
    intros (fl & X & base & ph & s & F & H & O & I) N B A. destruct (sinc_set_ratio_call inc coeffs ch X base ph s st r H N) as (e & st' & E & Ok' & _ & Alt).
    unfold src_set_ratio in E. rewrite B in E. injection E as <- <-. exists fl, X, base, ph, s. split; [exact F|]. split; [exact Ok'|]. split; [exact O|].
    destruct (fits_allowed fl r F A) as [F1 F2]. cbn [SincHist.inv] in *. destruct I as [Il Ic]. split; [right; exact F1|].
    destruct Ic as [Ic|Ic]; [now left|]. destruct F2 as [F2|F2]; [now left|]. right. destruct ph as [|c e0|c e0]; cbn [settled] in *; auto.
    destruct Ic as (mn & G & A' & B' & C'). exists mn. split; [exact G|]. split; [exact A'|]. split; [right; cbn; lra|exact C'].
  Qed.
  Lemma strong_reset st : strong st -> exists st', src_reset (Some st) = Ok (0, Some st') /\ strong st'.
  Proof.
    intros (fl & X & base & ph & s & F & H & O & I). destruct (sinc_reset_call inc coeffs ch Ht Hch X base ph s st H) as (st' & s' & E & Ok' & M' & Lr & Lp).
    exists st'. split; [exact E|]. exists 0%R, silence, 0, Fresh, s'. split.
    { right. intros r Hr. assert (Q := proj1 Hst r Hr). lra. }
    split; [exact Ok'|]. split; [cbn; lia|]. cbn [SincHist.inv settled]. auto.
  Qed.

  Section One.
    Variables (ratio : f64) (frames data : Z) (m0 : mem).
    Hypothesis Hr : in_range ratio.
    Hypothesis Ha : allowed ratio.
    Hypothesis Hf : frames * ch <= 2 ^ 50.
    Hypothesis Hd : 0 <= data.
    Hypothesis Hd1 : data + frames * ch <= 2 ^ 60.

    Lemma body_strong st d gen cs m : inv ratio frames data m0 st d gen cs m -> strong st -> gen < frames ->
      exists k, body CS cb dummy st d gen cs m = Ok k /\ match k with inl (_, st', _, _, _, _) => strong st' | inr (st', _, _, _, _) => strong st' end.
    Proof.
      intros Iv Hs L. assert (Iv' := Iv). destruct Iv' as [G Hm Mp B Hg Eo En Er Hw Hu _]. unfold body.
      destruct (fetch_ok CS cb dummy pool ch Hcb st d cs m Mp B) as (d1 & cs1 & m1 & Ef & B1 & F1 & F2 & F3 & F4 & _). rewrite Ef.
      assert (Mp1 : mapped pool m1) by (intros a A; apply F4, Mp, A).
      assert (Hw1 : data_out d1 = 0 \/ writable m1 (data_out d1) ch (output_frames d1)).
      { rewrite F1, F2, Eo, En. destruct Hw as [[-> ->]|Hw]; [left; lia|right]. intros i Hi. apply F4.
        replace (data + gen * ch + i) with (data + (gen * ch + i)) by lia. apply Hw. nia. }
      assert (Cc : st_channels (set_mode st MODE_PROCESS) = ch) by (apply (sg_ch inc coeffs ch), sg_mode, G).
      destruct (process_cases pool ch (set_mode st MODE_PROCESS) d1 m1 ltac:(lia) Cc eq_refl) as [(e & Ne & P)|[V P]]; try assumption.
      - rewrite F3, Er. exact Hr.
      - rewrite F2. lia.
      - rewrite F2, En. nia.
      - rewrite F1, Eo. nia.
      - rewrite F1, F2, Eo, En. lia.
      - destruct P as [P|P]; rewrite P; cbn [bind]; (replace (e =? 0) with false by (symmetry; now apply Z.eqb_neq)); cbn [negb];
          (eexists; split; [reflexivity|]; cbn; do 2 apply strong_mode; exact Hs).
      - rewrite P. destruct (strong_call (set_mode st MODE_PROCESS) (clamp d1) m1 (strong_mode _ _ Hs) eq_refl V) as (e & st2 & d2 & m2 & E & T & S2).
        { cbn. rewrite F3, Er. exact Ha. }
        rewrite E. cbn [bind]. destruct (Z.eqb_spec e 0) as [E0|E0]; cbn [negb]; [|eexists; split; [reflexivity|]; apply strong_mode; exact S2].
        subst e. destruct T as [T|(Q & _)]; [|discriminate Q]. destruct T as (_ & Td & Tu & Tg & _).
        rewrite (sg_ch inc coeffs ch (set_mode st2 MODE_CALLBACK)) by (apply sg_mode, strong_good; exact S2).
        assert (X1 : input_frames d2 = input_frames (clamp d1) /\ output_frames d2 = output_frames d1) by (rewrite Td; split; reflexivity).
        destruct X1 as (X2 & X3). destruct V as (V1 & V2 & V3 & V4 & _). cbn [output_frames input_frames clamp set_frames] in *.
        rewrite !long_ok by nia. cbn [bind]. destruct (_ && _); (eexists; split; [reflexivity|]; apply strong_mode; exact S2).
    Qed.

    Lemma loop_strong : forall fuel st d gen cs m, inv ratio frames data m0 st d gen cs m -> strong st ->
      (exists e st' d' g cs' m', cb_loop CS cb dummy fuel frames st d gen cs m = Ok (e, st', d', g, cs', m') /\ strong st') \/
      cb_loop CS cb dummy fuel frames st d gen cs m = Fault F_fuel.
    Proof.
      induction fuel as [|fuel IH]; intros st d gen cs m Iv Hs; [now right|]. rewrite loop_body. destruct (Z.ltb_spec gen frames) as [L|L]; [|left; eauto 10].
      destruct (body_strong st d gen cs m Iv Hs L) as (k & E & K). rewrite E. cbn [bind].
      destruct k as [[[[[[e s1] d1] g1] c1] x1]|[[[[st' d'] gen'] cs'] m']]; [left; eauto 10|].
      destruct (body_turn CS cb dummy pool ch Good sinc_faults ltac:(lia) (sg_ch inc coeffs ch) (sg_mode inc coeffs ch) (sg_call inc coeffs ch Ht Hch) Hcb
        ratio frames data m0 Hr Hf Hd Hd1 st d gen cs m Iv L) as [(f & E' & _)|(k & E' & T)]; rewrite E in E'; [discriminate E'|]. injection E' as <-.
      destruct (turn_next CS cb dummy pool ch Good ltac:(lia) (sg_mode inc coeffs ch) Hcb ratio frames data m0 _ _ _ _ _ _ _ _ _ _ Iv L T) as (Iv' & _).
      exact (IH _ _ _ _ _ Iv' K).
    Qed.
  End One.

  Lemma read_strong st ratio frames data cs m fuel : cb_good pool ch Good st -> strong st -> legal_read pool ch ratio frames data m -> (in_range ratio -> allowed ratio) ->
    (exists n st' cs' m', src_callback_read CS cb dummy fuel (Some st) ratio frames data cs m = Ok (n, Some st', cs', m') /\ strong st') \/
    src_callback_read CS cb dummy fuel (Some st) ratio frames data cs m = Fault F_fuel.
  Proof.
    intros (G & Hm & Hc & B) Hs Lg Al. unfold src_callback_read. destruct (Z.leb_spec frames 0) as [L|L]; [left; eauto 7|].
    destruct Lg as [O|(Nn & H1 & H2 & H3 & H4 & H5)]; [lia|].
    rewrite Hm. replace (st_callback st =? 0) with false by (symmetry; now apply Z.eqb_neq).
    destruct (is_bad_src_ratio ratio) eqn:Bd; [left; eexists _, _, _, _; split; [reflexivity|]; apply strong_error; exact Hs|].
    assert (Hr : in_range ratio) by (apply is_bad_src_ratio_spec in Bd; destruct Bd; [congruence|assumption]).
    assert (Iv : inv ratio frames data m st (first_data st ratio frames data) 0 cs m).
    { constructor; try assumption; try reflexivity; cbn [first_data data_out output_frames end_of_input]; try lia. destruct H4; auto. }
    destruct (loop_strong ratio frames data m Hr (Al Hr) H1 H2 H3 fuel st _ 0 cs m Iv Hs) as [(e & st' & d' & g & cs' & m' & El & K)|El];
      fold (first_data st ratio frames data); rewrite El; cbn [bind]; [left|now right].
    destruct (negb _); (eexists _, _, _, _; split; [reflexivity|]); [apply strong_error|]; apply strong_saved; exact K.
  Qed.

  Lemma session_strong st cs : session_at CS cb dummy allowed (sinc_cb_new (inc, coeffs) ch) pool ch st cs ->
    session CS cb dummy (sinc_cb_new (inc, coeffs) ch) pool ch st cs /\ cb_good pool ch Good st /\ strong st.
  Proof.
    induction 1 as [st cs C|fuel st ratio frames data cs m n st' cs' m' _ (S & G & K) Lg Al E|st cs r e st' _ (S & G & K) Nn Al E|st cs e st' cs' _ (S & G & K) E].
    - split; [now constructor|]. split; [exact (proj2 (sinc_cb_state inc coeffs ch st pool Ht C))|].
      destruct C as (bld & orc & func & ty & ud & h & c & h' & T & E & ->). destruct (cb_new_shape _ _ _ _ _ _ _ _ _ E) as (Nf & c0 & E0 & ->).
      assert (C : sinc_new (inc, coeffs) ch (c_state c0)) by (exists bld, orc, ty, h, c0, h'; auto).
      destruct (sinc_new_state _ _ _ _ C) as (_ & b & Eb & Es). destruct (good_start inc coeffs ch Ht Hch PWide b Eb ltac:(discriminate)) as (_ & X & base & ph & s & Ok' & O & I).
      rewrite <- Es in Ok', I. exists 0%R, X, base, ph, s. split; [right; intros r Hr; assert (Q := proj1 Hst r Hr); lra|].
      split; [destruct Ok'; constructor; assumption|]. split; [exact O|exact I].
    - split; [now apply (S_read _ _ _ _ _ _ fuel st ratio frames data cs m n st' cs' m')|].
      destruct (read_strong st ratio frames data cs m fuel G K Lg Al) as [(n1 & st1 & cs1 & m1 & E1 & K1)|E1]; rewrite E in E1; [|discriminate E1]. injection E1 as _ <- _ _.
      split; [|exact K1].
      destruct (read_plain CS cb dummy pool ch Good sinc_faults ltac:(lia) (sg_ch inc coeffs ch) (sg_mode inc coeffs ch)
        (sg_saved inc coeffs ch) (sg_error inc coeffs ch) (sg_call inc coeffs ch Ht Hch) Hcb (fun _ => 0) 0 st ratio frames data cs m fuel G Lg)
        as [(n2 & st2 & cs2 & m2 & E2 & G1 & _)|(f & E2 & _)]; rewrite E in E2; [|discriminate E2]. injection E2 as _ <- _ _. exact G1.
    - split; [now apply (S_ratio _ _ _ _ _ _ st cs r e st')|]. unfold src_set_ratio in E. destruct (is_bad_src_ratio r) eqn:Bd; injection E as _ <-; [auto|].
      assert (Hr : in_range r) by (apply is_bad_src_ratio_spec in Bd; destruct Bd; [congruence|assumption]).
      split; [|now apply strong_ratio; auto]. destruct G as (G & G'). split; [now apply sg_ratio|exact G'].
    - split; [now apply (S_reset _ _ _ _ _ _ st cs e st' cs')|]. destruct (strong_reset st K) as (st1 & E1 & K1). rewrite E in E1. injection E1 as _ <-. split; [|exact K1].
      destruct G as (G & Hm & Hc & B). destruct (sg_reset inc coeffs ch Ht Hch st G) as (st1 & E1 & G1 & M1 & C1). rewrite E in E1. injection E1 as _ <-.
      split; [exact G1|]. split; [congruence|]. split; [congruence|]. unfold src_reset in E. destruct (vt_reset st) as [q|]; [|discriminate E]. cbn [bind] in E. injection E as _ <-.
      cbn. split; [lia|left; lia].
  Qed.
End Sinc.

Lemma sinc_reads_safe t ch CS (cb : callback_t CS) dummy pool allowed st ratio frames data cs m fuel : table_fit t -> 1 <= ch <= 128 -> proper CS cb dummy pool ch ->
  steady ch allowed -> session_at CS cb dummy allowed (sinc_cb_new t ch) pool ch st cs -> legal_read pool ch ratio frames data m -> (in_range ratio -> allowed ratio) ->
  match src_callback_read CS cb dummy fuel (Some st) ratio frames data cs m with
  | Ok (n, st', cs', m') => exists s, st' = Some s /\ read_ok CS cb ch ratio frames data st m n s cs' m'
  | Fault f => f = F_fuel
  end.
Proof.
  intros Ht Hch Hcb Hs S Lg Al. destruct t as [inc coeffs]. destruct (session_strong inc coeffs ch CS cb dummy pool allowed Ht Hch Hcb Hs st cs S) as (_ & G & K).
  destruct (read_strong inc coeffs ch CS cb dummy pool allowed Ht Hch Hcb Hs st ratio frames data cs m fuel G K Lg Al) as [(n1 & st1 & cs1 & m1 & E1 & _)|E1]; rewrite E1; [|reflexivity].
  destruct (read_plain CS cb dummy pool ch (sinc_good inc coeffs ch) sinc_faults ltac:(lia) (sg_ch inc coeffs ch) (sg_mode inc coeffs ch)
    (sg_saved inc coeffs ch) (sg_error inc coeffs ch) (sg_call inc coeffs ch Ht Hch) Hcb (fun _ => 0) 0 st ratio frames data cs m fuel G Lg)
    as [(n2 & st2 & cs2 & m2 & E2 & _ & R)|(f & E2 & _)]; rewrite E1 in E2; [|discriminate E2]. injection E2 as <- <- <- <-. eauto.
Qed.

Lemma sinc_reads_return t ch CS (cb : callback_t CS) dummy pool allowed ended st ratio frames data cs m fuel : table_fit t -> 1 <= ch <= 128 -> proper CS cb dummy pool ch ->
  nonnegative CS cb -> int_blocks CS cb ch -> marks_end CS cb ended -> stays_ended CS cb ended ->
  steady ch allowed -> session_at CS cb dummy allowed (sinc_cb_new t ch) pool ch st cs -> legal_read pool ch ratio frames data m -> (in_range ratio -> allowed ratio) ->
  Z.max 0 frames * (2 ^ 27 + 1) + 2 ^ 27 < Z.of_nat fuel ->
  exists n st' cs' m', src_callback_read CS cb dummy fuel (Some st) ratio frames data cs m = Ok (n, Some st', cs', m').
Proof.
  intros Ht Hch Hcb Hnn Hib Hme Hse Hs S Lg Al Hf. destruct t as [inc coeffs].
  destruct (session_strong inc coeffs ch CS cb dummy pool allowed Ht Hch Hcb Hs st cs S) as (S0 & G & K).
  destruct (read_strong inc coeffs ch CS cb dummy pool allowed Ht Hch Hcb Hs st ratio frames data cs m fuel G K Lg Al) as [(n1 & st1 & cs1 & m1 & E1 & _)|E1]; [eauto|].
  exfalso. exact (sinc_read_ends _ ch CS cb dummy pool ended st ratio frames data cs m fuel Ht Hch Hcb Hnn Hib Hme Hse S0 Lg Hf E1).
Qed.
