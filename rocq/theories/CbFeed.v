(** Reads from a callback that always has data (C56). *)
From Coq Require Import ZArith Reals List Bool Lia.
From Flocq Require Import Core IEEE754.BinarySingleNaN.
From Verif Require Import Base FloatFacts PosFacts Types Api Heap Callback ApiHist HoldSpec HoldFacts HoldCore HoldCall HoldProcess ProcFacts
  HoldMain SincSpec SincFacts SincProcess SincCall SincApi SincHist SincStream CbSpec CbCore CbHold CbSinc CbFeedSpec LinAny LinMapped.
Import ListNotations.
Local Open Scope Z_scope.

Section Feed.
  Variables (CS : Type) (cb : callback_t CS) (dummy : Z) (pool : Z -> Prop) (ch : Z).
  Variables (Good : SRC_STATE -> Prop) (mu : SRC_STATE -> Z) (lim least : Z).
  Hypothesis Hl : 1 <= least.
  Hypothesis Hch : 0 < ch.
  Hypothesis G_ch : forall st, Good st -> st_channels st = ch.
  Hypothesis G_mode : forall st x, Good st -> Good (set_mode st x).
  Hypothesis G_saved : forall st x y, Good st -> Good (set_saved st x y).
  Hypothesis G_ratio : forall st r, Good st -> is_nan r = false -> is_bad_src_ratio r = false -> Good (set_ratio st r).
  Hypothesis G_reset : forall st, Good st -> exists st', src_reset (Some st) = Ok (0, Some st') /\ Good st' /\
    st_mode st' = st_mode st /\ st_callback st' = st_callback st.
  Hypothesis M_mode : forall st x, mu (set_mode st x) = mu st.
  Hypothesis M_range : forall st, Good st -> 0 <= mu st <= lim.
  (** The block has [least] frames, or the frame before it may be read and is apart from the output. *)
  Definition behind_ok (d : SRC_DATA) (m : mem) : Prop := 0 < input_frames d < least ->
    (forall c, 0 <= c < ch -> m (data_in d - ch + c) <> None) /\ disjoint_ranges (data_in d - ch) ch (data_out d) (output_frames d * ch).
  Hypothesis Step : forall st d m, Good st -> st_mode st = MODE_PROCESS -> valid_call ch d m -> input_frames d * ch < 2 ^ 31 -> end_of_input d = 0 -> behind_ok d m ->
    exists st' d' m', src_process (Some st) (Some d) m = Ok (0, Some st', Some d', m') /\ honest_reply ch d m 0 d' m' /\ Good st' /\
      (0 < input_frames d -> 0 < output_frames d -> 0 < input_frames_used d' \/ 0 < output_frames_gen d') /\
      (output_frames_gen d' = 0 -> mu st' <= mu st - input_frames_used d').
  Hypothesis Hcb : proper CS cb dummy pool ch.
  Variable P : CS -> Prop.
  Hypothesis Hfeed : always_feeds CS cb dummy pool ch least P.

  (** A block that is not refused. *)
  Definition block (p n : Z) : Prop := 0 <= n /\ n * ch < 2 ^ 31 /\ (0 < n -> p <> 0) /\
    (0 < n < least -> forall c, 0 <= c < ch -> pool (p - ch + c)).

  Section Read.
    Variables (ratio : f64) (frames data : Z) (m0 : mem).
    Hypothesis Hr : in_range ratio.
    Hypothesis Hf : frames * ch <= 2 ^ 50.
    Hypothesis Hd : 0 < data.
    Hypothesis Hd1 : data + frames * ch <= 2 ^ 60.
    Hypothesis Hap : forall a, pool a -> ~ (data <= a < data + frames * ch).

    Notation inv := (inv CS cb pool ch Good ratio frames data m0).

    Lemma feed_body st d gen cs m : inv st d gen cs m -> block (data_in d) (input_frames d) -> end_of_input d = 0 -> P cs -> gen < frames ->
      exists st' d' gen' cs' m', body CS cb dummy st d gen cs m = Ok (inr (st', d', gen', cs', m')) /\
        inv st' d' gen' cs' m' /\ block (data_in d') (input_frames d') /\ end_of_input d' = 0 /\ P cs' /\
        st_callback st' = st_callback st /\ (st_error st' = st_error st \/ st_error st' = 0) /\ (forall a, m a <> None -> m' a <> None) /\
        (frames - gen') * (lim + 2) + mu st' < (frames - gen) * (lim + 2) + mu st.
    Proof.
      intros Iv (N0 & N1 & N2 & N3) He Hp L. assert (Iv' := Iv). destruct Iv' as [G Hm Mp B Hg Eo En Er Hw Hu _].
      destruct (fetch_ok CS cb dummy pool ch Hcb st d cs m Mp B) as (d1 & cs1 & m1 & Ef & B1 & F1 & F2 & F3 & F4 & F5 & _).
      assert (Bk : 0 < input_frames d1 /\ input_frames d1 * ch < 2 ^ 31 /\ data_in d1 <> 0 /\ end_of_input d1 = 0 /\
        (0 < input_frames d1 < least -> forall c, 0 <= c < ch -> pool (data_in d1 - ch + c))).
      { unfold cb_fetch in Ef. destruct (Z.eqb_spec (input_frames d) 0) as [Z0|Z0].
        - assert (Q := Hfeed (st_callback st) (st_user_data st) cs m Mp Hp). destruct (cb _ _ _ _) as [[[c2 x2] ptr] n]. destruct Q as (_ & Q1 & Q2 & Q3).
          injection Ef as <- _ _. cbn [input_frames data_in end_of_input]. replace (n =? 0) with false by (symmetry; apply Z.eqb_neq; lia).
          split; [lia|]. split; [exact Q2|]. split; [exact Q3|]. split; [exact He|lia].
        - injection Ef as <- _ _. split; [lia|]. split; [exact N1|]. split; [apply N2; lia|]. split; [exact He|exact N3]. }
      destruct Bk as (K1 & K2 & K3 & K4 & K5).
      assert (Hp1 : P cs1).
      { unfold cb_fetch in Ef. destruct (input_frames d =? 0); [|congruence]. assert (Q := Hfeed (st_callback st) (st_user_data st) cs m Mp Hp).
        destruct (cb _ _ _ _) as [[[c2 x2] ptr] n]. injection Ef as _ <- _. apply Q. }
      assert (Cl : clamp d1 = d1). { unfold clamp. rewrite Z.max_r by lia. destruct d1; reflexivity. }
      assert (Hw' : writable m data ch frames) by (destruct Hw as [[Q _]|Q]; [lia|exact Q]).
      assert (V : valid_call ch d1 m1).
      { destruct B1 as [Bp [Bn|[Bn|(Bn1 & Bn2 & Bn3)]]]; [lia|contradiction|].
        unfold valid_call. rewrite F1, F2, F3, Eo, En, Er. split; [lia|]. split; [lia|]. split; [exact Bn1|]. split; [nia|]. split; [exact Hr|].
        split; [auto|]. split; [intros _; nia|]. split; [exact Bp|]. split; [nia|].
        split; [intros i Hi; apply F4, Mp, Bn3; exact Hi|].
        split. { intros i Hi. replace (data + gen * ch + i) with (data + (gen * ch + i)) by lia. apply F4, Hw'. nia. }
        unfold apart. assert (Oc : 0 < (frames - gen) * ch /\ 0 < input_frames d1 * ch) by nia.
        destruct (Z_lt_ge_dec (data_in d1) (data + gen * ch)) as [A|A].
        - left. split; [exact A|]. destruct (Z_le_gt_dec (data_in d1 + input_frames d1 * ch) (data + gen * ch)) as [C|C]; [exact C|exfalso].
          apply (Hap (data_in d1 + (data + gen * ch - data_in d1))); [apply Bn3; lia|nia].
        - right. destruct (Z_le_gt_dec (data + gen * ch + (frames - gen) * ch) (data_in d1)) as [C|C]; [exact C|exfalso].
          apply (Hap (data_in d1 + 0)); [apply Bn3; lia|nia]. }
      assert (Bh : behind_ok d1 m1).
      { intros Q. split; [intros c Hc; apply F4, Mp, K5; assumption|]. rewrite F1, F2, Eo, En. unfold disjoint_ranges.
        assert (U : forall c, 0 <= c < ch -> ~ (data <= data_in d1 - ch + c < data + frames * ch)) by (intros c Hc; apply Hap, K5; assumption).
        assert (Oc : 0 < (frames - gen) * ch) by nia.
        destruct (Z_le_gt_dec (data_in d1 - ch + ch) (data + gen * ch)) as [A|A]; [left; exact A|right].
        destruct (Z_le_gt_dec (data + gen * ch + (frames - gen) * ch) (data_in d1 - ch)) as [C|C]; [exact C|exfalso].
        destruct (Z_lt_ge_dec (data_in d1 - ch) (data + gen * ch)) as [D|D].
        - apply (U (data + gen * ch - (data_in d1 - ch))); [lia|]. nia.
        - apply (U 0); [lia|]. nia. }
      destruct (Step _ d1 m1 (G_mode st MODE_PROCESS G) eq_refl V K2 K4 Bh) as (st2 & d2 & m2 & E & R & G2 & P1 & P2).
      assert (T : turn CS cb dummy ch Good st d gen cs m (inr (set_mode st2 MODE_CALLBACK, rest ch d2, gen + output_frames_gen d2, cs1, m2))).
      { apply (T_next CS cb dummy ch Good st d gen cs m d1 cs1 m1 st2 d2 m2 Ef); rewrite ?Cl; auto. intros [Q _]. lia. }
      destruct (turn_next CS cb dummy pool ch Good Hch G_mode Hcb ratio frames data m0 _ _ _ _ _ _ _ _ _ _ Iv L T) as (I2 & C2 & C3).
      exists (set_mode st2 MODE_CALLBACK), (rest ch d2), (gen + output_frames_gen d2), cs1, m2.
      assert (R' := R). destruct R' as (_ & Td & Tu & Tg & _).
      assert (X : end_of_input d2 = 0 /\ input_frames d2 = input_frames d1 /\ output_frames d2 = output_frames d1 /\ data_in d2 = data_in d1) by (rewrite Td; repeat split; exact K4).
      destruct X as (X1 & X2 & X3 & X4).
      split.
      - unfold body. rewrite Ef, E. cbn [bind Z.eqb negb]. rewrite (G_ch (set_mode st2 MODE_CALLBACK)) by (apply G_mode; exact G2).
        destruct V as (V1 & V2 & V3 & V4 & _). rewrite !long_ok by nia. cbn [bind]. rewrite X1. cbn [Z.eqb andb]. unfold rest. rewrite X1. reflexivity.
      - split; [exact I2|]. split; [|split; [exact X1|split; [exact Hp1|]]].
        + destruct V as (_ & _ & _ & _ & _ & _ & _ & Vp & _). unfold block. cbn [rest data_in input_frames]. rewrite X2, X4. split; [lia|]. split; [nia|]. split; [intros _; nia|].
          intros Q c Hc. destruct (Z.eq_dec (input_frames_used d2) 0) as [U0|U0].
          * rewrite U0 in *. replace (data_in d1 + 0 * ch - ch + c) with (data_in d1 - ch + c) by lia. apply K5; [lia|exact Hc].
          * destruct B1 as [_ [Bn|[Bn|(_ & _ & Bn3)]]]; [lia|contradiction|].
            replace (data_in d1 + input_frames_used d2 * ch - ch + c) with (data_in d1 + ((input_frames_used d2 - 1) * ch + c)) by lia. apply Bn3. nia.
        + split; [exact C2|]. split; [exact C3|]. split; [intros a Ha; apply (reply_keeps ch Hch d1 m1 d2 m2 a R), F4, Ha|]. rewrite !M_mode. rewrite M_mode in P2.
          assert (Q1 := M_range _ G). assert (Q2 := M_range _ G2). set (ge := output_frames_gen d2) in *.
          destruct (Z.eq_dec ge 0) as [G0|G0]; [|clearbody ge; nia]. rewrite G0 in *. specialize (P2 eq_refl).
          assert (0 < input_frames_used d2 \/ 0 < 0) by (apply P1; lia). lia.
    Qed.

    Lemma feed_loop : forall fuel st d gen cs m, inv st d gen cs m -> block (data_in d) (input_frames d) -> end_of_input d = 0 -> P cs ->
      (frames - gen) * (lim + 2) + mu st < Z.of_nat fuel ->
      exists st' d' cs' m', cb_loop CS cb dummy fuel frames st d gen cs m = Ok (0, st', d', frames, cs', m') /\
        inv st' d' frames cs' m' /\ block (data_in d') (input_frames d') /\ P cs' /\
        st_callback st' = st_callback st /\ (st_error st' = st_error st \/ st_error st' = 0) /\ (forall a, m a <> None -> m' a <> None).
    Proof.
      induction fuel as [|fuel IH]; intros st d gen cs m Iv B He Hp Hfu.
      { exfalso. assert (Q := M_range _ (i_good _ _ _ _ _ _ _ _ _ _ _ _ _ _ Iv)). destruct (i_gen _ _ _ _ _ _ _ _ _ _ _ _ _ _ Iv). nia. }
      rewrite loop_body. destruct (Z.ltb_spec gen frames) as [L|L].
      - destruct (feed_body st d gen cs m Iv B He Hp L) as (st' & d' & gen' & cs' & m' & E & Iv' & B' & He' & Hp' & C1 & C2 & C5 & Sz). rewrite E. cbn [bind].
        destruct (IH st' d' gen' cs' m' Iv' B' He' Hp' ltac:(lia)) as (st2 & d2 & cs2 & m2 & E2 & I2 & B2 & Hp2 & C3 & C4 & C6).
        exists st2, d2, cs2, m2. split; [exact E2|]. split; [exact I2|]. split; [exact B2|]. split; [exact Hp2|]. split; [congruence|]. split; [clear - C2 C4; intuition congruence|auto].
      - assert (gen = frames) by (destruct (i_gen _ _ _ _ _ _ _ _ _ _ _ _ _ _ Iv); lia). subst gen. exists st, d, cs, m. auto 9.
    Qed.
  End Read.

  Definition ready (st : SRC_STATE) : Prop :=
    Good st /\ st_mode st = MODE_CALLBACK /\ st_callback st <> 0 /\ st_error st = 0 /\
    block_in pool ch (st_saved_data st) (st_saved_frames st) /\ block (st_saved_data st) (st_saved_frames st).

  Lemma feed_any st ratio frames data cs m fuel : ready st -> P cs -> fine_read pool ch ratio frames data m -> Z.max 0 frames * (lim + 2) + lim < Z.of_nat fuel ->
    exists st' cs' m', src_callback_read CS cb dummy fuel (Some st) ratio frames data cs m = Ok (Z.max 0 frames, Some st', cs', m') /\ ready st' /\ P cs' /\
      (forall a, leaves_alone CS cb a -> ~ (data <= a < data + Z.max 0 frames * ch) -> m' a = m a) /\
      (forall a, m a <> None -> m' a <> None).
  Proof.
    intros (G & Hm & Hc & He & B & Bk) Hp (Ir & Fr) Hfu. unfold src_callback_read. destruct (Z.leb_spec frames 0) as [L|L].
    { rewrite Z.max_l by lia. exists st, cs, m. split; [reflexivity|]. split; [split; auto 6|]. split; auto. }
    destruct (Fr L) as (H1 & H2 & H3 & H4 & H5 & H6). rewrite Z.max_r in * by lia. rewrite Hm.
    replace (st_callback st =? 0) with false by (symmetry; now apply Z.eqb_neq). rewrite (good_not_bad ratio Ir).
    assert (Iv : inv CS cb pool ch Good ratio frames data m st (mkData (st_saved_data st) data (st_saved_frames st) frames 0 0 0 ratio) 0 cs m).
    { constructor; try assumption; try reflexivity; cbn [data_out output_frames end_of_input]; try lia. now right. }
    assert (Q := M_range _ G).
    destruct (feed_loop ratio frames data m Ir H1 H2 H3 H6 fuel st _ 0 cs m Iv Bk eq_refl Hp ltac:(lia)) as (st' & d' & cs' & m' & E & Iv' & B' & Hp' & C1 & C2 & C3).
    rewrite E. cbn [bind Z.eqb negb]. exists (set_saved st' (input_frames d') (data_in d')), cs', m'. split; [reflexivity|].
    destruct Iv' as [G' Hm' Mp' Bi' _ _ _ _ _ Hu' _]. split; [|split; [exact Hp'|split]].
    - split; [apply G_saved; exact G'|]. split; [exact Hm'|]. split; [cbn; congruence|]. split; [cbn; clear - C2 He; intuition congruence|]. split; [exact Bi'|exact B'].
    - exact Hu'.
    - exact C3.
  Qed.

  Lemma served_ready (made : SRC_STATE -> Prop) st cs : (forall st, made st -> ready st) -> served CS cb dummy pool ch P made st cs -> ready st /\ P cs.
  Proof.
    intros Hmade. induction 1 as [st cs C Hp|fuel st ratio frames data cs m n st' cs' m' _ IH Lg E|st cs r e st' _ IH Nn E|st cs e st' cs' _ IH E Hp].
    - split; [exact (Hmade st C)|exact Hp].
    - (* more turns do not change the result *)
      destruct (feed_any st ratio frames data cs m (Nat.max fuel (Z.to_nat (Z.max 0 frames * (lim + 2) + lim + 1))) (proj1 IH) (proj2 IH) Lg ltac:(lia)) as (st1 & cs1 & m1 & E1 & R & Hp1 & _).
      assert (Mono : forall f k frames s d g c x r, cb_loop CS cb dummy f frames s d g c x = Ok r -> cb_loop CS cb dummy (f + k) frames s d g c x = Ok r).
      { clear. induction f as [|f IHf]; intros k frames s d g c x r H; [discriminate H|]. cbn [plus]. rewrite loop_body in *. destruct (g <? frames); [|exact H].
        destruct (body CS cb dummy s d g c x) as [[q|[[[[s2 d2] g2] c2] x2]]|]; cbn [bind] in *; auto. }
      unfold src_callback_read in E, E1. destruct (frames <=? 0); [injection E as _ <- <- _; exact IH|].
      destruct IH as ((_ & Hm & Hc & _) & _). rewrite Hm in E, E1. replace (st_callback st =? 0) with false in E, E1 by (symmetry; now apply Z.eqb_neq).
      rewrite (good_not_bad ratio (proj1 Lg)) in E, E1.
      destruct (cb_loop CS cb dummy fuel frames st _ 0 cs m) as [r|] eqn:El; [|discriminate E].
      replace (Nat.max fuel _) with (fuel + (Nat.max fuel (Z.to_nat (Z.max 0 frames * (lim + 2) + lim + 1)) - fuel))%nat in E1 by lia.
      rewrite (Mono _ _ _ _ _ _ _ _ _ El) in E1. rewrite E in E1. injection E1 as _ <- <- _. split; [exact R|exact Hp1].
    - destruct IH as ((G & K) & Hp). split; [|exact Hp]. unfold src_set_ratio in E. destruct (is_bad_src_ratio r) eqn:B; injection E as _ <-; [split; assumption|].
      split; [apply G_ratio; assumption|exact K].
    - split; [|exact Hp]. destruct IH as ((G & K1 & K2 & K3 & K4 & K5) & _). destruct (G_reset st G) as (st1 & E1 & G1 & M1 & C1). rewrite E in E1. injection E1 as _ <-.
      assert (Z0 : st_saved_frames st' = 0 /\ st_saved_data st' = 0 /\ st_error st' = 0).
      { unfold src_reset in E. destruct (vt_reset st) as [q|] eqn:Vr; [|discriminate E]. cbn [bind] in E. injection E as _ <-. repeat split. }
      destruct Z0 as (Z0 & Z1 & Z2). split; [exact G1|]. split; [congruence|]. split; [congruence|]. split; [exact Z2|]. rewrite Z0, Z1.
      split; [split; [lia|left; lia]|]. unfold block. lia.
  Qed.
End Feed.

(** ** Zero-order hold and linear interpolation *)
Definition least_of (kd : kind) : Z := match kd with Zoh => 1 | Lin => 3 end.
Lemma least_1 kd : 1 <= least_of kd. Proof. destruct kd; cbn; lia. Qed.
Lemma hold_step kd ch st d m : hold_good kd ch st -> st_mode st = MODE_PROCESS -> valid_call ch d m -> input_frames d * ch < 2 ^ 31 -> end_of_input d = 0 ->
  behind_ok ch (least_of kd) d m ->
  exists st' d' m', src_process (Some st) (Some d) m = Ok (0, Some st', Some d', m') /\ honest_reply ch d m 0 d' m' /\ hold_good kd ch st' /\
    (0 < input_frames d -> 0 < output_frames d -> 0 < input_frames_used d' \/ 0 < output_frames_gen d') /\
    (output_frames_gen d' = 0 -> hold_mu st' <= hold_mu st - input_frames_used d').
Proof.
  intros [H E] Hm V _ _ Bh. unfold behind_ok in Bh. rewrite <- E in V, Bh.
  assert (Q : exists st' d' m', src_process (Some st) (Some d) m = Ok (0, Some st', Some d', m') /\
    honest_reply (st_channels st) d m 0 d' m' /\ hold_ok kd st' /\ same_frame st st' /\ good_ratio (st_last_ratio st') /\
    (0 < input_frames d -> 0 < output_frames d -> 0 < input_frames_used d' \/ 0 < output_frames_gen d') /\
    (output_frames_gen d' = 0 -> fst (split_pos (st_last_position st')) = fst (split_pos (st_last_position st)) - input_frames_used d')).
  { destruct kd; [exact (process_honest Zoh st d m H Hm V I)|exact (linear_mapped st d m H Hm V Bh)]. }
  destruct Q as (st' & d' & m' & Q & R & O & S & _ & P1 & P2).
  exists st', d', m'. split; [exact Q|]. rewrite E in R. split; [exact R|]. destruct S as (_ & _ & S & _).
  split; [split; [exact O|congruence]|]. split; [exact P1|]. intros G. specialize (P2 G). unfold hold_mu. lia.
Qed.
Lemma hold_new_ready kd ch pool s : channels_fit ch -> cb_created (type_of kd) ch s -> 0 < ch /\ ready pool ch (hold_good kd ch) (least_of kd) s.
Proof.
  intros F C. destruct (hold_cb_new kd ch pool F s C) as [(G & M & N & B) L]. split; [exact L|].
  destruct C as (bld & orc & func & ud & h & c & h' & E & ->). destruct (cb_new_shape _ _ _ _ _ _ _ _ _ E) as (Nf & c0 & E0 & Ec).
  assert (C : created (type_of kd) ch (c_state c0)) by (exists bld, orc, h, c0, h'; auto). destruct (created_state kd ch _ C) as [_ Es].
  rewrite Ec in *. split; [exact G|]. split; [exact M|]. split; [exact N|]. split; [rewrite Es; reflexivity|]. split; [exact B|].
  rewrite Es. unfold block. cbn. lia.
Qed.
Lemma hold_served_ready kd ch CS (cb : callback_t CS) dummy pool I st cs : channels_fit ch -> proper CS cb dummy pool ch ->
  always_feeds CS cb dummy pool ch (least_of kd) I ->
  served CS cb dummy pool ch I (cb_created (type_of kd) ch) st cs -> 0 < ch /\ ready pool ch (hold_good kd ch) (least_of kd) st /\ I cs.
Proof.
  intros F P A S. assert (New := fun s => hold_new_ready kd ch pool s F).
  assert (L : 0 < ch). { clear - S New. induction S; auto. apply (New _ H). }
  split; [exact L|].
  exact (served_ready CS cb dummy pool ch (hold_good kd ch) hold_mu 257 (least_of kd) (least_1 kd) L (hg_ch kd ch) (hg_mode kd ch) (hg_saved kd ch) (hg_ratio kd ch) (hg_reset kd ch)
    (proj1 (hg_drains kd ch)) (proj1 (proj2 (hg_drains kd ch))) (hold_step kd ch) P I A (cb_created (type_of kd) ch) st cs (fun s C => proj2 (New s C)) S).
Qed.
Lemma hold_feeds_more kd ch CS (cb : callback_t CS) dummy pool (I : CS -> Prop) st cs ratio frames data m fuel : 0 < ch -> proper CS cb dummy pool ch ->
  always_feeds CS cb dummy pool ch (least_of kd) I ->
  ready pool ch (hold_good kd ch) (least_of kd) st -> I cs -> fine_read pool ch ratio frames data m -> 259 * (Z.max 0 frames + 1) <= Z.of_nat fuel ->
  exists st' cs' m', src_callback_read CS cb dummy fuel (Some st) ratio frames data cs m = Ok (Z.max 0 frames, Some st', cs', m') /\
    ready pool ch (hold_good kd ch) (least_of kd) st' /\ I cs' /\
    (forall a, leaves_alone CS cb a -> ~ (data <= a < data + Z.max 0 frames * ch) -> m' a = m a) /\
    (forall a, m a <> None -> m' a <> None).
Proof.
  intros L P A R Hi Fr Hfu.
  exact (feed_any CS cb dummy pool ch (hold_good kd ch) hold_mu 257 (least_of kd) (least_1 kd) L (hg_ch kd ch) (hg_mode kd ch) (hg_saved kd ch)
    (proj1 (hg_drains kd ch)) (proj1 (proj2 (hg_drains kd ch))) (hold_step kd ch) P I A st ratio frames data cs m fuel R Hi Fr ltac:(lia)).
Qed.
Lemma hold_feeds kd ch CS (cb : callback_t CS) dummy pool I st cs ratio frames data m fuel : channels_fit ch -> proper CS cb dummy pool ch ->
  always_feeds CS cb dummy pool ch (least_of kd) I ->
  served CS cb dummy pool ch I (cb_created (type_of kd) ch) st cs -> fine_read pool ch ratio frames data m -> 259 * (Z.max 0 frames + 1) <= Z.of_nat fuel ->
  exists st' cs' m', src_callback_read CS cb dummy fuel (Some st) ratio frames data cs m = Ok (Z.max 0 frames, Some st', cs', m') /\ src_error (Some st') = 0 /\
    (forall a, leaves_alone CS cb a -> ~ (data <= a < data + Z.max 0 frames * ch) -> m' a = m a).
Proof.
  intros F P A S Fr Hfu. destruct (hold_served_ready kd ch CS cb dummy pool I st cs F P A S) as (L & R & Hi).
  destruct (hold_feeds_more kd ch CS cb dummy pool I st cs ratio frames data m fuel L P A R Hi Fr Hfu) as (st' & cs' & m' & E & (_ & _ & _ & Er & _) & _ & K & _).
  exists st', cs', m'. auto.
Qed.

(** ** Sinc *)
Definition sinc_open (inc : Z) (coeffs : list f32) (ch : Z) (st : SRC_STATE) : Prop :=
  sinc_good inc coeffs ch st /\ ~ over st.

Section Sinc.
  Variables (inc : Z) (coeffs : list f32) (ch : Z).
  Hypothesis Ht : table_fit (inc, coeffs).
  Hypothesis Hch : 1 <= ch <= 128.

  Lemma sinc_step st d m : sinc_open inc coeffs ch st -> st_mode st = MODE_PROCESS -> valid_call ch d m -> input_frames d * ch < 2 ^ 31 -> end_of_input d = 0 -> behind_ok ch 1 d m ->
    exists st' d' m', src_process (Some st) (Some d) m = Ok (0, Some st', Some d', m') /\ honest_reply ch d m 0 d' m' /\ sinc_open inc coeffs ch st' /\
      (0 < input_frames d -> 0 < output_frames d -> 0 < input_frames_used d' \/ 0 < output_frames_gen d') /\
      (output_frames_gen d' = 0 -> space st' <= space st - input_frames_used d').
  Proof.
    intros [G O] Hm V Hs He _. assert (Gd := G). destruct G as (X & b & ph & s & Ok1 & O1).
    assert (Oc := over_closed inc coeffs ch Hch _ _ _ _ _ Ok1).
    destruct (sinc_any_call inc coeffs ch Ht Hch X b ph s st d m Ok1 O1 Hm V) as [(f & _ & _ & Ns)|R].
    - exfalso. apply Ns. apply (fits_safe inc coeffs ch Ht Hch PNoEnd 0%R X b); try assumption; [discriminate|cbn; tauto|apply V|exact I|auto].
    - destruct R as (X' & e & used & k & base' & ph' & s' & st' & d' & m' & dep & E1 & R).
      destruct (sinc_turn inc coeffs ch Ht Hch st d m e st' d' m' Gd Hm V Hs E1) as (-> & P1 & _ & P2 & P3). exists st', d', m'. split; [exact E1|].
      destruct (sg_call inc coeffs ch Ht Hch st d m Gd Hm V) as [(f & Q & _)|(e2 & st2 & d2 & m2 & Q & T & G2)]; rewrite E1 in Q; [discriminate Q|].
      injection Q as <- <- <- <-. destruct T as [T|(Q & _)]; [|discriminate Q]. split; [exact T|].
      assert (No : ~ over st') by (intros Q; destruct (P1 Q) as [Q1|[Q1 _]]; contradiction).
      split; [split; assumption|]. auto.
  Qed.
  Lemma so_reset st : sinc_open inc coeffs ch st -> exists st', src_reset (Some st) = Ok (0, Some st') /\ sinc_open inc coeffs ch st' /\
    st_mode st' = st_mode st /\ st_callback st' = st_callback st.
  Proof.
    intros [G O]. destruct (sg_reset inc coeffs ch Ht Hch st G) as (st' & E & G' & M). exists st'. split; [exact E|]. split; [split; [exact G'|]|exact M].
    destruct G as (X & base & ph & s & H & _). destruct (sinc_reset_call inc coeffs ch Ht Hch X base ph s st H) as (st2 & s2 & E2 & Ok2 & _).
    rewrite E in E2. injection E2 as <-. assert (Oc := over_closed inc coeffs ch Hch _ _ _ _ _ Ok2). intros Q. apply Oc in Q. destruct Q.
  Qed.
  Lemma so_range st : sinc_open inc coeffs ch st -> 0 <= space st <= 2 ^ 27.
  Proof. intros [(X & b & p & s & H & _) _]. exact (space_bounds inc coeffs ch Ht Hch _ _ _ _ _ H). Qed.
  Lemma so_ratio' st r : sinc_open inc coeffs ch st -> is_nan r = false -> is_bad_src_ratio r = false -> sinc_open inc coeffs ch (set_ratio st r).
  Proof. intros [G O] N B. split; [apply sg_ratio; assumption|exact O]. Qed.
  Lemma so_new pool st : sinc_cb_new (inc, coeffs) ch st -> ready pool ch (sinc_open inc coeffs ch) 1 st.
  Proof.
    intros C. destruct (sinc_cb_state inc coeffs ch st pool Ht C) as [_ (G & M & N & B)].
    destruct C as (bld & orc & func & ty & ud & h & c & h' & T & E & ->). destruct (cb_new_shape _ _ _ _ _ _ _ _ _ E) as (Nf & c0 & E0 & Ec). rewrite Ec in *.
    assert (C : sinc_new (inc, coeffs) ch (c_state c0)) by (exists bld, orc, ty, h, c0, h'; auto).
    destruct (sinc_new_state _ _ _ _ C) as (_ & b & Eb & Es). destruct (sinc_created inc coeffs ch Ht Hch b Eb) as (s & Ok' & _). rewrite <- Es in Ok'.
    assert (Oc := over_closed inc coeffs ch Hch _ _ _ _ _ Ok'). split; [split; [exact G|intros Q; apply Oc in Q; destruct Q]|].
    split; [exact M|]. split; [exact N|]. split; [rewrite Es; reflexivity|]. split; [exact B|]. rewrite Es. unfold block. cbn. lia.
  Qed.
End Sinc.

Lemma sinc_served_ready t ch CS (cb : callback_t CS) dummy pool I st cs : table_fit t -> proper CS cb dummy pool ch -> always_feeds CS cb dummy pool ch 1 I ->
  served CS cb dummy pool ch I (sinc_cb_new t ch) st cs -> 1 <= ch <= 128 /\ ready pool ch (sinc_open (fst t) (snd t) ch) 1 st /\ I cs.
Proof.
  intros Ht P A S. destruct t as [inc coeffs]. cbn [fst snd].
  assert (L : 1 <= ch <= 128). { clear - S Ht. induction S as [st cs C _| | |]; auto. apply (sinc_cb_state inc coeffs ch st (fun _ => False) Ht C). }
  split; [exact L|].
  refine (served_ready CS cb dummy pool ch (sinc_open inc coeffs ch) space (2 ^ 27) 1 (Z.le_refl 1) ltac:(lia) _ _ _ (so_ratio' inc coeffs ch) (so_reset inc coeffs ch Ht L)
    _ (so_range inc coeffs ch Ht L) (sinc_step inc coeffs ch Ht L) P I A (sinc_cb_new (inc, coeffs) ch) st cs (so_new inc coeffs ch Ht L pool) S).
  - intros s [G _]. exact (sg_ch inc coeffs ch s G).
  - intros s x [G O]. split; [exact (sg_mode inc coeffs ch s x G)|exact O].
  - intros s x y [G O]. split; [exact (sg_saved inc coeffs ch s x y G)|exact O].
  - reflexivity.
Qed.
Lemma sinc_feeds_more t ch CS (cb : callback_t CS) dummy pool (I : CS -> Prop) st cs ratio frames data m fuel : table_fit t -> 1 <= ch <= 128 ->
  proper CS cb dummy pool ch -> always_feeds CS cb dummy pool ch 1 I ->
  ready pool ch (sinc_open (fst t) (snd t) ch) 1 st -> I cs -> fine_read pool ch ratio frames data m -> Z.max 0 frames * (2 ^ 27 + 2) + 2 ^ 27 < Z.of_nat fuel ->
  exists st' cs' m', src_callback_read CS cb dummy fuel (Some st) ratio frames data cs m = Ok (Z.max 0 frames, Some st', cs', m') /\
    ready pool ch (sinc_open (fst t) (snd t) ch) 1 st' /\ I cs' /\
    (forall a, leaves_alone CS cb a -> ~ (data <= a < data + Z.max 0 frames * ch) -> m' a = m a) /\
    (forall a, m a <> None -> m' a <> None).
Proof.
  intros Ht L P A R Hc Fr Hfu. destruct t as [inc coeffs]. cbn [fst snd] in *.
  refine (feed_any CS cb dummy pool ch (sinc_open inc coeffs ch) space (2 ^ 27) 1 (Z.le_refl 1) ltac:(lia) _ _ _ _ (so_range inc coeffs ch Ht L) (sinc_step inc coeffs ch Ht L) P I A
    st ratio frames data cs m fuel R Hc Fr Hfu).
  - intros s [G _]. exact (sg_ch inc coeffs ch s G).
  - intros s x [G O]. split; [exact (sg_mode inc coeffs ch s x G)|exact O].
  - intros s x y [G O]. split; [exact (sg_saved inc coeffs ch s x y G)|exact O].
  - reflexivity.
Qed.
Lemma sinc_feeds t ch CS (cb : callback_t CS) dummy pool I st cs ratio frames data m fuel : table_fit t -> proper CS cb dummy pool ch -> always_feeds CS cb dummy pool ch 1 I ->
  served CS cb dummy pool ch I (sinc_cb_new t ch) st cs -> fine_read pool ch ratio frames data m -> Z.max 0 frames * (2 ^ 27 + 2) + 2 ^ 27 < Z.of_nat fuel ->
  exists st' cs' m', src_callback_read CS cb dummy fuel (Some st) ratio frames data cs m = Ok (Z.max 0 frames, Some st', cs', m') /\ src_error (Some st') = 0 /\
    (forall a, leaves_alone CS cb a -> ~ (data <= a < data + Z.max 0 frames * ch) -> m' a = m a).
Proof.
  intros Ht P A S Fr Hfu. destruct (sinc_served_ready t ch CS cb dummy pool I st cs Ht P A S) as (L & R & Hi).
  destruct (sinc_feeds_more t ch CS cb dummy pool I st cs ratio frames data m fuel Ht L P A R Hi Fr Hfu) as (st' & cs' & m' & E & (_ & _ & _ & Er & _) & _ & K & _).
  exists st', cs', m'. auto.
Qed.
