(** The main loop of the sinc converters. *)
From Coq Require Import ZArith Reals List Bool Lia Lra.
From Flocq Require Import Core IEEE754.BinarySingleNaN.
From Verif Require Import Base FloatFacts PosFacts Types Common Sinc HoldSpec HoldFacts HoldRamp HoldCore LifeSpec
  ErrFacts SincSpec SincFacts SincCalc SincPrep.
Import ListNotations.
Local Open Scope Z_scope.

(** ** The ratio ramp *)
Lemma sinc_ramp_ok last new ch frames (k : nat) cur : good_ratio last -> good_ratio new ->
  0 < ch -> Z.of_nat k < frames -> frames * ch <= 2 ^ 50 ->
  (Bleb (Babs (Bminus mode_NE last new)) (Bdiv mode_NE (d_of_Z 1) (d_of_Z 10000000000)) = true -> cur = last) ->
  ramp_ratio (lit_1em 10) last new (Z.of_nat k * ch) (frames * ch) cur = sinc_ramp last new ch frames k /\
  good_ratio (sinc_ramp last new ch frames k) /\
  between (val last) (val (sinc_ramp last new ch frames k)) (val new).
Proof.
  intros G1 G2 Hc Hk Hf Hcur. unfold ramp_ratio, sinc_ramp.
  replace (0 <? frames * ch) with true by (symmetry; apply Z.ltb_lt; nia). cbn [andb].
  assert (A : (Rabs (val last - val new) <= 1024)%R).
  { apply Rle_trans with 256%R; [|lra]. destruct G1, G2. apply Rabs_le. lra. }
  destruct (dsub_val last new (proj1 G1) (proj1 G2) (le1000 _ A)) as [V F].
  assert (Fa : fin (dabs (dsub last new))) by (unfold fin, dabs; rewrite is_finite_Babs; exact F).
  assert (Va : val (dabs (dsub last new)) = Rabs (rnd64 (val last - val new))).
  { unfold dabs. rewrite B2R_Babs. now rewrite V. }
  change (Bdiv mode_NE (d_of_Z 1) (d_of_Z 10000000000)) with (lit_1em 10) in *.
  change (Babs (Bminus mode_NE last new)) with (dabs (dsub last new)) in *.
  change (Bleb (dabs (dsub last new)) (lit_1em 10)) with (dle (dabs (dsub last new)) (lit_1em 10)) in *.
  assert (F10 : fin (lit_1em 10)) by reflexivity.
  assert (P10 : (0 <= val (lit_1em 10))%R) by (vm_compute; lra).
  rewrite dgt_spec by assumption. rewrite dle_spec in * by assumption.
  destruct (Rle_bool_spec (val (dabs (dsub last new))) (val (lit_1em 10))) as [L|L].
  - rewrite Rlt_bool_false by lra. rewrite Hcur by reflexivity. split; [reflexivity|]. split; [exact G1|].
    unfold between, Rmin, Rmax. destruct (Rle_dec _ _); lra.
  - rewrite Rlt_bool_true by lra.
    assert (N : val last <> val new).
    { intros E. rewrite Va, E, Rminus_diag_eq, rnd64_0, Rabs_R0 in L by reflexivity. lra. }
    destruct (ramp_val last new (Z.of_nat k * ch) (frames * ch) G1 G2) as (Fy & B & _); auto; [nia|].
    split; [reflexivity|]. split; [exact (between_good last new _ G1 G2 Fy B)|exact B].
Qed.

Lemma dmin_good a b : good_ratio a -> good_ratio b ->
  good_ratio (dmin a b) /\ (val (dmin a b) <= val a)%R /\ (val (dmin a b) <= val b)%R /\ val (dmin a b) = Rmin (val a) (val b).
Proof.
  intros Ga Gb. unfold dmin. rewrite dlt_spec by (apply Ga || apply Gb). unfold Rmin.
  destruct (Rlt_bool_spec (val a) (val b)); destruct (Rle_dec (val a) (val b)); repeat split; try apply Ga; try apply Gb; lra.
Qed.

(** ** Frames in memory *)
Lemma mwrite_list_ok (f : Z -> f32) : forall n c a m, (forall j, 0 <= j < Z.of_nat n -> m (a + j) <> None) ->
  exists m', mwrite_list m a (map (fun k => f (Z.of_nat k)) (seq c n)) = Ok m' /\
    (forall j, 0 <= j < Z.of_nat n -> m' (a + j) = Some (f (Z.of_nat c + j))) /\
    (forall b, ~ (a <= b < a + Z.of_nat n) -> m' b = m b).
Proof.
  induction n as [|n IH]; intros c a m Hm; cbn [seq map mwrite_list].
  - exists m. split; [reflexivity|]. split; [intros; lia|auto].
  - destruct (mwrite_ok m a (f (Z.of_nat c))) as (m1 & -> & M1 & M2).
    { replace a with (a + 0) by lia. apply Hm. lia. }
    cbn [bind]. destruct (IH (S c) (a + 1) m1) as (m2 & -> & M3 & M4).
    { intros j Hj. rewrite M2 by lia. replace (a + 1 + j) with (a + (1 + j)) by lia. apply Hm. lia. }
    exists m2. split; [reflexivity|]. split.
    + intros j Hj. destruct (Z.eq_dec j 0) as [->|N].
      * rewrite Z.add_0_r, M4 by lia. rewrite M1. do 2 f_equal. lia.
      * replace (a + j) with (a + 1 + (j - 1)) by lia. rewrite M3 by lia. do 2 f_equal. lia.
    + intros b Hb. rewrite M4 by lia. apply M2. lia.
Qed.

(** ** Values do not depend on the depth once the filter is inside the stream. *)
Lemma sinc_sample_ext inc coeffs x x' d d' p r :
  let I := fixed_point (table_step inc r) in
  let st := fixed_point (Bmult mode_NE (snd p) (table_step inc r)) in
  let M := (zlen coeffs - 2) * 4096 in
  1 <= I <= M -> 0 <= st <= I -> d = d' \/ (M / I <= d /\ M / I <= d') ->
  (forall i, fst p - M / I <= i <= fst p + M / I + 1 -> x i = x' i) ->
  sinc_sample inc coeffs x d p r = sinc_sample inc coeffs x' d' p r.
Proof.
  destruct p as [pz pf]. intros I st M HI Hst Hd Hx. cbn [fst snd] in Hx. unfold sinc_sample. cbv zeta. cbn [fst snd]. fold I. fold M.
  change (fixed_point (Bmult mode_NE pf (table_step inc r))) with st.
  set (K := M / I) in *. assert (K1 : 1 <= K) by (apply Z.div_le_lower_bound; lia).
  destruct (Z.eqb_spec st I) as [E|N].
  - assert (E1 : (M - 0) / I = K) by (unfold K; f_equal; lia). assert (E2 : (M + 0) / I = K) by (unfold K; f_equal; lia).
    rewrite E1, E2.
    replace (Z.min K (d' + 1)) with (Z.min K (d + 1)) by lia. do 3 f_equal; apply weigh_ext; intros i Hi; (split; [reflexivity|apply Hx]); lia.
  - assert (A1 : 0 <= (M - st) / I <= K).
    { split; [apply Z.div_pos; lia|]. apply Z.div_le_mono; lia. }
    assert (A2 : (M + st) / I <= K + 1).
    { replace (K + 1) with ((M + 1 * I) / I) by (rewrite Z.div_add by lia; reflexivity). apply Z.div_le_mono; lia. }
    replace (Z.min ((M - st) / I) d') with (Z.min ((M - st) / I) d) by lia.
    do 3 f_equal; apply weigh_ext; intros i Hi; (split; [reflexivity|apply Hx]); lia.
Qed.

(** The same value of a shifted stream. *)
Lemma sinc_sample_shift inc coeffs x d p f r o :
  sinc_sample inc coeffs (fun i => x (o + i)) d (p, f) r = sinc_sample inc coeffs x d (o + p, f) r.
Proof.
  unfold sinc_sample. cbv zeta. cbn [fst snd].
  destruct (fixed_point (Bmult mode_NE f (table_step inc r)) =? fixed_point (table_step inc r));
    do 3 f_equal; apply weigh_ext; intros i Hi; (split; [reflexivity|f_equal; lia]).
Qed.

Lemma end_point last x idx : good_ratio last -> frac idx -> (0 <= x <= 2 ^ 28)%Z ->
  let y := dadd (dadd (d_of_Z x) idx) (dadd (ddiv done_ last) (lit_1em 20)) in fin y /\ (IZR x + / 256 <= val y)%R.
Proof.
  intros G (Fi & Si & Li & Ui) Hx y. destruct (inv_ratio_val last G) as (_ & Fq & Bq). destruct lit20 as (L1 & L2 & L3).
  assert (L4 : (val (lit_1em 20) <= 1)%R).
  { apply Rle_trans with (bpow radix2 (-61)); [lra|]. change 1%R with (bpow radix2 0). apply bpow_le. lia. }
  assert (Rx : (0 <= IZR x <= 268435456)%R) by (split; apply IZR_le; lia).
  destruct (d_of_Z_val x) as [Vx Fx]; [lia|].
  destruct (dadd_val (d_of_Z x) idx Fx Fi) as [Va Fa]. { rewrite Vx. apply small_1000, Rabs_le. lra. }
  destruct (dadd_val (ddiv done_ last) (lit_1em 20) Fq L2) as [Vt Ft]. { apply small_1000, Rabs_le. lra. }
  assert (Ba : (IZR x <= val (dadd (d_of_Z x) idx) <= 268435457)%R).
  { rewrite Va, Vx. split; [apply rnd64_ge; [apply fmt64_Z; lia|lra]|]. apply rnd64_le; [apply (fmt64_Z 268435457); lia|lra]. }
  assert (Bt : (/ 256 <= val (dadd (ddiv done_ last) (lit_1em 20)) <= 257)%R).
  { rewrite Vt. split; [apply rnd64_ge; [change (/ 256)%R with (bpow radix2 (-8)); apply fmt64_bpow; lia|lra]|].
    apply rnd64_le; [apply (fmt64_Z 257); lia|lra]. }
  destruct (dadd_val _ _ Fa Ft) as [Vy Fy]. { apply small_1000, Rabs_le. lra. }
  fold y in Vy, Fy. split; [exact Fy|]. rewrite Vy. apply rnd64_ge; [|lra].
  replace (IZR x + / 256)%R with (IZR (x * 256 + 1) * bpow radix2 (-8))%R.
  - apply fmt64_dyadic; lia.
  - change (bpow radix2 (-8)) with (/ 256)%R. rewrite plus_IZR, mult_IZR. lra.
Qed.

Section Loop.
  Variables (inc : Z) (coeffs : list f32) (ch : Z).
  Hypothesis Ht : table_fit (inc, coeffs).
  Hypothesis Hch : 1 <= ch <= 128.
  Let W := Z.max (3 * full_len inc coeffs) 4096.

  (** [alive]: the end of input has not been seen yet when the call starts; otherwise the input is ignored. *)
  Variables (alive : Prop) (X : stream) (o n mo : Z) (d : SRC_DATA) (m0 : mem) (last new : f64) (p0 : position).
  Hypothesis Hn : 0 <= n.
  Hypothesis Hnc : n * ch <= 2 ^ 50.
  Hypothesis Hmo : 0 <= mo.
  Hypothesis Hmc : mo * ch <= 2 ^ 50.
  Hypothesis G1 : good_ratio last.
  Hypothesis G2 : good_ratio new.
  Hypothesis Hnew : src_ratio d = new.
  Hypothesis Hp0 : frac (snd p0).
  Hypothesis Hx0 : forall i k, i < 0 -> X i k = fzero.
  Hypothesis Hxe : alive -> end_of_input d <> 0 -> forall i k, o + n <= i -> X i k = fzero.
  Hypothesis Hin : alive -> holds m0 (data_in d) ch n X o.
  Hypothesis Hout : writable m0 (data_out d) ch mo.
  Hypothesis Hdis : disjoint_ranges (data_in d) (n * ch) (data_out d) (mo * ch).

  Definition hl : Z := hlen inc coeffs (dmin last new).
  Let h := hl.
  Let rho := sinc_ramp last new ch mo.
  Let pos (k : nat) : position := pos_at p0 rho k.
  Definition cur_ratio (k : nat) : f64 := match k with O => last | S j => sinc_ramp last new ch mo j end.

  Lemma ht_parts : table_ok (inc, coeffs) /\ 300 * zlen coeffs <= (1024 + inc) * (16 * inc - 1) /\ (512 * zlen coeffs) mod (2 * inc) <> inc /\ 4 * inc <= zlen coeffs.
  Proof. exact Ht. Qed.
  Lemma mn_good : good_ratio (dmin last new).
  Proof. now apply dmin_good. Qed.
  Lemma W_range : 4096 <= W <= 768006.
  Proof.
    destruct ht_parts as (T1 & T2 & T3). destruct (full_len_val inc coeffs T1) as (_ & B & _). unfold W. lia.
  Qed.
  Lemma h_range : 2 <= h /\ 3 * h <= W.
  Proof.
    destruct ht_parts as (T1 & T2 & T3). assert (A := hlen_full inc coeffs T1 (proj1 T3) _ mn_good).
    destruct (hlen_val inc coeffs T1 _ mn_good) as [_ B]. unfold W, h, hl. lia.
  Qed.

  Lemma rho_ok k : Z.of_nat k < mo ->
    ramp_ratio (lit_1em 10) last new (Z.of_nat k * ch) (mo * ch) (cur_ratio k) = rho k /\ good_ratio (rho k) /\ (val (dmin last new) <= val (rho k))%R.
  Proof.
    intros Hk. destruct (sinc_ramp_ok last new ch mo k (cur_ratio k) G1 G2) as (E & G & B); try assumption; try lia.
    { intros Q. destruct k; [reflexivity|]. cbn [cur_ratio]. unfold sinc_ramp. now rewrite Q. }
    split; [exact E|]. split; [exact G|]. destruct (dmin_good last new G1 G2) as (_ & _ & _ & ->). apply B.
  Qed.
  Lemma pos_frac k : Z.of_nat k <= mo -> frac (snd (pos k)).
  Proof.
    induction k as [|k IH]; intros H; [exact Hp0|]. unfold pos. cbn [pos_at]. apply move_ok; [apply IH; lia|apply rho_ok; lia].
  Qed.

  (** ** Invariant *)
  (** The value of output k; [dep k] frames before the position were available. *)
  Definition out_value (dep : nat -> Z) (k c : Z) : f32 :=
    sinc_sample inc coeffs (fun i => X i c) (dep (Z.to_nat k)) (pos (Z.to_nat k)) (rho (Z.to_nat k)).
  Definition written (m : mem) (dep : nat -> Z) (k : nat) : Prop := wrote m0 m (data_out d) ch (Z.of_nat k) (out_value dep).

  Lemma written_in m dep k : alive -> written m dep k -> Z.of_nat k <= mo -> holds m (data_in d) ch n X o.
  Proof.
    intros Al [A B] Hk i c Hi Hc. rewrite B. apply Hin; auto.
    assert (0 <= i * ch + c < n * ch) by nia.
    assert (Z.of_nat k * ch <= mo * ch) by nia.
    unfold disjoint_ranges in Hdis. lia.
  Qed.
  Lemma written_out m dep k : written m dep k -> Z.of_nat k <= mo -> writable m (data_out d) ch mo.
  Proof.
    intros [A B] Hk j Hj.
    destruct (Z_lt_ge_dec j (Z.of_nat k * ch)) as [L|L].
    - assert (D := Z_div_mod_eq_full j ch). assert (M := Z.mod_pos_bound j ch ltac:(lia)).
      assert (Q : 0 <= j / ch < Z.of_nat k).
      { split; [apply Z.div_pos; lia|]. apply Z.div_lt_upper_bound; lia. }
      replace j with (j / ch * ch + j mod ch) by lia. rewrite A by lia. discriminate.
    - rewrite B by lia. now apply Hout.
  Qed.
  Lemma written_step m m' dep c k : written m dep k -> Z.of_nat k < mo ->
    store_frame m m' (data_out d + Z.of_nat k * ch) ch (fun q => sinc_sample inc coeffs (fun i => X i q) c (pos k) (rho k)) ->
    written m' (fun j => if Nat.eqb j k then c else dep j) (S k).
  Proof.
    intros [A B] Hk [C D]. split.
    - intros j q Hj Hq. unfold out_value. destruct (Z.eq_dec j (Z.of_nat k)) as [->|N].
      + rewrite Z.add_assoc. rewrite C by lia. rewrite Nat2Z.id. now rewrite Nat.eqb_refl.
      + rewrite D by nia. rewrite A by lia. unfold out_value.
        destruct (Nat.eqb_spec (Z.to_nat j) k); [lia|reflexivity].
    - intros b Hb. rewrite D by nia. apply B. nia.
  Qed.

  (** State of the loop before output k. *)
  Record at_iter (k : nat) (base u : Z) (s : sinc_data) (ph : phase) (idx r : f64) (m : mem) (dep : nat -> Z) : Prop := {
    it_mid : mid inc coeffs ch W X o n base u s ph;
    it_out : s_out_count s = mo * ch;
    it_gen : s_out_gen s = Z.of_nat k * ch;
    it_k : Z.of_nat k <= mo;
    it_pos : pos k = (base + cur_of ph, idx);
    it_r : r = cur_ratio k;
    it_mem : written m dep k;
    it_alive : ~ closed ph -> alive;
    it_below : forall j, (j < k)%nat -> fst (pos j) < o + u
  }.

  (** Not nearly empty, unless near the start of the buffer. *)
  Definition lead (ph : phase) : Prop := match ph with Open c e => c <= h \/ h <= 2 * (e - c) | _ => True end.

  (** How the buffer may change during a call. *)
  Definition link (u : Z) (s : sinc_data) (ph : phase) (u' : Z) (s' : sinc_data) (ph' : phase) : Prop :=
    (forall g, g <= h -> deep g ph -> deep g ph') /\ (lead ph -> lead ph') /\ u <= u' /\
    match ph' with
    | Fresh => ph = Fresh
    | Open _ _ => ~ closed ph
    | Closed _ e' => (exists c, ph = Closed c e' /\ s_b_end s' = s_b_end s /\ u' = u) \/
                     (~ closed ph /\ end_of_input d <> 0 /\ u' = n /\ padded ch W s' e' h)
    end.
  Lemma link_refl u s ph : link u s ph u s ph.
  Proof. split; [auto|]. split; [auto|]. split; [lia|]. destruct ph; cbn [closed]; auto. left. eauto. Qed.
  Lemma link_trans u s ph u1 s1 ph1 u2 s2 ph2 : link u s ph u1 s1 ph1 -> link u1 s1 ph1 u2 s2 ph2 -> link u s ph u2 s2 ph2.
  Proof.
    intros (A1 & A0 & A2 & A3) (B1 & B0 & B2 & B3). split; [auto|]. split; [auto|]. split; [lia|].
    destruct ph2 as [|c2 e2|c2 e2].
    - rewrite B3 in A3. exact A3.
    - destruct ph1; cbn [closed] in *; [subst ph; tauto|exact A3|tauto].
    - destruct B3 as [(c & -> & B4 & B5)|(B3 & B4 & B5 & B6)].
      + destruct A3 as [(c' & -> & A4 & A5)|(A3 & A4 & A5 & A6)].
        * left. exists c'. split; [reflexivity|]. split; congruence.
        * right. split; [assumption|]. split; [assumption|]. split; [congruence|]. unfold padded in *. rewrite B4. exact A6.
      + right. split; [|auto]. destruct ph1; cbn [closed] in *; [subst ph; tauto|exact A3|tauto].
  Qed.

  (** What a call needs so that nothing is read outside the buffer. *)
  Definition end_safe (ph : phase) : Prop := end_of_input d <> 0 -> deep h ph \/ roomy W h.
  Definition right_safe (s : sinc_data) (ph : phase) : Prop :=
    ch = 1 \/ ((end_of_input d <> 0 -> closed ph \/ roomy W h) /\
               match ph with Closed _ e => ch * (e + h) <= s_b_end s | _ => True end).
  Definition safe (s : sinc_data) (ph : phase) : Prop := (closed ph \/ end_safe ph) /\ right_safe s ph.

  Lemma link_safe u s ph u' s' ph' : link u s ph u' s' ph' -> safe s ph -> safe s' ph'.
  Proof.
    intros (A1 & _ & A2 & A3) [B1 B2]. specialize (A1 h (Z.le_refl h)). split.
    - destruct ph' as [|c' e'|c' e']; cbn [closed] in *.
      + right. subst ph. destruct B1 as [[]|B1]. exact B1.
      + right. destruct B1 as [B1|B1]; [contradiction|]. intros Q. destruct (B1 Q); auto.
      + now left.
    - destruct B2 as [B2|[B2 B3]]; [now left|]. right.
      destruct ph' as [|c' e'|c' e']; cbn [closed] in *.
      + subst ph. auto.
      + split; [|exact I]. intros Q. destruct (B2 Q); [contradiction|auto].
      + split; [auto|]. destruct A3 as [(c & -> & A4 & A5)|(A3 & A4 & A5 & A6)].
        * rewrite A4. exact B3.
        * destruct (B2 A4) as [|R]; [contradiction|]. destruct A6 as [->|(_ & _ & A6)]; [lia|contradiction].
  Qed.

  (** ** Small steps *)
  Lemma tape_cells base s ph : tape inc coeffs ch W X base s ph ->
    0 <= s_b_current s <= s_b_end s /\ s_b_end s <= W * ch + 1 /\ s_b_len s = W * ch + 1 /\ W * ch <= 2 ^ 27 /\
    (s_b_current s = 0 -> s_b_end s = 0) /\ s_b_current s = ch * cur_of ph /\ 0 <= cur_of ph.
  Proof.
    intros (R & C & Ec & T). assert (HWr := W_range). destruct (capacity_bounds ch W Hch HWr) as (V1 & V2 & V3).
    assert (Ws := W_small ch W Hch HWr). rewrite (r_len _ _ _ _ _ R).
    destruct ph as [|c e|c e]; cbn [cur_of] in *.
    - destruct T as (_ & T & _). lia.
    - destruct T as (T1 & _ & T2 & T3 & T4). assert (S1 := sc ch Hch 1 c ltac:(lia)). assert (S2 := sc ch Hch c e ltac:(lia)).
      assert (S3 := sc ch Hch e _ T3). lia.
    - destruct T as (_ & T1 & T2 & T3 & T4). assert (S1 := sc ch Hch 1 c ltac:(lia)). lia.
  Qed.

  Lemma sih_ok base s ph : tape inc coeffs ch W X base s ph -> samples_in_hand s = Ok (s_b_end s - s_b_current s).
  Proof.
    intros T. destruct (tape_cells _ _ _ T) as (A1 & A2 & A3 & A4 & A5 & _). assert (HWr := W_range).
    assert (W * ch >= 4096) by nia.
    unfold samples_in_hand. rewrite int_ok by lia. cbn [bind]. rewrite int_ok by lia. cbn [bind].
    rewrite c_rem_ok by lia. rewrite A3. f_equal.
    replace (s_b_end s - s_b_current s + (W * ch + 1)) with (s_b_end s - s_b_current s + 1 * (W * ch + 1)) by ring.
    rewrite Z.mod_add by lia. apply Z.mod_small. lia.
  Qed.

  Lemma open_gap base s ph : tape inc coeffs ch W X base s ph -> ~ closed ph -> s_b_end s - s_b_current s = ch * (end_of ph - cur_of ph).
  Proof.
    intros (R & C & Ec & T) N. destruct ph as [|c e|c e]; cbn [cur_of end_of closed] in *; [lia|lia|tauto].
  Qed.

  (** Why the loop stops without the output being full. *)
  Definition starved (ph0 : phase) (u : Z) (s : sinc_data) (ph : phase) : Prop :=
    ~ closed ph /\ end_of ph - cur_of ph <= h /\
    (data_in d = 0 \/ (u = n /\ end_of_input d = 0) \/ 2 ^ 31 <= ch * n \/ (0 < u /\ (u < n \/ end_of_input d = 0) /\ (W <= 3 * h \/ (~ lead ph0 /\ W <= cur_of ph + 2 * h)))).
  Definition drained (s : sinc_data) (ph : phase) : Prop := closed ph /\ s_b_end s - s_b_current s <= ch * h.

  Definition reload (s : sinc_data) (err : Z) (m : mem) : outcome (sinc_data * Z * bool) :=
    do sih <- samples_in_hand s ;
    if sih <=? ch * h then
      do (e, s') <- prepare_data s ch d (ch * h) m ;
      if negb (e =? 0) then Ok (s', e, true)
      else do sih' <- samples_in_hand s' ; Ok (s', 0, sih' <=? ch * h)
    else Ok (s, err, false).

  Lemma reload_ok k base u s ph idx r m dep err : at_iter k base u s ph idx r m dep ->
    (exists f, reload s err m = Fault f /\ f <> F_fuel /\ ~ safe s ph) \/
    (exists base1 u1 s1 ph1 e1 stop, reload s err m = Ok (s1, e1, stop) /\
       at_iter k base1 u1 s1 ph1 idx r m dep /\ link u s ph u1 s1 ph1 /\
       if stop then (e1 = SRC_ERR_SINC_PREPARE_DATA_BAD_LEN /\ 2 ^ 31 <= ch * n /\ ~ closed ph1) \/
                    (e1 = 0 /\ (starved ph u1 s1 ph1 \/ drained s1 ph1))
       else (e1 = err \/ e1 = 0) /\ ch * h < s_b_end s1 - s_b_current s1).
  Proof.
    intros [Mid Oc Og Hk Hp Hr Hw Hal Hb]. assert (T := mi_tape _ _ _ _ _ _ _ _ _ _ _ Mid). destruct h_range as [Hh H3].
    unfold reload. rewrite (sih_ok _ _ _ T). cbn [bind].
    destruct (Z.leb_spec (s_b_end s - s_b_current s) (ch * h)) as [L|L].
    2: { right. exists base, u, s, ph, err, false. split; [reflexivity|]. split; [constructor; assumption|]. split; [apply link_refl|].
         split; [now left|exact L]. }
    assert (Dec : closed ph \/ ~ closed ph) by (destruct ph; cbn; tauto).
    destruct Dec as [Cl|Nc].
    { assert (E : prepare_data s ch d (ch * h) m = Ok (0, s)).
      { unfold prepare_data. destruct ph as [| |c e]; cbn [closed] in Cl; [tauto|tauto|]. destruct T as (_ & _ & _ & T1 & T2 & T3 & _).
        replace (0 <=? s_b_real_end s) with true; [reflexivity|]. symmetry. apply Z.leb_le. rewrite T1. nia. }
      rewrite E. cbn [bind]. cbn [Z.eqb negb]. rewrite (sih_ok _ _ _ T). cbn [bind].
      right. exists base, u, s, ph, 0, true. split; [now rewrite (proj2 (Z.leb_le _ _) L)|]. split; [constructor; assumption|].
      split; [apply link_refl|]. right. split; [reflexivity|]. right. split; assumption. }
    assert (Gap := open_gap _ _ _ T Nc). assert (Hd : end_of ph - cur_of ph <= h) by (apply (unsc ch Hch); lia).
    destruct (Z.eq_dec (data_in d) 0) as [D0|D0].
    { assert (E : prepare_data s ch d (ch * h) m = Ok (0, s)).
      { unfold prepare_data. rewrite D0. cbn [Z.eqb]. now destruct (0 <=? s_b_real_end s). }
      rewrite E. cbn [bind]. cbn [Z.eqb negb]. rewrite (sih_ok _ _ _ T). cbn [bind].
      right. exists base, u, s, ph, 0, true. split; [now rewrite (proj2 (Z.leb_le _ _) L)|]. split; [constructor; assumption|].
      split; [apply link_refl|]. right. split; [reflexivity|]. left. split; [assumption|]. split; [assumption|]. now left. }
    assert (Hu := mi_u _ _ _ _ _ _ _ _ _ _ _ Mid).
    destruct (prepare_ok inc coeffs ch W Hch W_range X o n d m h) with (base := base) (u := u) (s := s) (ph := ph)
      as [(s1 & b1 & c1 & e1 & E & B1 & M1 & P1 & P2 & P3 & Sc & PL)|
         [(s1 & b1 & u1 & c1 & e1 & E & M1 & P1 & P2 & P3 & Sc & PL & P4 & P5)|
         [(s1 & b1 & c1 & e1 & E & M1 & P1 & P2 & P3 & P4 & Sc & P5 & P6)|(P1 & P2 & P3 & E)]]];
      try assumption; try lia; try (eapply written_in; [exact (Hal Nc)|eassumption|assumption]); try exact (Hxe (Hal Nc)).
    - rewrite E. cbn [bind]. right. exists b1, u, s1, (Open c1 e1), SRC_ERR_SINC_PREPARE_DATA_BAD_LEN, true. split; [reflexivity|].
      destruct Sc as (Sc1 & Sc2 & Sc3). split; [|split].
      + constructor; try assumption; [congruence|congruence| |intros _; exact (Hal Nc)]. cbn [cur_of]. rewrite P1. exact Hp.
      + split; [exact P3|]. split; [|split; [lia|exact Nc]].
        assert (Me := mi_end _ _ _ _ _ _ _ _ _ _ _ Mid). assert (Me1 := mi_end _ _ _ _ _ _ _ _ _ _ _ M1). cbn [end_of] in Me1.
        intros Ld. cbn [lead]. destruct ph; cbn [lead cur_of end_of closed] in *; [lia|lia|tauto].
      + left. split; [reflexivity|]. split; [nia|]. cbn. tauto.
    - rewrite E. cbn [bind]. cbn [Z.eqb negb]. assert (T1 := mi_tape _ _ _ _ _ _ _ _ _ _ _ M1). rewrite (sih_ok _ _ _ T1). cbn [bind].
      right. exists b1, u1, s1, (Open c1 e1), 0, (s_b_end s1 - s_b_current s1 <=? ch * h). split; [reflexivity|].
      destruct Sc as (Sc1 & Sc2 & Sc3). split; [|split].
      + constructor; try assumption; [congruence|congruence| |intros _; exact (Hal Nc)|intros j Hj; specialize (Hb j Hj); lia]. cbn [cur_of]. rewrite P1. exact Hp.
      + split; [exact P3|]. split; [|split; [lia|exact Nc]].
        assert (Me := mi_end _ _ _ _ _ _ _ _ _ _ _ Mid). assert (Me1 := mi_end _ _ _ _ _ _ _ _ _ _ _ M1). cbn [end_of] in Me1.
        intros Ld. cbn [lead]. destruct ph; cbn [lead cur_of end_of closed] in *; [lia|lia|tauto].
      + destruct (Z.leb_spec (s_b_end s1 - s_b_current s1) (ch * h)) as [L1|L1]; [|split; [now right|exact L1]].
        right. split; [reflexivity|]. left. assert (N1 : ~ closed (Open c1 e1)) by (cbn; tauto). split; [exact N1|].
        assert (Gap1 := open_gap _ _ _ T1 N1). assert (Hd1 : end_of (Open c1 e1) - cur_of (Open c1 e1) <= h) by (apply (unsc ch Hch); lia).
        cbn [end_of cur_of] in *. split; [exact Hd1|].
        destruct P4 as [P4|[P4|(P4' & P4 & P6 & P7)]]; [right; right; left; nia| |].
        2: { right. right. right. split; [lia|]. split. { destruct (Z.eq_dec u1 n) as [Eu|Eu]; [right|left; assert (Hu1 := mi_u _ _ _ _ _ _ _ _ _ _ _ M1); lia].
               destruct (Z.eq_dec (end_of_input d) 0) as [Q|Q]; [exact Q|]. destruct P5. split; [exact Eu|]. split; [lia|exact Q]. }
             destruct (Z_le_gt_dec W (3 * h)) as [Q|Q]; [now left|right]. split; [|lia].
             destruct P7 as [P7|P7]; [exfalso; lia|]. destruct PL as [PL|[PL _]]; [exfalso; lia|].
             destruct ph; cbn [lead cur_of end_of closed] in *; [exfalso; lia|lia|tauto]. }
        destruct (Z.eq_dec (end_of_input d) 0); [tauto|]. destruct P5. split; [exact P4|]. split; [lia|assumption].
    - rewrite E. cbn [bind]. cbn [Z.eqb negb]. assert (T1 := mi_tape _ _ _ _ _ _ _ _ _ _ _ M1). rewrite (sih_ok _ _ _ T1). cbn [bind].
      right. exists b1, n, s1, (Closed c1 e1), 0, (s_b_end s1 - s_b_current s1 <=? ch * h). split; [reflexivity|].
      destruct Sc as (Sc1 & Sc2 & Sc3). split; [|split].
      + constructor; try assumption; [congruence|congruence| |intros _; exact (Hal Nc)|intros j Hj; specialize (Hb j Hj); lia]. cbn [cur_of]. rewrite P1. exact Hp.
      + split; [exact P4|]. split; [intros _; exact I|]. split; [lia|]. right. tauto.
      + destruct (Z.leb_spec (s_b_end s1 - s_b_current s1) (ch * h)) as [L1|L1]; [|split; [now right|exact L1]].
        right. split; [reflexivity|]. right. split; [exact I|exact L1].
    - left. exists F_oob. rewrite E. cbn [bind]. split; [reflexivity|]. split; [discriminate|]. intros [[Q|Q] _]; [contradiction|]. destruct (Q P3); contradiction.
  Qed.
  (** ** One output *)
  Let term := dadd (ddiv done_ last) (lit_1em 20).
  Variable mono : bool.
  Hypothesis Hmono : mono = true -> ch = 1.

  Lemma output_ok k base u s ph idx r m dep : at_iter k base u s ph idx r m dep -> Z.of_nat k < mo ->
    ch * h < s_b_end s - s_b_current s -> at_end mono s idx term = false ->
    let fi := table_step inc (rho k) in
    ph <> Fresh /\ cur_of ph < end_of ph /\
    ((exists f, calc_output mono s ch ch (double_to_fp fi) (double_to_fp (dmul idx fi)) (ddiv fi (d_of_Z inc)) = Fault f /\ f <> F_fuel /\ ~ safe s ph) \/
     calc_output mono s ch ch (double_to_fp fi) (double_to_fp (dmul idx fi)) (ddiv fi (d_of_Z inc)) =
       Ok (map (fun q => sinc_sample inc coeffs (fun i => X i (Z.of_nat q)) (cur_of ph) (pos k) (rho k)) (seq 0 (Z.to_nat ch)))).
  Proof.
    intros [Mid Oc Og Hk Hp Hr Hw Hal Hb] Hk2 Hs Hend fi. assert (T := mi_tape _ _ _ _ _ _ _ _ _ _ _ Mid). destruct h_range as [Hh H3].
    destruct ht_parts as (T1 & T2 & T3). destruct (tape_cells _ _ _ T) as (A1 & A2 & A3 & A4 & A5 & A6 & A7).
    destruct (rho_ok k Hk2) as (_ & Gr & Lr). assert (Fi := pos_frac k Hk). rewrite Hp in Fi. cbn [snd] in Fi.
    destruct (index_facts inc coeffs T1 (rho k) idx Gr Fi) as (E1 & E2 & B1 & B2 & _). cbv zeta in E1, E2, B1, B2. fold fi in E1, E2, B1, B2.
    change (Bmult mode_NE idx fi) with (dmul idx fi) in *.
    assert (RB := reach_bound inc coeffs T1 T2 (dmin last new) (rho k) idx 0 mn_good Gr Lr Fi ltac:(lia)).
    fold fi in RB. fold hl in RB. fold h in RB. rewrite Z.sub_0_r in RB.
    assert (NF : ph <> Fresh). { intros ->. destruct T as (_ & _ & T4 & _ & T5 & _). cbn [cur_of] in *. nia. }
    split; [exact NF|].
    assert (Cend : closed ph -> cur_of ph < end_of ph).
    { intros Cl. destruct ph as [| |c e']; cbn [closed] in Cl; [tauto|tauto|]. cbn [end_of cur_of] in *.
      destruct T as (_ & _ & _ & T4 & T5 & T6 & T7 & T8).
      unfold at_end in Hend. rewrite T4 in Hend. replace (0 <=? ch * e') with true in Hend by (symmetry; apply Z.leb_le; assert (Sc := sc ch Hch 0 e' ltac:(lia)); lia). cbn [andb] in Hend.
      rewrite A6 in Hend. destruct (end_point last (ch * c) idx G1 Fi) as [Fy Ly]; [lia|]. fold term in Fy, Ly.
      destruct (d_of_Z_val (ch * e')) as [Ve Fe]; [lia|].
      assert (Le : (IZR (ch * c) + / 256 <= IZR (ch * e'))%R).
      { destruct mono.
        - rewrite dgt_spec in Hend by assumption. rewrite Ve in Hend. destruct (Rlt_bool_spec (IZR (ch * e')) (val (dadd (dadd (d_of_Z (ch * c)) idx) term))); [discriminate|lra].
        - rewrite dge_spec in Hend by assumption. rewrite Ve in Hend. destruct (Rle_bool_spec (IZR (ch * e')) (val (dadd (dadd (d_of_Z (ch * c)) idx) term))); [discriminate|lra]. }
      assert (Lc : ch * c < ch * e') by (apply lt_IZR; lra). destruct (Z_lt_ge_dec c e') as [|Gc]; [assumption|]. assert (Sc := sc ch Hch e' c ltac:(lia)). lia. }
    split.
    { assert (Dec : closed ph \/ ~ closed ph) by (destruct ph; cbn; tauto). destruct Dec as [Cl|Nc]; [exact (Cend Cl)|].
      assert (Gp := open_gap _ _ _ T Nc). destruct (Z_lt_ge_dec (cur_of ph) (end_of ph)) as [|Gc]; [assumption|].
      assert (S2 := sc ch Hch (end_of ph - cur_of ph) 0 ltac:(lia)). lia. }
    rewrite E1, E2. set (II := fixed_point fi) in *. set (st := fixed_point (dmul idx fi)) in *.
    destruct T1 as (TA & TB & TC & TD). assert (R := proj1 T).
    set (c := cur_of ph) in *.
    assert (Hc0 : 0 <= c) by exact A7.
    assert (HII : 1 <= II <= (zlen coeffs - 2) * 4096) by lia.
    assert (Wb : W * ch + 1 <= 2 ^ 27) by (assert (W_r := W_range); nia).
    assert (HK : (zlen coeffs - 2) * 4096 / II <= 2 ^ 20).
    { assert (W_r := W_range). lia. }
    assert (LR : last_read coeffs c II st <= c + h).
    { destruct (last_range coeffs ch c II st Hch HII B1) as [_ LR]. lia. }
    destruct (calc_output_needs mono s coeffs ch c II st (ddiv fi (d_of_Z inc))) as [Hright|(f & Ef & Nf)];
      try assumption; try lia; try apply R.
    - right.
      rewrite (calc_output_ok mono s coeffs ch c II st) by (try assumption; try lia; try apply R; rewrite ?A3, ?(r_buf _ _ _ _ _ R); try lia).
      f_equal. apply map_ext_in. intros q Hq. apply in_seq in Hq.
      assert (Y : forall j, 0 <= j <= last_read coeffs c II st -> at_frame ch (s_buffer s) j (Z.of_nat q) = X (base + j) (Z.of_nat q)).
      { intros j Hj. unfold at_frame. change (nth (Z.to_nat (ch * j + Z.of_nat q)) (s_buffer s) fzero) with (cell s (ch * j + Z.of_nat q)).
        assert (Sj := sc ch Hch (j + 1) (last_read coeffs c II st + 1) ltac:(lia)). assert (Sj0 := sc ch Hch 0 j ltac:(lia)).
        rewrite (proj1 (proj2 T)) by lia. replace (ch * base + (ch * j + Z.of_nat q)) with (ch * (base + j) + Z.of_nat q) by ring.
        apply flat_frame; lia. }
      rewrite Hp. unfold sinc_sample. cbv zeta. cbn [fst snd]. fold fi. fold II.
      change (fixed_point (Bmult mode_NE idx fi)) with st.
      unfold last_read in Y, Hright.
      destruct (Z.eqb_spec st II) as [Q|Q]; (unfold dmul, dadd, ddiv; do 3 f_equal; apply weigh_ext; intros i Hi; (split; [reflexivity|rewrite Y; [f_equal; lia|]])).
      all: assert (0 <= (zlen coeffs - 2) * 4096 / II) by (apply Z.div_pos; lia);
        assert (0 <= ((zlen coeffs - 2) * 4096 + st) / II) by (apply Z.div_pos; lia); rewrite ?Z.add_0_r in *; lia.
    - left. exists f. split; [exact Ef|]. split; [exact Nf|]. intros [_ Sf].
      destruct (Z_le_gt_dec (ch * (last_read coeffs c II st + 1)) (s_b_end s)) as [G|G].
      { exfalso. rewrite (calc_output_ok mono s coeffs ch c II st) in Ef by (try assumption; try lia; try apply R; rewrite ?A3, ?(r_buf _ _ _ _ _ R); try lia). discriminate Ef. }
      assert (S1 := sc ch Hch _ _ LR).
      destruct Sf as [Sf|[_ Sf]].
      { rewrite Sf in *. lia. }
      destruct ph as [|c' e'|c' e']; [tauto| |].
      + assert (Gp := open_gap _ _ _ T ltac:(cbn; tauto)). cbn [end_of cur_of] in *. subst c.
        assert (h < e' - c'). { destruct (Z_lt_ge_dec h (e' - c')); [assumption|]. assert (S2 := sc ch Hch (e' - c') h ltac:(lia)). lia. }
        assert (S2 := sc ch Hch (h + 1) (e' - c') ltac:(lia)). lia.
      + specialize (Cend I). cbn [end_of] in Cend. assert (S2 := sc ch Hch (c + 1) e' ltac:(lia)). lia.
  Qed.

  (** Moving on. *)
  Lemma advance_step k base u s ph idx r m m' dep : at_iter k base u s ph idx r m dep -> Z.of_nat k < mo -> ph <> Fresh ->
    cur_of ph < end_of ph ->
    ch * h < s_b_end s - s_b_current s ->
    store_frame m m' (data_out d + Z.of_nat k * ch) ch (fun q => sinc_sample inc coeffs (fun i => X i q) (cur_of ph) (pos k) (rho k)) ->
    exists s2 ph2 idx2, sinc_advance (s_set_out_gen s (Z.of_nat k * ch + ch)) ch (next_index idx (rho k)) = Ok (s2, idx2) /\
      at_iter (S k) base u s2 ph2 idx2 (rho k) m' (fun j => if Nat.eqb j k then cur_of ph else dep j) /\ link u s ph u s2 ph2.
  Proof.
    intros [Mid Oc Og Hk Hp Hr Hw Hal Hb] Hk2 NF Hlt Hs Hst. assert (T := mi_tape _ _ _ _ _ _ _ _ _ _ _ Mid). destruct h_range as [Hh H3].
    destruct ht_parts as (T1 & T2 & T3). destruct (tape_cells _ _ _ T) as (A1 & A2 & A3 & A4 & A5 & A6 & A7).
    destruct (rho_ok k Hk2) as (_ & Gr & Lr). assert (Fi := pos_frac k Hk). rewrite Hp in Fi. cbn [snd] in Fi.
    assert (Sb := stride_bound inc coeffs T1 (dmin last new) (rho k) idx mn_good Gr Lr Fi). fold hl in Sb. fold h in Sb.
    destruct (move_ok (pos k) (rho k)) as (F2 & _ & _ & P2 & Em); [rewrite Hp; exact Fi|exact Gr|].
    rewrite Hp in P2, Em. cbn [fst snd] in P2, Em.
    assert (P3 : pos_le 2147483647 (next_index idx (rho k))).
    { destruct P2 as (Q1 & Q2 & Q3). split; [exact Q1|]. split; [exact Q2|]. lra. }
    destruct (split_ok _ P3) as (E1 & E2 & _ & E3 & _ & E4). set (a := Btrunc (next_index idx (rho k))) in *.
    rewrite <- E3 in Sb. assert (HWr := W_range).
    assert (S1 := sc ch Hch a h ltac:(lia)). assert (S2 := sc ch Hch 0 a ltac:(lia)).
    unfold sinc_advance. rewrite E2, E1. cbn [s_set_out_gen s_set_counts s_b_current s_b_len].
    rewrite int_ok by lia. cbn [bind]. rewrite A6. rewrite int_ok by lia. cbn [bind]. rewrite A3. rewrite c_rem_ok by lia. cbn [bind].
    rewrite Z.mod_small by lia.
    exists (s_set_current (s_set_out_gen s (Z.of_nat k * ch + ch)) (ch * cur_of ph + ch * a)).
    exists (match ph with Fresh => Fresh | Open c e => Open (c + a) e | Closed c e => Closed (c + a) e end), (fraction (next_index idx (rho k))).
    split; [reflexivity|].
    assert (Cc : forall q, contents ch X base s -> contents ch X base (s_set_current (s_set_out_gen s (Z.of_nat k * ch + ch)) q)) by (intros; assumption).
    assert (Rr : forall q, ring inc coeffs ch W s -> ring inc coeffs ch W (s_set_current (s_set_out_gen s (Z.of_nat k * ch + ch)) q)).
    { intros q [r1 r2 r3 r4 r5]. constructor; assumption. }
    assert (Mid2 : mid inc coeffs ch W X o n base u (s_set_current (s_set_out_gen s (Z.of_nat k * ch + ch)) (ch * cur_of ph + ch * a))
      (match ph with Fresh => Fresh | Open c e => Open (c + a) e | Closed c e => Closed (c + a) e end)).
    { destruct Mid as [_ M2 M3 M4 M5]. constructor.
      - destruct T as (Q1 & Q2 & Q3 & Q4). split; [now apply Rr|]. split; [now apply Cc|]. clear Rr Cc.
        destruct ph as [|c e|c e]; [tauto| |]; cbn [cur_of] in *; (split; [cbn [s_set_current s_b_current]; ring|]).
        + destruct Q4 as (Q5 & Q6 & Q7 & Q8 & Q10). split; [exact Q5|]. split; [exact Q6|]. split; [|split; [exact Q8|]].
          * split; [lia|]. apply (unsc ch Hch). lia.
          * apply (unsc ch Hch). lia.
        + destruct Q4 as (Q5 & Q6 & Q7 & Q8 & Q9). split; [exact Q5|]. split; [split; [lia|apply (unsc ch Hch); lia]|]. split; [exact Q7|].
          cbn [s_set_current s_set_out_gen s_set_counts s_b_end]. split; [lia|exact Q9].
      - exact M2.
      - exact M3.
      - exact M4.
      - destruct ph; [tauto| |]; exact M5. }
    split.
    - constructor.
      + exact Mid2.
      + exact Oc.
      + cbn [s_set_current s_set_out_gen s_set_counts s_out_gen]. lia.
      + lia.
      + unfold pos. cbn [pos_at]. fold (pos k). rewrite Hp. rewrite Em. f_equal. destruct ph; [tauto| |]; cbn [cur_of]; lia.
      + reflexivity.
      + apply written_step with (1 := Hw); assumption.
      + destruct ph; [tauto| |]; exact Hal.
      + intros j Hj. destruct (Nat.eq_dec j k) as [->|Nj]; [|apply Hb; lia]. rewrite Hp. cbn [fst].
        assert (Me := mi_end _ _ _ _ _ _ _ _ _ _ _ Mid). lia.
    - split; [|split; [|split; [lia|]]].
      + destruct ph; [tauto| |]; cbn [deep]; lia.
      + intros _. assert (Sh := stride_half inc coeffs T1 (dmin last new) (rho k) idx (proj2 T3) mn_good Gr Lr Fi). rewrite <- E3 in Sh. fold hl in Sh. fold h in Sh.
        destruct ph as [|c e|c e]; [tauto| |exact I]. cbn [lead]. right.
        assert (Gp := open_gap _ _ _ T ltac:(cbn; tauto)). cbn [end_of cur_of] in Gp.
        assert (h + 1 <= e - c). { destruct (Z_lt_ge_dec h (e - c)); [lia|]. assert (S3 := sc ch Hch (e - c) h ltac:(lia)). lia. }
        lia.
      + destruct ph as [|c e|c e]; [tauto| |]; cbn [closed]; [tauto|]. left. exists c. split; [reflexivity|]. split; reflexivity.
  Qed.

  (** ** The loop *)
  Definition finished (ph0 : phase) (e : Z) (k : nat) (u : Z) (s : sinc_data) (ph : phase) (idx : f64) : Prop :=
    (e = SRC_ERR_SINC_PREPARE_DATA_BAD_LEN /\ 2 ^ 31 <= ch * n /\ ~ closed ph) \/
    (e = 0 /\ (Z.of_nat k = mo \/ starved ph0 u s ph \/ drained s ph \/ (closed ph /\ at_end mono s idx term = true))).

  Lemma loop_unfold f s err idx r m :
    sinc_loop (S f) mono ch ch (ch * h) d last term s err idx r m =
    if s_out_gen s <? s_out_count s then
      do (s1, err1, stop) <- reload s err m ;
      if stop then Ok (err1, s1, err1, idx, r, m)
      else if at_end mono s1 idx term then Ok (0, s1, err1, idx, r, m)
      else
        let ratio' := ramp_ratio (lit_1em 10) last (src_ratio d) (s_out_gen s1) (s_out_count s1) r in
        let fi := dmul (d_of_Z (s_index_inc s1)) (if dlt ratio' done_ then ratio' else done_) in
        do out <- calc_output mono s1 ch ch (double_to_fp fi) (double_to_fp (dmul idx fi)) (ddiv fi (d_of_Z (s_index_inc s1))) ;
        do m' <- mwrite_list m (data_out d + s_out_gen s1) out ;
        do og <- long_op (s_out_gen s1 + ch) ;
        do (s2, idx') <- sinc_advance (s_set_out_gen s1 og) ch (next_index idx ratio') ;
        sinc_loop f mono ch ch (ch * h) d last term s2 err1 idx' ratio' m'
    else Ok (0, s, err, idx, r, m).
  Proof.
    cbn [sinc_loop]. destruct (s_out_gen s <? s_out_count s); [|reflexivity]. unfold reload. replace (if mono then ch else ch) with ch by (clear Hmono; destruct mono; reflexivity). destruct (samples_in_hand s); reflexivity.
  Qed.

  Lemma loop_ok : forall fuel k base u s ph idx r m dep err, at_iter k base u s ph idx r m dep ->
    mo * ch - Z.of_nat k * ch < Z.of_nat fuel ->
    (exists f, sinc_loop fuel mono ch ch (ch * h) d last term s err idx r m = Fault f /\ f <> F_fuel /\ ~ safe s ph) \/
    (exists e k' base' u' s' ph' err' idx' r' m' dep',
       sinc_loop fuel mono ch ch (ch * h) d last term s err idx r m = Ok (e, s', err', idx', r', m') /\
       at_iter k' base' u' s' ph' idx' r' m' dep' /\ link u s ph u' s' ph' /\ (k <= k')%nat /\
       (forall j, (j < k)%nat -> dep' j = dep j) /\
       (forall g, g <= h -> deep g ph -> forall j, (k <= j < k')%nat -> g <= dep' j) /\
       finished ph e k' u' s' ph' idx' /\ (e = 0 -> err' = err \/ err' = 0) /\ (e <> 0 -> err' = e)).
  Proof.
    induction fuel as [|fuel IH]; intros k base u s ph idx r m dep err It Hf.
    { assert (Hk := it_k _ _ _ _ _ _ _ _ _ It). nia. }
    rewrite loop_unfold. rewrite (it_gen _ _ _ _ _ _ _ _ _ It), (it_out _ _ _ _ _ _ _ _ _ It).
    destruct (Z.ltb_spec (Z.of_nat k * ch) (mo * ch)) as [Hlt|Hge].
    2: { right. exists 0, k, base, u, s, ph, err, idx, r, m, dep. split; [reflexivity|]. split; [exact It|]. split; [apply link_refl|].
         split; [lia|]. split; [auto|]. split; [intros; lia|]. split; [|split; [now left|congruence]].
         right. split; [reflexivity|]. left. assert (Hk := it_k _ _ _ _ _ _ _ _ _ It). nia. }
    assert (Hk2 : Z.of_nat k < mo) by nia.
    destruct (reload_ok k base u s ph idx r m dep err It) as [(f & E & Nf & Ns)|(b1 & u1 & s1 & ph1 & e1 & stop & E & It1 & Lk & Fin)].
    { left. exists f. rewrite E. split; [reflexivity|split; assumption]. }
    rewrite E. cbn [bind]. destruct stop.
    { right. exists e1, k, b1, u1, s1, ph1, e1, idx, r, m, dep. split; [reflexivity|]. split; [exact It1|]. split; [exact Lk|].
      split; [lia|]. split; [auto|]. split; [intros; lia|]. split; [|split; [now right|congruence]].
      destruct Fin as [Fin|(F1 & F2)]; [now left|]. right. split; [exact F1|]. tauto. }
    destruct Fin as [Ferr Fin].
    destruct (at_end mono s1 idx term) eqn:Hend.
    { right. exists 0, k, b1, u1, s1, ph1, e1, idx, r, m, dep. split; [reflexivity|]. split; [exact It1|]. split; [exact Lk|].
      split; [lia|]. split; [auto|]. split; [intros; lia|]. split; [|split; [intros _; exact Ferr|congruence]].
      right. split; [reflexivity|]. right. right. right. split; [|exact Hend].
      unfold at_end in Hend. apply andb_prop in Hend as [Hend _]. apply Z.leb_le in Hend.
      destruct (mi_tape _ _ _ _ _ _ _ _ _ _ _ (it_mid _ _ _ _ _ _ _ _ _ It1)) as (_ & _ & _ & T). destruct ph1; cbn [closed]; [lia|lia|exact I]. }
    rewrite (it_gen _ _ _ _ _ _ _ _ _ It1), (it_out _ _ _ _ _ _ _ _ _ It1), Hnew, (it_r _ _ _ _ _ _ _ _ _ It1).
    destruct (rho_ok k Hk2) as (Er & Gr & _). rewrite Er. cbv zeta.
    assert (Ei : s_index_inc s1 = inc). { apply (mi_tape _ _ _ _ _ _ _ _ _ _ _ (it_mid _ _ _ _ _ _ _ _ _ It1)). }
    rewrite Ei. change (dmul (d_of_Z inc) (if dlt (rho k) done_ then rho k else done_)) with (table_step inc (rho k)).
    destruct (output_ok k b1 u1 s1 ph1 idx r m dep It1 Hk2 Fin Hend) as (NF & Hce & Out). cbv zeta in Out.
    destruct Out as [(f & E2 & Nf & Ns)|E2].
    { left. exists f. rewrite E2. split; [reflexivity|]. split; [exact Nf|]. intros Sf. apply Ns. exact (link_safe _ _ _ _ _ _ Lk Sf). }
    rewrite E2. cbn [bind].
    destruct (mwrite_list_ok (fun q => sinc_sample inc coeffs (fun i => X i q) (cur_of ph1) (pos k) (rho k)) (Z.to_nat ch) 0
       (data_out d + Z.of_nat k * ch) m) as (m' & Em & M1 & M2).
    { intros j Hj. rewrite <- Z.add_assoc. apply (written_out _ _ _ (it_mem _ _ _ _ _ _ _ _ _ It1)); [lia|]. nia. }
    rewrite Em. cbn [bind]. rewrite Z2Nat.id in M1, M2 by lia.
    rewrite long_ok by nia. cbn [bind].
    destruct (advance_step k b1 u1 s1 ph1 idx r m m' dep It1 Hk2 NF Hce Fin) as (s2 & ph2 & idx2 & E3 & It2 & Lk2).
    { split; [intros q Hq; rewrite M1 by lia; do 2 f_equal; lia|exact M2]. }
    rewrite E3. cbn [bind].
    assert (Lk3 := link_trans _ _ _ _ _ _ _ _ _ Lk Lk2).
    destruct (IH (S k) b1 u1 s2 ph2 idx2 (rho k) m' _ e1 It2) as [(f & E4 & Nf & Ns)|
      (e & k' & b' & u' & s' & ph' & err' & idx' & r' & m'' & dep' & E4 & It3 & Lk4 & Q1 & Q2 & Q3 & Q4 & Q5 & Q6)].
    { rewrite Nat2Z.inj_succ. nia. }
    - left. exists f. split; [exact E4|]. split; [exact Nf|]. intros Sf. apply Ns. exact (link_safe _ _ _ _ _ _ Lk3 Sf).
    - right. exists e, k', b', u', s', ph', err', idx', r', m'', dep'. split; [exact E4|]. split; [exact It3|].
      split; [exact (link_trans _ _ _ _ _ _ _ _ _ Lk3 Lk4)|]. split; [lia|]. split; [|split; [|split; [|split; [|exact Q6]]]].
      + intros j Hj. rewrite Q2 by lia. destruct (Nat.eqb_spec j k); [lia|reflexivity].
      + intros g Hg Dp j Hj. destruct (Nat.eq_dec j k) as [->|Nj].
        * rewrite Q2 by lia. rewrite Nat.eqb_refl. destruct Lk as (Lk & _). specialize (Lk g Hg Dp). destruct ph1; [tauto| |]; exact Lk.
        * apply Q3; [exact Hg| |lia]. now apply Lk3.
      + destruct Q4 as [Q4|(Q4 & Q7)]; [now left|]. right. split; [exact Q4|]. destruct Q7 as [Q7|[Q7|Q7]]; [now left| |right; right; exact Q7].
        right. left. destruct Q7 as (Q7 & Q8 & Q9). split; [exact Q7|]. split; [exact Q8|].
        assert (Lw : lead ph -> lead ph2) by apply Lk3. clear - Q9 Lw. tauto.
      + intros Z0. destruct (Q5 Z0) as [Q7 | Q7]; rewrite Q7; [exact Ferr|now right].
  Qed.
End Loop.
