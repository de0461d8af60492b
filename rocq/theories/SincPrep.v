(** The ring buffer of the sinc converters: what it holds, and prepare_data. *)
From Coq Require Import ZArith List Bool Lia.
From Flocq Require Import Core IEEE754.BinarySingleNaN.
From Verif Require Import Base FloatFacts Types Common Sinc HoldSpec HoldCore HoldStream HeapFacts SincSpec SincCalc.
Import ListNotations.
Local Open Scope Z_scope.

(** ** Lists indexed by Z *)
Definition cellof (l : list f32) (i : Z) : f32 := nth (Z.to_nat i) l fzero.

Lemma blit_spec (l src : list f32) off : 0 <= off -> off + zlen src <= zlen l ->
  exists l', blit l off src = Ok l' /\ zlen l' = zlen l /\
    forall i, 0 <= i -> cellof l' i = if (off <=? i) && (i <? off + zlen src) then cellof src (i - off) else cellof l i.
Proof.
  intros Ho Hl. rewrite blit_ok by assumption. eexists. split; [reflexivity|]. unfold zlen in *.
  assert (Lf : length (firstn (Z.to_nat off) l) = Z.to_nat off) by (rewrite firstn_length; lia).
  split.
  - rewrite !app_length, skipn_length, Lf. lia.
  - intros i Hi. unfold cellof. destruct (Z.leb_spec off i); cbn [andb].
    + rewrite app_nth2 by lia. rewrite Lf. destruct (Z.ltb_spec i (off + Z.of_nat (length src))).
      * rewrite app_nth1 by lia. f_equal. lia.
      * rewrite app_nth2 by lia. rewrite <- (firstn_skipn (Z.to_nat off + length src) l) at 2.
        rewrite app_nth2; rewrite firstn_length; [|lia]. f_equal. lia.
    + rewrite app_nth1 by lia. rewrite <- (firstn_skipn (Z.to_nat off) l) at 2. rewrite app_nth1 by lia. reflexivity.
Qed.

Lemma slice_spec (l : list f32) off n : 0 <= off -> 0 <= n -> off + n <= zlen l ->
  exists l', slice l off n = Ok l' /\ zlen l' = n /\ forall i, 0 <= i < n -> cellof l' i = cellof l (off + i).
Proof.
  intros Ho Hn Hl. unfold slice. unfold zlen in *.
  replace ((off <? 0) || (n <? 0) || (Z.of_nat (length l) <? off + n)) with false.
  2: { symmetry. repeat (apply orb_false_intro); apply Z.ltb_ge; lia. }
  eexists. split; [reflexivity|]. split.
  - rewrite firstn_length, skipn_length. lia.
  - intros i Hi. unfold cellof.
    assert (E : forall (a : list f32) k j, (j < k)%nat -> nth j (firstn k a) fzero = nth j a fzero).
    { induction a as [|x a IH]; intros k j Hj; [now rewrite firstn_nil|]. destruct k; [lia|]. destruct j; cbn; [reflexivity|]. apply IH. lia. }
    rewrite E by lia. rewrite <- (firstn_skipn (Z.to_nat off) l) at 2.
    rewrite app_nth2; rewrite firstn_length; [|lia]. f_equal. lia.
Qed.

Lemma wrap_int_small z : 0 <= z < 2 ^ 31 -> wrap_int z = z.
Proof. intros H. unfold wrap_int. rewrite Z.mod_small by lia. lia. Qed.
Lemma wrap_int_le z : 0 <= z -> wrap_int z <= z /\ - 2 ^ 31 <= wrap_int z < 2 ^ 31.
Proof.
  intros H. unfold wrap_int. assert (A := Z.mod_pos_bound (z + 2 ^ 31) (2 ^ 32) ltac:(lia)).
  assert (B := Z.mod_le (z + 2 ^ 31) (2 ^ 32) ltac:(lia) ltac:(lia)). lia.
Qed.

(** ** The ring buffer *)
(** Facts the arithmetic procedures should not look at. *)
Definition hide (P : Prop) : Prop := P.
Lemma to_hide (P : Prop) : P -> hide P.
Proof. auto. Qed.

Section Ring.
  Variables (inc : Z) (coeffs : list f32) (ch W : Z).
  Hypothesis Hch : 1 <= ch <= 128.
  Hypothesis HW : 4096 <= W <= 768006.

  (** Capacity in whole frames: there is one sample more than W frames. *)
  Definition capacity : Z := (W * ch + 1) / ch.
  Lemma capacity_bounds : W <= capacity <= W + 1 /\ ch * capacity <= W * ch + 1 /\ W * ch + 1 < ch * capacity + ch.
  Proof.
    unfold capacity. assert (A := Z.div_mod (W * ch + 1) ch ltac:(lia)). assert (B := Z.mod_pos_bound (W * ch + 1) ch ltac:(lia)).
    split; [|lia]. split; [apply Z.div_le_lower_bound; lia|]. apply Z.lt_succ_r. apply Z.div_lt_upper_bound; lia.
  Qed.
  Lemma room_frames a : (ch * (W - a) + 1) / ch = capacity - a.
  Proof.
    unfold capacity. replace (ch * (W - a) + 1) with (1 + (W - a) * ch) by ring. replace (W * ch + 1) with (1 + W * ch) by ring.
    rewrite !Z.div_add by lia. ring.
  Qed.

  Lemma sc a b : a <= b -> ch * a <= ch * b.
  Proof. intros. apply Z.mul_le_mono_nonneg_l; lia. Qed.
  Lemma unsc a b : ch * a < ch * b + ch -> a <= b.
  Proof. intros H. destruct (Z_le_gt_dec a b) as [|G]; [assumption|]. assert (S := sc (b + 1) a). lia. Qed.
  Lemma W_small : 4096 <= W * ch <= 2 ^ 27.
  Proof. nia. Qed.

  Record ring (s : sinc_data) : Prop := {
    r_half : s_coeff_half_len s = zlen coeffs - 2;
    r_inc : s_index_inc s = inc;
    r_coeffs : s_coeffs s = coeffs;
    r_len : s_b_len s = W * ch + 1;
    r_buf : zlen (s_buffer s) = W * ch + 1 + ch
  }.

  Definition cell (s : sinc_data) (i : Z) : f32 := cellof (s_buffer s) i.
  (** Sample i of an interleaved stream. *)
  Definition flat (X : stream) (i : Z) : f32 := X (i / ch) (i mod ch).
  Lemma flat_frame X j k : 0 <= k < ch -> flat X (ch * j + k) = X j k.
  Proof.
    intros H. unfold flat. replace (ch * j + k) with (k + j * ch) by ring.
    rewrite Z.div_add, Z.mod_add, Z.div_small, Z.mod_small by lia. f_equal.
  Qed.

  (** What the buffer is in: not used yet; input still arriving (current frame c, e frames filled); end of input seen
      (e real frames, zeros after them). *)
  Inductive phase := Fresh | Open (c e : Z) | Closed (c e : Z).
  Definition cur_of (ph : phase) : Z := match ph with Fresh => 0 | Open c _ | Closed c _ => c end.
  Definition end_of (ph : phase) : Z := match ph with Fresh => 0 | Open _ e | Closed _ e => e end.

  Definition contents (X : stream) (base : Z) (s : sinc_data) : Prop :=
    forall i, 0 <= i < s_b_end s -> cell s i = flat X (ch * base + i).

  Definition tape (X : stream) (base : Z) (s : sinc_data) (ph : phase) : Prop :=
    ring s /\ contents X base s /\ s_b_current s = ch * cur_of ph /\
    match ph with
    | Fresh => base = 0 /\ s_b_end s = 0 /\ s_b_real_end s = -1 /\ forall i, 0 <= i < W * ch + 1 -> cell s i = fzero
    | Open c e => s_b_end s = ch * e /\ s_b_real_end s = -1 /\ 1 <= c <= e /\ e <= capacity /\ c <= W
    | Closed c e => s_b_real_end s = ch * e /\ 1 <= c <= W /\ 1 <= e /\ ch * c <= s_b_end s /\ ch * e <= s_b_end s <= W * ch + 1
    end.

  (** The call counters, which buffer operations leave alone (except in_used). *)
  Definition same_counts (s s' : sinc_data) : Prop :=
    s_in_count s' = s_in_count s /\ s_out_count s' = s_out_count s /\ s_out_gen s' = s_out_gen s.

  Lemma int128 z : - 2 ^ 30 <= z <= 2 ^ 30 -> int_op z = Ok z.
  Proof. intros. apply int_ok. lia. Qed.

  Lemma move_down_ok X base s c e h : tape X base s (Open c e) -> 1 <= h <= c ->
    exists s', move_down s (ch * h) = Ok s' /\ tape X (base + (c - h)) s' (Open h (h + (e - c))) /\
      same_counts s s' /\ s_in_used s' = s_in_used s.
  Proof.
    intros (R & C & Ec & Ee & Er & Hc & He & HcW) Hh. cbn [cur_of] in Ec. destruct capacity_bounds as (V1 & V2 & V3).
    destruct R as [R1 R2 R3 R4 R5].
    unfold move_down. rewrite Ee, Ec.
    assert (Ws := W_small). assert (Q1 := sc e capacity). assert (Q2 := sc c e). assert (Q3 := sc h c). assert (Q4 := sc 1 h).
    rewrite int_ok by lia. cbn [bind]. rewrite int_ok by lia. cbn [bind].
    destruct (slice_spec (s_buffer s) (ch * c - ch * h) (ch * h + (ch * e - ch * c))) as (part & -> & Lp & Np); [lia|lia|lia|].
    cbn [bind].
    destruct (blit_spec (s_buffer s) part 0) as (buf & -> & Lb & Nb); [lia|lia|]. cbn [bind].
    eexists. split; [reflexivity|]. split; [|split; [repeat split|reflexivity]].
    unfold tape. split; [|split; [|split; [reflexivity|]]].
    - constructor; cbn [s_set_buf s_coeff_half_len s_index_inc s_coeffs s_b_len s_buffer]; auto. now rewrite Lb.
    - intros i Hi. cbn [s_set_buf s_b_end s_buffer] in Hi |- *. unfold cell. cbn [s_set_buf s_buffer]. rewrite Nb by lia.
      replace ((0 <=? i) && (i <? 0 + zlen part)) with true by (symmetry; apply andb_true_intro; split; [apply Z.leb_le|apply Z.ltb_lt]; lia).
      rewrite Z.sub_0_r, Np by lia. fold (cell s (ch * c - ch * h + i)). rewrite C by lia. f_equal. ring.
    - cbn [s_set_buf s_b_end s_b_real_end]. repeat split; try lia.
  Qed.

  Lemma prepare_room_ok X base s c e h : tape X base s (Open c e) -> e - c <= h -> 1 <= h -> 3 * h <= W ->
    exists s1 base1 c1 e1, prepare_room s ch (ch * h) = Ok (s1, ch * (W - c1 - h) + 1) /\
      tape X base1 s1 (Open c1 e1) /\ base1 + c1 = base + c /\ base1 + e1 = base + e /\ (forall g, g <= h -> g <= c -> g <= c1) /\
      c1 + h <= W /\ (c1 = h \/ (c1 = c /\ base1 = base /\ e + h + 1 <= W)) /\ same_counts s s1 /\ s_in_used s1 = s_in_used s.
  Proof.
    intros T Hd Hh H3. assert (T' := T). destruct T as (R & C & Ec & Ee & Er & Hc & He & HcW). cbn [cur_of] in Ec.
    destruct capacity_bounds as (V1 & V2 & V3).
    unfold prepare_room. rewrite Ec. replace (ch * c =? 0) with false by (symmetry; apply Z.eqb_neq; assert (S := sc 1 c); lia).
    rewrite Ee. assert (Ws := W_small).
    assert (S1 := sc e capacity). assert (S2 := sc c e). assert (S3 := sc 1 c). assert (S4 := sc (3 * h) W). assert (S5 := sc 1 h). assert (Hlen := r_len s R).
    rewrite int_ok by lia. cbn [bind]. rewrite int_ok by lia. cbn [bind]. rewrite Hlen.
    destruct (Z.ltb_spec (ch * e + ch * h + ch) (W * ch + 1)) as [L|L].
    - assert (e + h + 1 <= W) by (apply unsc; lia). assert (S6 := sc (c + h + 1) W). rewrite int_ok by lia. cbn [bind].
      exists s, base, c, e. rewrite Z.max_l by lia. split; [f_equal; f_equal; ring|].
      repeat (split; [first [assumption|lia|right; repeat split; assumption]|]). split; [repeat split|reflexivity].
    - assert (W <= e + h) by (destruct (Z_le_gt_dec W (e + h)); [assumption|]; assert (S6 := sc (e + h + 1) W); lia).
      destruct (move_down_ok X base s c e h T') as (s1 & -> & T1 & Sm & U1); [lia|]. cbn [bind].
      assert (Hlen1 := r_len s1 (proj1 T1)). assert (Ec1 := proj1 (proj2 (proj2 T1))). cbn [cur_of] in Ec1.
      rewrite Hlen1, Ec1. rewrite int_ok by lia. cbn [bind].
      exists s1, (base + (c - h)), h, (h + (e - c)). rewrite Z.max_l by lia. split; [f_equal; f_equal; ring|].
      split; [exact T1|]. split; [lia|]. split; [lia|]. split; [lia|]. split; [lia|]. split; [now left|]. split; assumption.
  Qed.

  Lemma prepare_room_fresh X s h : tape X 0 s Fresh -> 1 <= h -> 3 * h <= W -> (forall i k, i < 0 -> X i k = fzero) ->
    exists s1, prepare_room s ch (ch * h) = Ok (s1, ch * (W - h - h) + 1) /\
      tape X (- h) s1 (Open h h) /\ same_counts s s1 /\ s_in_used s1 = s_in_used s.
  Proof.
    intros (R & C & Ec & _ & Ee & Er & Hz) Hh H3 Hx. cbn [cur_of] in Ec. rewrite Z.mul_0_r in Ec.
    destruct capacity_bounds as (V1 & V2 & V3).
    unfold prepare_room. rewrite Ec. cbn [Z.eqb]. assert (B2 : 0 <= ch * h <= 2 ^ 28) by nia. assert (Ws := W_small).
    rewrite int_ok by lia. cbn [bind]. rewrite (r_len s R). rewrite int_ok by lia. cbn [bind].
    eexists. split; [f_equal; f_equal; ring|]. split; [|split; [repeat split|reflexivity]].
    destruct R as [R1 R2 R3 R4 R5].
    unfold tape. split; [|split; [|split; [reflexivity|]]].
    - constructor; cbn [s_set_buf s_coeff_half_len s_index_inc s_coeffs s_b_len s_buffer]; auto.
    - intros i Hi. cbn [s_set_buf s_b_end s_buffer] in Hi |- *. unfold cell in *. cbn [s_set_buf s_buffer]. rewrite Hz by nia.
      unfold flat. rewrite Hx; [reflexivity|]. apply Z.div_lt_upper_bound; nia.
    - cbn [s_set_buf s_b_end s_b_real_end]. repeat split; try lia.
  Qed.

  (** Room for the zeros at the end without moving data that is not there. *)
  Definition roomy (h : Z) : Prop := 4 * h + 3 <= W.

  (** Padding after e frames: h frames and 5 samples of zeros, or as many as fit. *)
  Definition padded (s : sinc_data) (e h : Z) : Prop :=
    s_b_end s = ch * e + ch * h + 5 \/ (s_b_end s = W * ch + 1 /\ W * ch + 1 < ch * e + ch * h + 5 /\ ~ roomy h).

  Lemma prepare_end_ok X base s c e h : tape X base s (Open c e) -> e - c < 2 * h -> 1 <= h -> 3 * h <= W ->
    (forall i k, base + e <= i -> X i k = fzero) -> h <= c \/ roomy h \/ ch * e + ch * h + 5 <= W * ch + 1 ->
    exists s1 base1 c1 e1, prepare_end s (ch * h) = Ok s1 /\ tape X base1 s1 (Closed c1 e1) /\
      base1 + c1 = base + c /\ base1 + e1 = base + e /\ (forall g, g <= h -> g <= c -> g <= c1) /\ padded s1 e1 h /\ c1 <= e1 /\
      same_counts s s1 /\ s_in_used s1 = s_in_used s.
  Proof.
    intros T Hd Hh H3 Hx Hr. assert (T' := T). destruct T as (R & C & Ec & Ee & Er & Hc & He & HcW). cbn [cur_of] in Ec.
    destruct capacity_bounds as (V1 & V2 & V3).
    unfold prepare_end. rewrite (r_len s R), Ee.
    assert (Ws := W_small). assert (S1 := sc e capacity). assert (S3 := sc 1 e). assert (S4 := sc (3 * h) W). assert (S5 := sc 1 h).
    rewrite int_ok by lia. cbn [bind]. rewrite int_ok by lia. cbn [bind].
    assert (Hm : exists s1 base1 c1 e1, (if W * ch + 1 - ch * e <? ch * h + 5 then move_down s (ch * h) else Ok s) = Ok s1 /\
      tape X base1 s1 (Open c1 e1) /\ base1 + c1 = base + c /\ base1 + e1 = base + e /\ (forall g, g <= h -> g <= c -> g <= c1) /\
      same_counts s s1 /\ s_in_used s1 = s_in_used s /\
      (ch * e1 + ch * h + 5 <= W * ch + 1 \/ ~ roomy h)).
    { destruct (Z.ltb_spec (W * ch + 1 - ch * e) (ch * h + 5)) as [L|L].
      - assert (h <= c).
        { destruct Hr as [Hr|[Hr|Hr]]; [exact Hr| |lia]. unfold roomy in Hr. assert (W * ch + 1 <= ch * e + ch * h + 4) by lia.
          destruct (Z_le_gt_dec h c) as [|G]; [assumption|exfalso]. assert (Q1 := sc e (3 * h - 2)). assert (Q2 := sc (4 * h + 3) W). lia. }
        destruct (move_down_ok X base s c e h T') as (s1 & E1 & T1 & Sm & U1); [lia|].
        exists s1, (base + (c - h)), h, (h + (e - c)). split; [exact E1|]. split; [exact T1|]. split; [lia|]. split; [lia|]. split; [lia|].
        split; [exact Sm|]. split; [exact U1|].
        destruct (Z_le_gt_dec (ch * (h + (e - c)) + ch * h + 5) (W * ch + 1)) as [|G]; [left; assumption|right].
        unfold roomy. intros Q. assert (Q1 := sc (e - c) (2 * h - 1)). assert (Q2 := sc (4 * h + 3) W). lia.
      - exists s, base, c, e. repeat (split; [first [assumption|lia|reflexivity]|]). split; [repeat split|]. split; [reflexivity|]. left. lia. }
    destruct Hm as (s1 & base1 & c1 & e1 & -> & T1 & P1 & P2 & P3 & Sm & U1 & Fit). cbn [bind].
    destruct T1 as (R1 & C1 & Ec1 & Ee1 & Er1 & Hc1 & He1 & HcW1). cbn [cur_of] in Ec1.
    assert (Q1 := sc e1 capacity). assert (Q2 := sc 1 e1). assert (Q3 := sc c1 e1).
    rewrite Ee1. rewrite int_ok by lia. cbn [bind]. rewrite (r_len s1 R1).
    replace (ch * h + 5 <? 0) with false by (symmetry; apply Z.ltb_ge; lia). cbn [orb].
    set (len := if W * ch + 1 <? ch * e1 + (ch * h + 5) then W * ch + 1 - ch * e1 else ch * h + 5).
    assert (Hl : 0 <= len /\ ch * e1 + len <= W * ch + 1 /\
      (len = ch * h + 5 \/ (len = W * ch + 1 - ch * e1 /\ W * ch + 1 < ch * e1 + ch * h + 5 /\ ~ roomy h))).
    { unfold len. destruct (Z.ltb_spec (W * ch + 1) (ch * e1 + (ch * h + 5))) as [L|L]; [|lia].
      split; [lia|]. split; [lia|]. right. split; [reflexivity|]. split; [lia|]. destruct Fit; [lia|assumption]. }
    clearbody len. destruct Hl as (Hl0 & Hl1 & Hl2).
    replace (len <? 0) with false by (symmetry; apply Z.ltb_ge; lia).
    destruct (blit_spec (s_buffer s1) (repeat fzero (Z.to_nat len)) (ch * e1)) as (buf & -> & Lb & Nb).
    { lia. }
    { rewrite zlen_repeat by lia. rewrite (r_buf s1 R1). lia. }
    cbn [bind]. rewrite int_ok by lia. cbn [bind].
    eexists _, base1, c1, e1. split; [reflexivity|]. split; [|split; [exact P1|split; [exact P2|split; [exact P3|split; [|split; [lia|split; [|exact U1]]]]]]].
    - unfold tape. split; [|split; [|split; [exact Ec1|]]].
      + destruct R1. constructor; cbn [s_set_buf s_coeff_half_len s_index_inc s_coeffs s_b_len s_buffer]; auto. now rewrite Lb.
      + intros i Hi. cbn [s_set_buf s_b_end s_buffer] in Hi |- *. unfold cell. cbn [s_set_buf s_buffer]. rewrite Nb by lia.
        rewrite zlen_repeat by lia.
        destruct (Z.leb_spec (ch * e1) i) as [L|L]; cbn [andb].
        * replace (i <? ch * e1 + len) with true by (symmetry; apply Z.ltb_lt; lia).
          unfold cellof. rewrite nth_repeat. unfold flat. rewrite Hx; [reflexivity|].
          rewrite <- P2. apply Z.div_le_lower_bound; nia.
        * fold (cell s1 i). apply C1. lia.
      + cbn [s_set_buf s_b_end s_b_real_end]. repeat split; try lia.
    - unfold padded. cbn [s_set_buf s_b_end]. destruct Hl2 as [->|(-> & A1 & A2)]; [left; ring|right]. split; [ring|]. split; assumption.
    - destruct Sm as (a & b & c0). repeat split; assumption.
  Qed.

  Lemma prepare_end_fault s c e h : ring s -> s_b_current s = ch * c -> s_b_end s = ch * e -> 0 <= c <= e -> e <= capacity -> 1 <= h ->
    3 * h <= W -> c < h -> W * ch + 1 < ch * e + ch * h + 5 -> prepare_end s (ch * h) = Fault F_oob.
  Proof.
    intros R Ec Ee Hc He Hh H3 Lt Full. destruct capacity_bounds as (V1 & V2 & V3).
    assert (Ws := W_small). assert (S1 := sc e capacity). assert (S3 := sc 0 c). assert (S4 := sc (3 * h) W). assert (S5 := sc 1 h). assert (S6 := sc c e).
    assert (S7 := sc (c + 1) h).
    unfold prepare_end. rewrite (r_len s R), Ee. rewrite int_ok by lia. cbn [bind]. rewrite int_ok by lia. cbn [bind].
    replace (W * ch + 1 - ch * e <? ch * h + 5) with true by (symmetry; apply Z.ltb_lt; lia).
    unfold move_down. rewrite Ee, Ec. rewrite int_ok by lia. cbn [bind]. rewrite int_ok by lia. cbn [bind].
    unfold slice. replace (ch * c - ch * h <? 0) with true by (symmetry; apply Z.ltb_lt; lia). reflexivity.
  Qed.

  (** ** prepare_data *)
  Definition closed (ph : phase) : Prop := match ph with Closed _ _ => True | _ => False end.
  Definition deep (h : Z) (ph : phase) : Prop := match ph with Fresh => True | Open c _ | Closed c _ => h <= c end.

  Section Prepare.
    Variables (X : stream) (o n : Z) (d : SRC_DATA) (m : mem) (h : Z).
    Hypothesis Hh : 1 <= h.
    Hypothesis H3 : 3 * h <= W.
    Hypothesis Hn : 0 <= n.
    Hypothesis Hnc : n * ch <= 2 ^ 50.
    Hypothesis Hx0 : forall i k, i < 0 -> X i k = fzero.
    Hypothesis Hxe : end_of_input d <> 0 -> forall i k, o + n <= i -> X i k = fzero.
    Hypothesis Hm : holds m (data_in d) ch n X o.

    (** The state of the buffer in mid-call: u frames of the block taken. *)
    Record mid (base u : Z) (s : sinc_data) (ph : phase) : Prop := {
      mi_tape : tape X base s ph;
      mi_count : s_in_count s = ch * n;
      mi_used : s_in_used s = ch * u;
      mi_u : 0 <= u <= n;
      mi_end : base + end_of ph = o + u
    }.

    Lemma prepare_ok base u s ph : mid base u s ph -> ~ closed ph -> end_of ph - cur_of ph <= h -> data_in d <> 0 ->
      (exists s1 base1 c1 e1, prepare_data s ch d (ch * h) m = Ok (SRC_ERR_SINC_PREPARE_DATA_BAD_LEN, s1) /\
         2 ^ 31 <= ch * (n - u) /\ mid base1 u s1 (Open c1 e1) /\ base1 + c1 = base + cur_of ph /\ e1 - c1 <= h /\
         (forall g, g <= h -> deep g ph -> g <= c1) /\ same_counts s s1 /\ (c1 = h \/ (c1 = cur_of ph /\ base1 = base))) \/
      (exists s1 base1 u1 c1 e1, prepare_data s ch d (ch * h) m = Ok (0, s1) /\
         mid base1 u1 s1 (Open c1 e1) /\ base1 + c1 = base + cur_of ph /\ u <= u1 /\ (forall g, g <= h -> deep g ph -> g <= c1) /\ same_counts s s1 /\
         (c1 = h \/ (c1 = cur_of ph /\ base1 = base)) /\
         (2 ^ 31 <= ch * (n - u) \/ u1 = n \/
          (u < u1 /\ W - c1 - h <= e1 - c1 /\ c1 + h <= W /\ (c1 = h \/ 2 * (end_of ph - cur_of ph) < e1 - c1))) /\
         ~ (u1 = n /\ e1 - c1 < 2 * h /\ end_of_input d <> 0)) \/
      (exists s1 base1 c1 e1, prepare_data s ch d (ch * h) m = Ok (0, s1) /\
         mid base1 n s1 (Closed c1 e1) /\ base1 + c1 = base + cur_of ph /\ c1 <= e1 /\ e1 - c1 < 2 * h /\ (forall g, g <= h -> deep g ph -> g <= c1) /\
         same_counts s s1 /\ end_of_input d <> 0 /\ padded s1 e1 h) \/
      (~ deep h ph /\ ~ roomy h /\ end_of_input d <> 0 /\ prepare_data s ch d (ch * h) m = Fault F_oob).
    Proof.
      intros [T Ec Eu Hu Ee] Hcl Hd Hdi. destruct capacity_bounds as (V1 & V2 & V3). assert (Ws := W_small).
      unfold prepare_data.
      replace (0 <=? s_b_real_end s) with false.
      2: { symmetry. apply Z.leb_gt. destruct T as (_ & _ & _ & T). destruct ph; cbn [closed] in *; lia. }
      replace (data_in d =? 0) with false by (symmetry; now apply Z.eqb_neq).
      assert (Hr : exists s1 base1 c1 e1, prepare_room s ch (ch * h) = Ok (s1, ch * (W - c1 - h) + 1) /\
        tape X base1 s1 (Open c1 e1) /\ base1 + c1 = base + cur_of ph /\ base1 + e1 = base + end_of ph /\ (forall g, g <= h -> deep g ph -> g <= c1) /\
        c1 + h <= W /\ (c1 = h \/ (c1 = cur_of ph /\ base1 = base /\ end_of ph + h + 1 <= W)) /\ same_counts s s1 /\ s_in_used s1 = s_in_used s).
      { destruct ph as [|c e|c e]; cbn [cur_of end_of deep closed] in *.
        - destruct T as (T1 & T2 & T3 & -> & T4).
          destruct (prepare_room_fresh X s h) as (s1 & E1 & T5 & S1 & U1); try assumption.
          { split; [exact T1|]. split; [exact T2|]. split; [exact T3|]. split; [reflexivity|exact T4]. }
          exists s1, (- h), h, h. split; [exact E1|]. split; [exact T5|]. split; [lia|]. split; [lia|]. split; [intros; lia|]. split; [lia|]. split; [now left|]. split; assumption.
        - destruct (prepare_room_ok X base s c e h) as (s1 & base1 & c1 & e1 & E1 & T5 & P1 & P2 & P3 & P4 & PL & S1 & U1); try assumption.
          exists s1, base1, c1, e1. split; [exact E1|]. split; [exact T5|]. split; [lia|]. split; [lia|]. split; [exact P3|]. split; [lia|]. split; [exact PL|]. split; assumption.
        - now destruct Hcl. }
      destruct Hr as (s1 & base1 & c1 & e1 & -> & T1 & P1 & P2 & P3 & P4 & PL & S1 & U1). cbn [bind].
      assert (PL' : hide (c1 = h \/ (c1 = cur_of ph /\ base1 = base))) by (unfold hide; tauto). apply to_hide in PL.
      assert (T1' := T1). destruct T1 as (R1 & C1 & Ec1 & Ee1 & Er1 & Hc1 & He1 & HcW1). cbn [cur_of] in Ec1.
      destruct S1 as (S1 & S2 & S3).
      rewrite S1, U1, Ec, Eu. assert (Q0 := sc u n ltac:(lia)). assert (Q0' := sc 0 u ltac:(lia)).
      rewrite long_ok by lia. cbn [bind].
      assert (Q1 := sc c1 e1 ltac:(lia)). assert (Q2 := sc 1 c1 ltac:(lia)). assert (Q3 := sc e1 capacity ltac:(lia)). assert (Q4 := sc (c1 + h) W ltac:(lia)).
      set (room := ch * (W - c1 - h) + 1) in *. assert (Br : 1 <= room <= 2 ^ 27 + 1) by (unfold room; lia).
      set (rest := ch * n - ch * u) in *. assert (Brest : 0 <= rest <= 2 ^ 50) by (unfold rest; lia).
      destruct (wrap_int_le rest) as [Wl Wb]; [lia|].
      set (len0 := Z.min (wrap_int rest) room) in *.
      unfold c_rem. replace (ch =? 0) with false by (symmetry; apply Z.eqb_neq; lia). cbn [bind].
      assert (Hlen : exists v, len0 - Z.rem len0 ch = ch * v /\ (0 <= len0 -> 0 <= v /\ ch * v <= len0 < ch * v + ch) /\ v <= capacity - c1 - h /\ v <= n - u /\ - 2 ^ 31 <= ch * v).
      { assert (A := Z.quot_rem' len0 ch). exists (Z.quot len0 ch).
        assert (E : len0 - Z.rem len0 ch = ch * (len0 ÷ ch)) by lia. split; [exact E|].
        assert (Hneg : - 2 ^ 31 <= len0) by lia.
        destruct (Z_le_gt_dec 0 len0) as [L|L].
        - assert (B := Z.rem_bound_pos len0 ch L ltac:(lia)). assert (Bq := Z.quot_pos len0 ch L ltac:(lia)).
          split; [lia|]. rewrite Z.quot_div_nonneg in * by lia. split; [|split; [|lia]].
          + rewrite <- Z.sub_add_distr, <- room_frames. replace (W - (c1 + h)) with (W - c1 - h) by ring. apply Z.div_le_mono; [lia|]. unfold len0, room. lia.
          + apply Z.div_le_upper_bound; [lia|]. unfold len0, rest in *. lia.
        - split; [lia|].
          assert (B : ch * (len0 ÷ ch) <= 0 /\ len0 <= ch * (len0 ÷ ch)).
          { assert (B0 : - ch < Z.rem len0 ch <= 0) by (apply Z.rem_bound_pos_neg; lia).
            split; [|lia]. assert (len0 ÷ ch <= 0). { destruct (Z_le_gt_dec (len0 ÷ ch) 0); [assumption|]. assert (S := sc 1 (len0 ÷ ch)). lia. }
            assert (S := sc (len0 ÷ ch) 0). lia. }
          assert (len0 ÷ ch <= 0) by (destruct (Z_le_gt_dec (len0 ÷ ch) 0); [assumption|]; assert (S := sc 1 (len0 ÷ ch)); lia).
          lia. }
      destruct Hlen as (v & Ev & Bv & Vc & Vn & Vm). rewrite Ev.
      assert (He2 : e1 - c1 <= h) by lia.
      assert (Q5 := sc (e1 + v) capacity ltac:(lia)).
      rewrite Ee1. rewrite int_ok by lia. cbn [bind]. rewrite (r_len s1 R1).
      destruct (Z.ltb_spec (ch * v) 0) as [Lv|Lv]; cbn [orb].
      { left. exists s1, base1, c1, e1. split; [reflexivity|]. split.
        - destruct (Z_lt_ge_dec rest (2 ^ 31)) as [L|L]; [|unfold rest in L; lia]. exfalso.
          assert (wrap_int rest = rest) by (apply wrap_int_small; lia). assert (0 <= len0) by (unfold len0; lia). specialize (Bv H0).
          assert (Q6 := sc 0 v). lia.
        - split; [constructor; cbn [end_of]; [exact T1'|lia..]|]. split; [lia|]. split; [lia|]. split; [exact P3|]. split; [repeat split; assumption|exact PL']. }
      replace (W * ch + 1 <? ch * e1 + ch * v) with false by (symmetry; apply Z.ltb_ge; lia).
      assert (Hv : 0 <= v) by (destruct (Z_le_gt_dec 0 v); [assumption|]; assert (Q6 := sc v (-1)); lia).
      (* the copy *)
      destruct (mread_n_ok m (Z.to_nat (ch * v)) (data_in d + ch * u)) as [xs Exs].
      { intros j Hj. rewrite Z2Nat.id in Hj by lia. assert (J := Z.div_mod j ch ltac:(lia)). assert (J2 := Z.mod_pos_bound j ch ltac:(lia)).
        assert (J3 : 0 <= j / ch < v) by (split; [apply Z.div_pos; lia|apply Z.div_lt_upper_bound; lia]).
        assert (M1 := Hm (u + j / ch) (j mod ch)). replace (data_in d + ch * u + j) with (data_in d + ((u + j / ch) * ch + j mod ch)) by lia.
        rewrite M1 by lia. discriminate. }
      rewrite Exs. cbn [bind]. destruct (mread_n_spec _ _ _ _ Exs) as [Lx Nx].
      assert (Zx : zlen xs = ch * v) by (unfold zlen; lia).
      destruct (blit_spec (s_buffer s1) xs (ch * e1)) as (buf & -> & Lb & Nb); [lia|rewrite Zx, (r_buf s1 R1); lia|].
      cbn [bind]. cbn [s_set_buf s_b_end s_b_current s_in_used s_in_count].
      rewrite int_ok by lia. cbn [bind]. rewrite Ec1. rewrite int_ok by lia. cbn [bind].
      set (s2 := s_set_buf s1 _ _ _ _ _).
      assert (T2 : tape X base1 s2 (Open c1 (e1 + v))).
      { unfold tape. split; [|split; [|split; [reflexivity|]]].
        - destruct R1. constructor; cbn [s2 s_set_buf s_coeff_half_len s_index_inc s_coeffs s_b_len s_buffer]; auto. now rewrite Lb.
        - intros i Hi. unfold s2 in *. cbn [s_set_buf s_b_end s_buffer] in Hi |- *. unfold cell. cbn [s_set_buf s_buffer]. rewrite Nb by lia.
          rewrite Zx. destruct (Z.leb_spec (ch * e1) i) as [L|L]; cbn [andb].
          + replace (i <? ch * e1 + ch * v) with true by (symmetry; apply Z.ltb_lt; lia).
            set (j := i - ch * e1). assert (J := Z.div_mod j ch ltac:(lia)). assert (J2 := Z.mod_pos_bound j ch ltac:(lia)).
            assert (J3 : 0 <= j / ch < v) by (split; [apply Z.div_pos; lia|apply Z.div_lt_upper_bound; lia]).
            unfold cellof. assert (N1 := Nx (Z.to_nat j) ltac:(lia)).
            rewrite Z2Nat.id in N1 by lia.
            replace (data_in d + ch * u + j) with (data_in d + ((u + j / ch) * ch + j mod ch)) in N1 by lia.
            rewrite Hm in N1 by lia. erewrite nth_error_nth by exact N1.
            replace (ch * base1 + i) with (ch * (base1 + e1 + j / ch) + j mod ch) by (unfold j in *; lia).
            rewrite flat_frame by lia. f_equal. lia.
          + fold (cell s1 i). apply C1. lia.
        - cbn [s2 s_set_buf s_b_end s_b_real_end]. repeat split; try lia. }
      assert (M2 : mid base1 (u + v) s2 (Open c1 (e1 + v))).
      { constructor; [exact T2|..]; cbn [s2 s_set_buf s_in_count s_in_used end_of]; lia. }
      assert (Sc2 : same_counts s s2) by (repeat split; cbn [s2 s_set_buf s_in_count s_out_count s_out_gen]; assumption).
      replace (s_in_used s1) with (ch * u) by lia.
      destruct ((ch * u + ch * v =? s_in_count s1) && (ch * e1 + ch * v - ch * c1 <? 2 * (ch * h)) && negb (end_of_input d =? 0)) eqn:Ecl.
      - apply andb_prop in Ecl as [Ecl E3]. apply andb_prop in Ecl as [E1 E2]. apply Z.eqb_eq in E1. apply Z.ltb_lt in E2.
        assert (En : end_of_input d <> 0) by (destruct (Z.eqb_spec (end_of_input d) 0); [discriminate E3|assumption]).
        assert (Ev2 : u + v = n). { assert (Q6 := unsc n (u + v)). lia. }
        assert (Hlt : e1 + v - c1 < 2 * h). { assert (Q6 := unsc (e1 + v - c1 + 1) (2 * h)). lia. }
        assert (Dec : (h <= c1 \/ roomy h \/ ch * (e1 + v) + ch * h + 5 <= W * ch + 1) \/
                      (c1 < h /\ ~ roomy h /\ W * ch + 1 < ch * (e1 + v) + ch * h + 5)) by (unfold roomy; lia).
        clear Bv Wl Wb Br Brest.
        destruct Dec as [Dec|(D1 & D2 & D3)].
        + destruct (prepare_end_ok X base1 s2 c1 (e1 + v) h T2) as (s3 & b3 & c3 & e3 & E & T3 & A1 & A2 & A3 & A4 & A5 & A6 & A7); auto.
          { intros i k Hi. apply Hxe; auto. lia. }
          rewrite E. cbn [bind]. right. right. left. exists s3, b3, c3, e3. split; [reflexivity|].
          split; [|split; [lia|split; [assumption|split; [lia|split; [intros g Hg Q; apply A3, P3; assumption|split; [|split; assumption]]]]]].
          * destruct A6 as (A6 & _). constructor; [exact T3|..]; rewrite ?A6, ?A7; cbn [s2 s_set_buf s_in_count s_in_used end_of]; lia.
          * destruct A6 as (a & b & c), Sc2 as (a' & b' & c'). repeat split; congruence.
        + right. right. right. split; [intros Q; specialize (P3 h ltac:(lia) Q); lia|]. split; [exact D2|]. split; [exact En|].
          rewrite (prepare_end_fault s2 c1 (e1 + v) h); try assumption; try lia; try apply T2. reflexivity.
      - right. left. exists s2, base1, (u + v), c1, (e1 + v). split; [reflexivity|]. split; [exact M2|]. split; [lia|]. split; [lia|].
        split; [exact P3|]. split; [exact Sc2|]. split; [exact PL'|]. split.
        + destruct (Z_lt_ge_dec rest (2 ^ 31)) as [L|L]; [right|left; unfold rest in L; lia].
          assert (Ew : wrap_int rest = rest) by (apply wrap_int_small; lia). unfold len0 in Bv. rewrite Ew in Bv.
          specialize (Bv ltac:(lia)). destruct (Z_le_gt_dec rest room) as [G|G].
          * left. rewrite Z.min_l in Bv by lia. unfold rest in Bv. assert (Q6 := unsc (n - u) v). lia.
          * right. rewrite Z.min_r in Bv by lia. unfold room in Bv.
            assert (Q6 : W - c1 - h <= v). { apply Z.lt_succ_r. destruct (Z_lt_ge_dec (W - c1 - h) (Z.succ v)) as [|Q7]; [assumption|]. assert (Q8 := sc (v + 1) (W - c1 - h)). lia. }
            split; [unfold hide in PL; lia|]. split; [lia|]. split; [exact P4|]. unfold hide in PL. destruct PL as [PL|(PL1 & PL2 & PL3)]; [now left|]. right. lia.
        + intros (A1 & A2 & A3). rewrite S1, Ec in Ecl. replace (ch * u + ch * v =? ch * n) with true in Ecl by (symmetry; apply Z.eqb_eq; rewrite <- A1; ring).
          replace (ch * e1 + ch * v - ch * c1 <? 2 * (ch * h)) with true in Ecl by (symmetry; apply Z.ltb_lt; assert (Q6 := sc (e1 + v - c1 + 1) (2 * h)); lia).
          destruct (Z.eqb_spec (end_of_input d) 0); [contradiction|]. discriminate Ecl.
    Qed.
  End Prepare.
End Ring.
