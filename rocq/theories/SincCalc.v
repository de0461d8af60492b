(** calc_output of the sinc converters computes [sinc_sample] of the buffer contents. *)
From Coq Require Import ZArith List Bool Lia.
From Flocq Require Import Core IEEE754.BinarySingleNaN.
From Verif Require Import Base Types Common Sinc HoldSpec HoldCore SincSpec.
Import ListNotations.
Local Open Scope Z_scope.

Lemma zget_nth (l : list f32) i : 0 <= i < zlen l -> zget l i = Ok (nth (Z.to_nat i) l fzero).
Proof.
  intros H. apply zget_ok; [lia|]. apply nth_error_nth'. unfold zlen in H. lia.
Qed.

Lemma accumulate_ok ic buf (f : nat -> f64) : forall n s d, 0 <= d -> d + Z.of_nat n <= zlen buf ->
  accumulate ic buf d (map f (seq s n)) =
  Ok (map (fun k => dadd (f k) (dmul ic (d_of_f (nth (Z.to_nat (d + Z.of_nat k - Z.of_nat s)) buf fzero)))) (seq s n)).
Proof.
  induction n as [|n IH]; intros s d Hd Hl; [reflexivity|]. cbn [seq map accumulate].
  rewrite zget_nth by lia. cbn [bind]. rewrite IH by lia. cbn [bind]. f_equal. f_equal.
  - do 4 f_equal. lia.
  - apply map_ext. intros k. do 5 f_equal. lia.
Qed.

Lemma interp_ok coeffs f : 0 <= f <= (zlen coeffs - 2) * 4096 -> interp_coeff coeffs f = Ok (weight coeffs f).
Proof.
  intros H. unfold interp_coeff, fp_to_int. assert (B : 0 <= f / 4096 <= zlen coeffs - 2).
  { split; [apply Z.div_pos; lia|]. apply Z.div_le_upper_bound; lia. }
  rewrite !zget_nth by lia. reflexivity.
Qed.

Lemma c_div_ok a b : 0 <= a -> 0 < b -> c_div a b = Ok (a / b).
Proof.
  intros Ha Hb. unfold c_div. destruct (Z.eqb_spec b 0); [lia|]. now rewrite Z.quot_div_nonneg by lia.
Qed.
Lemma c_rem_ok a b : 0 <= a -> 0 < b -> c_rem a b = Ok (a mod b).
Proof.
  intros Ha Hb. unfold c_rem. destruct (Z.eqb_spec b 0); [lia|]. now rewrite Z.rem_mod_nonneg by lia.
Qed.

(** Rounding up: a product, and a lower bound. *)
Lemma ceil_mul n d : 0 <= n -> 0 < d -> n * d + (d - 1) <= 2 ^ 31 - 1 -> int_div_ceil (n * d) d = Ok n.
Proof.
  intros Hn Hd Hb. unfold int_div_ceil. replace (0 <=? n * d) with true by (symmetry; apply Z.leb_le; nia).
  replace (0 <? d) with true by (symmetry; apply Z.ltb_lt; lia). cbn [andb].
  rewrite int_ok by nia. cbn [bind]. rewrite c_div_ok by nia. f_equal.
  rewrite Z.add_comm, Z.div_add by lia. rewrite Z.div_small; lia.
Qed.
Lemma ceil_ge n d k : 0 <= k -> 0 < d -> k * d <= n -> n + (d - 1) <= 2 ^ 31 - 1 ->
  exists r, int_div_ceil n d = Ok r /\ k <= r.
Proof.
  intros Hn Hd Hk Hb. unfold int_div_ceil. replace (0 <=? n) with true by (symmetry; apply Z.leb_le; nia).
  replace (0 <? d) with true by (symmetry; apply Z.ltb_lt; lia). cbn [andb].
  rewrite int_ok by nia. cbn [bind]. rewrite c_div_ok by nia. eexists. split; [reflexivity|].
  apply Z.div_le_lower_bound; nia.
Qed.

Lemma int_div_ok a b : 0 <= a <= 2 ^ 31 - 1 -> 0 < b -> int_div a b = Ok (a / b).
Proof.
  intros Ha Hb. unfold int_div. replace (b =? 0) with false by (symmetry; apply Z.eqb_neq; lia). rewrite Z.quot_div_nonneg by lia.
  apply int_ok. assert (0 <= a / b) by (apply Z.div_pos; lia). assert (a / b <= a) by (apply Z.div_le_upper_bound; nia). lia.
Qed.
Lemma right_start (mono : bool) ch c cc : 1 <= ch <= 128 -> (mono = true -> ch = 1) -> 0 <= ch * c <= 2 ^ 27 -> 0 <= cc <= 2 ^ 20 ->
  (if mono then do b <- int_op (ch * c + 1) ; int_op (b + cc)
   else do c1 <- int_op (1 + cc) ; do x <- int_op (ch * c1) ; int_op (ch * c + x)) = Ok (ch * c + ch * (1 + cc)).
Proof.
  intros H Hm Hc Hcc. destruct mono.
  - specialize (Hm eq_refl). rewrite int_ok by lia. cbn [bind]. rewrite int_ok by lia. f_equal. rewrite Hm. ring.
  - rewrite int_ok by lia. cbn [bind]. rewrite int_ok by nia. cbn [bind]. now rewrite int_ok by nia.
Qed.
Lemma scratch_ok ch : 1 <= ch <= 128 -> in_scratch ch = true.
Proof. intros H. apply andb_true_intro. split; apply Z.leb_le; unfold MAX_CHANNELS; lia. Qed.

Section Calc.
  Variables (mono : bool) (s : sinc_data) (inc : Z) (coeffs : list f32) (ch c I st : Z).
  Hypothesis Eh : s_coeff_half_len s = zlen coeffs - 2.
  Hypothesis Ec : s_coeffs s = coeffs.
  Hypothesis Eb : s_b_current s = ch * c.
  Hypothesis Hch : 1 <= ch <= 128.
  Hypothesis Hmono : mono = true -> ch = 1.
  Hypothesis Hc : 0 <= c.
  Hypothesis HI : 1 <= I <= (zlen coeffs - 2) * 4096.
  Hypothesis HI2 : I <= 2 ^ 26.
  Hypothesis Hst : 0 <= st <= I.
  Hypothesis Hlen : zlen coeffs <= 500000.
  Hypothesis Hbl : s_b_len s <= zlen (s_buffer s).
  Hypothesis Hbs : s_b_len s <= 2 ^ 27.
  Hypothesis Hbe : s_b_end s <= s_b_len s.

  Let M := (zlen coeffs - 2) * 4096.
  Let K := M / I.
  Hypothesis HK : K <= 2 ^ 20.
  Hypothesis Hcb : ch * c <= 2 ^ 27.

  Let up := st =? I.
  Let p := if up then c + 1 else c.
  Let t := if up then 0 else st.
  (** The last frame that is read. *)
  Definition last_read : Z := p + (M + t) / I.

  Definition at_frame (b : list f32) (j k : Z) : f32 := nth (Z.to_nat (ch * j + k)) b fzero.
  Let Y := at_frame (s_buffer s).
  Let n := Z.to_nat ch.

  Lemma K_pos : 1 <= K.
  Proof. unfold K. apply Z.div_le_lower_bound; fold M in HI; lia. Qed.

  Lemma up_cases : (st = I /\ p = c + 1 /\ t = 0) \/ (st < I /\ p = c /\ t = st).
  Proof. unfold p, t, up. destruct (Z.eqb_spec st I); lia. Qed.
  Lemma t_range : 0 <= t < I.
  Proof. destruct up_cases; lia. Qed.
  Lemma p_range : c <= p <= c + 1.
  Proof. destruct up_cases; lia. Qed.
  Lemma last_range : p + 1 <= last_read <= c + K + 1.
  Proof.
    unfold last_read. assert (T := t_range). split.
    - assert (1 <= (M + t) / I) by (apply Z.div_le_lower_bound; fold M in HI; lia). lia.
    - unfold p, t, up, K. destruct (Z.eqb_spec st I); [rewrite Z.add_0_r; lia|].
      assert ((M + st) / I < M / I + 2).
      { apply Z.div_lt_upper_bound; [lia|]. assert (A := Z.div_mod M I ltac:(lia)). assert (B := Z.mod_pos_bound M I ltac:(lia)). lia. }
      lia.
  Qed.

  Hypothesis Hright : ch * (last_read + 1) <= s_b_end s.

  Lemma coeff_asserts_ok weak fi : 0 <= fi <= M -> coeff_asserts weak s (fp_to_int fi) = true.
  Proof.
    intros Hf. unfold coeff_asserts, fp_to_int. rewrite Eh.
    assert (B : 0 <= fi / 4096 <= zlen coeffs - 2).
    { split; [apply Z.div_pos; lia|]. apply Z.div_le_upper_bound; unfold M in Hf; lia. }
    destruct weak; [apply Z.ltb_lt; lia|]. apply andb_true_intro; split; [apply Z.leb_le|apply Z.ltb_lt]; lia.
  Qed.
  Lemma data_asserts_ok j : 0 <= j <= last_read -> data_asserts s ch (ch * j) = true.
  Proof.
    intros Hj. unfold data_asserts.
    assert (ch * j + ch <= s_b_end s) by nia. assert (0 <= ch * j) by nia.
    apply andb_true_intro; split; [|apply Z.ltb_lt; lia]. apply andb_true_intro; split; [apply Z.leb_le|apply Z.ltb_lt]; lia.
  Qed.

  Lemma acc_ok ic j (f : nat -> f64) : 0 <= j <= last_read ->
    accumulate ic (s_buffer s) (ch * j) (map f (seq 0 n)) =
    Ok (map (fun k => dadd (f k) (dmul ic (d_of_f (Y j (Z.of_nat k))))) (seq 0 n)).
  Proof.
    intros Hj. assert (ch * j + ch <= s_b_end s) by nia. assert (0 <= ch * j) by nia.
    rewrite accumulate_ok by (unfold n; lia). f_equal. apply map_ext. intros k. unfold Y, at_frame. do 5 f_equal. lia.
  Qed.

  (** Left wing around frame p with start index t. *)
  Lemma left_ok (f : nat -> f64) fuel i : (i < fuel)%nat -> Z.of_nat i <= p + 1 ->
    t + (Z.of_nat i - 1) * I <= M ->
    left_loop fuel s ch I (t + (Z.of_nat i - 1) * I) (ch * (p - (Z.of_nat i - 1))) (map f (seq 0 n)) =
    Ok (map (fun k => weigh (fun i => weight coeffs (t + i * I)) (fun i => Y (p - i) (Z.of_nat k)) i (f k)) (seq 0 n)).
  Proof.
    assert (Ht := t_range). assert (Hp := p_range). assert (Hl := last_range).
    revert fuel f. induction i as [|i IH]; intros fuel f Hf Hi HM.
    - destruct fuel; [lia|]. cbn [left_loop]. replace (t + (Z.of_nat 0 - 1) * I <? 0) with true by (symmetry; apply Z.ltb_lt; lia). reflexivity.
    - destruct fuel as [|fuel]; [lia|]. cbn [left_loop].
      rewrite Nat2Z.inj_succ in *. replace (Z.succ (Z.of_nat i) - 1) with (Z.of_nat i) in * by lia.
      assert (Kp := K_pos). assert (I0 : 0 <= Z.of_nat i * I) by nia. unfold M in HM.
      replace (t + Z.of_nat i * I <? 0) with false by (symmetry; apply Z.ltb_ge; lia).
      rewrite coeff_asserts_ok by (unfold M; lia). rewrite Ec, interp_ok by lia. cbn [bind]. rewrite data_asserts_ok by lia. rewrite acc_ok by lia. cbn [bind].
      rewrite int_ok by lia. cbn [bind].
      assert (0 <= ch * (p - Z.of_nat i) /\ ch * (p - Z.of_nat i) + ch <= s_b_end s) by nia.
      rewrite int_ok by lia. cbn [bind].
      replace (t + Z.of_nat i * I - I) with (t + (Z.of_nat i - 1) * I) by ring.
      replace (ch * (p - Z.of_nat i) + ch) with (ch * (p - (Z.of_nat i - 1))) by ring.
      rewrite IH by (unfold M; lia). f_equal.
  Qed.

  (** Right wing after frame p with start index t: the last contribution is t > 0. *)
  Lemma right_ok (f : nat -> f64) fuel i : (i < fuel)%nat -> p + 1 + Z.of_nat i <= last_read ->
    I - t + Z.of_nat i * I <= M ->
    right_loop fuel mono s ch I (I - t + Z.of_nat i * I) (ch * (p + 1 + Z.of_nat i)) (map f (seq 0 n)) =
    Ok (map (fun k => weigh (fun i => weight coeffs (I - t + i * I)) (fun i => Y (p + 1 + i) (Z.of_nat k)) (S i) (f k)) (seq 0 n)).
  Proof.
    assert (Ht := t_range). assert (Hp := p_range). revert fuel f. induction i as [|i IH]; intros fuel f Hf Hi HM; (destruct fuel as [|fuel]; [lia|]); cbn [right_loop].
    - assert (HM' := HM). unfold M in HM'. rewrite coeff_asserts_ok by (unfold M; lia). rewrite Ec, interp_ok by lia. cbn [bind]. rewrite data_asserts_ok by lia. rewrite acc_ok by lia. cbn [bind].
      rewrite int_ok by lia. cbn [bind].
      assert (0 <= ch * (p + 1 + Z.of_nat 0) /\ ch * (p + 1 + Z.of_nat 0) <= s_b_end s) by nia.
      rewrite int_ok by lia. cbn [bind]. replace (0 <? I - t + Z.of_nat 0 * I - I) with false by (symmetry; apply Z.ltb_ge; lia). reflexivity.
    - assert (HM' := HM). unfold M in HM'. assert (0 <= Z.of_nat (S i) * I) by nia.
      rewrite coeff_asserts_ok by (unfold M; lia). rewrite Ec, interp_ok by lia. cbn [bind]. rewrite data_asserts_ok by lia. rewrite acc_ok by lia. cbn [bind].
      rewrite int_ok by lia. cbn [bind].
      assert (0 <= ch * (p + 1 + Z.of_nat (S i)) /\ ch * (p + 1 + Z.of_nat (S i)) <= s_b_end s) by nia.
      rewrite int_ok by lia. cbn [bind].
      replace (0 <? I - t + Z.of_nat (S i) * I - I) with true by (symmetry; apply Z.ltb_lt; nia).
      replace (I - t + Z.of_nat (S i) * I - I) with (I - t + Z.of_nat i * I) by (rewrite Nat2Z.inj_succ; ring).
      replace (ch * (p + 1 + Z.of_nat (S i)) - ch) with (ch * (p + 1 + Z.of_nat i)) by (rewrite Nat2Z.inj_succ; ring).
      rewrite IH by (rewrite ?Nat2Z.inj_succ in *; nia). reflexivity.
  Qed.

  Lemma calc_left_ok : calc_left s ch ch I st =
    Ok (map (fun k => weigh (fun i => weight coeffs (t + i * I)) (fun i => Y (p - i) (Z.of_nat k)) (Z.to_nat (Z.min ((M - t) / I) p + 1)) dzero) (seq 0 n)).
  Proof.
    unfold calc_left, int_to_fp. rewrite Eh. replace (zlen coeffs - 2 <? 0) with false by (symmetry; apply Z.ltb_ge; lia).
    rewrite int_ok by lia. cbn [bind]. fold M. assert (HM : M <= 2 ^ 31 - 2 ^ 16) by (unfold M; lia). fold M in HI.
    rewrite int_ok by lia. cbn [bind]. rewrite int_div_ok by lia. cbn [bind].
    set (cc := (M - st) / I). assert (Bcc : 0 <= cc /\ cc * I <= M - st /\ M - st < (cc + 1) * I).
    { assert (A := Z.div_mod (M - st) I ltac:(lia)). assert (B := Z.mod_pos_bound (M - st) I ltac:(lia)). fold cc in A.
      split; [apply Z.div_pos; lia|]. nia. }
    assert (Kc : cc <= K). { unfold K. apply Z.div_le_lower_bound; lia. }
    rewrite int_ok by nia. cbn [bind]. rewrite int_ok by lia. cbn [bind]. rewrite int_ok by nia. cbn [bind]. rewrite Eb.
    assert (Bc : 0 <= ch * c <= 2 ^ 27) by nia.
    rewrite int_ok by nia. cbn [bind].
    set (e := Z.min cc c).
    assert (Epos : (if ch * c - ch * cc <? 0
      then do steps <- int_div_ceil (- (ch * c - ch * cc)) ch ;
           do max_steps <- int_div_ceil (st + cc * I) I ;
           if steps <=? max_steps
           then do p0 <- int_op (I * steps) ; do fi <- int_op (st + cc * I - p0) ; do q <- int_op (steps * ch) ;
                do di <- int_op (ch * c - ch * cc + q) ; Ok (fi, di)
           else Fault F_assert
      else Ok (st + cc * I, ch * c - ch * cc)) = Ok (st + e * I, ch * (c - e))).
    { destruct (Z.ltb_spec (ch * c - ch * cc) 0) as [C|C].
      - assert (c < cc) by nia. replace (- (ch * c - ch * cc)) with ((cc - c) * ch) by ring.
        rewrite ceil_mul by nia. cbn [bind].
        assert (Cg : exists r, int_div_ceil (st + cc * I) I = Ok r /\ cc <= r) by (apply ceil_ge; lia).
        destruct Cg as (r & Er & Lr). rewrite Er. cbn [bind].
        replace (cc - c <=? r) with true by (symmetry; apply Z.leb_le; lia).
        rewrite int_ok by nia. cbn [bind]. rewrite int_ok by nia. cbn [bind]. rewrite int_ok by nia. cbn [bind].
        rewrite int_ok by nia. cbn [bind]. unfold e. rewrite Z.min_r by lia. f_equal. f_equal; ring.
      - assert (cc <= c) by nia. unfold e. rewrite Z.min_l by lia. f_equal. f_equal. ring. }
    rewrite Epos. cbn [bind]. rewrite scratch_ok by assumption.

    assert (Ht := t_range). assert (U := up_cases).
    set (i := Z.to_nat (Z.min ((M - t) / I) p + 1)).
    assert (Ei : Z.of_nat i = e + (p - c) + 1).
    { unfold i, e, cc. destruct U as [(E1 & E2 & E3)|(E1 & E2 & E3)]; [rewrite E1, E2, E3|rewrite E2, E3].
      - assert (D : (M - 0) / I = (M - I) / I + 1).
        { rewrite <- Z.div_add by lia. f_equal. ring. }
        rewrite D. assert (0 <= (M - I) / I) by (apply Z.div_pos; lia). lia.
      - fold cc. lia. }
    assert (L : t + (Z.of_nat i - 1) * I = st + e * I) by (rewrite Ei; destruct U as [(E1 & E2 & E3)|(E1 & E2 & E3)]; [rewrite E1, E2, E3|rewrite E2, E3]; ring).
    rewrite <- L.
    replace (ch * (c - e)) with (ch * (p - (Z.of_nat i - 1))) by (rewrite Ei; ring).
    replace (repeat dzero (Z.to_nat ch)) with (map (fun _ : nat => dzero) (seq 0 n)).
    2: { unfold n. clear. generalize (Z.to_nat ch) 0%nat. intros m. induction m; intros j; cbn; congruence. }
    assert (Hdiv : (t + (Z.of_nat i - 1) * I) / I = Z.of_nat i - 1).
    { rewrite Z.div_add by lia. rewrite Z.div_small by lia. lia. }
    apply left_ok.
    - rewrite Hdiv. lia.
    - unfold e in *. lia.
    - rewrite L. unfold e. nia.
  Qed.

  Lemma calc_right_ok : calc_right mono s ch ch I st =
    Ok (map (fun k => weigh (fun i => weight coeffs (I - t + i * I)) (fun i => Y (p + 1 + i) (Z.of_nat k)) (Z.to_nat ((M + t) / I)) dzero) (seq 0 n)).
  Proof.
    unfold calc_right, int_to_fp. rewrite Eh. replace (zlen coeffs - 2 <? 0) with false by (symmetry; apply Z.ltb_ge; lia).
    rewrite int_ok by lia. cbn [bind]. fold M. assert (HM : M <= 2 ^ 31 - 2 ^ 16) by (unfold M; lia). fold M in HI.
    rewrite int_ok by lia. cbn [bind]. rewrite int_ok by lia. cbn [bind]. rewrite int_div_ok by lia. cbn [bind].
    set (cc := (M - (I - st)) / I). assert (Bcc : 0 <= cc /\ cc * I <= M - (I - st) /\ M - (I - st) < (cc + 1) * I).
    { assert (A := Z.div_mod (M - (I - st)) I ltac:(lia)). assert (B := Z.mod_pos_bound (M - (I - st)) I ltac:(lia)). fold cc in A.
      split; [apply Z.div_pos; lia|]. nia. }
    assert (Kc : cc <= K). { unfold K. apply Z.div_le_lower_bound; lia. }
    rewrite int_ok by nia. cbn [bind]. rewrite int_ok by lia. cbn [bind]. rewrite Eb.
    assert (Bc : 0 <= ch * c <= 2 ^ 27) by nia.
    rewrite right_start by (try assumption; lia). cbn [bind]. rewrite scratch_ok by assumption.
    assert (Ht := t_range). assert (U := up_cases).
    set (i := Z.to_nat ((M + t) / I)).
    assert (Ei' : Z.of_nat i = (M + t) / I) by (unfold i; apply Z2Nat.id, Z.div_pos; lia).
    assert (Ei : Z.of_nat i = cc + 1 - (p - c)).
    { rewrite Ei'. unfold cc. destruct U as [(E1 & E2 & E3)|(E1 & E2 & E3)]; [rewrite E1, E2, E3|rewrite E2, E3].
      - replace (M - (I - I)) with (M + 0) by ring. ring.
      - replace (M + st) with (M - (I - st) + 1 * I) by ring. rewrite Z.div_add by lia. ring. }
    assert (exists j, i = S j) as [j Ej].
    { destruct i as [|j]; [|eauto]. exfalso. assert (1 <= (M + t) / I) by (apply Z.div_le_lower_bound; lia). lia. }
    rewrite Ej in *.
    assert (Ej' : Z.of_nat j = cc - (p - c)) by lia.
    assert (L : I - t + Z.of_nat j * I = I - st + cc * I) by (rewrite Ej'; destruct U as [(E1 & E2 & E3)|(E1 & E2 & E3)]; [rewrite E1, E2, E3|rewrite E2, E3]; ring).
    rewrite <- L.
    replace (ch * c + ch * (1 + cc)) with (ch * (p + 1 + Z.of_nat j)) by (rewrite Ej'; ring).
    replace (repeat dzero (Z.to_nat ch)) with (map (fun _ : nat => dzero) (seq 0 n)).
    2: { unfold n. clear. generalize (Z.to_nat ch) 0%nat. intros m. induction m; intros j; cbn; congruence. }
    assert (Hdiv : Z.of_nat j <= (I - t + Z.of_nat j * I) / I).
    { rewrite Z.div_add by lia. assert (0 <= (I - t) / I) by (apply Z.div_pos; lia). lia. }
    apply right_ok.
    - lia.
    - unfold last_read. rewrite <- Ei'. lia.
    - rewrite L. lia.
  Qed.

  Lemma combine_map2 {A B C D} (g : A * B -> D) (f1 : C -> A) (f2 : C -> B) l :
    map g (combine (map f1 l) (map f2 l)) = map (fun x => g (f1 x, f2 x)) l.
  Proof. induction l; cbn; congruence. Qed.

  Lemma calc_output_ok scale : calc_output mono s ch ch I st scale =
    Ok (map (fun k => f_of_d (dmul scale (dadd
      (weigh (fun i => weight coeffs (t + i * I)) (fun i => Y (p - i) (Z.of_nat k)) (Z.to_nat (Z.min ((M - t) / I) p + 1)) dzero)
      (weigh (fun i => weight coeffs (I - t + i * I)) (fun i => Y (p + 1 + i) (Z.of_nat k)) (Z.to_nat ((M + t) / I)) dzero)))) (seq 0 n)).
  Proof.
    unfold calc_output. rewrite calc_left_ok, calc_right_ok. cbn [bind]. now rewrite combine_map2.
  Qed.
End Calc.

(** Without enough data to the right the assertion fails. *)
(** The left wing never runs out of fuel. *)
Lemma accumulate_fuel ic buf : forall acc di, accumulate ic buf di acc <> Fault F_fuel.
Proof.
  induction acc as [|a acc IH]; intros di; cbn [accumulate]; [discriminate|].
  unfold zget. destruct (di <? 0); [discriminate|]. destruct (nth_error buf (Z.to_nat di)); [|discriminate]. cbn [bind].
  specialize (IH (di + 1)). destruct (accumulate ic buf (di + 1) acc); cbn [bind]; [discriminate|]. congruence.
Qed.
Lemma left_fuel s nch inc : 1 <= inc -> forall fuel fi di acc, fi < (Z.of_nat fuel - 1) * inc -> (0 < fuel)%nat ->
  left_loop fuel s nch inc fi di acc <> Fault F_fuel.
Proof.
  intros Hi. induction fuel as [|fuel IH]; intros fi di acc Hf Hp; [lia|]. cbn [left_loop].
  destruct (Z.ltb_spec fi 0) as [L|L]; [discriminate|]. destruct (coeff_asserts _ _ _); [|discriminate].
  unfold interp_coeff, zget. destruct (fp_to_int fi <? 0); [discriminate|].
  destruct (nth_error (s_coeffs s) (Z.to_nat (fp_to_int fi))); [|discriminate]. cbn [bind].
  destruct (fp_to_int fi + 1 <? 0); [discriminate|].
  destruct (nth_error (s_coeffs s) (Z.to_nat (fp_to_int fi + 1))); [|discriminate]. cbn [bind].
  destruct (data_asserts _ _ _); [|discriminate].
  match goal with |- context [accumulate ?a ?b ?c ?d] => assert (A := accumulate_fuel a b d c); destruct (accumulate a b c d) end; cbn [bind]; [|congruence].
  unfold int_op. destruct (in_int (fi - inc)); [|discriminate]. cbn [bind]. destruct (in_int (di + nch)); [|discriminate]. cbn [bind].
  apply IH; nia.
Qed.
Lemma calc_left_fuel s nch ch inc st : 1 <= inc -> calc_left s nch ch inc st <> Fault F_fuel.
Proof.
  intros Hi. assert (Io : forall z, int_op z <> Fault F_fuel) by (intros z; unfold int_op; now destruct (in_int z)).
  assert (Id : forall a b, int_div_ceil a b <> Fault F_fuel).
  { intros a b. unfold int_div_ceil. destruct (_ && _); [|discriminate]. unfold int_op. destruct (in_int _); [|discriminate]. cbn [bind].
    unfold c_div. now destruct (b =? 0). }
  unfold calc_left, int_to_fp. destruct (_ <? 0); [discriminate|].
  Local Ltac stp Io := match goal with |- bind (int_op ?z) _ <> _ => let H := fresh in assert (H := Io z); destruct (int_op z); cbn [bind]; [|congruence] end.
  stp Io. stp Io. unfold int_div. destruct (inc =? 0); [discriminate|]. do 5 stp Io.
  match goal with |- bind ?x _ <> _ => assert (Hx : x <> Fault F_fuel) end.
  { destruct (_ <? 0); [|discriminate].
    match goal with |- bind (int_div_ceil ?a ?b) _ <> _ => let H := fresh in assert (H := Id a b); destruct (int_div_ceil a b); cbn [bind]; [|congruence] end.
    match goal with |- bind (int_div_ceil ?a ?b) _ <> _ => let H := fresh in assert (H := Id a b); destruct (int_div_ceil a b); cbn [bind]; [|congruence] end.
    destruct (_ <=? _); [|discriminate]. do 4 stp Io. discriminate. }
  match goal with |- bind ?x _ <> _ => destruct x as [[fi di]|] end; cbn [bind]; [|congruence].
  destruct (in_scratch nch); [|discriminate].
  apply left_fuel; [exact Hi| |lia]. assert (Dm := Z.div_mod fi inc ltac:(lia)). assert (Mb := Z.mod_pos_bound fi inc ltac:(lia)).
  assert (fi / inc <= Z.of_nat (Z.to_nat (fi / inc))) by lia. nia.
Qed.

Lemma calc_output_needs mono s coeffs ch c I st scale : s_coeff_half_len s = zlen coeffs - 2 -> s_b_current s = ch * c ->
  1 <= ch <= 128 -> (mono = true -> ch = 1) -> 0 <= c -> 1 <= I <= (zlen coeffs - 2) * 4096 -> I <= 2 ^ 26 -> 0 <= st <= I -> zlen coeffs <= 500000 ->
  (zlen coeffs - 2) * 4096 / I <= 2 ^ 20 -> ch * c <= 2 ^ 27 ->
  ch * (last_read coeffs c I st + 1) <= s_b_end s \/
  exists f, calc_output mono s ch ch I st scale = Fault f /\ f <> F_fuel.
Proof.
  intros Eh Eb Hch Hmono Hc HI HI2 Hst Hlen HK Hcb.
  set (M := (zlen coeffs - 2) * 4096) in *.
  assert (HM : M <= 2 ^ 31 - 2 ^ 16) by (unfold M; lia).
  destruct (Z_le_gt_dec (ch * (last_read coeffs c I st + 1)) (s_b_end s)) as [|G]; [left; assumption|right].
  unfold calc_output.
  destruct (calc_left s ch ch I st) as [ls|f] eqn:El; cbn [bind].
  - unfold calc_right, int_to_fp. rewrite Eh. replace (zlen coeffs - 2 <? 0) with false by (symmetry; apply Z.ltb_ge; lia).
    rewrite int_ok by lia. cbn [bind]. fold M.
    rewrite int_ok by lia. cbn [bind]. rewrite int_ok by lia. cbn [bind]. rewrite int_div_ok by lia. cbn [bind].
    set (cc := (M - (I - st)) / I). assert (Bcc : 0 <= cc /\ cc * I <= M - (I - st) /\ M - (I - st) < (cc + 1) * I).
    { assert (A := Z.div_mod (M - (I - st)) I ltac:(lia)). assert (B := Z.mod_pos_bound (M - (I - st)) I ltac:(lia)). fold cc in A.
      split; [apply Z.div_pos; lia|]. nia. }
    assert (Kc : cc <= M / I) by (apply Z.div_le_lower_bound; lia).
    rewrite int_ok by nia. cbn [bind]. rewrite int_ok by lia. cbn [bind]. rewrite Eb.
    rewrite right_start by (try assumption; nia). cbn [bind]. rewrite scratch_ok by assumption. cbn [right_loop].
    assert (L : last_read coeffs c I st = c + 1 + cc).
    { unfold last_read. fold M. unfold cc. destruct (Z.eqb_spec st I) as [->|N].
      - replace (M - (I - I)) with (M + 0) by ring. ring.
      - replace (M + st) with (M - (I - st) + 1 * I) by ring. rewrite Z.div_add by lia. ring. }
    rewrite L in G.
    destruct (coeff_asserts mono s _); [|exists F_assert; split; [reflexivity|discriminate]].
    unfold interp_coeff, zget. destruct (_ <? 0); [exists F_oob; split; [reflexivity|discriminate]|].
    destruct (nth_error _ _); cbn [bind]; [|exists F_oob; split; [reflexivity|discriminate]].
    destruct (_ <? 0); [exists F_oob; split; [reflexivity|discriminate]|].
    destruct (nth_error _ _); cbn [bind]; [|exists F_oob; split; [reflexivity|discriminate]].
    replace (data_asserts s ch (ch * c + ch * (1 + cc))) with false.
    + exists F_assert. split; [reflexivity|discriminate].
    + symmetry. unfold data_asserts. apply andb_false_intro2. apply Z.ltb_ge. lia.
  - exists f. split; [reflexivity|]. intros ->. apply (calc_left_fuel s ch ch I st); [lia|exact El].
Qed.

Lemma weigh_ext w w' x x' : forall n a, (forall i, 0 <= i < Z.of_nat n -> w i = w' i /\ x i = x' i) -> weigh w x n a = weigh w' x' n a.
Proof.
  induction n as [|n IH]; intros a H; [reflexivity|]. cbn [weigh]. destruct (H (Z.of_nat n)) as [-> ->]; [lia|].
  apply IH. intros i Hi. apply H. lia.
Qed.
