(** src_process, src_reset and src_set_ratio on a sinc converter. *)
From Coq Require Import ZArith Reals List Bool Lia Lra.
From Flocq Require Import Core IEEE754.BinarySingleNaN.
From Verif Require Import Base FloatFacts PosFacts Types Common Sinc Api Heap Callback ApiHist HoldSpec HoldFacts HoldRamp HoldCore
  HoldProcess LifeSpec ErrFacts ProcFacts HeapFacts SincSpec SincFacts SincCalc SincPrep SincLoop SincProcess.
Import ListNotations.
Local Open Scope Z_scope.

(** For ratios of 1/191 and more the buffer has room for all the padding. *)
Lemma wide_roomy inc coeffs mn : table_ok (inc, coeffs) -> good_ratio mn -> (/ 191 <= val mn)%R ->
  4 * hlen inc coeffs mn + 3 <= Z.max (3 * full_len inc coeffs) 4096.
Proof.
  intros T G L. destruct (hlen_val inc coeffs T mn G) as [Eh Bh]. destruct (count_facts inc coeffs T mn G) as (Fc & Vc & Bc).
  destruct (full_len_val inc coeffs T) as (Ef & Bf & By & _). destruct (q_facts inc coeffs T) as (_ & _ & Bq & _).
  set (q := val (q_of inc coeffs)) in *. set (y := rnd64 (q * 256)) in *.
  assert (Q : (q / Rmin 1 (val mn) <= 191 * q)%R).
  { unfold Rdiv. rewrite Rmult_comm. apply Rmult_le_compat_r; [lra|]. rewrite <- (Rinv_inv 191). apply Rinv_le; [lra|].
    unfold Rmin. destruct (Rle_dec 1 (val mn)); lra. }
  assert (C : (val (count_of inc coeffs mn) <= 191 * q + / 8)%R).
  { rewrite Vc. apply Rle_trans with (rnd64 (191 * q)); [now apply rnd64_mono|].
    assert (E := rnd64_err (191 * q) 18 ltac:(lia)). change (bpow radix2 18) with 262144%R in E. specialize (E ltac:(apply Rabs_le; lra)).
    change (bpow radix2 (18 - 53)) with (/ 34359738368)%R in E. apply Rabs_le_inv in E. lra. }
  assert (Y : (256 * q - / 8 <= y)%R).
  { assert (E := rnd64_err (q * 256) 18 ltac:(lia)). change (bpow radix2 18) with 262144%R in E. specialize (E ltac:(apply Rabs_le; lra)).
    change (bpow radix2 (18 - 53)) with (/ 34359738368)%R in E. apply Rabs_le_inv in E. fold y in E. lra. }
  assert (Y1 : (y + 1 - / 8 <= rnd64 (y + 1))%R).
  { assert (E := rnd64_err (y + 1) 18 ltac:(lia)). change (bpow radix2 18) with 262144%R in E. specialize (E ltac:(apply Rabs_le; lra)).
    change (bpow radix2 (18 - 53)) with (/ 34359738368)%R in E. apply Rabs_le_inv in E. lra. }
  assert (N1 := ZnearestE_bounds (val (count_of inc coeffs mn))). assert (N2 := ZnearestE_bounds (rnd64 (y + 1))).
  assert (H1 : (IZR (hlen inc coeffs mn) <= 191 * q + / 8 + / 2 + 1)%R) by (rewrite Eh, plus_IZR; lra).
  assert (F1 : (256 * q + / 4 <= IZR (full_len inc coeffs))%R) by (rewrite Ef; lra).
  destruct (Rle_lt_dec q 5) as [S|S].
  - assert (hlen inc coeffs mn <= 1000) by (apply le_IZR; lra). lia.
  - assert (4 * hlen inc coeffs mn + 3 <= 3 * full_len inc coeffs); [|lia].
    apply le_IZR. rewrite plus_IZR, !mult_IZR. lra.
Qed.

(** A stream continued with other frames from o on. *)
Definition continued (X : stream) (o : Z) (Y : stream) : stream := fun i k => if i <? o then X i k else Y i k.

(** Readable memory as the frames from o on, followed by silence. *)
Definition block_at (m : mem) (a ch n o : Z) : stream :=
  fun i k => if i <? o + n then match m (a + ((i - o) * ch + k)) with Some x => x | None => fzero end else fzero.

Section Conv.
  Variables (inc : Z) (coeffs : list f32) (ch : Z).
  Hypothesis Ht : table_fit (inc, coeffs).
  Hypothesis Hch : 1 <= ch <= 128.
  Notation sinc_ok := (sinc_ok inc coeffs ch).
  Notation reply := (reply inc coeffs ch).

  Lemma sinc_src_call X base ph s st d m : sinc_ok X base ph s st -> st_mode st = MODE_PROCESS -> valid_call ch d m ->
    (~ closed ph -> holds m (data_in d) ch (input_frames d) X (base + end_of ph)) ->
    (~ closed ph -> end_of_input d <> 0 -> forall i k, base + end_of ph + input_frames d <= i -> X i k = fzero) ->
    (exists f, src_process (Some st) (Some d) m = Fault f /\ f <> F_fuel /\
       ~ safe inc coeffs ch d (start_ratio st (src_ratio d)) (src_ratio d) s ph) \/
    (exists e used k base' ph' s' st' d' m' dep,
       src_process (Some st) (Some d) m = Ok (e, Some st', Some d', m') /\
       reply X base ph s (primed st (src_ratio d)) (set_counts d 0 0) m e used k base' ph' s' st' d' m' dep).
  Proof.
    intros Hok Hm V Hin Hend. assert (Ec : st_channels st = ch) by apply Hok.
    assert (Gn : good_ratio (src_ratio d)) by apply V.
    rewrite process_reduce; [|exact Hm|lia|now rewrite Ec].
    destruct (sinc_ok_primed inc coeffs ch X base ph s st _ Hok Gn) as (Pk & Pr & Pg & _).
    destruct (vt_call inc coeffs ch Ht Hch X base ph s (primed st (src_ratio d)) (set_counts d 0 0) m) as [(f & E & Nf & Ns)|R]; try assumption.
    - rewrite Pr. exact Pg.
    - left. exists f. rewrite E. cbn [bind]. split; [reflexivity|]. split; [exact Nf|]. rewrite Pr in Ns. exact Ns.
    - destruct R as (e & used & k & base' & ph' & s' & st' & d' & m' & dep & E & R). right.
      exists e, used, k, base', ph', s', st', d', m', dep. rewrite E. split; [reflexivity|exact R].
  Qed.

  (** Frames that have not been read yet may be anything. *)
  Lemma sinc_ok_continue X Y base ph s st : sinc_ok X base ph s st -> ~ closed ph -> 0 <= base + end_of ph ->
    sinc_ok (continued X (base + end_of ph) Y) base ph s st.
  Proof.
    intros [A B C D E F G] N O. constructor; try assumption.
    - destruct D as (D1 & D2 & D3 & D4). split; [exact D1|]. split; [|split; [exact D3|exact D4]].
      intros i Hi. rewrite (D2 i Hi). unfold flat, continued.
      assert (Q : (ch * base + i) / ch < base + end_of ph).
      { apply Z.div_lt_upper_bound; [lia|]. destruct ph as [|c e|c e]; cbn [end_of closed] in *; [|lia|tauto]. destruct D4 as (_ & D4 & _). lia. }
      replace ((ch * base + i) / ch <? base + end_of ph) with true by (symmetry; apply Z.ltb_lt; exact Q). reflexivity.
    - intros i k Hi. unfold continued. replace (i <? base + end_of ph) with true by (symmetry; apply Z.ltb_lt; lia). apply E. lia.
  Qed.

  Lemma block_holds X m a n o : writable m a ch n -> holds m a ch n (continued X o (block_at m a ch n o)) o.
  Proof.
    intros W i k Hi Hk. unfold continued, block_at. replace (o + i <? o) with false by (symmetry; apply Z.ltb_ge; lia).
    replace (o + i <? o + n) with true by (symmetry; apply Z.ltb_lt; lia). replace (o + i - o) with i by lia.
    assert (H := W (i * ch + k)). destruct (m (a + (i * ch + k))); [reflexivity|]. exfalso. apply H; [nia|reflexivity].
  Qed.
  Lemma block_silent X m a n o i k : 0 <= n -> o + n <= i -> continued X o (block_at m a ch n o) i k = fzero.
  Proof.
    intros Hn Hi. unfold continued, block_at. replace (i <? o) with false by (symmetry; apply Z.ltb_ge; lia).
    replace (i <? o + n) with false by (symmetry; apply Z.ltb_ge; lia). reflexivity.
  Qed.

  (** Any legal call, whatever the contents of the input buffer. *)
  Lemma sinc_any_call X base ph s st d m : sinc_ok X base ph s st -> 0 <= base + end_of ph -> st_mode st = MODE_PROCESS -> valid_call ch d m ->
    (exists f, src_process (Some st) (Some d) m = Fault f /\ f <> F_fuel /\
       ~ safe inc coeffs ch d (start_ratio st (src_ratio d)) (src_ratio d) s ph) \/
    (exists X' e used k base' ph' s' st' d' m' dep,
       src_process (Some st) (Some d) m = Ok (e, Some st', Some d', m') /\
       reply X' base ph s (primed st (src_ratio d)) (set_counts d 0 0) m e used k base' ph' s' st' d' m' dep).
  Proof.
    intros Hok O Hm V. assert (Wr : writable m (data_in d) ch (input_frames d)) by apply V. assert (Hn : 0 <= input_frames d) by apply V.
    assert (Cl : closed ph \/ ~ closed ph) by (destruct ph; cbn; tauto). destruct Cl as [Cl|Cl].
    - destruct (sinc_src_call X base ph s st d m Hok Hm V) as [F|R]; try tauto. right. exists X. exact R.
    - set (X' := continued X (base + end_of ph) (block_at m (data_in d) ch (input_frames d) (base + end_of ph))).
      destruct (sinc_src_call X' base ph s st d m) as [F|R]; try assumption.
      + now apply sinc_ok_continue.
      + intros _. now apply block_holds.
      + intros _ _ i k Hi. now apply block_silent.
      + now left.
      + right. exists X'. exact R.
  Qed.

  Definition silence : stream := fun _ _ => fzero.

  Lemma fresh_buffer_cells (b c : Z) i : 0 <= i < b -> cellof (repeat fzero (Z.to_nat b) ++ repeat guard_value (Z.to_nat c)) i = fzero.
  Proof. intros H. unfold cellof. rewrite app_nth1 by (rewrite repeat_length; lia). apply nth_repeat. Qed.

  Lemma fresh_tape X cnt used oc og : tape inc coeffs ch (width inc coeffs) X 0
    (mkSinc cnt used oc og (zlen coeffs - 2) inc dzero dzero coeffs 0 0 (-1) (width inc coeffs * ch + 1)
       (repeat fzero (Z.to_nat (width inc coeffs * ch + 1)) ++ repeat guard_value (Z.to_nat ch))) Fresh.
  Proof.
    assert (Wr := W_range inc coeffs Ht dzero dzero). fold (width inc coeffs) in Wr. assert (0 <= width inc coeffs * ch) by nia.
    split; [|split; [|split]].
    - constructor; try reflexivity. cbn [s_buffer]. unfold zlen. rewrite app_length, !repeat_length. lia.
    - intros i Hi. cbn [s_b_end] in Hi. lia.
    - cbn [s_b_current cur_of]. lia.
    - split; [reflexivity|]. split; [reflexivity|]. split; [reflexivity|]. intros i Hi. unfold cell. cbn [s_buffer].
      apply fresh_buffer_cells. lia.
  Qed.

  Lemma sinc_created b_len : sinc_b_len (zlen coeffs - 2) inc ch = Ok b_len ->
    let st := fresh_sinc (inc, coeffs) ch b_len in
    exists s, sinc_ok silence 0 Fresh s st /\ st_mode st = MODE_PROCESS /\ st_last_ratio st = dzero /\ st_last_position st = dzero.
  Proof.
    intros E st. rewrite (b_len_val inc coeffs (proj1 Ht) ch Hch) in E. injection E as E.
    eexists. split; [|auto]. constructor; try reflexivity.
    - unfold st. cbn [snd fst]. rewrite <- E. apply fresh_tape.
    - repeat split; cbn; lra.
    - now left.
  Qed.

  Lemma sinc_reset_call X base ph s st : sinc_ok X base ph s st ->
    exists st' s', src_reset (Some st) = Ok (0, Some st') /\ sinc_ok silence 0 Fresh s' st' /\ st_mode st' = st_mode st /\
      st_last_ratio st' = dzero /\ st_last_position st' = dzero.
  Proof.
    intros [A B C D E F G]. destruct D as ([R1 R2 R3 R4 R5] & _). fold (width inc coeffs) in *.
    assert (Wr := W_range inc coeffs Ht dzero dzero). fold (width inc coeffs) in Wr. assert (0 <= width inc coeffs * ch) by nia.
    assert (V : vt_reset st = sinc_reset st).
    { unfold vt_reset. rewrite B. unfold sinc_vt. destruct (ch =? 1), (ch =? 2), (ch =? 4), (ch =? 6); reflexivity. }
    unfold src_reset. rewrite V. unfold sinc_reset. rewrite A, C.
    rewrite sinc_reset_buffer by lia. cbn [bind]. eexists _, _. split; [reflexivity|]. split; [|auto].
    constructor; try reflexivity; try assumption.
    - rewrite R1, R2, R3, R4. apply fresh_tape.
    - cbn. repeat split; cbn; lra.
    - now left.
  Qed.

  Lemma sinc_set_ratio_call X base ph s st r : sinc_ok X base ph s st -> is_nan r = false ->
    exists e st', src_set_ratio (Some st) r = (e, Some st') /\ sinc_ok X base ph s st' /\ st_mode st' = st_mode st /\
      ((e = 0 /\ in_range r /\ st_last_ratio st' = r) \/ (e <> 0 /\ st' = st)).
  Proof.
    intros Hok N. unfold src_set_ratio. destruct (is_bad_src_ratio r) eqn:Bd.
    - exists SRC_ERR_BAD_SRC_RATIO, st. split; [reflexivity|]. split; [exact Hok|]. split; [reflexivity|]. right. split; [discriminate|reflexivity].
    - apply is_bad_src_ratio_spec in Bd. destruct Bd as [Bd|G]; [congruence|].
      exists 0, (set_ratio st r). split; [reflexivity|]. destruct Hok as [A B C D E F _]. split; [constructor; try assumption; now right|].
      split; [reflexivity|]. left. auto.
  Qed.
End Conv.
