(** examples/timewarp-file.c (C54, C55). *)
From Coq Require Import ZArith Reals List Bool Lia Lra.
From Flocq Require Import Core IEEE754.BinarySingleNaN.
From Verif Require Import Base FloatFacts PosFacts Types Common Sinc Api Heap Callback ApiHist HoldSpec HoldFacts HoldCore HoldStream HoldRamp LifeSpec HeapFacts LifeFacts LifeThms
  SincSpec SincFacts SincPrep SincLoop SincProcess SincCall SincApi SincHist SincStream SincTables AccSpec HoldMain CbStream VarSpec VarThms Timewarp WarpSpec.
Import ListNotations.
Local Open Scope Z_scope.

(** ** How many frames can come out *)
Lemma travelled_low rho : forall k, (forall j, (j < k)%nat -> (0 < B2R (rho j) <= 256)%R) -> (INR k / 256 <= travelled rho k)%R.
Proof.
  induction k as [|k IH]; intros H; [simpl; lra|]. rewrite S_INR. cbn [travelled]. specialize (IH (fun j L => H j (Nat.lt_lt_succ_r _ _ L))).
  destruct (H k (Nat.lt_succ_diag_r k)) as [A B]. assert (/ 256 <= / B2R (rho k))%R by (apply Rinv_le; lra). lra.
Qed.

Lemma sinc_count inc coeffs ch X st log out st1 o1 : table_fit (inc, coeffs) -> sinc_start (inc, coeffs) ch st -> (forall i j, i < 0 -> X i j = fzero) ->
  sinc_streaming ch X (fun r => (1 <= B2R r <= 256)%R) st 0 log out st1 o1 -> 0 <= total_gen log <= 257 * o1 + 1.
Proof.
  intros Ht S Z0 Run. destruct (start_tape inc coeffs ch X st Ht S Z0) as (Hch & Ot & Sr & Sp).
  destruct (d_of_Z_val 256) as [V F]; [lia|]. assert (G : in_range (d_of_Z 256)). { split; [exact F|]. rewrite V. lra. }
  rewrite <- V in Run.
  destruct (sinc_vari inc coeffs ch Ht Hch X 1 (d_of_Z 256) G st 0 log out st1 o1 Run Fresh None Ot Sr ltac:(discriminate) I)
    as (T0 & rho & dep & _ & Gd & _ & _ & Oo & Bl & _).
  split; [exact T0|]. rewrite Sp in Bl. destruct (Z.eq_dec (total_gen log) 0) as [E|E]; [lia|]. set (k := total_gen log - 1) in *.
  destruct (placed rho k ltac:(lia)) as [Fg N0]. { intros j Hj. apply Gd. lia. } destruct (reached_near _ _ _ _ N0) as [_ N1].
  assert (Q := Bl (Z.to_nat k) ltac:(lia)). apply Zlt_le_succ, IZR_le in Q. rewrite succ_IZR in Q.
  assert (L := travelled_low rho (Z.to_nat k)). rewrite INR_IZR_INZ, Z2Nat.id in L by lia.
  assert (L1 : (IZR k / 256 <= travelled rho (Z.to_nat k))%R).
  { apply L. intros j Hj. destruct (Gd j ltac:(lia)) as (_ & _ & B). rewrite V in B. lra. }
  unfold wander in N1. set (T := travelled rho (Z.to_nat k)) in *.
  assert (W : ((IZR k + T) / IZR (2 ^ 52) <= (IZR k + T) / 1000000)%R).
  { assert (0 <= IZR k)%R by (apply (IZR_le 0); lia). apply Rmult_le_compat_l; [lra|]. apply Rinv_le; [lra|]. apply (IZR_le 1000000). lia. }
  assert (IZR k <= IZR (257 * o1))%R by (rewrite mult_IZR; lra). apply le_IZR in H. lia.
Qed.

(** ** Tables *)
Lemma warp_at_nth warp i : 0 <= i < zlen warp -> exists a x, nth_error warp (Z.to_nat i) = Some (a, x) /\ warp_at warp i = Ok (a, x).
Proof.
  intros H. unfold warp_at. unfold zlen in H. destruct (nth_error warp (Z.to_nat i)) as [[a x]|] eqn:E.
  - exists a, x. split; [reflexivity|]. destruct (Z.ltb_spec i 0); [lia|reflexivity].
  - apply nth_error_None in E. lia.
Qed.
Lemma warp_ratio warp k a x : warp_ok warp -> nth_error warp k = Some (a, x) -> in_range x /\ (1 <= B2R x)%R.
Proof. intros (_ & _ & W) E. apply nth_error_In in E. rewrite Forall_forall in W. exact (W _ E). Qed.

(** ** The loop *)
Section Loop.
  Variables (inc : Z) (coeffs : list f32) (ch : Z) (F : stream) (N : Z) (warp : warp_table) (input output : Z) (st0 : SRC_STATE).
  Hypothesis Ht : table_fit (inc, coeffs).
  Hypothesis Hst : sinc_new (inc, coeffs) ch st0.
  Hypothesis HN : 0 <= N <= 2 ^ 50.
  Hypothesis Hw : warp_ok warp.
  Hypothesis Hin : 0 < input <= 2 ^ 59.
  Hypothesis Hout : 0 < output <= 2 ^ 59.
  Hypothesis Hap : input + 1024 <= output \/ output + 1024 <= input.
  Let X := padded F N.
  Let okr := fun r : f64 => (1 <= B2R r <= 256)%R.

  Lemma ch_range : 1 <= ch <= 128.
  Proof. apply (sinc_new_state _ _ _ _ Hst). Qed.
  Lemma pad_low i c : i < 0 -> X i c = fzero.
  Proof. intros H. unfold X, padded. destruct (Z.leb_spec 0 i); [lia|reflexivity]. Qed.
  Lemma pad_high i c : N <= i -> X i c = fzero.
  Proof. intros H. unfold X, padded. destruct (Z.ltb_spec i N); [lia|]. now rewrite andb_false_r. Qed.
  Lemma pad_in i c : 0 <= i < N -> X i c = F i c.
  Proof. intros H. unfold X, padded. destruct (Z.leb_spec 0 i), (Z.ltb_spec i N); try lia. reflexivity. Qed.

  Definition mapped (m : mem) := forall j, 0 <= j < 1024 -> m (input + j) <> None /\ m (output + j) <> None.
  Definition left_ t := tw_at t - input_frames (tw_data t).

  Record tw_inv (t : tw) : Prop := {
    ti_run : sinc_streaming ch X okr st0 0 (events (tw_log t)) (tw_written t) (tw_state t) (left_ t);
    ti_ends : ends_at N 0 (events (tw_log t));
    ti_good : exists fl, (fl <= 1)%R /\ good_at inc coeffs ch PWide fl (tw_state t);
    ti_sized : sized (tw_state t);
    ti_at : tw_input_count t = tw_at t /\ 0 <= tw_at t <= N;
    ti_frames : 0 <= input_frames (tw_data t) /\ input <= data_in (tw_data t) /\ data_in (tw_data t) + input_frames (tw_data t) * ch <= input + 1024 /\ input_frames (tw_data t) <= 8;
    ti_holds : holds (tw_mem t) (data_in (tw_data t)) ch (input_frames (tw_data t)) X (left_ t);
    ti_end : end_of_input (tw_data t) <> 0 -> tw_at t = N;
    ti_ratio : in_range (src_ratio (tw_data t)) /\ (1 <= B2R (src_ratio (tw_data t)))%R;
    ti_room : data_out (tw_data t) = output /\ output_frames (tw_data t) = 1024 / ch;
    ti_mem : mapped (tw_mem t);
    ti_index : 0 <= tw_warp_index t < 2 ^ 31;
    ti_count : tw_output_count t = total_gen (events (tw_log t));
    ti_len : zlen (tw_written t) = tw_output_count t * ch }.

  Lemma room_ok : 8 <= 1024 / ch /\ 1024 / ch * ch <= 1024.
  Proof.
    assert (C := ch_range). split; [apply Z.div_le_lower_bound; lia|]. rewrite Z.mul_comm. apply Z.mul_div_le. lia.
  Qed.

  (** Reading a block. *)
  Lemma read_ok m at_ : mapped m -> 0 <= at_ <= N -> exists m' n, sf_readf_float F N ch m at_ input INPUT_STEP_SIZE = Ok (m', at_ + n, n) /\
    n = Z.min 8 (N - at_) /\ mapped m' /\ holds m' input ch n X at_.
  Proof.
    intros M A. assert (C := ch_range). unfold sf_readf_float, INPUT_STEP_SIZE. rewrite Z.max_r by lia. set (n := Z.min 8 (N - at_)). assert (Hn : 0 <= n <= 8) by lia.
    unfold file_samples.
    destruct (mwrite_list_ok (fun j => F (at_ + j / ch) (j mod ch)) (Z.to_nat (n * ch)) 0 input m) as (m' & -> & W1 & W2).
    { intros j Hj. apply M. nia. }
    cbn [bind]. exists m', n. split; [reflexivity|]. split; [reflexivity|]. rewrite Z2Nat.id in W1, W2 by nia. split.
    - intros j Hj. split.
      + destruct (Z_lt_ge_dec j (n * ch)) as [L|L]; [rewrite W1 by lia; discriminate|]. rewrite W2 by lia. now apply M.
      + rewrite W2 by nia. now apply M.
    - intros i c Hi Hc. rewrite W1 by nia. cbn [Z.of_nat]. rewrite Z.add_0_l.
      replace ((i * ch + c) / ch) with i by (rewrite Z.add_comm, Z_div_plus, Z.div_small by lia; lia).
      replace ((i * ch + c) mod ch) with c by (rewrite Z.add_comm, Z_mod_plus, Z.mod_small by lia; lia).
      rewrite pad_in by lia. reflexivity.
  Qed.

  (** The call. *)
  Lemma call_ok st d m log written at_ :
    let o := at_ - input_frames d in
    sinc_streaming ch X okr st0 0 log written st o -> ends_at N 0 log -> (exists fl, (fl <= 1)%R /\ good_at inc coeffs ch PWide fl st) -> sized st ->
    0 <= at_ <= N -> 0 <= input_frames d <= 8 -> input <= data_in d < input + 1024 -> data_in d + input_frames d * ch <= input + 1024 ->
    holds m (data_in d) ch (input_frames d) X o -> (end_of_input d <> 0 -> at_ = N) -> in_range (src_ratio d) -> (1 <= B2R (src_ratio d))%R ->
    data_out d = output -> output_frames d = 1024 / ch -> mapped m ->
    valid_call ch d m /\
    exists st3 used gen m3 chunk, let d3 := set_counts d used gen in
      src_process (Some st) (Some d) m = Ok (0, Some st3, Some d3, m3) /\ 0 <= used <= input_frames d /\ 0 <= gen <= 1024 / ch /\
      mread_n m3 output (Z.to_nat (gen * ch)) = Ok chunk /\ (exists fl, (fl <= 1)%R /\ good_at inc coeffs ch PWide fl st3) /\ sized st3 /\ mapped m3 /\
      (forall a, ~ (output <= a < output + 1024) -> m3 a = m a) /\
      sinc_streaming ch X okr st0 0 (log ++ [Ev_call d d3]) (written ++ chunk) st3 (o + used) /\
      (gen < 1024 / ch -> used = input_frames d).
  Proof.
    intros o Run En [fl [Fl Gd]] Sz At Hf Hi1 Hi2 Hh He Hr H1 Ho Hro Hm.
    assert (C := ch_range). destruct room_ok as [Rm1 Rm2].
    assert (V : valid_call ch d m).
    { unfold valid_call. rewrite Ho, Hro. split; [lia|]. split; [lia|]. split; [nia|]. split; [lia|]. split; [exact Hr|]. split; [lia|]. split; [lia|].
      split; [lia|]. split; [lia|]. split; [intros j Hj|split; [intros j Hj; apply Hm; nia|]].
      - replace (data_in d + j) with (input + (data_in d - input + j)) by lia. apply Hm. nia.
      - unfold apart. lia. }
    split; [exact V|].
    destruct (history_step inc coeffs ch Ht C PWide fl unit (fun _ _ u m => (u, m, None, 0)) 0 st (A_process (Some d) m) Gd V) as [(r & st1 & E & T & G1)|(Q & _)]; [|..|discriminate Q].
    { split; [|discriminate]. split; [lra|right; lra]. }
    cbn [api_step] in E. destruct (src_process (Some st) (Some d) m) as [[[[e so] dop] m3]|f] eqn:Ep; [|discriminate E]. cbn [bind] in E.
    destruct (process_sized _ _ _ _ _ _ _ Sz Ep) as (st3 & -> & Sz3). cbn [keep] in E. injection E as <- <-.
    cbn [truthful] in T. destruct dop as [d3|]; [|contradiction].
    assert (T' : honest_reply ch d m e d3 m3) by (destruct T as [T|(_ & T & _)]; [exact T|nia]). clear T.
    destruct T' as (-> & Ed & Hu & Hg & value & Wr). set (used := input_frames_used d3) in *. set (gen := output_frames_gen d3) in *.
    rewrite Hro in Hg. rewrite Ho in Wr. destruct (wrote_read _ _ _ ch _ _ ltac:(lia) (proj1 Hg) Wr) as [chunk Ck].
    exists st3, used, gen, m3, chunk. cbv zeta. rewrite <- Ed. split; [reflexivity|]. split; [exact Hu|]. split; [exact Hg|]. split; [exact Ck|].
    split. { exists (next_floor fl (A_process (Some d) m : api_call unit)). split; [|exact G1]. cbn [next_floor]. destruct (end_of_input d =? 0); [exact Fl|apply Rmin_l]. }
    split; [exact Sz3|]. destruct Wr as [W1 W2].
    assert (Out : forall a, ~ (output <= a < output + 1024) -> m3 a = m a). { intros a Ha. apply W2. nia. }
    split.
    { intros j Hj. split; [rewrite Out by lia; now apply Hm|].
      destruct (Z_lt_ge_dec j (gen * ch)) as [L|L]; [|rewrite W2 by lia; now apply Hm].
      assert (M := Z.mod_pos_bound j ch ltac:(lia)). assert (Q := Z.div_mod j ch ltac:(lia)).
      assert (0 <= j / ch) by (apply Z.div_pos; lia). assert (j / ch < gen) by (apply Z.div_lt_upper_bound; nia).
      replace j with (j / ch * ch + j mod ch) by lia. rewrite W1 by lia. discriminate. }
    split; [exact Out|]. assert (He' : end_of_input d <> 0 -> forall i c, o + input_frames d <= i -> X i c = fzero).
    { intros Q i c L. specialize (He Q). apply pad_high. unfold o in L. lia. }
    assert (Ok : okr (src_ratio d)) by (split; [exact H1|apply Hr]). split.
    - apply (CbStream.sinc_streaming_snoc ch X okr st0 0 log written st o d m st3 d3 m3 chunk Run V Hh Ok He' Ep). rewrite Ho. exact Ck.
    - intros Lt. apply (sinc_takes_up inc coeffs ch X N st0 log written st o d m st3 d3 m3); auto; try lia; try nia; [now left|apply pad_low].
  Qed.

  Definition decide (t : tw) : f64 * Z :=
    if tw_warp_index t <? zlen warp - 1
    then match nth_error warp (Z.to_nat (tw_warp_index t)) with
         | Some (i, r) => if i <=? tw_input_count t then (r, tw_warp_index t + 1) else (src_ratio (tw_data t), tw_warp_index t)
         | None => (src_ratio (tw_data t), tw_warp_index t)
         end
    else (src_ratio (tw_data t), tw_warp_index t).
  Definition stepped (t t' : tw) : Prop :=
    exists d2 d3, tw_log t' = tw_log t ++ [(tw_input_count t, d2, d3)] /\ src_ratio d2 = fst (decide t) /\ src_ratio (tw_data t') = fst (decide t) /\
      tw_warp_index t' = snd (decide t) /\ tw_input_count t <= tw_input_count t' <= tw_input_count t + 8.
  Record tw_done (t : tw) : Prop := {
    td_at : tw_at t = N /\ tw_input_count t = N;
    td_count : tw_output_count t = total_gen (events (tw_log t));
    td_run : sinc_streaming ch X okr st0 0 (events (tw_log t)) (tw_written t) (tw_state t) N;
    td_len : zlen (tw_written t) = tw_output_count t * ch;
    td_sized : sized (tw_state t);
    td_rho : exists rho, follows (/ IZR (2 ^ 33)) None (events (tw_log t)) rho /\ covers rho (tw_output_count t) N (1 + / IZR (2 ^ 20)) 0 /\
      (forall A : f32, (inc, coeffs) = fastest_table \/ (inc, coeffs) = mid_qual_table -> within ch X A -> (6 * Rabs (B2R A) < IZR (2 ^ 128))%R ->
       forall k c, 0 <= k < tw_output_count t -> 0 <= c < ch -> exists u t0 y, reached rho k u (B2R t0) /\ is_finite t0 = true /\
         sample ch (tw_written t) k c = Some y /\ is_finite y = true /\
         (Rabs (B2R y - ideal_sinc inc coeffs (fun i => B2R (X i c)) (u, t0) (rho (Z.to_nat k))) <= 6 / 10000000 * Rabs (B2R A) + / IZR (2 ^ 149))%R) }.
  Definition measure (t : tw) : Z := (N - left_ t) + (257 * N + 2 - total_gen (events (tw_log t))).

  Lemma decide_ok t : tw_inv t -> exists d1,
    (if tw_warp_index t <? zlen warp - 1
       then do (i, r) <- warp_at warp (tw_warp_index t) ;
            if i <=? tw_input_count t
            then do w <- int_op (tw_warp_index t + 1) ; Ok (put_ratio (tw_data t) r, w)
            else Ok (tw_data t, tw_warp_index t)
       else Ok (tw_data t, tw_warp_index t)) = Ok (d1, snd (decide t)) /\
    d1 = put_ratio (tw_data t) (fst (decide t)) /\ in_range (fst (decide t)) /\ (1 <= B2R (fst (decide t)))%R /\ 0 <= snd (decide t) < 2 ^ 31.
  Proof.
    intros I. assert (Hi := ti_index t I). destruct (ti_ratio t I) as [R1 R2].
    assert (Same : tw_data t = put_ratio (tw_data t) (src_ratio (tw_data t))) by (destruct (tw_data t); reflexivity).
    unfold decide. destruct (Z.ltb_spec (tw_warp_index t) (zlen warp - 1)) as [L|L]; [|exists (tw_data t); cbn [fst snd]; auto].
    destruct (warp_at_nth warp (tw_warp_index t) ltac:(lia)) as (a & x & E & ->). rewrite E. cbn [bind].
    destruct (Z.leb_spec a (tw_input_count t)) as [La|La]; [|exists (tw_data t); cbn [fst snd]; auto].
    destruct Hw as (_ & Hz & _). rewrite int_ok by lia. cbn [bind fst snd]. eexists. split; [reflexivity|]. split; [reflexivity|].
    destruct (warp_ratio warp _ _ _ Hw E) as [Q1 Q2]. split; [exact Q1|]. split; [exact Q2|]. lia.
  Qed.
  Lemma ends_snoc n d d' log : forall al st out st' o o', sinc_streaming ch X al st o log out st' o' -> ends_at n o log ->
    (end_of_input d <> 0 -> o' + input_frames d = n) -> ends_at n o (log ++ [Ev_call d d']).
  Proof.
    intros al st out st' o o' R. clear Hst. induction R; cbn [app ends_at]; [auto|intros [E1 E2] E; split; auto|auto].
  Qed.
  Lemma gen_snoc log d d' : total_gen (log ++ [Ev_call d d']) = total_gen log + output_frames_gen d'.
  Proof. clear. induction log as [|[a b|r] l IH]; cbn [app total_gen]; lia. Qed.

  Lemma pass_ok t : tw_inv t -> exists n, tw_pass F N warp ch input output t = Ok n /\
    match n with
    | Tw_again t' => tw_inv t' /\ stepped t t' /\ measure t' < measure t
    | Tw_break t' => tw_done t' /\ stepped t t'
    | Tw_exit => False
    end.
  Proof.
    intros I. unfold tw_pass. destruct (decide_ok t I) as (d1 & -> & Ed1 & Rr1 & Rr2 & Ix). cbn [bind].
    assert (C := ch_range). destruct room_ok as [Rm1 Rm2].
    assert (Rd : exists d2 m2 at2,
      (if input_frames d1 =? 0
       then do (m', at_, n) <- sf_readf_float F N ch (tw_mem t) (tw_at t) input INPUT_STEP_SIZE ;
            do c <- long_op (tw_input_count t + n) ;
            Ok (put_block d1 input n (if n <? INPUT_STEP_SIZE then 1 else end_of_input d1), m', at_, c)
       else Ok (d1, tw_mem t, tw_at t, tw_input_count t)) = Ok (d2, m2, at2, at2) /\
      at2 - input_frames d2 = left_ t /\ tw_at t <= at2 <= tw_at t + 8 /\ at2 <= N /\ 0 <= input_frames d2 <= 8 /\
      input <= data_in d2 < input + 1024 /\ data_in d2 + input_frames d2 * ch <= input + 1024 /\
      holds m2 (data_in d2) ch (input_frames d2) X (left_ t) /\ (end_of_input d2 <> 0 -> at2 = N) /\ src_ratio d2 = fst (decide t) /\
      data_out d2 = output /\ output_frames d2 = 1024 / ch /\ mapped m2 /\ (end_of_input d2 = 0 -> 0 < input_frames d2)).
    { destruct (ti_at t I) as [A1 A2]. destruct (ti_frames t I) as (F1 & F2 & F3 & F4). destruct (ti_room t I) as [Q1 Q2].
      subst d1. cbn [put_ratio input_frames end_of_input]. destruct (Z.eqb_spec (input_frames (tw_data t)) 0) as [Z0|Z0].
      - destruct (read_ok (tw_mem t) (tw_at t) (ti_mem t I) A2) as (m' & n & -> & En & Mm & Hh). cbn [bind]. rewrite A1, long_ok by lia. cbn [bind].
        unfold INPUT_STEP_SIZE. eexists _, _, _. split; [reflexivity|]. unfold left_. cbn [put_block input_frames data_in end_of_input src_ratio data_out output_frames].
        split; [lia|]. split; [lia|]. split; [lia|]. split; [lia|]. split; [lia|]. split; [nia|]. split; [rewrite Z0, Z.sub_0_r; exact Hh|].
        split. { destruct (Z.ltb_spec n 8); [lia|]. intros Q. assert (Q' := ti_end t I Q). lia. }
        split; [reflexivity|]. split; [exact Q1|]. split; [exact Q2|]. split; [exact Mm|]. destruct (Z.ltb_spec n 8); [discriminate|lia].
      - eexists _, _, _. split; [rewrite A1; reflexivity|]. unfold left_. cbn [put_ratio input_frames data_in end_of_input src_ratio data_out output_frames].
        split; [lia|]. split; [lia|]. split; [lia|]. split; [lia|]. split; [nia|]. split; [lia|]. split; [exact (ti_holds t I)|]. split; [exact (ti_end t I)|].
        split; [reflexivity|]. split; [exact Q1|]. split; [exact Q2|]. split; [exact (ti_mem t I)|]. lia. }
    destruct Rd as (d2 & m2 & at2 & -> & El & A1 & A2 & Hf & Hi1 & Hi2 & Hh & He & Er & Ho & Hro & Hm & Hpos). cbn [bind].
    rewrite <- Er in Rr1, Rr2. destruct (ti_at t I) as [A0 A00].
    assert (Run := ti_run t I). rewrite <- El in Run, Hh.
    destruct (call_ok (tw_state t) d2 m2 (events (tw_log t)) (tw_written t) at2 Run (ti_ends t I) (ti_good t I) (ti_sized t I) ltac:(lia) Hf Hi1 Hi2 Hh He Rr1 Rr2 Ho Hro Hm)
      as (V & st3 & used & gen & m3 & chunk & Ep & Hu & Hg & Ck & Gd3 & Sz3 & Hm3 & Out & Run3 & Full).
    rewrite Ep. cbn [bind]. set (d3 := set_counts d2 used gen) in *. change (negb (0 =? 0)) with false. cbv iota.
    change (end_of_input d3) with (end_of_input d2). change (output_frames_gen d3) with gen. change (input_frames_used d3) with used.
    change (data_in d3) with (data_in d2). change (input_frames d3) with (input_frames d2).
    assert (Ev : events (tw_log t ++ [(tw_input_count t, d2, d3)]) = events (tw_log t) ++ [Ev_call d2 d3]) by (unfold events; rewrite map_app; reflexivity).
    assert (Cnt := ti_count t I).
    assert (St : forall t', tw_log t' = tw_log t ++ [(tw_input_count t, d2, d3)] -> src_ratio (tw_data t') = src_ratio d2 -> tw_warp_index t' = snd (decide t) ->
      tw_input_count t' = at2 -> stepped t t').
    { intros t' L1 L2 L3 L4. exists d2, d3. split; [exact L1|]. split; [exact Er|]. split; [congruence|]. split; [exact L3|lia]. }
    destruct (negb (end_of_input d2 =? 0) && (gen =? 0)) eqn:B.
    - apply andb_prop in B. destruct B as [B1 B2]. apply negb_true_iff, Z.eqb_neq in B1. apply Z.eqb_eq in B2.
      eexists. split; [reflexivity|]. cbv iota beta. split; [|apply St; reflexivity].
      assert (E2 := He B1). assert (Fu := Full ltac:(lia)).
      assert (Rs := Run3). rewrite Fu in Rs. replace (at2 - input_frames d2 + input_frames d2) with N in Rs by lia.
      rewrite B2 in Ck. cbn in Ck. injection Ck as <-. rewrite app_nil_r in Rs.
      destruct (sinc_whole inc coeffs ch X N st0 (events (tw_log t)) (tw_written t) (tw_state t) (at2 - input_frames d2) d2 m2 st3 d3 m3) as (_ & rho & chunk & W1 & W2 & _ & W4 & W5); auto; try lia; try nia.
      { now left. } { exact pad_low. } { exact (ti_ends t I). } { exact pad_high. } { change (output_frames_gen d3) with gen. lia. }
      change (output_frames_gen d3) with gen in *. rewrite B2 in W4. cbn in W4. injection W4 as <-. rewrite B2, Z.add_0_r in W2, W5. rewrite app_nil_r in W5.
      constructor; cbn [tw_at tw_input_count tw_output_count tw_log tw_written tw_state].
      + lia.
      + rewrite Ev, gen_snoc. change (output_frames_gen d3) with gen. lia.
      + rewrite Ev. exact Rs.
      + exact (ti_len t I).
      + exact Sz3.
      + exists rho. rewrite Ev, Cnt. split; [exact W1|]. split; [exact W2|exact W5].
    - rewrite Ck. cbn [bind]. destruct (sinc_count inc coeffs ch X st0 (events (tw_log t)) (tw_written t) (tw_state t) _ Ht ltac:(now left) pad_low Run) as [Tg0 Tg1].
      assert (gen <= 1024) by nia. rewrite long_ok by lia. cbn [bind].
      eexists. split; [reflexivity|]. cbv iota beta. split; [|split; [apply St; reflexivity|]].
      + assert (Lf : at2 - (input_frames d2 - used) = at2 - input_frames d2 + used) by lia.
        constructor; cbn [tw_at tw_input_count tw_output_count tw_log tw_written tw_state tw_data tw_mem tw_warp_index]; unfold left_;
          cbn [tw_at tw_data put_block input_frames data_in data_out output_frames end_of_input src_ratio]; rewrite ?Ev, ?Lf.
        * exact Run3.
        * apply (ends_snoc N d2 d3 _ _ _ _ _ _ _ Run (ti_ends t I)). intros Q. specialize (He Q). lia.
        * exact Gd3.
        * exact Sz3.
        * lia.
        * nia.
        * intros i c Hi Hc. assert (0 <= (used + i) * ch) by nia. assert ((used + i + 1) * ch <= input_frames d2 * ch) by (apply Z.mul_le_mono_nonneg_r; lia).
          rewrite Out by lia. replace (data_in d2 + used * ch + (i * ch + c)) with (data_in d2 + ((used + i) * ch + c)) by lia.
          rewrite Hh by lia. f_equal. f_equal; lia.
        * exact He.
        * split; assumption.
        * split; assumption.
        * exact Hm3.
        * exact Ix.
        * rewrite gen_snoc. change (output_frames_gen d3) with gen. lia.
        * assert (Ln := ti_len t I). unfold zlen in *. destruct (mread_n_spec _ _ _ _ Ck) as [Lc _]. rewrite app_length, Lc, Nat2Z.inj_add, Ln, Z2Nat.id by nia. lia.
      + unfold measure, left_. cbn [tw_at tw_log tw_data put_block input_frames]. rewrite Ev, gen_snoc. change (output_frames_gen d3) with gen.
        assert (0 < used + gen); [|unfold left_ in El; lia].
        destruct (Z.eq_dec gen 0) as [Eg|Eg]; [|lia]. rewrite Eg in B. cbn in B. rewrite andb_true_r in B. apply negb_false_iff, Z.eqb_eq in B. specialize (Hpos B).
        specialize (Full ltac:(lia)). lia.
  Qed.

  Lemma measure_pos t : tw_inv t -> 0 < measure t.
  Proof.
    intros I. assert (Run := ti_run t I). unfold measure. destruct (ti_frames t I) as [F1 _]. destruct (ti_at t I) as [_ A].
    destruct (sinc_count inc coeffs ch X st0 (events (tw_log t)) (tw_written t) (tw_state t) _ Ht ltac:(now left) pad_low Run) as [Tg0 Tg1].
    unfold left_ in *. lia.
  Qed.
  Lemma loop_ok (P : tw -> Prop) : (forall t t', tw_inv t -> P t -> stepped t t' -> P t') -> forall fuel t, tw_inv t -> P t -> measure t <= Z.of_nat fuel ->
    exists t', tw_loop F N warp ch input output fuel t = Ok (Some t') /\ tw_done t' /\ P t'.
  Proof.
    intros HP. induction fuel as [|k IH]; intros t I Q M; [assert (Z := measure_pos t I); lia|].
    cbn [tw_loop]. destruct (pass_ok t I) as (n & -> & H). cbn [bind]. destruct n as [t'|t'|]; [|exists t'; split; [reflexivity|]; split; [apply H|apply (HP t); [exact I|exact Q|apply H]]|destruct H].
    destruct H as (I' & S & L). apply IH; [exact I'|apply (HP t); assumption|lia].
  Qed.
  Lemma init_ok m : mapped m -> exists t, tw_init warp ch input output st0 m = Ok t /\ tw_inv t /\ measure t = 258 * N + 2 /\
    exists a x, nth_error warp 0 = Some (a, x) /\ tw_input_count t = 0 /\ tw_log t = [] /\
      src_ratio (tw_data t) = (if 0 <? a then done_ else x) /\ tw_warp_index t = (if 0 <? a then 0 else 1).
  Proof.
    intros Hm. assert (C := ch_range). destruct room_ok as [Rm1 Rm2]. unfold tw_init.
    destruct (warp_at_nth warp 0) as (a & x & E & ->). { destruct Hw as (Ne & _). unfold zlen. destruct warp; [congruence|cbn [length]; lia]. }
    cbn [bind]. unfold c_div, BUFFER_LEN. destruct (Z.eqb_spec ch 0); [lia|]. rewrite Z.quot_div_nonneg by lia. cbn [bind].
    change (nth_error warp (Z.to_nat 0)) with (nth_error warp 0) in E. destruct (warp_ratio warp _ _ _ Hw E) as [Q1 Q2].
    eexists. split; [reflexivity|]. split; [|split; [unfold measure, left_; cbn [tw_at tw_data input_frames tw_log events map total_gen]; lia|]].
    2: { exists a, x. cbn [tw_input_count tw_log tw_data src_ratio tw_warp_index]. auto. }
    destruct (sinc_new_state _ _ _ _ Hst) as (_ & b & Eb & Es).
    constructor; cbn [tw_at tw_input_count tw_output_count tw_log tw_written tw_state tw_data tw_mem tw_warp_index events map total_gen]; unfold left_;
      cbn [tw_at tw_data input_frames data_in data_out output_frames end_of_input src_ratio].
    - constructor.
    - exact I.
    - exists 0%R. split; [lra|]. rewrite Es. apply (good_start inc coeffs ch Ht C PWide b Eb). discriminate.
    - destruct Hst as (bld & orc & ty & h & c & h' & T & En & ->). destruct (new_fresh _ _ _ _ _ _ _ _ En) as [Fr Hc]. apply (fresh_sized _ _ _ _ Hc Fr).
    - lia.
    - nia.
    - intros i c Hi. lia.
    - congruence.
    - destruct (0 <? a); [|auto]. split; [exact HoldMain.one_range|]. destruct done_val as [-> _]. lra.
    - auto.
    - exact Hm.
    - destruct (0 <? a); lia.
    - reflexivity.
    - reflexivity.
  Qed.
End Loop.

(** ** The table *)
Definition current (r : f64) (warp : warp_table) (k : nat) : f64 :=
  match k with O => r | S j => match nth_error warp j with Some (_, x) => x | None => r end end.
Definition placed_at (warp : warp_table) (k : nat) (c : Z) : Prop :=
  (k <= length warp)%nat /\ (forall j a x, (j < k)%nat -> nth_error warp j = Some (a, x) -> a <= c) /\ (forall a x, nth_error warp k = Some (a, x) -> c < a).
Lemma wanted_at : forall warp r k c, placed_at warp k c -> wanted r warp c = current r warp k.
Proof.
  induction warp as [|[a x] l IH]; intros r k c (L & P1 & P2).
  - destruct k as [|k]; [reflexivity|cbn in L; lia].
  - destruct k as [|k].
    + cbn [wanted current]. assert (Q := P2 a x eq_refl). destruct (Z.leb_spec a c); [lia|reflexivity].
    + cbn [wanted]. assert (Q := P1 0%nat a x ltac:(lia) eq_refl). destruct (Z.leb_spec a c); [|lia].
      rewrite (IH x k c).
      * destruct k as [|k]; [reflexivity|]. cbn [current nth_error]. destruct (nth_error l k) as [[b y]|] eqn:E; [reflexivity|].
        apply nth_error_None in E. cbn in L. lia.
      * split; [cbn in L; lia|]. split; [|exact P2]. intros j b y Hj E. apply (P1 (S j) b y); [lia|exact E].
Qed.
Lemma nth_firstn {A} : forall (l : list A) n j, nth_error (firstn n l) j = if (j <? n)%nat then nth_error l j else None.
Proof.
  induction l as [|x l IH]; intros n j; [rewrite firstn_nil; destruct (j <? n)%nat, j; reflexivity|].
  destruct n as [|n]; [destruct j; reflexivity|]. destruct j as [|j]; [reflexivity|]. cbn [firstn nth_error]. rewrite IH. reflexivity.
Qed.
Lemma nth_init (warp : warp_table) j : nth_error (removelast warp) j = if (j <? length warp - 1)%nat then nth_error warp j else None.
Proof. rewrite removelast_firstn_len, nth_firstn. replace (Nat.pred (length warp)) with (length warp - 1)%nat by lia. reflexivity. Qed.
Lemma len_init (warp : warp_table) : length (removelast warp) = (length warp - 1)%nat.
Proof. rewrite removelast_firstn_len, firstn_length. lia. Qed.

Section Table.
  Variable warp : warp_table.
  Hypothesis Hl : (2 <= length warp)%nat.
  Hypothesis Hs : spaced warp.
  Let w := removelast warp.

  Record table_inv (t : tw) : Prop := {
    tb_place : exists c0, c0 <= tw_input_count t <= c0 + 8 /\ placed_at w (Z.to_nat (tw_warp_index t)) c0 /\ 0 <= tw_warp_index t;
    tb_ratio : src_ratio (tw_data t) = current done_ w (Z.to_nat (tw_warp_index t));
    tb_log : obeys w (tw_log t);
    tb_last : tw_log t = [] \/ exists l c d d', tw_log t = l ++ [(c, d, d')] /\ tw_input_count t <= c + 8 }.

  Lemma decided t : table_inv t -> placed_at w (Z.to_nat (snd (decide warp t))) (tw_input_count t) /\ 0 <= snd (decide warp t) /\
    fst (decide warp t) = current done_ w (Z.to_nat (snd (decide warp t))).
  Proof.
    intros [(c0 & C0 & (P0 & P1 & P2) & I0) R _ _]. unfold decide, w in *. rewrite len_init in P0. unfold zlen.
    set (k := Z.to_nat (tw_warp_index t)) in *.
    assert (Keep : (forall a x, nth_error (removelast warp) k = Some (a, x) -> tw_input_count t < a) -> placed_at (removelast warp) k (tw_input_count t)).
    { intros Q. split; [rewrite len_init; exact P0|]. split; [|exact Q]. intros j a x Hj E. specialize (P1 j a x Hj E). lia. }
    destruct (Z.ltb_spec (tw_warp_index t) (Z.of_nat (length warp) - 1)) as [L|L].
    - destruct (nth_error warp k) as [[a x]|] eqn:E; [|apply nth_error_None in E; lia].
      destruct (Z.leb_spec a (tw_input_count t)) as [La|La].
      + cbn [fst snd]. replace (Z.to_nat (tw_warp_index t + 1)) with (S k) by lia.
        assert (Ei : nth_error (removelast warp) k = Some (a, x)). { rewrite nth_init. destruct (Nat.ltb_spec k (length warp - 1)); [exact E|lia]. }
        split; [|split; [lia|cbn [current]; rewrite Ei; reflexivity]].
        split; [rewrite len_init; lia|]. split.
        * intros j b y Hj Ej. destruct (Nat.eq_dec j k) as [->|Nj]; [rewrite Ei in Ej; injection Ej as <- <-; exact La|]. specialize (P1 j b y ltac:(lia) Ej). lia.
        * intros b y Ej. rewrite nth_init in Ej. destruct (S k <? length warp - 1)%nat; [|discriminate Ej].
          specialize (P2 a x Ei). assert (Q9 := proj2 Hs k a x b y E Ej). lia.
      + cbn [fst snd]. fold k. split; [|split; [exact I0|exact R]]. apply Keep. intros b y Eb. rewrite nth_init in Eb.
        destruct (k <? length warp - 1)%nat; [|discriminate Eb]. rewrite E in Eb. injection Eb as <- <-. exact La.
    - cbn [fst snd]. fold k. split; [|split; [exact I0|exact R]]. apply Keep. intros b y Eb. rewrite nth_init in Eb.
      destruct (Nat.ltb_spec k (length warp - 1)); [lia|discriminate Eb].
  Qed.
  Lemma table_step t t' : table_inv t -> stepped warp t t' -> table_inv t'.
  Proof.
    intros I (d2 & d3 & El & E2 & E3 & E4 & E5). destruct (decided t I) as (P & Q0 & Q). constructor.
    - exists (tw_input_count t). rewrite E4. auto.
    - rewrite E3, E4. exact Q.
    - rewrite El. apply Forall_app. split; [exact (tb_log t I)|]. constructor; [|constructor]. rewrite E2, Q. symmetry. apply wanted_at, P.
    - right. exists (tw_log t), (tw_input_count t), d2, d3. split; [exact El|lia].
  Qed.
  Lemma table_init t a x : nth_error warp 0 = Some (a, x) -> tw_input_count t = 0 -> tw_log t = [] ->
    src_ratio (tw_data t) = (if 0 <? a then done_ else x) -> tw_warp_index t = (if 0 <? a then 0 else 1) -> table_inv t.
  Proof.
    intros E E1 E2 E3 E4. assert (Ha := proj1 Hs a x E). assert (Ei : nth_error w 0 = Some (a, x)). { unfold w. rewrite nth_init. destruct (Nat.ltb_spec 0 (length warp - 1)); [exact E|lia]. }
    constructor.
    - exists 0. rewrite E1, E4. split; [lia|]. split; [|destruct (0 <? a); lia]. unfold placed_at, w. rewrite len_init.
      destruct (Z.ltb_spec 0 a) as [L|L]; cbn [Z.to_nat].
      + split; [lia|]. split; [lia|]. intros b y Eb. fold w in Eb. rewrite Ei in Eb. injection Eb as <- <-. exact L.
      + change (Pos.to_nat 1) with 1%nat. split; [lia|]. split.
        * intros j b y Hj Eb. assert (j = 0%nat) as -> by lia. fold w in Eb. rewrite Ei in Eb. injection Eb as <- <-. exact L.
        * intros b y Eb. rewrite nth_init in Eb. destruct (1 <? length warp - 1)%nat; [|discriminate Eb]. assert (Q9 := proj2 Hs 0%nat a x b y E Eb). lia.
    - rewrite E3, E4. destruct (0 <? a); [reflexivity|]. cbn [Z.to_nat]. change (Pos.to_nat 1) with 1%nat. cbn [current]. rewrite Ei. reflexivity.
    - rewrite E2. constructor.
    - left. exact E2.
  Qed.
End Table.

(** ** The whole program *)
Lemma events_taken ch X al : forall l st o out st' o', sinc_streaming ch X al st o (events l) out st' o' -> o' = o + taken l.
Proof.
  induction l as [|[[c d] d'] l IH]; intros st o out st' o' R; cbn [events map taken] in *; inversion R; subst; [lia|].
  match goal with H : sinc_streaming _ _ _ _ _ (map _ l) _ _ _ |- _ => apply IH in H end. lia.
Qed.

Lemma exists_last_or {A} (l : list A) : l = [] \/ exists l' x, l = l' ++ [x].
Proof. destruct l as [|a l]; [auto|]. right. destruct (@exists_last _ (a :: l)) as (l' & x & E); [discriminate|]. eauto. Qed.
Lemma log_split {A} (l : list A) x l1 y r : l ++ [x] = l1 ++ y :: r -> (l1 = l /\ y = x /\ r = []) \/ exists r', r = r' ++ [x] /\ l = l1 ++ y :: r'.
Proof.
  intros E. destruct (exists_last_or r) as [->|(r' & z & ->)].
  - apply app_inj_tail in E. destruct E as [-> ->]. auto.
  - right. change (l1 ++ y :: r' ++ [z]) with (l1 ++ (y :: r') ++ [z]) in E. rewrite app_assoc in E. apply app_inj_tail in E. destruct E as [-> ->]. eauto.
Qed.

Section Whole.
  Variables (bld : build) (orc : Z -> bool) (inc : Z) (coeffs : list f32) (F : stream) (N : Z) (warp : warp_table) (ty ch input output : Z)
    (h : heap) (m : mem) (c : converter) (h1 : heap).
  Hypothesis Hb : build_ok bld.
  Hypothesis Hh : heap_ok h.
  Hypothesis Hty : sinc_table bld ty = Some (inc, coeffs).
  Hypothesis Ht : table_fit (inc, coeffs).
  Hypothesis Hnew : src_new bld orc ty ch h = Ok (0, Some c, h1).
  Hypothesis HN : 0 <= N <= 2 ^ 50.
  Hypothesis Hw : warp_ok warp.
  Hypothesis Ha : arrays m input output.

  Lemma whole_run (P : tw -> Prop) fuel :
    (forall t a x, nth_error warp 0 = Some (a, x) -> tw_input_count t = 0 -> tw_log t = [] ->
      src_ratio (tw_data t) = (if 0 <? a then done_ else x) -> tw_warp_index t = (if 0 <? a then 0 else 1) -> P t) ->
    (forall t t', tw_inv inc coeffs ch F N input output (c_state c) t -> P t -> stepped warp t t' -> P t') ->
    258 * N + 2 <= Z.of_nat fuel ->
    exists t h2, timewarp_convert bld orc F N warp ty ch input output fuel h m = Ok (Some t, h2) /\ hp_live h2 = hp_live h /\
      tw_done inc coeffs ch F N (c_state c) t /\ P t.
  Proof.
    intros P0 PS Fu. destruct Ha as (Hin & Hout & Hap & Hm).
    assert (Hst : sinc_new (inc, coeffs) ch (c_state c)) by (exists bld, orc, ty, h, c, h1; auto).
    unfold timewarp_convert. rewrite Hnew. cbn [bind].
    destruct (init_ok inc coeffs ch F N warp input output (c_state c) Ht Hst HN Hw m Hm) as (t0 & E0 & I0 & M0 & a & x & Ea & E1 & E2 & E3 & E4).
    rewrite E0. cbn [bind].
    destruct (loop_ok inc coeffs ch F N warp input output (c_state c) Ht Hst HN Hw Hin Hout Hap P PS fuel t0 I0 (P0 t0 a x Ea E1 E2 E3 E4) ltac:(lia)) as (t & -> & D & Q).
    cbn [bind]. destruct (new_any _ _ _ _ _ _ _ _ Hh Hb Hnew) as (K1 & _ & _ & K2 & _).
    destruct (delete_new h c h1 (tw_state t) K1 K2 (td_sized _ _ _ _ _ _ _ D)) as (h2 & -> & _ & L & _). cbn [bind].
    exists t, h2. auto.
  Qed.
End Whole.

Lemma timewarp_thm bld orc inc coeffs F N warp ty ch input output h m c h1 fuel :
  build_ok bld -> heap_ok h -> sinc_table bld ty = Some (inc, coeffs) -> table_fit (inc, coeffs) -> src_new bld orc ty ch h = Ok (0, Some c, h1) ->
  0 <= N <= 2 ^ 50 -> warp_ok warp -> arrays m input output -> 258 * N + 2 <= Z.of_nat fuel ->
  exists t h2, timewarp_convert bld orc F N warp ty ch input output fuel h m = Ok (Some t, h2) /\ hp_live h2 = hp_live h /\
    tw_input_count t = N /\ taken (tw_log t) = N /\ tw_output_count t = total_gen (events (tw_log t)) /\ zlen (tw_written t) = tw_output_count t * ch /\
    exists rho, follows (/ IZR (2 ^ 33)) None (events (tw_log t)) rho /\ covers rho (tw_output_count t) N (1 + / IZR (2 ^ 20)) 0 /\
      (forall A : f32, (inc, coeffs) = fastest_table \/ (inc, coeffs) = mid_qual_table -> within ch (padded F N) A -> (6 * Rabs (B2R A) < IZR (2 ^ 128))%R ->
       forall k c, 0 <= k < tw_output_count t -> 0 <= c < ch -> exists u t0 y, reached rho k u (B2R t0) /\ is_finite t0 = true /\
         sample ch (tw_written t) k c = Some y /\ is_finite y = true /\
         (Rabs (B2R y - ideal_sinc inc coeffs (fun i => B2R (padded F N i c)) (u, t0) (rho (Z.to_nat k))) <= 6 / 10000000 * Rabs (B2R A) + / IZR (2 ^ 149))%R).
Proof.
  intros Hb Hh Hty Ht Hn HN Hw Ha Fu.
  destruct (whole_run bld orc inc coeffs F N warp ty ch input output h m c h1 Hb Hh Hty Ht Hn HN Hw Ha (fun _ => True) fuel) as (t & h2 & E & L & D & _); auto.
  exists t, h2. destruct D as [[D1 D2] D3 D4 D5 D6 D7]. split; [exact E|]. split; [exact L|]. split; [exact D2|]. split; [|split; [exact D3|split; [exact D5|exact D7]]].
  apply events_taken in D4. lia.
Qed.

Lemma table_thm bld orc inc coeffs F N warp ty ch input output h m c h1 fuel :
  build_ok bld -> heap_ok h -> sinc_table bld ty = Some (inc, coeffs) -> table_fit (inc, coeffs) -> src_new bld orc ty ch h = Ok (0, Some c, h1) ->
  0 <= N <= 2 ^ 50 -> warp_ok warp -> arrays m input output -> 258 * N + 2 <= Z.of_nat fuel -> 2 <= zlen warp -> spaced warp ->
  exists t h2, timewarp_convert bld orc F N warp ty ch input output fuel h m = Ok (Some t, h2) /\
    obeys (removelast warp) (tw_log t) /\ on_time (tw_log t) /\
    (tw_log t = [] \/ exists l c d d', tw_log t = l ++ [(c, d, d')] /\ N <= c + 8).
Proof.
  intros Hb Hh Hty Ht Hn HN Hw Ha Fu Hl Hs. assert (Hl' : (2 <= length warp)%nat) by (unfold zlen in Hl; lia).
  destruct (whole_run bld orc inc coeffs F N warp ty ch input output h m c h1 Hb Hh Hty Ht Hn HN Hw Ha (fun t => table_inv warp t /\ on_time (tw_log t)) fuel) as (t & h2 & E & L & D & T & O); auto.
  - intros t a x E1 E2 E3 E4 E5. split; [apply (table_init warp Hl' Hs t a x); assumption|]. rewrite E3. intros [|? ?]; discriminate.
  - intros t t' I [T O] S. split; [apply (table_step warp Hl' Hs t); assumption|]. destruct S as (d2 & d3 & El & _).
    intros l c' d d' r El'. rewrite El in El'. apply log_split in El'. destruct El' as [(-> & Eq & _)|(r' & _ & Eq)]; [|exact (O _ _ _ _ _ Eq)].
    injection Eq as -> -> ->. assert (Run := ti_run _ _ _ _ _ _ _ _ _ I). apply events_taken in Run. unfold left_ in Run.
    destruct (ti_at _ _ _ _ _ _ _ _ _ I) as [A1 A2]. destruct (ti_frames _ _ _ _ _ _ _ _ _ I) as (F1 & _ & _ & F4). lia.
  - exists t, h2. split; [exact E|]. split; [exact (tb_log _ _ T)|]. split; [exact O|]. destruct (td_at _ _ _ _ _ _ _ D) as [_ D2]. rewrite <- D2. exact (tb_last _ _ T).
Qed.

(** The table of the program. *)
Lemma lit_range n : 100000000 <= n <= 200000000 -> in_range (lit_8 n) /\ (1 <= B2R (lit_8 n))%R.
Proof.
  intros H. unfold lit_8. destruct (d_of_Z_val n) as [V1 F1]; [lia|]. destruct (d_of_Z_val 100000000) as [V2 F2]; [lia|].
  destruct (d_of_Z_val 2) as [V3 _]; [lia|]. destruct (d_of_Z_val 1) as [V4 _]; [lia|].
  assert (1 <= IZR n / 100000000 <= 2)%R. { destruct H as [H1 H2]. apply IZR_le in H1, H2. lra. }
  destruct (ddiv_val (d_of_Z n) (d_of_Z 100000000)) as [V Fi]; [exact F1|rewrite V2; lra| |].
  { rewrite V1, V2, Rabs_right by lra. apply Rle_trans with (bpow radix2 2); [simpl; lra|apply bpow_le; lia]. }
  rewrite V1, V2 in V.
  assert (1 <= rnd64 (IZR n / 100000000))%R. { apply rnd64_ge; [|lra]. rewrite <- V4. apply fmt64_val. }
  assert (rnd64 (IZR n / 100000000) <= 2)%R. { apply rnd64_le; [|lra]. rewrite <- V3. apply fmt64_val. }
  rewrite <- V in *. split; [split; [exact Fi|lra]|lra].
Qed.
Lemma warp_fine : warp_ok the_warp /\ spaced the_warp.
Proof.
  split.
  - split; [discriminate|]. split; [unfold zlen; cbn; lia|]. unfold the_warp. repeat (apply Forall_cons; [cbn [snd]; apply lit_range; lia|]). apply Forall_nil.
  - split; [intros a x E; injection E as <- _; lia|]. intros k a x b y. do 9 (destruct k as [|k]; [cbn [nth_error the_warp]; intros E1 E2; try discriminate E2; injection E1 as <- _; injection E2 as <- _; lia|]).
    destruct k; discriminate.
Qed.
Lemma last_ignored c : 81000 <= c -> wanted done_ (removelast the_warp) c <> wanted done_ the_warp c.
Proof.
  intros H. cbn [removelast the_warp wanted]. repeat (match goal with |- context [Z.leb ?a c] => destruct (Z.leb_spec a c); [|lia] end).
  intros E. apply (f_equal B2SF) in E. vm_compute in E. discriminate E.
Qed.

Lemma last_thm bld orc inc coeffs F N ty ch input output h m c h1 fuel :
  build_ok bld -> heap_ok h -> sinc_table bld ty = Some (inc, coeffs) -> table_fit (inc, coeffs) -> src_new bld orc ty ch h = Ok (0, Some c, h1) ->
  81008 <= N <= 2 ^ 50 -> arrays m input output -> 258 * N + 2 <= Z.of_nat fuel ->
  exists t h2, timewarp_convert bld orc F N the_warp ty ch input output fuel h m = Ok (Some t, h2) /\ ~ obeys the_warp (tw_log t).
Proof.
  intros Hb Hh Hty Ht Hn HN Ha Fu. destruct warp_fine as [Wo Ws].
  destruct (timewarp_thm bld orc inc coeffs F N the_warp ty ch input output h m c h1 fuel Hb Hh Hty Ht Hn ltac:(lia) Wo Ha Fu) as (t & h2 & E & _ & _ & Tk & _).
  destruct (table_thm bld orc inc coeffs F N the_warp ty ch input output h m c h1 fuel Hb Hh Hty Ht Hn ltac:(lia) Wo Ha Fu ltac:(unfold zlen; cbn; lia) Ws) as (t' & h2' & E' & O & _ & L).
  rewrite E in E'. injection E' as <- <-. exists t, h2. split; [exact E|]. intros O'. destruct L as [L|(l & c' & d & d' & L & Lc)]; [rewrite L in Tk; cbn in Tk; lia|].
  rewrite L in O, O'. apply Forall_app in O, O'. destruct O as [_ O], O' as [_ O']. inversion O as [|? ? O1 _]; inversion O' as [|? ? O2 _]; subst.
  apply (last_ignored c'); [lia|]. rewrite <- O1. exact O2.
Qed.
