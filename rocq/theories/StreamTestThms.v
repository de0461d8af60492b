(** tests/streaming_test.c (C60). *)
From Coq Require Import ZArith Reals List Bool Lia Lra.
From Flocq Require Import Core IEEE754.BinarySingleNaN.
From Verif Require Import Base FloatFacts PosFacts Types Common Sinc Api Callback ApiHist HoldSpec HoldFacts HoldCore HoldCall HoldStream HoldProcess HoldRamp HoldValue
  SincSpec SincFacts SincPrep SincLoop SincProcess SincCall SincApi SincHist SincStream SincMain SincLen LifeSpec LifeFacts LifeThms SincThms HoldMain LinMapped LinRoom CbStream VarThms HoldLength StreamTest StreamTestSpec.
Import ListNotations.
Local Open Scope Z_scope.

(** A request somewhere in the two arrays: o input frames have been used, g output frames written. *)
Record ask (r : f64) (N L input output : Z) (d : SRC_DATA) (o g : Z) : Prop := {
  ak_in : data_in d = input + o;
  ak_out : data_out d = output + g;
  ak_n : 0 <= input_frames d <= N - o;
  ak_k : 0 <= output_frames d <= L - g;
  ak_end : end_of_input d <> 0 -> o + input_frames d = N;
  ak_ratio : src_ratio d = r }.

Section Client.
  Variables (r : f64) (N L B input output : Z) (X : stream) (st0 : SRC_STATE) (m0 : mem).
  Variable Run : list event -> list f32 -> SRC_STATE -> Z -> Prop.
  Hypothesis Hr : in_range r.
  Hypothesis HB : 1 <= B /\ B <= N < 2 ^ 31 /\ B <= L < 2 ^ 31.
  Hypothesis Hin : 0 < input <= 2 ^ 59.
  Hypothesis Hout : 0 < output <= 2 ^ 59.
  Hypothesis Hap : input + N < output \/ output + L <= input.

  Definition mem_ok (m : mem) : Prop :=
    (forall i, 0 <= i < N -> m (input + i) = Some (X i 0)) /\ (forall j, 0 <= j < L -> m (output + j) <> None).
  Record req (d : SRC_DATA) (o g : Z) : Prop := {
    rq_in : data_in d = input + o;
    rq_out : data_out d = output + g;
    rq_n : input_frames d = Z.min B (N - o);
    rq_k : output_frames d = Z.min B (L - g);
    rq_end : end_of_input d = if N <=? o then 1 else 0;
    rq_ratio : src_ratio d = r }.

  Hypothesis Run0 : Run [] [] st0 0.
  Hypothesis Bound : forall log out st o, Run log out st o -> 0 <= o <= N -> 0 <= total_gen log <= L -> total_gen log < L.
  Hypothesis Call : forall log out st o d m, Run log out st o -> 0 <= o <= N -> mem_ok m -> 0 <= total_gen log < L -> req d o (total_gen log) ->
    valid_call 1 d m -> holds m (data_in d) 1 (input_frames d) X o ->
    exists st' d' m' chunk, src_process (Some st) (Some d) m = Ok (0, Some st', Some d', m') /\ honest_reply 1 d m 0 d' m' /\
      mread_n m' (data_out d) (Z.to_nat (output_frames_gen d' * 1)) = Ok chunk /\
      Run (log ++ [Ev_call d d']) (out ++ chunk) st' (o + input_frames_used d') /\
      (0 < input_frames d -> 0 < output_frames d -> 0 < input_frames_used d' \/ 0 < output_frames_gen d').

  Definition written (m : mem) (g : Z) (out : list f32) : Prop :=
    zlen out = g /\ (forall k, 0 <= k < g -> m (output + k) = nth_error out (Z.to_nat k)) /\ (forall a, ~ (output <= a < output + g) -> m a = m0 a).
  Record sl_inv (s : sl) (log : list event) (out : list f32) : Prop := {
    si_run : Run log out (sl_state s) (sl_in s);
    si_in : 0 <= sl_in s <= N;
    si_count : sl_out s = total_gen log;
    si_out : 0 <= sl_out s <= L;
    si_req : req (sl_data s) (sl_in s) (sl_out s);
    si_mem : mem_ok (sl_mem s);
    si_done : written (sl_mem s) (sl_out s) out }.
  Record finished (s : sl) (log : list event) (out : list f32) : Prop := {
    fi_last : exists st d m st2 d2 m2, Run log out st N /\ req d N (total_gen log) /\ valid_call 1 d m /\ 0 < output_frames d /\
      src_process (Some st) (Some d) m = Ok (0, Some st2, Some d2, m2) /\ output_frames_gen d2 = 0;
    fi_in : sl_in s = N;
    fi_count : sl_out s = total_gen log;
    fi_out : 0 <= sl_out s < L;
    fi_done : written (sl_mem s) (sl_out s) out }.

  Lemma sl_valid s log out : sl_inv s log out -> valid_call 1 (sl_data s) (sl_mem s) /\ holds (sl_mem s) (data_in (sl_data s)) 1 (input_frames (sl_data s)) X (sl_in s).
  Proof.
    intros I. destruct (si_req _ _ _ I) as [E1 E2 E3 E4 E5 E6]. destruct (si_mem _ _ _ I) as [M1 M2]. assert (I1 := si_in _ _ _ I). assert (I2 := si_out _ _ _ I).
    split.
    - unfold valid_call. rewrite E1, E2, E3, E4, E6. split; [lia|]. split; [lia|]. split; [lia|]. split; [lia|]. split; [exact Hr|]. split; [lia|]. split; [lia|].
      split; [lia|]. split; [lia|]. split; [|split].
      + intros j Hj. rewrite <- Z.add_assoc, M1 by lia. discriminate.
      + intros j Hj. rewrite <- Z.add_assoc. apply M2. lia.
      + unfold apart. lia.
    - rewrite E1, E3. intros i c Hi Hc. assert (c = 0) by lia. subst c. replace (input + sl_in s + (i * 1 + 0)) with (input + (sl_in s + i)) by lia. apply M1. lia.
  Qed.

  Lemma sl_pass_ok s log out : sl_inv s log out -> exists n, sl_pass N L B s = Ok n /\
    match n with
    | Sl_again s' => (exists log' out', sl_inv s' log' out') /\ (N - sl_in s') + (L - sl_out s') < (N - sl_in s) + (L - sl_out s)
    | Sl_break s' => finished s' log out
    | Sl_exit => False
    end.
  Proof.
    intros I. destruct (sl_valid s log out I) as [V Hh]. assert (Rq := si_req _ _ _ I). assert (I1 := si_in _ _ _ I). assert (I2 := si_out _ _ _ I). assert (I3 := si_count _ _ _ I).
    assert (Gl := Bound _ _ _ _ (si_run _ _ _ I) I1 ltac:(lia)). rewrite I3 in Rq.
    destruct (Call log out (sl_state s) (sl_in s) (sl_data s) (sl_mem s) (si_run _ _ _ I) I1 (si_mem _ _ _ I) ltac:(lia) Rq V Hh)
      as (st' & d' & m' & chunk & E & H & Ck & R' & P).
    unfold sl_pass. rewrite E. cbn [bind]. change (negb (0 =? 0)) with false. cbv iota.
    destruct H as (_ & Ed & Hu & Hg & value & Wr). destruct Rq as [E1 E2 E3 E4 E5 E6]. rewrite <- I3 in E2, E4.
    set (used := input_frames_used d') in *. set (gen := output_frames_gen d') in *.
    assert (Ee : end_of_input d' = end_of_input (sl_data s)) by (rewrite Ed; reflexivity).
    assert (Edi : data_in d' = data_in (sl_data s)) by (rewrite Ed; reflexivity).
    assert (Edo : data_out d' = data_out (sl_data s)) by (rewrite Ed; reflexivity).
    assert (Er : src_ratio d' = src_ratio (sl_data s)) by (rewrite Ed; reflexivity).
    rewrite Z.mul_1_r in Ck. destruct (mread_n_spec _ _ _ _ Ck) as [Lc Rc].
    destruct Wr as [W1 W2]. rewrite Z.mul_1_r in W2. rewrite E2 in W2, Rc.
    destruct (si_done _ _ _ I) as (D1 & D2 & D3).
    assert (W3 : written m' (sl_out s + gen) (out ++ chunk)).
    { split; [unfold zlen in *; rewrite app_length; lia|]. unfold zlen in D1. split.
      - intros k Hk. destruct (Z_lt_ge_dec k (sl_out s)) as [Lk|Lk].
        + rewrite W2 by lia. rewrite D2 by lia. rewrite nth_error_app1 by lia. reflexivity.
        + rewrite nth_error_app2 by lia. rewrite Rc by lia. f_equal. lia.
      - intros a Ha. rewrite W2 by lia. apply D3. lia. }
    rewrite Ee. destruct (negb (end_of_input (sl_data s) =? 0) && (gen =? 0)) eqn:Bk.
    - apply andb_prop in Bk. destruct Bk as [B1 B2]. apply Z.eqb_eq in B2. rewrite E5 in B1. destruct (Z.leb_spec N (sl_in s)) as [Le|Le]; [|discriminate B1].
      assert (En : sl_in s = N) by lia. eexists. split; [reflexivity|]. cbv iota beta.
      rewrite B2, Z.add_0_r in W3. assert (chunk = []). { destruct chunk; [reflexivity|]. cbn [length] in Lc. lia. } subst chunk. rewrite app_nil_r in W3.
      constructor; cbn [sl_in sl_out sl_mem]; auto; try lia.
      exists (sl_state s), (sl_data s), (sl_mem s), st', d', m'. rewrite <- En. split; [exact (si_run _ _ _ I)|]. split.
      { rewrite <- I3. exact (si_req _ _ _ I). } split; [exact V|]. split; [lia|]. split; [exact E|exact B2].
    - rewrite !int_ok by lia. cbn [bind]. rewrite !int_ok by lia. cbn [bind].
      eexists. split; [reflexivity|]. cbv iota beta. cbn [sl_in sl_out]. split.
      + exists (log ++ [Ev_call (sl_data s) d']), (out ++ chunk). assert (Tg : total_gen (log ++ [Ev_call (sl_data s) d']) = total_gen log + gen).
        { clear. induction log as [|[a b|x] l IH]; cbn [app total_gen]; unfold gen in *; lia. }
        constructor; cbn [sl_in sl_out sl_mem sl_state sl_data]; auto; try lia.
        * constructor; cbn [data_in data_out input_frames output_frames end_of_input src_ratio]; try lia; congruence.
        * destruct (si_mem _ _ _ I) as [M1 M2]. split.
          -- intros i Hi. rewrite W2 by lia. now apply M1.
          -- intros j Hj. destruct (Z_lt_ge_dec j (sl_out s)) as [Lk|Lk]; [rewrite W2 by lia; now apply M2|].
             destruct (Z_lt_ge_dec j (sl_out s + gen)) as [Lk2|Lk2]; [|rewrite W2 by lia; now apply M2].
             specialize (W1 (j - sl_out s) 0 ltac:(lia) ltac:(lia)). rewrite E2 in W1. replace (output + sl_out s + ((j - sl_out s) * 1 + 0)) with (output + j) in W1 by lia. rewrite W1. discriminate.
      + assert (0 < used + gen); [|lia]. destruct (Z.eq_dec gen 0) as [G0|G0]; [|lia]. rewrite G0 in Bk. cbn in Bk. rewrite andb_true_r in Bk. apply negb_false_iff, Z.eqb_eq in Bk.
        rewrite E5 in Bk. destruct (Z.leb_spec N (sl_in s)); [discriminate Bk|]. destruct P as [P|P]; lia.
  Qed.

  Lemma sl_loop_ok : forall fuel s log out, sl_inv s log out -> (N - sl_in s) + (L - sl_out s) < Z.of_nat fuel ->
    exists s' log' out', sl_loop N L B fuel s = Ok (Some s') /\ finished s' log' out'.
  Proof.
    induction fuel as [|k IH]; intros s log out I M; [assert (I1 := si_in _ _ _ I); assert (I2 := si_out _ _ _ I); lia|].
    cbn [sl_loop]. destruct (sl_pass_ok s log out I) as (n & -> & H). cbn [bind]. destruct n as [s'|s'|]; [|exists s', log, out; auto|destruct H].
    destruct H as ((log' & out' & I') & D). apply (IH s' log' out'); [exact I'|lia].
  Qed.
  Lemma sl_run u g fuel : mem_ok m0 -> N + L < Z.of_nat fuel ->
    exists s' log' out', sl_loop N L B fuel (sl_init B input output r u g st0 m0) = Ok (Some s') /\ finished s' log' out'.
  Proof.
    intros M F. apply (sl_loop_ok fuel _ [] []); [|cbn [sl_init sl_in sl_out]; lia].
    constructor; cbn [sl_init sl_in sl_out sl_state sl_data sl_mem]; auto; try (cbn; lia).
    - constructor; cbn [data_in data_out input_frames output_frames end_of_input src_ratio]; try lia; [|reflexivity]. destruct (Z.leb_spec N 0); [lia|reflexivity].
    - split; [reflexivity|]. split; [intros; lia|]. reflexivity.
  Qed.
End Client.

Lemma req_ask r N L B input output d o g : block_fits B N L -> 0 <= o <= N -> 0 <= g < L ->
  req r N L B input output d o g -> ask r N L input output d o g.
Proof.
  intros (B1 & B2 & B3) Ho Hg [E1 E2 E3 E4 E5 E6]. constructor; auto; try lia.
  intros Q. rewrite E5 in Q. destruct (Z.leb_spec N o); lia.
Qed.

(** ** How much can come out *)
Section Upper.
  Variables (r : f64) (N : Z) (G slack : Z).
  Hypothesis Hr : in_range r.
  Hypothesis HN : 0 <= N.
  Hypothesis HG : 0 <= G.
  Hypothesis Hs : 0 <= slack.
  Hypothesis Last : 0 < G -> (pval (pos_at (0%Z, dzero) (fun _ => r) (Z.to_nat (G - 1))) <= IZR (N + slack))%R.
  Lemma upper_count : (IZR G <= val r * IZR (N + slack) + 1 + (val r + 1) * (IZR G * / IZR (2 ^ 52)))%R.
  Proof.
    assert (Rp : (0 < val r)%R) by (destruct Hr as [_ Hr']; lra). assert (Ri : (val r * / val r = 1)%R) by (apply Rinv_r; lra).
    set (u := (/ IZR (2 ^ 52))%R) in *. assert (Up : (0 < u)%R) by (apply Rinv_0_lt_compat, IZR_lt; lia).
    assert (Gp : (0 <= IZR G)%R) by (apply (IZR_le 0); lia). assert (Np : (0 <= IZR (N + slack))%R) by (apply (IZR_le 0); lia).
    assert (0 <= val r * IZR (N + slack))%R by (apply Rmult_le_pos; lra). assert (0 <= (val r + 1) * (IZR G * u))%R by (apply Rmult_le_pos; [lra|apply Rmult_le_pos; lra]).
    destruct (Z.eq_dec G 0) as [Z0|Z0]; [subst G; lra|].
    specialize (Last ltac:(lia)). assert (F0 : frac (snd (0, dzero))) by apply frac_zero.
    assert (D1 := drift (0, dzero) r (Z.to_nat (G - 1)) F0 Hr).
    rewrite INR_IZR_INZ, Z2Nat.id in D1 by lia. change (pval (0, dzero)) with (0 + 0)%R in D1.
    assert (B52 : bpow radix2 (-52) = (/ IZR (2 ^ 52))%R) by reflexivity. rewrite B52 in D1. fold u in D1.
    rewrite minus_IZR in D1. apply Rabs_le_inv in D1.
    assert (H1 : ((IZR G - 1) * / val r - IZR (N + slack) <= (IZR G - 1) * (u * (1 + / val r)))%R) by lra.
    apply (Rmult_le_compat_l (val r)) in H1; [|lra].
    replace (val r * ((IZR G - 1) * / val r - IZR (N + slack)))%R with ((IZR G - 1) * (val r * / val r) - val r * IZR (N + slack))%R in H1 by ring.
    replace (val r * ((IZR G - 1) * (u * (1 + / val r))))%R with ((IZR G - 1) * u * (val r + val r * / val r))%R in H1 by ring.
    rewrite Ri in H1. assert (0 <= u * (val r + 1))%R by (apply Rmult_le_pos; lra). lra.
  Qed.
End Upper.

Lemma room_bound r N L G slack : in_range r -> 0 <= N -> 0 <= G < 2 ^ 31 -> 0 <= slack <= 1 -> room_for r N L ->
  (IZR G <= val r * IZR (N + slack) + 1 + (val r + 1) * (IZR G * / IZR (2 ^ 52)))%R -> G < L.
Proof.
  intros Hr HN HG Hs Rm U. apply lt_IZR. unfold room_for in Rm. rewrite plus_IZR in U.
  assert (Rp : (0 < val r)%R) by (destruct Hr as [_ Hr']; lra).
  assert (Sl : (IZR slack <= 1)%R) by (apply (IZR_le _ 1); lia). assert (val r * IZR slack <= val r * 1)%R by (apply Rmult_le_compat_l; lra).
  assert (Gu : (IZR G * / IZR (2 ^ 52) <= / IZR (2 ^ 20))%R).
  { replace (/ IZR (2 ^ 20))%R with (IZR (2 ^ 32) * / IZR (2 ^ 52))%R by (simpl; lra).
    apply Rmult_le_compat_r; [left; apply Rinv_0_lt_compat, IZR_lt; lia|apply IZR_le; lia]. }
  assert ((val r + 1) * (IZR G * / IZR (2 ^ 52)) <= (val r + 1) * / IZR (2 ^ 20))%R by (apply Rmult_le_compat_l; lra). lra.
Qed.
Lemma small_gu G L : 0 <= G <= L -> L < 2 ^ 31 -> (IZR G * / IZR (2 ^ 52) <= / IZR (2 ^ 20))%R.
Proof.
  intros. replace (/ IZR (2 ^ 20))%R with (IZR (2 ^ 32) * / IZR (2 ^ 52))%R by (simpl; lra).
  apply Rmult_le_compat_r; [left; apply Rinv_0_lt_compat, IZR_lt; lia|apply IZR_le; lia].
Qed.

Lemma sharp_abs r N G L : in_range r -> 0 <= N < 2 ^ 31 -> 0 <= G <= L -> L < 2 ^ 31 ->
  (let eps := ((val r * IZR N + (val r + 1) * IZR G) * / IZR (2 ^ 52))%R in - eps <= IZR G - val r * IZR N <= 1 + eps)%R ->
  (Rabs (IZR G - val r * IZR N) <= 1 + (val r + 1) * / IZR (2 ^ 19))%R.
Proof.
  intros [_ Hr] HN HG HL Q. cbv zeta in Q. assert (A := small_gu G L HG HL). assert (B := small_gu N (2 ^ 31 - 1) ltac:(lia) ltac:(lia)).
  assert (N0 : (0 <= IZR N)%R) by (apply (IZR_le 0); lia). assert (G0 : (0 <= IZR G)%R) by (apply (IZR_le 0); lia).
  assert (U : (0 < / IZR (2 ^ 52))%R) by (apply Rinv_0_lt_compat, IZR_lt; lia).
  assert (A1 : ((val r + 1) * (IZR G * / IZR (2 ^ 52)) <= (val r + 1) * / IZR (2 ^ 20))%R) by (apply Rmult_le_compat_l; lra).
  assert (B1 : (val r * (IZR N * / IZR (2 ^ 52)) <= (val r + 1) * / IZR (2 ^ 20))%R).
  { apply Rle_trans with (val r * / IZR (2 ^ 20))%R; [apply Rmult_le_compat_l; lra|]. apply Rmult_le_compat_r; [|lra]. left. apply Rinv_0_lt_compat, IZR_lt; lia. }
  assert (E : (/ IZR (2 ^ 19) = 2 * / IZR (2 ^ 20))%R) by (simpl; lra). rewrite E.
  set (w := (/ IZR (2 ^ 20))%R) in *. set (u := (/ IZR (2 ^ 52))%R) in *. clearbody w u.
  replace ((val r * IZR N + (val r + 1) * IZR G) * u)%R with (val r * (IZR N * u) + (val r + 1) * (IZR G * u))%R in Q by ring.
  apply Rabs_le. lra.
Qed.

(** ** Zero-order hold and linear *)
Section Hold.
  Variables (kd : kind) (r : f64) (N L B input output : Z) (X : stream) (st0 : SRC_STATE).
  Hypothesis Hr : in_range r.
  Hypothesis HB : block_fits B N L.
  Hypothesis Hl : match kd with Zoh => True | Lin => 3 <= B end.
  Hypothesis Hap : input + N < output \/ output + L <= input.
  Hypothesis Rm : room_for r N L.
  Hypothesis St : at_start kd 1 st0.
  Let fit1 : channels_fit 1. Proof. unfold channels_fit. lia. Qed.

  Definition hold_run (log : list event) (out : list f32) (st : SRC_STATE) (o : Z) : Prop :=
    streaming 1 X (eq r) (lin_legal kd 1 X) st0 0 log out st o /\ presented 0 log <= N /\ hold_ok kd st /\ st_mode st = MODE_PROCESS /\ st_channels st = 1.

  Lemma hold_run0 : hold_run [] [] st0 0.
  Proof. destruct (start_fresh kd 1 st0 St fit1) as [K Kc Km _ _ _]. split; [constructor|]. destruct HB as (? & ? & ?). cbn. split; [lia|]. auto. Qed.
  Lemma hold_below log out st o K : hold_run log out st o -> 0 <= o <= N -> 0 <= total_gen log < 2 ^ 31 -> room_for r N K -> total_gen log < K.
  Proof.
    intros (S & Pr & _) Ho Hg RmK. destruct HB as (? & ? & ?).
    destruct (const_run kd 1 X (lin_legal kd 1 X) r st0 log out st o St fit1 Hr ltac:(auto) S) as (G0 & _ & _ & _ & _ & R & _).
    apply (room_bound r N K _ 1 Hr); try lia; try assumption. apply upper_count; try assumption; try lia.
    intros Gp. assert (Q := R (total_gen log - 1) ltac:(lia)).
    assert (Fg : frac (snd (pos_at (0, dzero) (fun _ => r) (Z.to_nat (total_gen log - 1))))) by (apply pos_at_frac; [apply frac_zero|intros; exact Hr]).
    assert (Q1 : fst (pos_at (0, dzero) (fun _ => r) (Z.to_nat (total_gen log - 1))) <= N) by (unfold reads in Q; destruct kd; lia).
    unfold pval. apply IZR_le in Q1. rewrite plus_IZR. destruct Fg as (_ & _ & Fg). lra.
  Qed.
  Lemma hold_room log out st o : hold_run log out st o -> 0 <= o <= N -> 0 <= total_gen log <= L -> total_gen log < L.
  Proof. intros R Ho Hg. destruct HB as (? & ? & ?). apply (hold_below log out st o L R Ho); [lia|exact Rm]. Qed.
  Lemma hold_step log out st o d m : hold_run log out st o -> 0 <= o <= N -> mem_ok N L input output X m -> 0 <= total_gen log < L ->
    ask r N L input output d o (total_gen log) -> (kd = Lin -> 0 < input_frames d < 3 -> 1 <= o) ->
    valid_call 1 d m -> holds m (data_in d) 1 (input_frames d) X o ->
    exists st' d' m' chunk, src_process (Some st) (Some d) m = Ok (0, Some st', Some d', m') /\ honest_reply 1 d m 0 d' m' /\
      mread_n m' (data_out d) (Z.to_nat (output_frames_gen d' * 1)) = Ok chunk /\
      hold_run (log ++ [Ev_call d d']) (out ++ chunk) st' (o + input_frames_used d') /\
      (0 < input_frames d -> 0 < output_frames d -> 0 < input_frames_used d' \/ 0 < output_frames_gen d').
  Proof.
    intros (S & Pr & K & Km & Kc) Ho [M1 M2] Hg [E1 E2 E3 E4 E5 E6] Es V Hh.
    assert (Before : 0 < input_frames d < 3 -> kd = Lin -> m (data_in d - 1) = Some (X (o - 1) 0) /\ 1 <= o /\ disjoint_ranges (data_in d - 1) 1 (data_out d) (output_frames d * 1)).
    { intros H ->. assert (1 <= o) by (apply Es; [reflexivity|exact H]). rewrite E1. replace (input + o - 1) with (input + (o - 1)) by lia. split; [apply M1; lia|]. split; [assumption|].
      unfold disjoint_ranges. lia. }
    assert (Lg : lin_legal kd 1 X o d m).
    { unfold lin_legal. destruct kd eqn:Ek; [exact I|]. assert (0 <= input_frames d) by apply V.
      destruct (Z.eq_dec (input_frames d) 0) as [Z0|Z0]; [now left|right]. destruct (Z_lt_ge_dec (input_frames d) 3) as [L3|L3]; [right|left; lia].
      destruct (Before ltac:(lia) eq_refl) as (Q1 & Q2 & Q3). split; [|exact Q3]. intros i c Hi Hc. assert (i = 0) by lia. assert (c = 0) by lia. subst i c.
      rewrite Z.add_0_r. rewrite Q1. unfold from0. f_equal. f_equal. lia. }
    assert (C : exists st' d' m', src_process (Some st) (Some d) m = Ok (0, Some st', Some d', m') /\
      honest_reply (st_channels st) d m 0 d' m' /\ hold_ok kd st' /\ same_frame st st' /\ good_ratio (st_last_ratio st') /\
      (0 < input_frames d -> 0 < output_frames d -> 0 < input_frames_used d' \/ 0 < output_frames_gen d') /\
      (output_frames_gen d' = 0 ->
       fst (split_pos (st_last_position st')) = fst (split_pos (st_last_position st)) - input_frames_used d')).
    { rewrite <- Kc in V. destruct kd eqn:Ek; [exact (process_honest Zoh st d m K Km V I)|apply (linear_mapped st d m K Km V)].
      intros H. destruct (Before H eq_refl) as (Q1 & Q2 & Q3). rewrite Kc. split; [|exact Q3]. intros c Hc. assert (c = 0) by lia. subst c. rewrite Z.add_0_r, Q1. discriminate. }
    destruct C as (st' & d' & m' & E & H & K' & Sf & _ & P & _). rewrite Kc in H. destruct H as (H0 & H1 & Hu & Hg' & value & Wr).
    destruct (wrote_read _ _ _ 1 _ _ ltac:(lia) (proj1 Hg') Wr) as [chunk Ck]. exists st', d', m', chunk.
    split; [exact E|]. split. { split; [exact H0|]. split; [exact H1|]. split; [exact Hu|]. split; [exact Hg'|]. exists value. exact Wr. }
    split; [exact Ck|]. split; [|exact P].
    destruct (HoldMain.streaming_snoc 1 X (eq r) (lin_legal kd 1 X) st0 0 log out st o S d m 0 st' d' m' chunk V Hh (eq_sym E6) Lg E Ck) as (S1 & _ & S3).
    split; [exact S1|]. split; [lia|]. split; [exact K'|]. destruct Sf as (_ & _ & F1 & F2 & _). split; congruence.
  Qed.

  Lemma hold_streaming_test u g m0 fuel : two_arrays m0 X N L input output -> N + L < Z.of_nat fuel ->
    exists s, sl_loop N L B fuel (sl_init B input output r u g st0 m0) = Ok (Some s) /\ sl_in s = N /\ 0 <= sl_out s < L /\
      (Rabs (IZR (sl_out s) - val r * IZR N) <= 1 + (val r + 1) * / IZR (2 ^ 19))%R /\
      converted_to m0 (sl_mem s) output (sl_out s) (fun k => value kd (from0 X) (pos_at (0, dzero) (fun _ => r) (Z.to_nat k)) 0).
  Proof.
    intros (I1 & I2 & _ & M1 & M2) Fu. destruct HB as (B1 & B2 & B3).
    destruct (sl_run r N L B input output X st0 m0 hold_run Hr HB I1 I2 Hap hold_run0 hold_room) with (u := u) (g := g) (fuel := fuel) as (s & log & out & E & Fi).
    { intros log out st o d m R1 R2 R3 R4 R5 R6 R7. apply (hold_step log out st o d m R1 R2 R3 R4); auto.
      { now apply (req_ask r N L B). }
      intros -> Q. rewrite (rq_n _ _ _ _ _ _ _ _ _ R5) in Q. lia. }
    { exact (conj M1 M2). } { exact Fu. }
    exists s. split; [exact E|]. destruct (fi_last _ _ _ _ _ _ _ _ _ _ _ Fi) as (st & d & m & st2 & d2 & m2 & (S & Pr & _) & Rq & V & Hk & Ep & G0).
    assert (C := fi_count _ _ _ _ _ _ _ _ _ _ _ Fi). assert (Go := fi_out _ _ _ _ _ _ _ _ _ _ _ Fi). destruct (fi_done _ _ _ _ _ _ _ _ _ _ _ Fi) as (D1 & D2 & D3).
    split; [exact (fi_in _ _ _ _ _ _ _ _ _ _ _ Fi)|]. split; [exact Go|].
    assert (Rp : (0 < val r)%R) by (destruct Hr as [_ Hr']; lra). split.
    - assert (Lg : lin_legal kd 1 X N d m) by (unfold lin_legal; destruct kd; [exact I|left; rewrite (rq_n _ _ _ _ _ _ _ _ _ Rq); lia]).
      assert (Hh : holds m (data_in d) 1 (input_frames d) X N) by (apply no_block; rewrite (rq_n _ _ _ _ _ _ _ _ _ Rq); lia).
      assert (Q := length_sharp kd 1 X r N st0 log out st N d m 0 st2 d2 m2 St fit1 Hr S Pr V Hh (rq_ratio _ _ _ _ _ _ _ _ _ Rq) Lg).
      rewrite (rq_n _ _ _ _ _ _ _ _ _ Rq), G0, Z.add_0_r in Q. specialize (Q ltac:(lia) Ep Hk). cbv zeta in Q. rewrite C.
      apply (sharp_abs r N (total_gen log) L); auto; lia.
    - split; [|exact D3]. intros k Hk'. rewrite D2 by lia.
      destruct (const_run kd 1 X (lin_legal kd 1 X) r st0 log out st N St fit1 Hr ltac:(auto) S) as (_ & _ & _ & _ & _ & _ & _ & Fr).
      specialize (Fr k 0 ltac:(lia) ltac:(lia)). unfold sample in Fr. rewrite Z.mul_1_r, Z.add_0_r in Fr. exact Fr.
  Qed.
End Hold.

(** ** Sinc *)
Section SincLoop_.
  Variables (inc : Z) (coeffs : list f32) (r : f64) (N L B input output : Z) (X : stream) (st0 : SRC_STATE).
  Hypothesis Ht : table_fit (inc, coeffs).
  Hypothesis Hr : in_range r.
  Hypothesis Lo : (/ 191 <= val r)%R.
  Hypothesis HB : block_fits B N L.
  Hypothesis Hap : input + N < output \/ output + L <= input.
  Hypothesis Rm : room_for r N L.
  Hypothesis St : sinc_new (inc, coeffs) 1 st0.
  Hypothesis Zl : forall i c, i < 0 -> X i c = fzero.
  Hypothesis Zh : forall i c, N <= i -> X i c = fzero.

  Definition sinc_run (log : list event) (out : list f32) (st : SRC_STATE) (o : Z) : Prop :=
    sinc_streaming 1 X (eq r) st0 0 log out st o /\ ends_at N 0 log /\ (exists fl, good_at inc coeffs 1 PWide fl st) /\ sized st.

  Lemma sinc_run0 : sinc_run [] [] st0 0.
  Proof.
    destruct (sinc_new_state _ _ _ _ St) as (C & b & Eb & Es). split; [constructor|]. split; [exact I|]. split.
    - exists 0%R. rewrite Es. apply (good_start inc coeffs 1 Ht C PWide b Eb). discriminate.
    - destruct St as (bld & orc & ty & h & c & h' & T & En & ->). destruct (new_fresh _ _ _ _ _ _ _ _ En) as [Fr Hc]. apply (fresh_sized _ _ _ _ Hc Fr).
  Qed.
  Lemma sinc_below log out st o K : sinc_run log out st o -> 0 <= o <= N -> 0 <= total_gen log < 2 ^ 31 -> room_for r N K -> total_gen log < K.
  Proof.
    intros (S & _) Ho Hg RmK. destruct HB as (? & ? & ?). assert (Ss : sinc_start (inc, coeffs) 1 st0) by now left.
    destruct (start_flow inc coeffs 1 X r st0 Ht Ss Zl) as (Hch & Fl & P).
    destruct (flow_run inc coeffs 1 Ht Hch X r Hr _ _ _ _ _ _ S Fresh Fl) as (ph1 & _ & _ & Tg & _ & Bl & _). rewrite P in Bl.
    apply (room_bound r N K _ 0 Hr); try lia; try assumption. apply upper_count; try assumption; try lia.
    intros Gp. assert (Q := Bl (Z.to_nat (total_gen log - 1)) ltac:(lia)).
    assert (Fg : frac (snd (pos_at (0, dzero) (fun _ => r) (Z.to_nat (total_gen log - 1))))) by (apply pos_at_frac; [apply frac_zero|intros; exact Hr]).
    assert (Q1 : fst (pos_at (0, dzero) (fun _ => r) (Z.to_nat (total_gen log - 1))) <= N - 1) by lia.
    unfold pval. apply IZR_le in Q1. rewrite minus_IZR in Q1. rewrite plus_IZR. destruct Fg as (_ & _ & Fg). lra.
  Qed.
  Lemma sinc_room log out st o : sinc_run log out st o -> 0 <= o <= N -> 0 <= total_gen log <= L -> total_gen log < L.
  Proof. intros R Ho Hg. destruct HB as (? & ? & ?). apply (sinc_below log out st o L R Ho); [lia|exact Rm]. Qed.
  Lemma sinc_ends_snoc d d' log : forall al st out st' o o', sinc_streaming 1 X al st o log out st' o' -> ends_at N o log ->
    (end_of_input d <> 0 -> o' + input_frames d = N) -> ends_at N o (log ++ [Ev_call d d']).
  Proof.
    intros al st out st' o o' R. clear St. induction R; cbn [app ends_at]; [auto|intros [Q1 Q2] Q; split; auto|auto].
  Qed.
  Lemma sinc_step log out st o d m : sinc_run log out st o -> 0 <= o <= N -> mem_ok N L input output X m -> 0 <= total_gen log < L ->
    ask r N L input output d o (total_gen log) ->
    valid_call 1 d m -> holds m (data_in d) 1 (input_frames d) X o -> data_in d <> 0 ->
    exists st' d' m' chunk, src_process (Some st) (Some d) m = Ok (0, Some st', Some d', m') /\ honest_reply 1 d m 0 d' m' /\
      mread_n m' (data_out d) (Z.to_nat (output_frames_gen d' * 1)) = Ok chunk /\
      sinc_run (log ++ [Ev_call d d']) (out ++ chunk) st' (o + input_frames_used d') /\
      (0 < input_frames d -> 0 < output_frames d -> 0 < input_frames_used d' \/ 0 < output_frames_gen d').
  Proof.
    intros (S & En & [fl Gd] & Sz) Ho [M1 M2] Hg [E1 E2 E3 E4 He E6] V Hh Hd. destruct HB as (B1 & B2 & B3).
    assert (C : 1 <= 1 <= 128) by lia.
    destruct (history_step inc coeffs 1 Ht C PWide fl unit (fun _ _ u m => (u, m, None, 0)) 0 st (A_process (Some d) m) Gd V) as [(x & st1 & E & T & G1)|(Q & _)]; [|..|discriminate Q].
    { split; [|discriminate]. split; [rewrite E6; exact Lo|now left]. }
    cbn [api_step] in E. destruct (src_process (Some st) (Some d) m) as [[[[e so] dop] m3]|f] eqn:Ep; [|discriminate E]. cbn [bind] in E.
    destruct (process_sized _ _ _ _ _ _ _ Sz Ep) as (st3 & -> & Sz3). cbn [keep] in E. injection E as <- <-.
    cbn [truthful] in T. destruct dop as [d3|]; [|contradiction].
    assert (T' : honest_reply 1 d m e d3 m3) by (destruct T as [T|(_ & T & _)]; [exact T|lia]). clear T.
    assert (T'' := T'). destruct T'' as (-> & Ed & Hu & Hgn & value & Wr).
    destruct (wrote_read _ _ _ 1 _ _ ltac:(lia) (proj1 Hgn) Wr) as [chunk Ck].
    exists st3, d3, m3, chunk. split; [reflexivity|]. split; [exact T'|]. split; [exact Ck|].
    assert (He' : end_of_input d <> 0 -> forall i c, o + input_frames d <= i -> X i c = fzero). { intros Q i c L'. specialize (He Q). apply Zh. lia. }
    split.
    - split; [apply (CbStream.sinc_streaming_snoc 1 X (eq r) st0 0 log out st o d m st3 d3 m3 chunk S V Hh (eq_sym E6) He' Ep Ck)|].
      split; [apply (sinc_ends_snoc d d3 log _ _ _ _ _ _ S En He)|]. split; [eexists; exact G1|exact Sz3].
    - intros Hn Hk. destruct (Z_lt_ge_dec (output_frames_gen d3) (output_frames d)) as [Lt|Ge]; [left|right; lia].
      rewrite (sinc_takes_all inc coeffs 1 X r N st0 log out st o d m st3 d3 m3); auto; try lia. now left.
  Qed.

  Lemma sinc_streaming_test u g m0 fuel : two_arrays m0 X N L input output -> N + L < Z.of_nat fuel ->
    exists s, sl_loop N L B fuel (sl_init B input output r u g st0 m0) = Ok (Some s) /\ sl_in s = N /\ 0 <= sl_out s < L /\
      (Rabs (IZR (sl_out s) - val r * IZR N) <= 1 + (val r + 1) * / IZR (2 ^ 19))%R /\
      converted_to m0 (sl_mem s) output (sl_out s) (fun k => sinc_value inc coeffs (fun i => X i 0) (pos_at (0, dzero) (fun _ => r) (Z.to_nat k)) r).
  Proof.
    intros (I1 & I2 & _ & M1 & M2) Fu. destruct HB as (B1 & B2 & B3). assert (Ss : sinc_start (inc, coeffs) 1 st0) by now left.
    destruct (sl_run r N L B input output X st0 m0 sinc_run Hr HB I1 I2 Hap sinc_run0 sinc_room) with (u := u) (g := g) (fuel := fuel) as (s & log & out & E & Fi).
    { intros log out st o d m R1 R2 R3 R4 R5 R6 R7. apply (sinc_step log out st o d m R1 R2 R3 R4); auto; [|rewrite (rq_in _ _ _ _ _ _ _ _ _ R5); lia].
      now apply (req_ask r N L B). }
    { exact (conj M1 M2). } { exact Fu. }
    exists s. split; [exact E|]. destruct (fi_last _ _ _ _ _ _ _ _ _ _ _ Fi) as (st & d & m & st2 & d2 & m2 & (S & _) & Rq & V & Hk & Ep & G0).
    assert (C := fi_count _ _ _ _ _ _ _ _ _ _ _ Fi). assert (Go := fi_out _ _ _ _ _ _ _ _ _ _ _ Fi). destruct (fi_done _ _ _ _ _ _ _ _ _ _ _ Fi) as (D1 & D2 & D3).
    split; [exact (fi_in _ _ _ _ _ _ _ _ _ _ _ Fi)|]. split; [exact Go|].
    assert (Rp : (0 < val r)%R) by (destruct Hr as [_ Hr']; lra). split.
    - assert (Q := sinc_flush inc coeffs 1 X r st0 log out st N d m st2 d2 m2 Ht Ss Zl Zh Hr Lo S V). rewrite (rq_n _ _ _ _ _ _ _ _ _ Rq), (rq_end _ _ _ _ _ _ _ _ _ Rq), (rq_in _ _ _ _ _ _ _ _ _ Rq), G0, Z.add_0_r in Q.
      rewrite Z.leb_refl in Q.
      specialize (Q ltac:(lia) ltac:(lia) ltac:(lia) (rq_ratio _ _ _ _ _ _ _ _ _ Rq) Ep Hk). cbv zeta in Q. rewrite C. eapply Rle_trans; [exact Q|].
      apply Rplus_le_compat_l, Rmult_le_compat_l; [lra|]. assert (T := small_gu (total_gen log) L ltac:(lia) ltac:(lia)). unfold Rdiv. simpl (2 ^ 20) in *. simpl (2 ^ 19). lra.
    - split; [|exact D3]. intros k Hk'. rewrite D2 by lia.
      destruct (sinc_convolution inc coeffs 1 X r st0 log out st N Ht Ss Zl Hr S) as [_ Fr].
      specialize (Fr k 0 ltac:(lia) ltac:(lia)). unfold sample in Fr. rewrite Z.mul_1_r, Z.add_0_r in Fr. exact Fr.
  Qed.
End SincLoop_.
