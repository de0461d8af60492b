(** The properties of the zero-order-hold and linear converters, proved from the call and stream lemmas. *)
From Coq Require Import ZArith Reals List Bool Lia Lra.
From Flocq Require Import Core IEEE754.BinarySingleNaN.
From Verif Require Import Base FloatFacts PosFacts Types Common Zoh Linear Api Heap Callback ApiHist HoldSpec HoldFacts HoldRamp
  HoldCore HoldCall HoldProcess LinAny HoldStream HoldValue.
Import ListNotations.
Local Open Scope Z_scope.

(** ** New and reset converters *)
Record is_fresh (kd : kind) (ch : Z) (st : SRC_STATE) : Prop := {
  fr_ok : hold_ok kd st;
  fr_ch : st_channels st = ch;
  fr_mode : st_mode st = MODE_PROCESS;
  fr_pos : st_last_position st = dzero;
  fr_ratio : st_last_ratio st = dzero;
  fr_clean : exists h, st_priv st = P_hold h /\ h_dirty h = false
}.

Lemma created_state kd ch st : created (type_of kd) ch st -> 0 < ch /\
  st = blank_state (vt_of kd) ch (P_hold (mkHold false 0 0 0 0 (repeat fzero (Z.to_nat ch)))).
Proof.
  intros (bld & orc & h & c & h' & E & ->).
  assert (E1 : hold_state_new orc (vt_of kd) ch h = Ok (0, Some c, h')) by (destruct kd; exact E). clear E.
  unfold hold_state_new in E1. destruct (Z.leb_spec ch 0) as [L|L]; [discriminate E1|]. split; [exact L|].
  destruct (alloc orc h) as [[b1|] h1]; [|discriminate E1].
  destruct (alloc orc h1) as [[b2|] h2].
  2: { destruct (free h2 b1); cbn in E1; [injection E1; discriminate|discriminate E1]. }
  destruct (alloc orc h2) as [[b3|] h3].
  2: { destruct (free h3 b2) as [h4|]; cbn in E1; [|discriminate E1]. destruct (free h4 b1); cbn in E1; [injection E1; discriminate|discriminate E1]. }
  unfold hold_reset in E1. cbn [st_priv blank_state h_last_value st_channels] in E1. unfold blit in E1.
  assert (Lr : zlen (repeat fzero (Z.to_nat ch)) = ch) by (unfold zlen; rewrite repeat_length; lia).
  rewrite Lr in E1. replace ((0 <? 0) || (ch <? 0 + ch)) with false in E1.
  2: { symmetry. apply orb_false_intro; [reflexivity|]. apply Z.ltb_ge. lia. }
  cbn [bind] in E1. injection E1 as <- _. cbn [c_state]. unfold blank_state, set_priv. cbn.
  rewrite skipn_all, app_nil_r. reflexivity.
Qed.

Lemma created_fresh kd ch st : created (type_of kd) ch st -> channels_fit ch -> is_fresh kd ch st.
Proof.
  intros C F. destruct (created_state kd ch st C) as [L ->]. unfold channels_fit in F.
  assert (Lr : zlen (repeat fzero (Z.to_nat ch)) = ch) by (unfold zlen; rewrite repeat_length; lia).
  split; try reflexivity.
  - repeat split; cbn; auto; try lra; try lia. eexists; split; [reflexivity|]. exact Lr.
  - cbn. eexists; split; reflexivity.
Qed.

Lemma reset_fresh kd ch st st' : hold_ok kd st -> st_mode st = MODE_PROCESS -> st_channels st = ch ->
  src_reset (Some st) = Ok (0, Some st') -> is_fresh kd ch st'.
Proof.
  intros H M C E. destruct (hold_reset_ok kd st H) as (s & E' & A1 & A2 & A3 & A4 & A5 & A6).
  rewrite E in E'. injection E' as <-. split; auto; congruence.
Qed.

Lemma history_state kd ch st : after_history kd ch st -> channels_fit ch ->
  hold_ok kd st /\ st_mode st = MODE_PROCESS /\ st_channels st = ch.
Proof.
  intros (CS & cb & dummy & st0 & cs & rs & C & V & E) F.
  destruct (created_fresh kd ch st0 C F) as [K Kc Km _ _ _].
  rewrite <- Kc in V. destruct (proj2 (hold_history kd CS cb dummy cs st0 K Km V) _ _ E) as (_ & A & B & D).
  repeat split; auto; try apply A. congruence.
Qed.

Lemma start_fresh kd ch st : at_start kd ch st -> channels_fit ch -> is_fresh kd ch st.
Proof.
  intros [C|(st0 & A & E)] F; [now apply created_fresh|].
  destruct (history_state kd ch st0 A F) as (H1 & H2 & H3). now apply (reset_fresh kd ch st0).
Qed.

Lemma fresh_stream kd ch X st : is_fresh kd ch st ->
  on_stream kd X st 0 /\ stream_pos st 0 = (0, dzero) /\ forall lo hi, ratio_in lo hi st.
Proof.
  intros [K Kc Km Kp Kr (h & Hh & Hd)]. split; [|split].
  - split; auto; [lia|]. intros h' Hh'. rewrite Hh in Hh'. injection Hh' as <-. rewrite Hd. intros c _. reflexivity.
  - unfold stream_pos. rewrite Kp. reflexivity.
  - intros lo hi. left. exact Kr.
Qed.

(** ** C16-C20: histories *)
Lemma fresh_history kd ch st CS (cb : callback_t CS) dummy cs : created (type_of kd) ch st -> channels_fit ch ->
  Forall (valid_op ch) cs -> Forall (op_room kd) cs ->
  exists rs st', api_run CS cb dummy st cs = Ok (rs, st') /\ Forall2 (honest ch) cs rs /\
    (st_last_ratio st' = dzero \/ in_range (st_last_ratio st')).
Proof.
  intros C F V R. destruct (created_fresh kd ch st C F) as [K Kc Km _ _ _]. rewrite <- Kc in V.
  destruct (history_ok kd CS cb dummy cs st K Km V R) as (rs & st' & E & H & O & _).
  exists rs, st'. rewrite Kc in H. split; [exact E|]. split; [exact H|]. apply O.
Qed.

Lemma fresh_history_any kd ch st CS (cb : callback_t CS) dummy cs : created (type_of kd) ch st -> channels_fit ch ->
  Forall (valid_op ch) cs -> api_run CS cb dummy st cs <> Fault F_fuel /\
  forall rs st', api_run CS cb dummy st cs = Ok (rs, st') ->
    Forall2 (honest ch) cs rs /\ (st_last_ratio st' = dzero \/ in_range (st_last_ratio st')).
Proof.
  intros C F V. destruct (created_fresh kd ch st C F) as [K Kc Km _ _ _]. rewrite <- Kc in *.
  destruct (hold_history kd CS cb dummy cs st K Km V) as [A B]. split; [exact A|]. intros rs st' E.
  destruct (B _ _ E) as (H & O & _). split; [exact H|apply O].
Qed.

Lemma zoh_room {CS} (cs : list (api_call CS)) : Forall (op_room Zoh) cs.
Proof. apply Forall_forall. intros [[d|] m|fuel ratio frames data c m|r| | |] _; exact I. Qed.

Lemma call_after kd ch st d m : after_history kd ch st -> channels_fit ch -> valid_call ch d m -> lin_room kd (input_frames d) ->
  exists st' d' m', src_process (Some st) (Some d) m = Ok (0, Some st', Some d', m') /\
    honest_reply ch d m 0 d' m' /\ in_range (st_last_ratio st') /\
    (0 < input_frames d -> 0 < output_frames d -> 0 < input_frames_used d' \/ 0 < output_frames_gen d').
Proof.
  intros A F V R. destruct (history_state kd ch st A F) as (K & Km & Kc). rewrite <- Kc in V.
  destruct (process_honest kd st d m K Km V R) as (st' & d' & m' & E & H & _ & _ & G & P & _).
  exists st', d', m'. rewrite Kc in H. repeat (split; [assumption|]). exact P.
Qed.

Lemma call_after_any kd ch st d m : after_history kd ch st -> channels_fit ch -> valid_call ch d m ->
  src_process (Some st) (Some d) m <> Fault F_fuel /\
  forall e st' d' m', src_process (Some st) (Some d) m = Ok (e, Some st', Some d', m') ->
    e = 0 /\ (0 < input_frames d -> 0 < output_frames d -> 0 < input_frames_used d' \/ 0 < output_frames_gen d').
Proof.
  intros A F V. destruct (history_state kd ch st A F) as (K & Km & Kc). rewrite <- Kc in V.
  destruct (hold_any kd st d m K Km V) as [B D]. split; [exact B|]. intros e st' d' m' E.
  destruct (D _ _ _ _ E) as ((-> & _) & _ & _ & _ & P & _). split; [reflexivity|exact P].
Qed.

(** ** Streams from the start *)
Lemma start_run kd ch X (allowed : f64 -> Prop) (legal : Z -> SRC_DATA -> mem -> Prop) lo hi st log out st' o' :
  at_start kd ch st -> channels_fit ch ->
  (forall r, allowed r -> band lo hi r) -> (forall o d m, legal o d m -> lin_legal kd ch X o d m) ->
  streaming ch X allowed legal st 0 log out st' o' ->
  let G := Z.to_nat (total_gen log) in
  0 <= total_gen log /\ on_stream kd X st' o' /\ ratio_in lo hi st' /\ st_channels st' = ch /\
  exists rho, (forall k, (k < G)%nat -> band lo hi (rho k)) /\
    stream_pos st' o' = pos_at (0, dzero) rho G /\
    (forall k, (k < G)%nat -> 0 <= fst (pos_at (0, dzero) rho k) /\
                              reads kd (pos_at (0, dzero) rho k) < presented 0 log) /\
    is_frames ch out (total_gen log) (fun k c => value kd (from0 X) (pos_at (0, dzero) rho (Z.to_nat k)) c).
Proof.
  intros A F Ha Hl Hs. destruct (start_fresh kd ch st A F) as [K Kc Km Kp Kr Kh].
  destruct (fresh_stream kd ch X st) as (O & P & B); [split; auto|].
  assert (R := stream_run kd ch X allowed legal lo hi Ha Hl st 0 log out st' o' Hs O (B lo hi) Kc). cbv zeta in R.
  rewrite P in R. exact R.
Qed.

Lemma frac_zero : frac dzero.
Proof. repeat split; cbn; lra. Qed.

(** C21 *)
Lemma zoh_verbatim ch X st log out st' o' : at_start Zoh ch st -> channels_fit ch ->
  streaming ch X in_range (fun _ _ _ => True) st 0 log out st' o' ->
  exists idx, (forall j k, 0 <= j <= k -> k < total_gen log -> idx j <= idx k) /\
    (forall k, 0 <= k < total_gen log -> 0 <= idx k < presented 0 log) /\
    is_frames ch out (total_gen log) (fun k c => X (idx k) c).
Proof.
  intros A F Hs.
  destruct (start_run Zoh ch X in_range (fun _ _ _ => True) (/256) 256 st log out st' o' A F) as (G0 & _ & _ & _ & rho & B & _ & R & Fr).
  - intros r Hr. split; [exact Hr|apply Hr].
  - intros; exact I.
  - exact Hs.
  - exists (fun k => Z.max 0 (fst (pos_at (0, dzero) rho (Z.to_nat k)) - 1)). split; [|split].
    + intros j k Hj Hk. destruct (pos_at_mono (0, dzero) rho (Z.to_nat j) (Z.to_nat k)) as [_ M].
      * apply frac_zero.
      * lia.
      * intros i Hi. apply B. lia.
      * lia.
    + intros k Hk. destruct (R (Z.to_nat k)) as [R1 R2]; [lia|]. cbn [reads] in R2. lia.
    + destruct Fr as [Fr1 Fr2]. split; [exact Fr1|]. intros k c Hk Hc. now rewrite Fr2.
Qed.

(** C22 *)
Lemma lin_adjacent ch X st log out st' o' : at_start Lin ch st -> channels_fit ch ->
  streaming ch X in_range (lin_legal Lin ch X) st 0 log out st' o' ->
  exists idx t, (forall k, 0 <= k < total_gen log ->
      0 <= idx k < presented 0 log /\ is_finite (t k) = true /\ (0 <= B2R (t k) < 1)%R) /\
    is_frames ch out (total_gen log) (fun k c => interpolate (X (Z.max 0 (idx k - 1)) c) (X (idx k) c) (t k)).
Proof.
  intros A F Hs.
  destruct (start_run Lin ch X in_range (lin_legal Lin ch X) (/256) 256 st log out st' o' A F) as (G0 & _ & _ & _ & rho & B & _ & R & Fr).
  - intros r Hr. split; [exact Hr|apply Hr].
  - auto.
  - exact Hs.
  - exists (fun k => fst (pos_at (0, dzero) rho (Z.to_nat k))), (fun k => snd (pos_at (0, dzero) rho (Z.to_nat k))).
    split.
    + intros k Hk. destruct (R (Z.to_nat k)) as [R1 R2]; [lia|]. cbn [reads] in R2. split; [lia|].
      destruct (pos_at_frac (0, dzero) rho (Z.to_nat k)) as (T1 & _ & T2); auto using frac_zero.
      intros j Hj. apply B. lia.
    + destruct Fr as [Fr1 Fr2]. split; [exact Fr1|]. intros k c Hk Hc. rewrite Fr2 by auto. f_equal.
      unfold value, lin_value, from0. destruct (R (Z.to_nat k)) as [R1 R2]; [lia|].
      now rewrite (Z.max_r 0 (fst (pos_at (0, dzero) rho (Z.to_nat k)))).
Qed.

Lemma interpolate_range (a b : f32) (t : f64) : is_finite a = true -> is_finite b = true ->
  is_finite t = true -> (0 <= B2R t < 1)%R ->
  is_finite (interpolate a b t) = true /\
  (Rmin (B2R a) (B2R b) <= B2R (interpolate a b t) <= Rmax (B2R a) (B2R b))%R.
Proof.
  intros Fa Fb Ft Bt.
  destruct (Bsign t) eqn:S; [|now apply interpolate_between].
  assert (Z : t = B754_zero true).
  { destruct t as [[|]|s| |s m e H]; try discriminate; auto. cbn in S. subst s. exfalso.
    assert (L : (F2R (Float radix2 (cond_Zopp true (Z.pos m)) e) < 0)%R) by now apply F2R_lt_0. cbn in Bt, L. lra. }
  subst t.
  (* a negative zero multiplies to a zero of either sign *)
  destruct (interpolate_between a b dzero Fa Fb frac_zero) as [_ B0]. rewrite interpolate_zero in B0 by assumption.
  destruct (d_of_f_val a) as [Va Ga], (d_of_f_val b) as [Vb Gb]. rewrite Fa in Ga. rewrite Fb in Gb.
  unfold interpolate.
  assert (D : fin (Bminus mode_NE (d_of_f b) (d_of_f a))).
  { apply dsub_val; auto. rewrite Va, Vb.
    assert (A1 := f32_lt_128 a). assert (B1 := f32_lt_128 b).
    apply Rle_trans with (bpow radix2 128 + bpow radix2 128)%R.
    - replace (val b - val a)%R with (val b + - val a)%R by ring. apply Rle_trans with (1 := Rabs_triang _ _).
      rewrite Rabs_Ropp. lra.
    - replace (bpow radix2 128 + bpow radix2 128)%R with (2 * bpow radix2 128)%R by ring. change 2%R with (bpow radix2 1).
      rewrite <- bpow_plus. apply bpow_le. lia. }
  set (w := Bminus _ _ _) in *. clearbody w.
  assert (Zw : exists s, Bmult mode_NE (B754_zero true : f64) w = B754_zero s).
  { destruct w as [s|s| |s m e H]; try discriminate D; eexists; reflexivity. }
  destruct Zw as [s ->].
  assert (Sum : fin (Bplus mode_NE (d_of_f a) (B754_zero s)) /\ val (Bplus mode_NE (d_of_f a) (B754_zero s)) = val a).
  { destruct (dadd_val (d_of_f a) (B754_zero s) Ga eq_refl) as [V3 F3].
    - change (val (B754_zero s)) with 0%R. rewrite Rplus_0_r, Va. left.
      apply Rlt_le_trans with (1 := f32_lt_128 a). apply bpow_le. lia.
    - change (val (B754_zero s)) with 0%R in V3. rewrite Rplus_0_r, rnd64_val, Va in V3. split; [exact F3|exact V3]. }
  destruct Sum as [Fs Vs]. destruct (f_of_d_val_max _ a Fs) as (V & F & _); [rewrite Vs; lra|].
  split; [exact F|]. rewrite V, Vs, rnd32_val. split; [apply Rmin_l|apply Rmax_l].
Qed.

(** C23, C24 *)
Lemma band_exact r : in_range r -> forall x, band (val r) (val r) x -> x = r.
Proof. intros Hr x [G B]. apply good_eq; [exact G|exact Hr|lra]. Qed.

Lemma const_run kd ch X (legal : Z -> SRC_DATA -> mem -> Prop) r st log out st' o' :
  at_start kd ch st -> channels_fit ch -> in_range r ->
  (forall o d m, legal o d m -> lin_legal kd ch X o d m) ->
  streaming ch X (eq r) legal st 0 log out st' o' ->
  0 <= total_gen log /\ on_stream kd X st' o' /\ ratio_in (val r) (val r) st' /\ st_channels st' = ch /\
  stream_pos st' o' = pos_at (0, dzero) (fun _ => r) (Z.to_nat (total_gen log)) /\
  (forall k, 0 <= k < total_gen log -> reads kd (pos_at (0, dzero) (fun _ => r) (Z.to_nat k)) < presented 0 log) /\
  is_frames ch out (total_gen log) (fun k c => value kd (from0 X) (pos_at (0, dzero) (fun _ => r) (Z.to_nat k)) c).
Proof.
  intros A F Hr Hl Hs.
  destruct (start_run kd ch X (eq r) legal (val r) (val r) st log out st' o' A F) as (G0 & O & B & C & rho & Br & P & R & Fr); auto.
  - intros x <-. split; [exact Hr|lra].
  - assert (E : forall k, (k <= Z.to_nat (total_gen log))%nat -> pos_at (0, dzero) rho k = pos_at (0, dzero) (fun _ => r) k).
    { intros k Hk. apply pos_at_ext. intros j Hj. apply (band_exact r Hr). apply Br. lia. }
    split; [exact G0|]. split; [exact O|]. split; [exact B|]. split; [exact C|]. split; [now rewrite P, E by lia|]. split.
    + intros k Hk. rewrite <- E by lia. apply R. lia.
    + apply (is_frames_ext ch _ _ _ _ Fr). intros k c Hk Hc. now rewrite E by lia.
Qed.

Lemma list_ext {A} : forall l1 l2 : list A, (forall i, nth_error l1 i = nth_error l2 i) -> l1 = l2.
Proof.
  induction l1 as [|x l1 IH]; intros [|y l2] H; auto; try (specialize (H O); discriminate H).
  f_equal; [specialize (H O); now injection H|]. apply IH. intros i. apply (H (S i)).
Qed.
Lemma firstn_nth {A} : forall n (l : list A) i, (i < n)%nat -> nth_error (firstn n l) i = nth_error l i.
Proof.
  induction n as [|n IH]; intros [|x l] [|i] H; cbn; auto; try lia. apply IH. lia.
Qed.

Lemma frames_prefix ch o1 o2 g1 g2 Y : 0 < ch -> 0 <= g1 <= g2 -> is_frames ch o1 g1 Y -> is_frames ch o2 g2 Y ->
  exists rest, o2 = o1 ++ rest.
Proof.
  intros Hc Hg [L1 F1] [L2 F2].
  assert (E : firstn (length o1) o2 = o1).
  { assert (Len : (length o1 <= length o2)%nat) by (unfold zlen in *; nia).
    apply list_ext. intros i. destruct (Nat.lt_ge_cases i (length o1)) as [L|L].
    - rewrite firstn_nth by exact L.
      assert (Q := Z.div_mod (Z.of_nat i) ch ltac:(lia)). assert (M := Z.mod_pos_bound (Z.of_nat i) ch Hc).
      assert (D0 : 0 <= Z.of_nat i / ch) by (apply Z.div_pos; lia).
      assert (D1 : Z.of_nat i / ch < g1) by (apply Z.div_lt_upper_bound; unfold zlen in *; nia).
      unfold sample in *.
      specialize (F1 (Z.of_nat i / ch) (Z.of_nat i mod ch) ltac:(lia) M).
      specialize (F2 (Z.of_nat i / ch) (Z.of_nat i mod ch) ltac:(lia) M).
      replace (Z.to_nat (Z.of_nat i / ch * ch + Z.of_nat i mod ch)) with i in * by lia. congruence.
    - rewrite (proj2 (nth_error_None o1 i)) by lia. apply nth_error_None. rewrite firstn_length. lia. }
  exists (skipn (length o1) o2). rewrite <- E at 1. symmetry. apply firstn_skipn.
Qed.

(** C26 *)
Lemma one_exact r : in_range r -> B2R r = 1%R -> r = done_.
Proof. intros H V. destruct done_val as [V1 F1]. apply good_eq; [exact H| |congruence]. split; [exact F1|]. rewrite V1. lra. Qed.

Lemma unity_pos r k : in_range r -> B2R r = 1%R -> pos_at (0, dzero) (fun _ => r) k = (Z.of_nat k, dzero).
Proof. intros H V. rewrite (one_exact r H V). apply (pos_at_one 0 k). Qed.

(** C25: the same requests on streams that agree on channel c. *)
Lemma split_pos_inj x y : pos_le 258 x -> pos_le 258 y -> split_pos x = split_pos y -> x = y.
Proof.
  intros Px Py E.
  assert (Px' : pos_le 2147483647 x) by (destruct Px as (a & b & c); repeat split; auto; lra).
  assert (Py' : pos_le 2147483647 y) by (destruct Py as (a & b & c); repeat split; auto; lra).
  destruct (split_ok x Px') as (_ & _ & _ & Tx & Vx & _). destruct (split_ok y Py') as (_ & _ & _ & Ty & Vy & _).
  unfold split_pos in E. injection E as E1 E2. destruct Px as (Fx & Sx & _), Py as (Fy & Sy & _).
  apply f64_eq; auto; [|congruence]. rewrite E2 in Vx. rewrite Tx, Ty in E1. rewrite E1 in Vx. lra.
Qed.

Definition twin (a b : SRC_STATE) : Prop :=
  st_channels a = st_channels b /\ st_last_position a = st_last_position b /\ st_last_ratio a = st_last_ratio b.

Lemma value_channel kd X X' p c c' : (forall i, X i c = X' i c') -> value kd (from0 X) p c = value kd (from0 X') p c'.
Proof. intros H. unfold value, zoh_value, lin_value, from0. destruct kd; now rewrite ?H. Qed.

(** The requests alone decide where the output frames are taken. *)
Lemma hold_plan kd ch X a o log out a1 o1 : streaming ch X in_range (lin_legal kd ch X) a o log out a1 o1 ->
  on_stream kd X a o -> st_channels a = ch -> (st_last_ratio a = dzero \/ in_range (st_last_ratio a)) ->
  0 <= total_gen log /\ exists P, (forall k, 0 <= k < total_gen log -> frac (snd (P k))) /\
  is_frames ch out (total_gen log) (fun k c => value kd (from0 X) (P k) c) /\
  forall X' b log' out' b1 o1', streaming ch X' in_range (lin_legal kd ch X') b o log' out' b1 o1' ->
    on_stream kd X' b o -> twin a b -> requests log = requests log' ->
    log = log' /\ is_frames ch out' (total_gen log) (fun k c => value kd (from0 X') (P k) c).
Proof.
  intros Ha.
  assert (Rin : forall s, (st_last_ratio s = dzero \/ in_range (st_last_ratio s)) -> ratio_in (/256) 256 s).
  { intros s [Z|Z]; [now left|right]. split; [exact Z|apply Z]. }
  induction Ha as [st o|st o d m e st1 d1 m1 chunk log out st2 o2 Hv Hin Hal Hl E Hch Hs IH|st o r st1 log out st2 o2 Hr Hal E Hs IH];
    intros Oa Ca Ra.
  - cbn [total_gen]. split; [lia|]. exists (fun _ => (0, dzero)). split; [intros; lia|]. split; [split; [reflexivity|intros; lia]|].
    intros X' b log' out' b1 o1' Hb Ob T Rq. inversion Hb; subst; try discriminate Rq. split; [reflexivity|]. split; [reflexivity|intros; lia].
  - rewrite <- Ca in *. assert (Bd : band (/256) 256 (src_ratio d)) by (split; [exact Hal|apply Hal]).
    assert (Call := stream_call kd X st o d m e st1 d1 m1 (/256) 256 Oa (Rin _ Ra) Hv Hin Bd Hl E). cbv zeta in Call.
    destruct Call as (O1 & B1 & C1 & (_ & D1 & _ & G1 & _) & _ & R1 & Br & P1 & _ & W1 & _ & N1).
    assert (R1b : st_last_ratio st1 = dzero \/ in_range (st_last_ratio st1)) by (right; apply B1).
    destruct (IH O1 C1 R1b) as (G0 & P & Pf & F1 & Pl). cbn [total_gen]. split; [lia|].
    set (rho := ramp (start_ratio st (src_ratio d)) (src_ratio d) (st_channels st) (output_frames d)) in *. set (g := output_frames_gen d1) in *.
    set (Q := fun k => if k <? g then pos_at (stream_pos st o) rho (Z.to_nat k) else P (k - g)).
    assert (Hch0 : 0 < st_channels st) by apply Oa.
    exists Q. split; [|split].
    + intros k Hk. unfold Q. destruct (Z.ltb_spec k g) as [L|L]; [|apply Pf; lia]. apply pos_at_frac; [|intros j Hj; apply Br; lia].
      destruct (os_ok _ _ _ _ Oa) as (_ & _ & _ & _ & Pp & _). destruct Pp as (p1 & p2 & p3).
      apply (split_ok (st_last_position st)). repeat split; auto; lra.
    + refine (is_frames_ext _ _ _ _ _ (is_frames_app _ _ _ _ _ _ _ Hch0 (proj1 G1) G0 (wrote_chunk _ _ _ _ _ _ _ Hch0 (proj1 G1) W1 Hch) F1) _).
      intros k c _ _. cbv beta. unfold Q. destruct (k <? g); reflexivity.
    + intros X' b log' out' b1 o1' Hb Ob T Rq.
      inversion Hb as [|? ? d0 m0 e0 st1' d1' m1' chunk' log0 out0 ? ? Hv' Hin' Hal' Hl' E' Hch' Hs'|]; subst; try discriminate Rq.
      injection Rq as Rd Rq. subst d0. destruct T as (T1 & T2 & T3).
      assert (Call' := stream_call kd X' b o d m0 e0 st1' d1' m1' (/256) 256 Ob).
      rewrite T3 in Ra. rewrite <- T1 in Call'. specialize (Call' (Rin _ Ra) Hv' Hin' Bd Hl' E'). cbv zeta in Call'.
      destruct Call' as (O1' & B1' & C1' & (_ & D1' & _ & _) & _ & R1' & _ & P1' & _ & W1' & _ & N1').
      assert (Es : start_ratio b (src_ratio d) = start_ratio st (src_ratio d)) by (unfold start_ratio; now rewrite T3).
      assert (Ep : stream_pos b o = stream_pos st o) by (unfold stream_pos; now rewrite T2).
      rewrite Es, <- T2 in N1'. rewrite <- N1' in N1. injection N1 as U1 U2.
      assert (Ed : d1 = d1') by (rewrite D1, D1'; unfold g in *; congruence). subst d1'. clear D1' N1' U1 U2.
      rewrite Es in R1', P1', W1'. rewrite Ep in P1', W1'. fold rho in R1', P1', W1'. fold g in R1', P1', W1'.
      assert (T' : twin st1 st1').
      { split; [congruence|]. split; [|congruence].
        rewrite <- P1' in P1. unfold stream_pos, shift in P1. injection P1 as Q1 Q2.
        apply split_pos_inj; [apply O1|apply O1'|]. unfold split_pos. f_equal; [lia|exact Q2]. }
      destruct (Pl _ _ _ _ _ _ Hs' O1' T' Rq) as (<- & F2). split; [reflexivity|].
      refine (is_frames_ext _ _ _ _ _ (is_frames_app _ _ _ _ _ _ _ Hch0 (proj1 G1) G0 (wrote_chunk _ _ _ _ _ _ _ Hch0 (proj1 G1) W1' Hch') F2) _).
      intros k c _ _. cbv beta. unfold Q. destruct (k <? g); reflexivity.
  - unfold src_set_ratio in E. destruct (is_bad_src_ratio r) eqn:Eb; [discriminate E|]. injection E as <-.
    assert (Up : forall X0 s, on_stream kd X0 s o -> on_stream kd X0 (set_ratio s r) o).
    { intros X0 s [A1 A2 A3 A4 A5]. constructor; auto.
      destruct A1 as (B1 & B2 & B3 & B4 & B5 & B6 & B7). repeat split; cbn; auto; try apply B5. }
    destruct (IH (Up _ _ Oa) Ca (or_intror Hr)) as (G0 & P & Pf & F1 & Pl). cbn [total_gen]. split; [exact G0|].
    exists P. split; [exact Pf|]. split; [exact F1|]. intros X' b log' out' b1 o1' Hb Ob T Rq.
    inversion Hb as [| |? ? r0 st1' log0 out0 ? ? Hr' Hal' E' Hs']; subst; try discriminate Rq.
    injection Rq as Rd Rq. subst r0. unfold src_set_ratio in E'. rewrite Eb in E'. injection E' as <-.
    destruct T as (T1 & T2 & T3). destruct (Pl _ _ _ _ _ _ Hs' (Up _ _ Ob)) as (<- & F2); auto. repeat split; auto.
Qed.

(** C38 *)
Lemma streaming_snoc ch X (allowed : f64 -> Prop) (legal : Z -> SRC_DATA -> mem -> Prop) :
  forall st o log out st1 o1, streaming ch X allowed legal st o log out st1 o1 ->
  forall d m e st2 d2 m2 chunk, valid_call ch d m -> holds m (data_in d) ch (input_frames d) X o1 -> allowed (src_ratio d) ->
  legal o1 d m -> src_process (Some st1) (Some d) m = Ok (e, Some st2, Some d2, m2) ->
  mread_n m2 (data_out d) (Z.to_nat (output_frames_gen d2 * ch)) = Ok chunk ->
  streaming ch X allowed legal st o (log ++ [Ev_call d d2]) (out ++ chunk) st2 (o1 + input_frames_used d2) /\
  total_gen (log ++ [Ev_call d d2]) = total_gen log + output_frames_gen d2 /\
  presented o (log ++ [Ev_call d d2]) <= Z.max (presented o log) (o1 + Z.max (input_frames d) (input_frames_used d2)).
Proof.
  induction 1 as [st o|st o d0 m0 e0 st1 d1 m1 chunk0 log out st2 o2 Hv Hin Ha Hl E Hc Hs IH|st o r st1 log out st2 o2 Hr Ha E Hs IH];
    intros d m e st3 d3 m3 chunk Vd Hd Ad Ld Ed Cd.
  - cbn [app]. split; [|split; [cbn; lia|cbn; lia]].
    replace chunk with (chunk ++ []) by apply app_nil_r. econstructor; eauto. constructor.
  - destruct (IH _ _ _ _ _ _ _ Vd Hd Ad Ld Ed Cd) as (A & B & C). cbn [app]. split; [|split; [cbn [total_gen]; lia|cbn [presented]; lia]].
    rewrite <- app_assoc. econstructor; eauto.
  - destruct (IH _ _ _ _ _ _ _ Vd Hd Ad Ld Ed Cd) as (A & B & C). cbn [app]. split; [|split; [cbn [total_gen]; lia|cbn [presented]; lia]].
    econstructor; eauto.
Qed.

Lemma avail_far kd ch n p : 0 < ch -> ch <= 2 ^ 31 -> 0 < n -> n * ch <= 2 ^ 50 -> 0 <= fst p -> frac (snd p) ->
  avail kd ch n p = false -> n - 1 <= fst p.
Proof.
  intros Hc Hci Hn Hnc Hu Hf H. destruct (Z_le_gt_dec (n - 1) (fst p)) as [|G]; [assumption|exfalso].
  unfold avail in H. destruct kd.
  - assert (T : dle (reach ch (fst p) (snd p)) (d_of_Z (n * ch)) = true) by (apply reach_le_true; auto; nia).
    unfold dle, reach, dadd, dmul in T. rewrite T in H. discriminate H.
  - assert (T : dlt (reach ch (fst p) (snd p)) (d_of_Z (n * ch)) = true) by (apply reach_lt_true; auto; nia).
    unfold dlt, reach, dadd, dmul in T. rewrite T in H. discriminate H.
Qed.

Lemma length_bound kd ch X r N st log out st1 o1 d m e st2 d2 m2 :
  at_start kd ch st -> channels_fit ch -> in_range r ->
  streaming ch X (eq r) (lin_legal kd ch X) st 0 log out st1 o1 ->
  presented 0 log <= N ->
  valid_call ch d m -> holds m (data_in d) ch (input_frames d) X o1 -> src_ratio d = r -> lin_legal kd ch X o1 d m ->
  o1 + input_frames d = N ->
  src_process (Some st1) (Some d) m = Ok (e, Some st2, Some d2, m2) ->
  output_frames_gen d2 < output_frames d ->
  let G := IZR (total_gen log + output_frames_gen d2) in
  (Rabs (G - B2R r * IZR N) <= (B2R r + 1) * (1 + G * / IZR (2 ^ 52)))%R.
Proof.
  intros A F Hr Hs Hp Vd Hd Er Ld EN Ed Lt G.
  destruct (const_run kd ch X (lin_legal kd ch X) r st log out st1 o1 A F Hr (fun o d m H => H) Hs) as (G0 & O & B & C & P & R & _).
  assert (Bd : band (val r) (val r) (src_ratio d)) by (rewrite Er; split; [exact Hr|lra]).
  assert (Vd' : valid_call (st_channels st1) d m) by now rewrite C.
  assert (Hd' : holds m (data_in d) (st_channels st1) (input_frames d) X o1) by now rewrite C.
  assert (Ld' : lin_legal kd (st_channels st1) X o1 d m) by now rewrite C.
  destruct (stream_call kd X st1 o1 d m e st2 d2 m2 (val r) (val r) O B Vd' Hd' Bd Ld' Ed)
    as (O2 & B2 & C2 & (He & HD & HU & HG & _) & _ & _ & _ & Pg & _ & Wr & Av & _).
  rewrite C in *.
  assert (Ck : exists chunk, mread_n m2 (data_out d) (Z.to_nat (output_frames_gen d2 * ch)) = Ok chunk).
  { apply mread_n_ok. intros j Hj. assert (Hc0 : 0 < ch) by (rewrite <- C; apply O).
    destruct Wr as [W1 _]. assert (M := Z.mod_pos_bound j ch Hc0). assert (Q := Z.div_mod j ch ltac:(lia)).
    assert (0 <= j / ch) by (apply Z.div_pos; lia).
    assert (j / ch < output_frames_gen d2) by (apply Z.div_lt_upper_bound; nia).
    replace j with (j / ch * ch + j mod ch) by lia. rewrite W1 by lia. discriminate. }
  destruct Ck as [chunk Ck].
  destruct (streaming_snoc ch X (eq r) (lin_legal kd ch X) st 0 log out st1 o1 Hs d m e st2 d2 m2 chunk Vd Hd (eq_sym Er) Ld Ed Ck)
    as (S1 & S2 & S3).
  destruct (const_run kd ch X (lin_legal kd ch X) r st _ _ st2 _ A F Hr (fun o d m H => H) S1) as (T0 & T1 & _ & T2 & T3 & T4 & _).
  rewrite S2 in *. set (Gz := total_gen log + output_frames_gen d2) in *.
  assert (Pr : presented 0 (log ++ [Ev_call d d2]) <= N) by lia.
  set (P0 := (0, dzero) : position) in *.
  assert (F0 : frac (snd P0)) by apply frac_zero.
  assert (Gr : good_ratio r) by exact Hr.
  assert (Pp : 0 <= fst (split_pos (st_last_position st2))) by (apply split_lt258; apply T1).
  (* where the converter stopped *)
  assert (Low : (IZR N - 1 <= pval (pos_at P0 (fun _ => r) (Z.to_nat Gz)))%R).
  { assert (Fg : frac (snd (pos_at P0 (fun _ => r) (Z.to_nat Gz)))) by (apply pos_at_frac; auto).
    assert (Lo : N - 1 <= fst (pos_at P0 (fun _ => r) (Z.to_nat Gz))).
    { rewrite <- T3. destruct (Av Lt) as [Z0|Af].
      - unfold stream_pos, shift. cbn [fst]. lia.
      - rewrite <- Pg in Af. rewrite T3 in Af |- *. set (p := pos_at P0 (fun _ => r) (Z.to_nat Gz)) in *.
        destruct (Z.eq_dec (input_frames d) 0) as [Z0|Z0].
        + rewrite <- T3. unfold stream_pos, shift. cbn [fst]. lia.
        + assert (Hn : 0 < input_frames d) by (assert (0 <= input_frames d) by apply Vd; lia).
          assert (Pos : 0 <= fst (shift (- o1) p)).
          { rewrite <- T3. unfold stream_pos, shift. cbn [fst]. lia. }
          assert (Q := avail_far kd ch (input_frames d) (shift (- o1) p)). unfold channels_fit in F.
          assert (Hc0 : 0 < ch) by (rewrite <- C; apply O).
          specialize (Q Hc0 ltac:(lia) Hn ltac:(apply Vd) Pos Fg Af). unfold shift in Q. cbn [fst] in Q. lia. }
    unfold pval. apply IZR_le in Lo. rewrite minus_IZR in Lo. destruct Fg as (_ & _ & Fg). lra. }
  assert (D := drift P0 r (Z.to_nat Gz) F0 Gr).
  rewrite INR_IZR_INZ, Z2Nat.id in D by exact T0. fold G in D. change (pval P0) with (0 + 0)%R in D.
  assert (B52 : bpow radix2 (-52) = (/ IZR (2 ^ 52))%R) by reflexivity. rewrite B52 in D.
  assert (Rp : (0 < val r)%R) by (destruct Hr as [_ Hr]; lra).
  assert (Ri : (val r * / val r = 1)%R) by (apply Rinv_r; lra).
  set (u := (/ IZR (2 ^ 52))%R) in *. assert (Up : (0 < u)%R) by (apply Rinv_0_lt_compat, IZR_lt; lia).
  assert (Gp : (0 <= G)%R) by (apply (IZR_le 0); exact T0).
  apply Rabs_le_inv in D. apply Rabs_le. split.
  - (* enough output *)
    assert (H1 : (IZR N - 1 - G * / val r <= G * (u * (1 + / val r)))%R) by lra.
    apply (Rmult_le_compat_l (val r)) in H1; [|lra].
    replace (val r * (IZR N - 1 - G * / val r))%R with (val r * IZR N - val r - G * (val r * / val r))%R in H1 by ring.
    replace (val r * (G * (u * (1 + / val r))))%R with (G * u * (val r + val r * / val r))%R in H1 by ring.
    rewrite Ri in H1. lra.
  - (* not too much: look at the last frame that came out *)
    destruct (Z.eq_dec Gz 0) as [Z0|Z0].
    { unfold G in *. rewrite Z0. simpl IZR. rewrite Rmult_0_l. assert (0 <= N) by (assert (0 <= o1) by apply O; assert (0 <= input_frames d) by apply Vd; lia).
      assert (0 <= IZR N)%R by (apply (IZR_le 0); lia). assert (0 <= val r * IZR N)%R by (apply Rmult_le_pos; lra). lra. }
    assert (Hk : 0 <= Gz - 1 < Gz) by lia.
    assert (R4 := T4 (Gz - 1) Hk).
    assert (Fg : frac (snd (pos_at P0 (fun _ => r) (Z.to_nat (Gz - 1))))) by (apply pos_at_frac; auto).
    assert (Up1 : (pval (pos_at P0 (fun _ => r) (Z.to_nat (Gz - 1))) <= IZR N + 1)%R).
    { assert (Q : fst (pos_at P0 (fun _ => r) (Z.to_nat (Gz - 1))) <= N) by (unfold reads in R4; destruct kd; lia).
      unfold pval. apply IZR_le in Q. destruct Fg as (_ & _ & Fg). lra. }
    assert (D1 := drift P0 r (Z.to_nat (Gz - 1)) F0 Gr).
    rewrite INR_IZR_INZ, Z2Nat.id in D1 by lia. change (pval P0) with (0 + 0)%R in D1. rewrite B52 in D1. fold u in D1.
    rewrite minus_IZR in D1. fold G in D1. apply Rabs_le_inv in D1.
    assert (H1 : ((G - 1) * / val r - (IZR N + 1) <= (G - 1) * (u * (1 + / val r)))%R) by lra.
    apply (Rmult_le_compat_l (val r)) in H1; [|lra].
    replace (val r * ((G - 1) * / val r - (IZR N + 1)))%R with ((G - 1) * (val r * / val r) - val r * IZR N - val r)%R in H1 by ring.
    replace (val r * ((G - 1) * (u * (1 + / val r))))%R with ((G - 1) * u * (val r + val r * / val r))%R in H1 by ring.
    rewrite Ri in H1. assert (0 <= u * (val r + 1))%R by (apply Rmult_le_pos; lra). lra.
Qed.

(** C27 *)
Lemma ramp_in_call kd ch X st log out st1 o1 d m e st2 d2 m2 :
  at_start kd ch st -> channels_fit ch -> streaming ch X in_range (lin_legal kd ch X) st 0 log out st1 o1 ->
  valid_call ch d m -> holds m (data_in d) ch (input_frames d) X o1 -> lin_legal kd ch X o1 d m ->
  src_process (Some st1) (Some d) m = Ok (e, Some st2, Some d2, m2) ->
  let last := if Beqb (st_last_ratio st1) dzero then src_ratio d else st_last_ratio st1 in
  exists rho,
    (forall k, Z.of_nat k < output_frames d ->
       in_range (rho k) /\
       (Rmin (B2R last) (B2R (src_ratio d)) <= B2R (rho k) <= Rmax (B2R last) (B2R (src_ratio d)))%R /\
       (Rabs (B2R (rho k) - (B2R last + IZR (Z.of_nat k) * (B2R (src_ratio d) - B2R last) / IZR (output_frames d)))
          <= / IZR (2 ^ 42))%R) /\
    (0 < output_frames d -> rho O = last) /\
    wrote m m2 (data_out d) ch (output_frames_gen d2)
          (fun k c => value kd (from0 X) (pos_at (stream_pos st1 o1) rho (Z.to_nat k)) c) /\
    stream_pos st2 (o1 + input_frames_used d2) = pos_at (stream_pos st1 o1) rho (Z.to_nat (output_frames_gen d2)) /\
    st_last_ratio st2 = match Z.to_nat (output_frames_gen d2) with O => last | S j => rho j end.
Proof.
  intros A F Hs Vd Hd Ld Ed last.
  destruct (start_run kd ch X in_range (lin_legal kd ch X) (/256) 256 st log out st1 o1 A F) as (G0 & O & B & C & _); auto.
  { intros r Hr. split; [exact Hr|apply Hr]. }
  assert (Hr : in_range (src_ratio d)) by apply Vd.
  assert (Bd : band (/256) 256 (src_ratio d)) by (split; [exact Hr|apply Hr]).
  assert (Vd' : valid_call (st_channels st1) d m) by now rewrite C.
  assert (Hd' : holds m (data_in d) (st_channels st1) (input_frames d) X o1) by now rewrite C.
  assert (Ld' : lin_legal kd (st_channels st1) X o1 d m) by now rewrite C.
  destruct (stream_call kd X st1 o1 d m e st2 d2 m2 (/256) 256 O B Vd' Hd' Bd Ld' Ed)
    as (O2 & B2 & C2 & _ & _ & R2 & _ & Pg & _ & Wr & _ & _).
  assert (El : start_ratio st1 (src_ratio d) = last).
  { unfold last, start_ratio. destruct B as [Z|[[Z1 Z2] _]].
    - rewrite Z, zero_low. reflexivity.
    - rewrite good_not_low by (split; assumption). rewrite Beqb_spec by (auto; reflexivity).
      rewrite Req_bool_false; [reflexivity|]. change (val dzero) with 0%R. lra. }
  rewrite El, C in *.
  assert (Gl : band (/256) 256 last) by (rewrite <- El; now apply start_band).
  assert (Hc0 : 0 < ch) by (rewrite <- C; apply O).
  assert (Hmc : output_frames d * ch <= 2 ^ 50) by apply Vd.
  exists (ramp last (src_ratio d) ch (output_frames d)). split; [|split; [|split; [|split]]]; auto.
  - intros k Hk. destruct (ramp_ok last (src_ratio d) ch (output_frames d) k last (proj1 Gl) Hr Hc0 Hk Hmc) as (_ & Q1 & Q2 & Q3); auto.
  - intros Hm. apply ramp_first; auto. apply Gl.
Qed.

Lemma same_ratio_call kd ch X st log out st1 o1 d m e st2 d2 m2 :
  at_start kd ch st -> channels_fit ch -> streaming ch X in_range (lin_legal kd ch X) st 0 log out st1 o1 ->
  valid_call ch d m -> holds m (data_in d) ch (input_frames d) X o1 -> lin_legal kd ch X o1 d m ->
  src_process (Some st1) (Some d) m = Ok (e, Some st2, Some d2, m2) ->
  st_last_ratio st1 = src_ratio d -> st_last_ratio st2 = src_ratio d.
Proof.
  intros A F Hs Vd Hd Ld Ed Er.
  destruct (ramp_in_call kd ch X st log out st1 o1 d m e st2 d2 m2 A F Hs Vd Hd Ld Ed) as (rho & R1 & _ & _ & _ & R2).
  destruct (start_run kd ch X in_range (lin_legal kd ch X) (/256) 256 st log out st1 o1 A F) as (G0 & O & B & C & _); auto.
  { intros r Hr. split; [exact Hr|apply Hr]. }
  assert (Vd' : valid_call (st_channels st1) d m) by now rewrite C.
  assert (Hd' : holds m (data_in d) (st_channels st1) (input_frames d) X o1) by now rewrite C.
  assert (Ld' : lin_legal kd (st_channels st1) X o1 d m) by now rewrite C.
  assert (Hr : in_range (src_ratio d)) by apply Vd.
  assert (Bd : band (/256) 256 (src_ratio d)) by (split; [exact Hr|apply Hr]).
  destruct (stream_call kd X st1 o1 d m e st2 d2 m2 (/256) 256 O B Vd' Hd' Bd Ld' Ed) as (_ & _ & _ & (_ & _ & _ & Hg & _) & _).
  assert (El : (if Beqb (st_last_ratio st1) dzero then src_ratio d else st_last_ratio st1) = src_ratio d).
  { destruct (Beqb (st_last_ratio st1) dzero); [reflexivity|exact Er]. }
  rewrite El in *. rewrite R2. destruct (Z.to_nat (output_frames_gen d2)) as [|j] eqn:Ej; [reflexivity|].
  destruct (R1 j) as (Q1 & Q2 & _); [lia|]. apply good_eq; [exact Q1|exact Hr|].
  unfold Rmin, Rmax in Q2. destruct (Rle_dec _ _); lra.
Qed.

(** ** A concrete stream: two channels, four frames, ratio 2, room for sixteen frames. *)
Definition ex_build : build := mkBuild None None None.
Definition ex_conv (kd : kind) (ch : Z) : SRC_STATE :=
  blank_state (vt_of kd) ch (P_hold (mkHold false 0 0 0 0 (repeat fzero (Z.to_nat ch)))).
Definition ex_stream : stream := fun i c => f_of_Z (1 + 10 * i + c).
Definition ex_mem : mem := fun a =>
  if (100 <=? a) && (a <? 108) then Some (f_of_Z (1 + 10 * ((a - 100) / 2) + (a - 100) mod 2))
  else if (200 <=? a) && (a <? 232) then Some fzero else None.
Definition ex_data (r : f64) : SRC_DATA := mkData 100 200 4 16 0 0 0 r.

Lemma ex_created kd : created (type_of kd) 2 (ex_conv kd 2).
Proof.
  exists ex_build, (fun _ => true), (mkHeap 0 []). destruct kd; eexists; eexists; split; reflexivity.
Qed.
Lemma ex_start kd : at_start kd 2 (ex_conv kd 2).
Proof. left. apply ex_created. Qed.
Lemma two_range : in_range (d_of_Z 2).
Proof. destruct (d_of_Z_val 2) as [V F]; [simpl; lia|]. split; [exact F|]. rewrite V. lra. Qed.
Lemma ex_valid r : in_range r -> valid_call 2 (ex_data r) ex_mem.
Proof.
  intros R. unfold valid_call, ex_data; cbn [data_in data_out input_frames output_frames src_ratio]. repeat (split; [first [lia|exact R|discriminate]|]).
  split; [|split].
  - intros j Hj. unfold ex_mem. replace ((100 <=? 100 + j) && (100 + j <? 108)) with true; [discriminate|].
    symmetry. apply andb_true_intro. split; [apply Z.leb_le|apply Z.ltb_lt]; lia.
  - intros j Hj. unfold ex_mem. destruct ((100 <=? 200 + j) && (200 + j <? 108)); [discriminate|].
    replace ((200 <=? 200 + j) && (200 + j <? 232)) with true; [discriminate|].
    symmetry. apply andb_true_intro. split; [apply Z.leb_le|apply Z.ltb_lt]; lia.
  - left. lia.
Qed.
Lemma ex_holds : holds ex_mem 100 2 4 ex_stream 0.
Proof.
  intros i c Hi Hc. unfold ex_mem, ex_stream.
  replace ((100 <=? 100 + (i * 2 + c)) && (100 + (i * 2 + c) <? 108)) with true.
  2: { symmetry. apply andb_true_intro. split; [apply Z.leb_le|apply Z.ltb_lt]; lia. }
  f_equal. replace (100 + (i * 2 + c) - 100) with (c + i * 2) by lia.
  rewrite Z.div_add, Z.mod_add, Z.div_small, Z.mod_small by lia. f_equal.
Qed.
Lemma ex_legal kd r : lin_legal kd 2 ex_stream 0 (ex_data r) ex_mem.
Proof. destruct kd; cbn; [exact I|]. right. left. lia. Qed.

Lemma ex_call kd r : in_range r -> exists st' d' m', src_process (Some (ex_conv kd 2)) (Some (ex_data r)) ex_mem = Ok (0, Some st', Some d', m').
Proof.
  intros R. destruct (created_fresh kd 2 (ex_conv kd 2) (ex_created kd)) as [K Kc Km _ _ _]; [unfold channels_fit; lia|].
  destruct (process_honest kd (ex_conv kd 2) (ex_data r) ex_mem K Km) as (st' & d' & m' & E & _).
  - now apply ex_valid.
  - destruct kd; cbn; lia.
  - eauto.
Qed.

Definition gen_of (r : outcome (Z * option SRC_STATE * option SRC_DATA * mem)) : Z :=
  match r with Ok (_, _, Some d, _) => output_frames_gen d | _ => -1 end.

Lemma ex_run kd : exists log out st' o',
  streaming 2 ex_stream (eq (d_of_Z 2)) (lin_legal kd 2 ex_stream) (ex_conv kd 2) 0 log out st' o' /\
  total_gen log = match kd with Zoh => 9 | Lin => 8 end.
Proof.
  destruct (ex_call kd (d_of_Z 2) two_range) as (st' & d' & m' & E).
  assert (Hg : output_frames_gen d' = match kd with Zoh => 9 | Lin => 8 end).
  { assert (Q : gen_of (src_process (Some (ex_conv kd 2)) (Some (ex_data (d_of_Z 2))) ex_mem) = match kd with Zoh => 9 | Lin => 8 end)
      by (destruct kd; vm_compute; reflexivity).
    rewrite E in Q. exact Q. }
  assert (F2 : channels_fit 2) by (unfold channels_fit; lia).
  destruct (created_fresh kd 2 (ex_conv kd 2) (ex_created kd) F2) as [K Kc Km Kp Kr Kh].
  destruct (fresh_stream kd 2 ex_stream (ex_conv kd 2)) as (O & P & B); [split; auto|].
  assert (Bd : band 2 2 (d_of_Z 2)).
  { split; [exact two_range|]. destruct (d_of_Z_val 2) as [V _]; [simpl; lia|]. rewrite V. lra. }
  destruct (stream_call kd ex_stream (ex_conv kd 2) 0 (ex_data (d_of_Z 2)) ex_mem 0 st' d' m' 2 2 O (B _ _) (ex_valid _ two_range) ex_holds
     Bd (ex_legal kd _) E) as (_ & _ & _ & _ & _ & _ & _ & _ & _ & Wr & _).
  assert (Ck : exists chunk, mread_n m' (data_out (ex_data (d_of_Z 2))) (Z.to_nat (output_frames_gen d' * 2)) = Ok chunk).
  { apply mread_n_ok. intros j Hj.
    destruct Wr as [W1 _]. assert (M := Z.mod_pos_bound j 2 ltac:(lia)). assert (Q := Z.div_mod j 2 ltac:(lia)).
    assert (0 <= j / 2) by (apply Z.div_pos; lia).
    assert (j / 2 < output_frames_gen d') by (apply Z.div_lt_upper_bound; lia).
    replace j with (j / 2 * 2 + j mod 2) by lia. change (st_channels (ex_conv kd 2)) with 2 in W1. rewrite W1 by lia. discriminate. }
  destruct Ck as [chunk Ck].
  exists [Ev_call (ex_data (d_of_Z 2)) d'], (chunk ++ []), st', (0 + input_frames_used d').
  split; [|cbn; lia].
  eapply S_call with (d := ex_data (d_of_Z 2)) (m := ex_mem).
  - apply ex_valid, two_range.
  - apply ex_holds.
  - reflexivity.
  - apply ex_legal.
  - exact E.
  - exact Ck.
  - constructor.
Qed.

(** A one-frame block makes linear interpolation read the sample before data_in. *)
Definition one_frame : SRC_DATA := mkData 100 200 1 1 0 0 0 done_.
Definition one_mem : mem := fun a => if a =? 100 then Some (f_of_Z 1) else if a =? 200 then Some fzero else None.
Lemma one_range : in_range done_.
Proof. destruct done_val as [V F]. split; [exact F|]. rewrite V. lra. Qed.
Lemma one_valid : valid_call 1 one_frame one_mem.
Proof.
  unfold valid_call, one_frame; cbn [data_in data_out input_frames output_frames src_ratio]. repeat (split; [first [lia|exact one_range|discriminate]|]).
  split; [|split].
  - intros j Hj. replace j with 0 by lia. discriminate.
  - intros j Hj. replace j with 0 by lia. discriminate.
  - left. lia.
Qed.
Lemma lin_reads_before : created SRC_LINEAR 1 (ex_conv Lin 1) /\ valid_call 1 one_frame one_mem /\
  src_process (Some (ex_conv Lin 1)) (Some one_frame) one_mem = Fault F_oob.
Proof.
  split; [|split; [exact one_valid|vm_compute; reflexivity]].
  exists ex_build, (fun _ => true), (mkHeap 0 []). eexists; eexists; split; reflexivity.
Qed.

(** When the memory before data_in is readable, its contents show up in the output: the result of a stream cut into
    one-frame blocks is not determined by the stream. *)
Definition leak_mem (junk : f32) : mem := fun a => if a =? 99 then Some junk else one_mem a.
Definition out_at (r : outcome (Z * option SRC_STATE * option SRC_DATA * mem)) (a : Z) : option f32 :=
  match r with Ok (_, _, _, m) => m a | _ => None end.
Lemma lin_leaks : forall junk, valid_call 1 one_frame (leak_mem junk) /\ holds (leak_mem junk) 100 1 1 (fun _ _ => f_of_Z 1) 0.
Proof.
  intros junk. split.
  - assert (V := one_valid). unfold valid_call in *.
    destruct V as (V1 & V2 & V3 & V4 & V5 & V6 & V7 & V8 & V9 & _ & _ & V12). do 9 (split; [assumption|]).
    split; [|split; [|assumption]]; intros j Hj; cbn in Hj; replace j with 0 by lia; discriminate.
  - intros i c Hi Hc. replace i with 0 by lia. replace c with 0 by lia. reflexivity.
Qed.
Lemma lin_leak_values :
  option_map B2SF (out_at (src_process (Some (ex_conv Lin 1)) (Some one_frame) (leak_mem (f_of_Z 5))) 200) = Some (B2SF (f_of_Z 5)) /\
  option_map B2SF (out_at (src_process (Some (ex_conv Lin 1)) (Some one_frame) (leak_mem (f_of_Z 7))) 200) = Some (B2SF (f_of_Z 7)).
Proof. split; vm_compute; reflexivity. Qed.

(** At ratio 1 linear turns a negative zero into a positive one. *)
Definition nz_mem : mem := fun a =>
  if (100 <=? a) && (a <? 103) then Some (B754_zero true) else if (200 <=? a) && (a <? 202) then Some fzero else None.
Definition nz_data : SRC_DATA := mkData 100 200 3 2 0 0 0 done_.
Lemma nz_valid : valid_call 1 nz_data nz_mem.
Proof.
  unfold valid_call, nz_data; cbn [data_in data_out input_frames output_frames src_ratio]. repeat (split; [first [lia|exact one_range|discriminate]|]).
  split; [|split].
  - intros j Hj. assert (j = 0 \/ j = 1 \/ j = 2) as [->|[->| ->]] by lia; discriminate.
  - intros j Hj. assert (j = 0 \/ j = 1) as [->| ->] by lia; discriminate.
  - left. lia.
Qed.
Lemma lin_negative_zero : out_at (src_process (Some (ex_conv Lin 1)) (Some nz_data) nz_mem) 201 = Some (B754_zero false).
Proof. vm_compute. reflexivity. Qed.
