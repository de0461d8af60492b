(** Property theorems of the hold converters whose proof is more than one earlier lemma (used by Properties_Hold.v). *)
From Coq Require Import ZArith Reals List Lia Lra.
From Flocq Require Import Core IEEE754.BinarySingleNaN.
From Verif Require Import Base Types Api Heap Callback HoldSpec ApiHist PosFacts HoldCore HoldRamp HoldProcess HoldStream HoldValue HoldMain HoldHuge.
Import ListNotations.
Local Open Scope Z_scope.

Lemma thm_C16_zoh_memory_safe :
  forall ch st, created SRC_ZERO_ORDER_HOLD ch st -> channels_fit ch ->
  forall CS (cb : callback_t CS) dummy cs, Forall (valid_op ch) cs ->
  exists rs st', api_run CS cb dummy st cs = Ok (rs, st').
Proof.
  intros ch st C F CS cb dummy cs V.
  destruct (fresh_history Zoh ch st CS cb dummy cs C F V (zoh_room cs)) as (rs & st' & E & _). eauto.
Qed.

Lemma thm_C17_linear_memory_safe_partial :
  forall ch st, created SRC_LINEAR ch st -> channels_fit ch ->
  forall CS (cb : callback_t CS) dummy cs, Forall (valid_op ch) cs -> Forall (op_room Lin) cs ->
  exists rs st', api_run CS cb dummy st cs = Ok (rs, st').
Proof.
  intros ch st C F CS cb dummy cs V R.
  destruct (fresh_history Lin ch st CS cb dummy cs C F V R) as (rs & st' & E & _). eauto.
Qed.

Lemma thm_C18_hold_counts_honest :
  forall kd ch st, created (type_of kd) ch st -> channels_fit ch ->
  forall CS (cb : callback_t CS) dummy cs rs st', Forall (valid_op ch) cs -> api_run CS cb dummy st cs = Ok (rs, st') ->
  Forall2 (honest ch) cs rs.
Proof. intros kd ch st C F CS cb dummy cs rs st' V E. apply (proj2 (fresh_history_any kd ch st CS cb dummy cs C F V) _ _ E). Qed.

Lemma thm_C19_hold_ratio_valid :
  forall kd ch st, created (type_of kd) ch st -> channels_fit ch ->
  forall CS (cb : callback_t CS) dummy cs rs st', Forall (valid_op ch) cs -> api_run CS cb dummy st cs = Ok (rs, st') ->
  Forall2 (honest ch) cs rs /\ (st_last_ratio st' = dzero \/ in_range (st_last_ratio st')).
Proof. intros kd ch st C F CS cb dummy cs rs st' V E. exact (proj2 (fresh_history_any kd ch st CS cb dummy cs C F V) _ _ E). Qed.

Lemma thm_C19_ramp_valid :
  forall last new ch frames k, in_range last -> in_range new -> 0 < ch -> Z.of_nat k < frames -> frames * ch <= 2 ^ 50 ->
  in_range (ramp last new ch frames k).
Proof. intros. now apply (ramp_ok last new ch frames k last). Qed.

Lemma thm_C20_zoh_progress :
  forall ch st d m, after_history Zoh ch st -> channels_fit ch -> valid_call ch d m ->
  exists st' d' m', src_process (Some st) (Some d) m = Ok (0, Some st', Some d', m') /\
    (0 < input_frames d -> 0 < output_frames d -> 0 < input_frames_used d' \/ 0 < output_frames_gen d').
Proof.
  intros ch st d m A F V. destruct (call_after Zoh ch st d m A F V I) as (st' & d' & m' & E & _ & _ & P). eauto 6.
Qed.

Lemma thm_C20_linear_progress_partial :
  forall ch st d m, after_history Lin ch st -> channels_fit ch -> valid_call ch d m ->
  src_process (Some st) (Some d) m <> Fault F_fuel /\
  forall e st' d' m', src_process (Some st) (Some d) m = Ok (e, Some st', Some d', m') ->
    e = 0 /\ (0 < input_frames d -> 0 < output_frames d -> 0 < input_frames_used d' \/ 0 < output_frames_gen d').
Proof. exact (call_after_any Lin). Qed.

Lemma thm_C23_zoh_block_independent :
  forall ch X r st log out st' o', at_start Zoh ch st -> channels_fit ch -> in_range r ->
  streaming ch X (eq r) (fun _ _ _ => True) st 0 log out st' o' ->
  is_frames ch out (total_gen log) (fun k c => zoh_value (from0 X) (pos_at (0, dzero) (fun _ => r) (Z.to_nat k)) c).
Proof.
  intros ch X r st log out st' o' A F R S.
  exact (proj2 (proj2 (proj2 (proj2 (proj2 (proj2 (const_run Zoh ch X _ r st log out st' o' A F R (fun _ _ _ _ => I) S))))))).
Qed.

Lemma thm_C23_zoh_same_prefix :
  forall ch X r st1 log1 out1 st1' o1 st2 log2 out2 st2' o2,
  at_start Zoh ch st1 -> at_start Zoh ch st2 -> channels_fit ch -> in_range r ->
  streaming ch X (eq r) (fun _ _ _ => True) st1 0 log1 out1 st1' o1 ->
  streaming ch X (eq r) (fun _ _ _ => True) st2 0 log2 out2 st2' o2 ->
  total_gen log1 <= total_gen log2 -> exists rest, out2 = out1 ++ rest.
Proof.
  intros ch X r st1 log1 out1 st1' o1 st2 log2 out2 st2' o2 A1 A2 F R S1 S2 L.
  destruct (const_run Zoh ch X _ r st1 log1 out1 st1' o1 A1 F R (fun _ _ _ _ => I) S1) as (P1 & O1 & _ & C1 & _ & _ & F1).
  destruct (const_run Zoh ch X _ r st2 log2 out2 st2' o2 A2 F R (fun _ _ _ _ => I) S2) as (_ & _ & _ & _ & _ & _ & F2).
  apply (frames_prefix ch out1 out2 _ _ _ ltac:(rewrite <- C1; apply O1) (conj P1 L) F1 F2).
Qed.

Lemma thm_C24_linear_block_independent_partial :
  forall ch X r st log out st' o', at_start Lin ch st -> channels_fit ch -> in_range r ->
  streaming ch X (eq r) (lin_legal Lin ch X) st 0 log out st' o' ->
  is_frames ch out (total_gen log) (fun k c => lin_value (from0 X) (pos_at (0, dzero) (fun _ => r) (Z.to_nat k)) c).
Proof.
  intros ch X r st log out st' o' A F R S.
  exact (proj2 (proj2 (proj2 (proj2 (proj2 (proj2 (const_run Lin ch X _ r st log out st' o' A F R (fun _ _ _ H => H) S))))))).
Qed.

Lemma thm_C24_linear_same_prefix_partial :
  forall ch X r st1 log1 out1 st1' o1 st2 log2 out2 st2' o2,
  at_start Lin ch st1 -> at_start Lin ch st2 -> channels_fit ch -> in_range r ->
  streaming ch X (eq r) (lin_legal Lin ch X) st1 0 log1 out1 st1' o1 ->
  streaming ch X (eq r) (lin_legal Lin ch X) st2 0 log2 out2 st2' o2 ->
  total_gen log1 <= total_gen log2 -> exists rest, out2 = out1 ++ rest.
Proof.
  intros ch X r st1 log1 out1 st1' o1 st2 log2 out2 st2' o2 A1 A2 F R S1 S2 L.
  destruct (const_run Lin ch X _ r st1 log1 out1 st1' o1 A1 F R (fun _ _ _ H => H) S1) as (P1 & O1 & _ & C1 & _ & _ & F1).
  destruct (const_run Lin ch X _ r st2 log2 out2 st2' o2 A2 F R (fun _ _ _ H => H) S2) as (_ & _ & _ & _ & _ & _ & F2).
  apply (frames_prefix ch out1 out2 _ _ _ ltac:(rewrite <- C1; apply O1) (conj P1 L) F1 F2).
Qed.

Lemma plan_hold kd ch X st log out st1 o1 : at_start kd ch st -> channels_fit ch ->
  streaming ch X in_range (lin_legal kd ch X) st 0 log out st1 o1 ->
  0 < ch /\ exists P, (forall k, 0 <= k < total_gen log -> frac (snd (P k))) /\
  is_frames ch out (total_gen log) (fun k c => value kd (from0 X) (P k) c) /\
  forall X' log' out' st1' o1', streaming ch X' in_range (lin_legal kd ch X') st 0 log' out' st1' o1' -> requests log = requests log' ->
    log = log' /\ is_frames ch out' (total_gen log) (fun k c => value kd (from0 X') (P k) c).
Proof.
  intros A F S. assert (Fr := start_fresh kd ch st A F). destruct (fresh_stream kd ch X st Fr) as (O & _).
  split; [rewrite <- (fr_ch _ _ _ Fr); apply O|].
  destruct (hold_plan kd ch X st 0 log out st1 o1 S O (fr_ch _ _ _ Fr) (or_introl (fr_ratio _ _ _ Fr))) as (_ & P & Pf & F1 & Pl).
  exists P. split; [exact Pf|]. split; [exact F1|]. intros X' log' out' st1' o1' S' Rq.
  destruct (fresh_stream kd ch X' st Fr) as (O' & _). apply (Pl _ _ _ _ _ _ S' O'); [repeat split|exact Rq].
Qed.

Lemma hold_channels_related :
  forall (R : f32 -> f32 -> Prop) kd ch X X' c c' st log out st1 o1 log' out' st1' o1',
  at_start kd ch st -> channels_fit ch -> 0 <= c < ch -> 0 <= c' < ch -> (forall p, R (value kd (from0 X) p c) (value kd (from0 X') p c')) ->
  streaming ch X in_range (lin_legal kd ch X) st 0 log out st1 o1 ->
  streaming ch X' in_range (lin_legal kd ch X') st 0 log' out' st1' o1' ->
  requests log = requests log' ->
  log = log' /\ forall k, 0 <= k < total_gen log -> exists y y', sample ch out k c = Some y /\ sample ch out' k c' = Some y' /\ R y y'.
Proof.
  intros R kd ch X X' c c' st log out st1 o1 log' out' st1' o1' A F Hc Hc' Hx S1 S2 Rq.
  destruct (plan_hold kd ch X st log out st1 o1 A F S1) as (_ & P & _ & F1 & Pl). destruct (Pl _ _ _ _ _ S2 Rq) as [E F2].
  split; [exact E|]. intros k Hk. eexists _, _. split; [now apply F1|]. split; [now apply F2|apply Hx].
Qed.

Lemma thm_C25_hold_channels_isolated_partial :
  forall kd ch X X' c c' st log out st1 o1 log' out' st1' o1',
  at_start kd ch st -> channels_fit ch -> 0 <= c < ch -> 0 <= c' < ch -> (forall i, X i c = X' i c') ->
  streaming ch X in_range (lin_legal kd ch X) st 0 log out st1 o1 ->
  streaming ch X' in_range (lin_legal kd ch X') st 0 log' out' st1' o1' ->
  requests log = requests log' ->
  log = log' /\ forall k, 0 <= k < total_gen log -> sample ch out k c = sample ch out' k c'.
Proof.
  intros kd ch X X' c c' st log out st1 o1 log' out' st1' o1' A F Hc Hc' Hx S1 S2 Rq.
  destruct (hold_channels_related eq kd ch X X' c c' st log out st1 o1 log' out' st1' o1' A F Hc Hc') as [E H]; auto.
  - intros p. now apply value_channel.
  - split; [exact E|]. intros k Hk. destruct (H k Hk) as (y & y' & -> & -> & ->). reflexivity.
Qed.

Lemma thm_C26_zoh_unity :
  forall ch X r st log out st' o', at_start Zoh ch st -> channels_fit ch -> in_range r -> B2R r = 1%R ->
  streaming ch X (eq r) (fun _ _ _ => True) st 0 log out st' o' ->
  is_frames ch out (total_gen log) (fun k c => X (Z.max 0 (k - 1)) c).
Proof.
  intros ch X r st log out st' o' A F R V S.
  apply (is_frames_ext ch _ _ _ _ (thm_C23_zoh_block_independent ch X r st log out st' o' A F R S)).
  intros k c Hk Hc. unfold zoh_value, from0. rewrite unity_pos by assumption. cbn [fst].
  now rewrite Z2Nat.id by (apply Hk).
Qed.

Lemma thm_C26_linear_unity_partial :
  forall ch X r st log out st' o', at_start Lin ch st -> channels_fit ch -> in_range r -> B2R r = 1%R ->
  (forall i c, is_finite (X i c) = true) -> (forall i c, X i c <> B754_zero true) ->
  streaming ch X (eq r) (lin_legal Lin ch X) st 0 log out st' o' ->
  is_frames ch out (total_gen log) (fun k c => X (Z.max 0 (k - 1)) c).
Proof.
  intros ch X r st log out st' o' A F R V Fx Nx S.
  apply (is_frames_ext ch _ _ _ _ (thm_C24_linear_block_independent_partial ch X r st log out st' o' A F R S)).
  intros k c Hk Hc. unfold lin_value, from0. rewrite unity_pos by assumption. cbn [fst snd].
  rewrite Z2Nat.id by (apply Hk). apply interpolate_zero_bits; [apply Fx|apply Fx|apply Nx].
Qed.

Lemma thm_C27_set_ratio :
  forall st r, in_range r -> exists st', src_set_ratio (Some st) r = (0, Some st') /\
  st_last_ratio st' = r /\ st_last_position st' = st_last_position st /\ st_priv st' = st_priv st.
Proof.
  intros st r R. unfold src_set_ratio. replace (is_bad_src_ratio r) with false.
  - eexists. repeat split.
  - symmetry. apply PosFacts.is_bad_src_ratio_spec. right. exact R.
Qed.

Lemma thm_C38_zoh_output_length :
  forall ch X r N st log out st1 o1 d m e st2 d2 m2,
  at_start Zoh ch st -> channels_fit ch -> in_range r ->
  streaming ch X (eq r) (fun _ _ _ => True) st 0 log out st1 o1 ->
  presented 0 log <= N ->
  valid_call ch d m -> holds m (data_in d) ch (input_frames d) X o1 -> src_ratio d = r ->
  o1 + input_frames d = N ->
  src_process (Some st1) (Some d) m = Ok (e, Some st2, Some d2, m2) ->
  output_frames_gen d2 < output_frames d ->
  let G := IZR (total_gen log + output_frames_gen d2) in
  (Rabs (G - B2R r * IZR N) <= (B2R r + 1) * (1 + G * / IZR (2 ^ 52)))%R.
Proof.
  intros ch X r N st log out st1 o1 d m e st2 d2 m2 A F R S P V Hh Hr Hn E G.
  exact (length_bound Zoh ch X r N st log out st1 o1 d m e st2 d2 m2 A F R S P V Hh Hr I Hn E G).
Qed.

Lemma thm_C22_constant :
  forall ch X st log out st' o', at_start Lin ch st -> channels_fit ch ->
  (forall i j c, X i c = X j c) -> (forall i c, is_finite (X i c) = true) ->
  streaming ch X in_range (lin_legal Lin ch X) st 0 log out st' o' ->
  exists Y, is_frames ch out (total_gen log) Y /\
    forall k c, 0 <= k < total_gen log -> is_finite (Y k c) = true /\ B2R (Y k c) = B2R (X 0 c).
Proof.
  intros ch X st log out st' o' A F Hc Hf S.
  destruct (lin_adjacent ch X st log out st' o' A F S) as (idx & t & Ht & Fr).
  exists (fun k c => interpolate (X (Z.max 0 (idx k - 1)) c) (X (idx k) c) (t k)). split; [exact Fr|].
  intros k c Hk. destruct (Ht k Hk) as (_ & Ft & Bt).
  destruct (interpolate_range (X (Z.max 0 (idx k - 1)) c) (X (idx k) c) (t k) (Hf _ _) (Hf _ _) Ft Bt) as [Fi B].
  split; [exact Fi|]. rewrite (Hc _ 0 c), (Hc (idx k) 0 c) in B. rewrite (Hc _ 0 c), (Hc (idx k) 0 c).
  unfold Rmin, Rmax in B. destruct (Rle_dec _ _); lra.
Qed.
