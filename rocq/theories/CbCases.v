(** Concrete callbacks: a read that never ends, and example cases for Properties_Callback.v. *)
From Coq Require Import ZArith Reals List Bool Lia Lra.
From Flocq Require Import Core IEEE754.BinarySingleNaN.
From Verif Require Import Base SincCopies SincCopiesEq FloatFacts PosFacts Types Common Sinc Api Heap Callback ApiHist HoldSpec HoldCore HoldRamp HoldMain LifeSpec SincSpec SincApi
  SincTables SincCases CbSpec CbCore.
Import ListNotations.
Local Open Scope Z_scope.

(** A callback that hands out a block of 20 frames, reports the end twice, and after that hands out blocks again. *)
Definition revive : callback_t nat := fun _ _ k m =>
  match k with
  | O => (1%nat, m, Some 100, 20)
  | S O => (2%nat, m, Some 100, 0)
  | S (S O) => (3%nat, m, Some 100, 0)
  | _ => (k, m, Some 100, 20)
  end.
(** The same without the second part. *)
Definition once : callback_t nat := fun _ _ k m => match k with O => (1%nat, m, Some 100, 20) | _ => (1%nat, m, Some 100, 0) end.
Definition store (a : Z) : Prop := 100 <= a < 200.

Definition fast_cb (ch : Z) : SRC_STATE :=
  match src_callback_new fast_build (fun _ => true) 7 SRC_SINC_FASTEST ch 0 (mkHeap 0 []) with Ok (_, Some c, _) => c_state c | _ => nothing end.
Definition cb_made (ch : Z) : bool :=
  match src_callback_new fast_build (fun _ => true) 7 SRC_SINC_FASTEST ch 0 (mkHeap 0 []) with Ok (e, Some _, _) => e =? 0 | _ => false end.
Lemma cb_made_new ch : cb_made ch = true -> sinc_cb_new fastest_table ch (fast_cb ch).
Proof.
  unfold cb_made, fast_cb. intros E. exists fast_build, (fun _ => true), 7, SRC_SINC_FASTEST, 0, (mkHeap 0 []).
  destruct (src_callback_new fast_build (fun _ => true) 7 SRC_SINC_FASTEST ch 0 (mkHeap 0 [])) as [[[e [c|]] h]|f]; try discriminate E.
  apply Z.eqb_eq in E. subst e. exists c, h. repeat split.
Qed.
Lemma fast_cb1 : sinc_cb_new fastest_table 1 (fast_cb 1).
Proof. apply cb_made_new. vm_compute. reflexivity. Qed.

Lemma store_block n : 0 <= n <= 20 -> block_in store 1 100 n.
Proof. intros H. split; [lia|]. right. right. split; [nia|]. split; [nia|]. unfold store. intros i Hi. lia. Qed.
Lemma revive_proper : proper nat revive 0 store 1.
Proof.
  intros f ud k m _. destruct k as [|[|[|k]]]; cbn; (split; [auto|apply store_block; lia]).
Qed.
Lemma revive_nonnegative : nonnegative nat revive.
Proof. intros f ud k m. destruct k as [|[|[|k]]]; cbn; lia. Qed.
Lemma revive_int : int_blocks nat revive 1.
Proof. intros f ud k m. destruct k as [|[|[|k]]]; cbn; lia. Qed.
Lemma once_proper : proper nat once 0 store 1.
Proof.
  intros f ud k m _. destruct k as [|k]; cbn; (split; [auto|apply store_block; lia]).
Qed.
Lemma once_nonnegative : nonnegative nat once.
Proof. intros f ud k m. destruct k as [|k]; cbn; lia. Qed.
Lemma once_int : int_blocks nat once 1.
Proof. intros f ud k m. destruct k as [|k]; cbn; lia. Qed.
Definition spent (k : nat) : Prop := k = 1%nat.
Lemma once_ends : marks_end nat once spent /\ stays_ended nat once spent.
Proof. split; intros f ud k m; destruct k as [|k]; cbn; try split; intros H; try reflexivity; discriminate H. Qed.

(** ** The stuck converter *)
Definition sf_eqb (a b : SpecFloat.spec_float) : bool :=
  match a, b with
  | SpecFloat.S754_zero s, SpecFloat.S754_zero t => Bool.eqb s t
  | SpecFloat.S754_finite s m e, SpecFloat.S754_finite t n g => Bool.eqb s t && Pos.eqb m n && Z.eqb e g
  | _, _ => false
  end.
Lemma sf_eqb_eq a b : sf_eqb a b = true -> a = b.
Proof.
  destruct a as [s|s| |s m e], b as [t|t| |t n g]; cbn; try discriminate; intros H.
  - f_equal. now apply eqb_prop.
  - apply andb_prop in H as [H H3]. apply andb_prop in H as [H1 H2]. f_equal; [now apply eqb_prop|now apply Pos.eqb_eq|now apply Z.eqb_eq].
Qed.
Lemma same_float (a b : f64) : sf_eqb (B2SF a) (B2SF b) = true -> a = b.
Proof. intros H. apply B2SF_inj. now apply sf_eqb_eq. Qed.

(** A mono converter at ratio 1 that has noted the end of its input and has no output left. *)
Definition no_more (st : SRC_STATE) : bool :=
  match st_vt st, st_mode st, st_priv st with
  | VT_sinc_mono, MODE_CALLBACK, P_sinc s =>
      (st_channels st =? 1) && negb (st_callback st =? 0) && (0 <=? s_b_real_end s) && (0 <? s_b_len s) &&
      negb (is_bad_src_ratio (st_last_ratio st)) && negb (dlt (st_last_ratio st) (ddiv done_ (d_of_Z SRC_MAX_RATIO))) &&
      match sinc_advance s 1 (st_last_position st) with
      | Ok (s1, idx) => (s_b_current s1 =? s_b_current s) && sf_eqb (B2SF idx) (B2SF (st_last_position st))
      | Fault _ => false
      end &&
      match half_filter_len s 1 (st_last_ratio st) done_, samples_in_hand s with
      | Ok h, Ok k => (k <=? h) || at_end true s (st_last_position st) (dadd (ddiv done_ (st_last_ratio st)) (lit_1em 20))
      | _, _ => false
      end
  | _, _, _ => false
  end.

(** The request: 20 frames at address 100, room for 10. *)
Definition ask : SRC_DATA := mkData 100 (2 ^ 40) 20 10 0 0 0 done_.

Lemma no_more_call st : no_more st = true ->
  exists st', src_process (Some (set_mode st MODE_PROCESS)) (Some ask) ones = Ok (0, Some st', Some ask, ones) /\ no_more (set_mode st' MODE_CALLBACK) = true.
Proof.
  unfold no_more. intros H. destruct (st_vt st) eqn:Ev; try discriminate H. destruct (st_mode st) eqn:Em; try discriminate H.
  destruct (st_priv st) as [| |s] eqn:Ep; try discriminate H.
  apply andb_prop in H as [H H8]. apply andb_prop in H as [H H7]. apply andb_prop in H as [H H6]. apply andb_prop in H as [H H5].
  apply andb_prop in H as [H H4]. apply andb_prop in H as [H H3]. apply andb_prop in H as [H1 H2]. apply Z.eqb_eq in H1.
  unfold src_process. set (st1 := set_mode st MODE_PROCESS). change (st_mode st1) with MODE_PROCESS. cbn [is_process negb].
  change (data_in ask =? 0) with false. change (data_out ask =? 0) with false. cbn [andb orb].
  change (is_bad_src_ratio (src_ratio ask)) with false. cbv beta iota.
  cbv zeta. change (set_frames ask (if input_frames ask <? 0 then 0 else input_frames ask) (if output_frames ask <? 0 then 0 else output_frames ask)) with ask. change (st_channels st1) with (st_channels st). rewrite H1. change (overlap_test 1 ask) with (Ok false). cbn [bind].
  change (set_counts ask 0 0) with ask. change (st_last_ratio st1) with (st_last_ratio st).
  replace (dlt (st_last_ratio st) (ddiv done_ (d_of_Z SRC_MAX_RATIO))) with false by (destruct (dlt _ _); [discriminate H6|reflexivity]).
  assert (V : exists st', vt_process st1 ask ones = Ok (0, st', ask, ones) /\ no_more (set_mode st' MODE_CALLBACK) = true).
  2: { destruct V as (st' & V & V'). exists st'. split; [|exact V']. rewrite V. now destruct (dlt (dabs _) _). }
  unfold vt_process, st1. cbn [set_mode st_vt]. rewrite Ev, mono_copy. unfold sinc_process. cbn [set_mode st_priv st_channels st_last_ratio st_last_position st_error].
  rewrite Ep, H1. change (long_op (input_frames ask * 1)) with (Ok 20). change (long_op (output_frames ask * 1)) with (Ok 10). cbn [bind].
  destruct (is_bad_src_ratio (st_last_ratio st)) eqn:Bd; [discriminate H5|].
  destruct (half_filter_len s 1 (st_last_ratio st) done_) as [h|] eqn:Eh; [|discriminate H8].
  change (half_filter_len (s_set_counts s 20 0 10 0) 1 (st_last_ratio st) (src_ratio ask)) with (half_filter_len s 1 (st_last_ratio st) done_).
  rewrite Eh. cbn [bind].
  unfold sinc_advance in *. cbn [s_set_counts s_b_current s_b_len].
  destruct (int_op (1 * psf_lrint _)) as [p|] eqn:Ea; [cbn [bind] in *|discriminate H7]. destruct (int_op (s_b_current s + p)) as [c|] eqn:Eb; [cbn [bind] in *|discriminate H7].
  destruct (c_rem c (s_b_len s)) as [c'|] eqn:Ec; [cbn [bind] in *|discriminate H7]. apply andb_prop in H7 as [H7 H7']. cbn [s_set_current s_b_current] in H7.
  apply Z.eqb_eq in H7. subst c'. assert (H7b := H7'). apply same_float in H7'. rewrite H7'.
  destruct (samples_in_hand s) as [k|] eqn:Es; [|discriminate H8].
  set (s1 := s_set_current (s_set_counts s 20 0 10 0) (s_b_current s)).
  assert (Es1 : samples_in_hand s1 = Ok k) by exact Es.
  assert (Pd : prepare_data s1 1 ask h ones = Ok (0, s1)).
  { unfold prepare_data. change (s_b_real_end s1) with (s_b_real_end s). now rewrite H3. }
  assert (Lp : exists err, (err = 0 \/ err = st_error st) /\
     sinc_loop (S (Z.to_nat 10)) true 1 1 h ask (st_last_ratio st) (dadd (ddiv done_ (st_last_ratio st)) (lit_1em 20)) s1 (st_error st) (st_last_position st) (st_last_ratio st) ones =
     Ok (0, s1, err, st_last_position st, st_last_ratio st, ones)).
  { cbn [sinc_loop]. change (s_out_gen s1 <? s_out_count s1) with true. cbv iota. rewrite Es1. cbn [bind].
    destruct (k <=? h) eqn:Lk.
    - rewrite Pd. cbn [bind]. change (negb (0 =? 0)) with false. cbv iota. rewrite Es1. cbn [bind]. rewrite Lk. exists 0. auto.
    - cbn [bind]. change (at_end true s1) with (at_end true s). cbn [orb] in H8. rewrite H8. exists (st_error st). auto. }
  destruct Lp as (err & He & Lp). rewrite Lp. cbn [bind]. change (negb (0 =? 0)) with false. cbv iota.
  change (c_div (s_in_used s1) 1) with (Ok 0). change (c_div (s_out_gen s1) 1) with (Ok 0). cbn [bind]. eexists. split; [reflexivity|].
  unfold no_more. cbn [set_mode set_priv set_ratio set_position set_error st_vt st_mode st_priv st_channels st_callback st_last_ratio st_last_position].
  rewrite Ev, H1, H2. change (s_b_real_end s1) with (s_b_real_end s). change (s_b_len s1) with (s_b_len s). rewrite H3, H4, Bd.
  replace (dlt (st_last_ratio st) (ddiv done_ (d_of_Z SRC_MAX_RATIO))) with false by (destruct (dlt _ _); [discriminate H6|reflexivity]).
  change (half_filter_len s1 1 (st_last_ratio st) done_) with (half_filter_len s 1 (st_last_ratio st) done_). rewrite Eh, Es1.
  change (at_end true s1) with (at_end true s). rewrite H8. rewrite !andb_true_r. cbn [negb andb Z.eqb Pos.eqb].
  unfold sinc_advance. rewrite Ea. cbn [bind]. change (s_b_current s1) with (s_b_current s). change (s_b_len s1) with (s_b_len s).
  rewrite Eb. cbn [bind]. rewrite Ec. cbn [bind s_set_current s_b_current]. rewrite Z.eqb_refl. exact H7b.
Qed.

Lemma no_more_body st cs : no_more st = true -> exists st', body nat revive 0 st ask 0 cs ones = Ok (inr (st', ask, 0, cs, ones)) /\ no_more st' = true.
Proof.
  intros H. destruct (no_more_call st H) as (st1 & E & H1). exists (set_mode st1 MODE_CALLBACK). split; [|exact H1].
  unfold body. change (cb_fetch nat revive 0 st ask cs ones) with (ask, cs, ones). cbv beta iota. rewrite E. cbn [bind].
  change (negb (0 =? 0)) with false. cbv iota.
  assert (C : st_channels (set_mode st1 MODE_CALLBACK) = 1).
  { unfold no_more in H1. destruct (st_vt _); try discriminate H1. destruct (st_mode _); try discriminate H1. destruct (st_priv _); try discriminate H1.
    repeat (apply andb_prop in H1 as [H1 _]). now apply Z.eqb_eq. }
  rewrite C. reflexivity.
Qed.
Lemma no_more_loop : forall fuel st cs, no_more st = true -> cb_loop nat revive 0 fuel 10 st ask 0 cs ones = Fault F_fuel.
Proof.
  induction fuel as [|fuel IH]; intros st cs H; [reflexivity|]. rewrite loop_body. change (0 <? 10) with true. cbv iota.
  destruct (no_more_body st cs H) as (st' & E & H'). rewrite E. cbn [bind]. now apply IH.
Qed.
(** The first request of a read, before the callback has been asked. *)
Definition ask0 : SRC_DATA := mkData 0 (2 ^ 40) 0 10 0 0 0 done_.
Lemma no_more_first st p : no_more st = true -> exists st', body nat revive 0 st (mkData p (2 ^ 40) 0 10 0 0 0 done_) 0 3%nat ones = Ok (inr (st', ask, 0, 3%nat, ones)) /\ no_more st' = true.
Proof.
  intros H. destruct (no_more_body st 3%nat H) as (st' & E & H'). exists st'. split; [|exact H']. rewrite <- E. reflexivity.
Qed.
Lemma no_more_read st fuel : no_more st = true -> st_saved_frames st = 0 -> src_callback_read nat revive 0 fuel (Some st) done_ 10 (2 ^ 40) 3%nat ones = Fault F_fuel.
Proof.
  intros H S. unfold src_callback_read. change (10 <=? 0) with false. cbv iota.
  assert (M : st_mode st = MODE_CALLBACK /\ st_callback st =? 0 = false).
  { unfold no_more in H. destruct (st_vt _); try discriminate H. destruct (st_mode _); try discriminate H. destruct (st_priv _); try discriminate H.
    split; [reflexivity|]. do 6 (apply andb_prop in H as [H _]). apply andb_prop in H as [_ H]. now destruct (st_callback st =? 0). }
  destruct M as [-> ->]. change (is_bad_src_ratio done_) with false. cbv iota zeta. rewrite S.
  destruct fuel as [|fuel]; [reflexivity|]. rewrite loop_body. change (0 <? 10) with true. cbv iota.
  destruct (no_more_first st (st_saved_data st) H) as (st' & E & H'). rewrite E. cbn [bind]. now rewrite no_more_loop.
Qed.

(** The first read: 100 frames asked for at ratio 1. *)
Definition first_read := src_callback_read nat revive 0 50 (Some (fast_cb 1)) done_ 100 (2 ^ 40) 0%nat ones.
Definition state_of (o : outcome (Z * option SRC_STATE * nat * mem)) : SRC_STATE := match o with Ok (_, Some st, _, _) => st | _ => nothing end.
Definition facts_of (o : outcome (Z * option SRC_STATE * nat * mem)) : bool * Z * Z * nat :=
  match o with Ok (n, Some st, k, _) => (no_more st, st_saved_frames st, n, k) | _ => (false, 0, 0, O) end.
Lemma facts_state o n k : facts_of o = (true, 0, n, k) -> exists m, o = Ok (n, Some (state_of o), k, m) /\ no_more (state_of o) = true /\ st_saved_frames (state_of o) = 0.
Proof.
  destruct o as [[[[a [st|]] b] m]|f]; cbn; intros H; try discriminate H. injection H as H1 H2 <- <-. exists m. auto.
Qed.
Lemma first_ok : facts_of first_read = (true, 0, 20, 3%nat).
Proof. vm_compute. reflexivity. Qed.
Definition after_first : SRC_STATE := state_of first_read.
Lemma ones_legal f : 0 <= f <= 1000 -> legal_read store 1 done_ f (2 ^ 40) ones.
Proof.
  intros H. right. split; [reflexivity|]. split; [lia|]. split; [lia|]. split; [lia|]. split.
  - right. intros i Hi. apply ones_at; lia.
  - intros a A. unfold store in A. replace a with (1 + (a - 1)) by lia. apply ones_at; lia.
Qed.
Lemma hang_gen o : src_callback_read nat revive 0 50 (Some (fast_cb 1)) done_ 100 (2 ^ 40) 0%nat ones = o -> facts_of o = (true, 0, 20, 3%nat) ->
  session nat revive 0 (sinc_cb_new fastest_table 1) store 1 (state_of o) 3%nat /\
  forall fuel, src_callback_read nat revive 0 fuel (Some (state_of o)) done_ 10 (2 ^ 40) 3%nat ones = Fault F_fuel.
Proof.
  intros Eo Hf. destruct (facts_state o _ _ Hf) as (m & E & H & S). split.
  - rewrite E in Eo at 1. exact (S_read nat revive 0 _ store 1 50 _ _ _ _ _ _ _ _ _ _ (S_new nat revive 0 _ store 1 _ 0%nat fast_cb1) (ones_legal 100 ltac:(lia)) Eo).
  - intros fuel. exact (no_more_read _ fuel H S).
Qed.
Lemma hang : proper nat revive 0 store 1 /\ nonnegative nat revive /\ int_blocks nat revive 1 /\
  session nat revive 0 (sinc_cb_new fastest_table 1) store 1 after_first 3%nat /\ legal_read store 1 done_ 10 (2 ^ 40) ones /\
  forall fuel, src_callback_read nat revive 0 fuel (Some after_first) done_ 10 (2 ^ 40) 3%nat ones = Fault F_fuel.
Proof.
  exact (conj revive_proper (conj revive_nonnegative (conj revive_int (conj (proj1 (hang_gen first_read eq_refl first_ok))
    (conj (ones_legal 10 ltac:(lia)) (proj2 (hang_gen first_read eq_refl first_ok))))))).
Qed.

(** Zero-order hold and linear. *)
Definition hold_cb (ty : Z) : SRC_STATE :=
  match src_callback_new fast_build (fun _ => true) 7 ty 1 0 (mkHeap 0 []) with Ok (_, Some c, _) => c_state c | _ => nothing end.
Lemma linear_cb : cb_created SRC_LINEAR 1 (hold_cb SRC_LINEAR).
Proof. eexists fast_build, (fun _ => true), 7, 0, (mkHeap 0 []), _, _. split; reflexivity. Qed.
Lemma zoh_cb : cb_created SRC_ZERO_ORDER_HOLD 1 (hold_cb SRC_ZERO_ORDER_HOLD).
Proof. eexists fast_build, (fun _ => true), 7, 0, (mkHeap 0 []), _, _. split; reflexivity. Qed.
Lemma after_nothing {CS} {cb : callback_t CS} {dummy} {made : SRC_STATE -> Prop} {pool ch} st : made st -> cb_after CS cb dummy made pool ch st.
Proof. intros H. exists st, [], []. split; [exact H|]. split; [constructor|reflexivity]. Qed.
