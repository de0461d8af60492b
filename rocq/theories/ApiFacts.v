(** API level facts that hold for every converter: effects of each call, error codes, modes. *)
From Coq Require Import ZArith List Bool Reals Lia String.
From Flocq Require Import Core IEEE754.BinarySingleNaN.
From Verif Require Import Base Types Common Zoh Linear Sinc Api Heap Callback HoldSpec ApiHist ProcFacts PosFacts ApiSpec.
Import ListNotations.
Local Open Scope Z_scope.

Lemma bad_ratio_spec r : is_nan r = false -> is_bad_src_ratio r = false <-> in_range r.
Proof. intros N. rewrite is_bad_src_ratio_spec. split; [intros [H|H]; [congruence|exact H]|now right]. Qed.
Lemma bad_ratio_true r : is_nan r = false -> is_bad_src_ratio r = true <-> ~ in_range r.
Proof. intros N. rewrite <- bad_ratio_spec by auto. destruct (is_bad_src_ratio r); intuition congruence. Qed.

Lemma bad_ratio_iff r : is_bad_src_ratio r = true <-> is_nan r = false /\ ~ in_range r.
Proof.
  destruct (is_nan r) eqn:N; [|rewrite (bad_ratio_true r N); tauto].
  assert (is_bad_src_ratio r = false) as -> by (apply is_bad_src_ratio_spec; auto). intuition discriminate.
Qed.

(** ** C07 *)
Lemma valid_ratio_thm r : is_nan r = false ->
  (src_is_valid_ratio r = 1 <-> in_range r) /\ (src_is_valid_ratio r = 0 <-> ~ in_range r).
Proof.
  intros N. unfold src_is_valid_ratio. rewrite <- (bad_ratio_spec r N). destruct (is_bad_src_ratio r); intuition discriminate.
Qed.

Lemma set_ratio_thm st r : is_nan r = false ->
  (in_range r -> src_set_ratio (Some st) r = (0, Some (set_ratio st r))) /\
  (~ in_range r -> src_set_ratio (Some st) r = (SRC_ERR_BAD_SRC_RATIO, Some st)).
Proof.
  intros N. unfold src_set_ratio. split; intros H.
  - apply (bad_ratio_spec r N) in H. now rewrite H.
  - apply (bad_ratio_true r N) in H. now rewrite H.
Qed.

Lemma kept_ratio st r : kept st (set_ratio st r).
Proof. constructor; cbn; auto using shape_refl. Qed.
Lemma kept_error st e : kept st (set_error st e).
Proof. constructor; cbn; auto using shape_refl. Qed.

(** What src_process does when it gets as far as the converter: the only codes are those of the process functions. *)
Definition process_codes : list Z :=
  [0; SRC_ERR_BAD_STATE; SRC_ERR_BAD_MODE; SRC_ERR_BAD_DATA; SRC_ERR_BAD_DATA_PTR; SRC_ERR_BAD_SRC_RATIO;
   SRC_ERR_DATA_OVERLAP; SRC_ERR_NO_PRIVATE; SRC_ERR_BAD_INTERNAL_STATE; SRC_ERR_SINC_PREPARE_DATA_BAD_LEN].

Lemma clamp_max x : (if x <? 0 then 0 else x) = Z.max 0 x.
Proof. destruct (Z.ltb_spec x 0); lia. Qed.

(** Inversion of src_process. *)
Lemma process_inv st d m res : src_process (Some st) (Some d) m = Ok res ->
  (res = (SRC_ERR_BAD_MODE, Some st, Some d, m) /\ st_mode st = MODE_CALLBACK) \/
  (st_mode st = MODE_PROCESS /\
   ((res = (SRC_ERR_BAD_DATA_PTR, Some st, Some d, m) /\
     ((data_in d = 0 /\ 0 < input_frames d) \/ (data_out d = 0 /\ 0 < output_frames d))) \/
    (((0 < input_frames d -> data_in d <> 0) /\ (0 < output_frames d -> data_out d <> 0)) /\
     ((res = (SRC_ERR_BAD_SRC_RATIO, Some st, Some d, m) /\ is_bad_src_ratio (src_ratio d) = true) \/
      (is_bad_src_ratio (src_ratio d) = false /\
       ((res = (SRC_ERR_DATA_OVERLAP, Some st, Some (clamped d), m) /\ overlap_test (st_channels st) (clamped d) = Ok true) \/
        (overlap_test (st_channels st) (clamped d) = Ok false /\
         exists st1 e st2 d3 m', kept st st1 /\ st_error st1 = st_error st /\
           st1 = (if dlt (st_last_ratio st) (ddiv done_ (d_of_Z SRC_MAX_RATIO)) then set_ratio st (src_ratio d) else st) /\
           vt_process st1 (set_counts (clamped d) 0 0) m = Ok (e, st2, d3, m') /\
           res = (e, Some st2, Some d3, m')))))))).
Proof.
  unfold src_process. intros H. destruct (st_mode st) eqn:Em; cbn [is_process negb] in H.
  2: { injection H as <-. left. auto. }
  right. split; [reflexivity|].
  destruct (((data_in d =? 0) && (0 <? input_frames d)) || ((data_out d =? 0) && (0 <? output_frames d))) eqn:Ep.
  - injection H as <-. left. split; [reflexivity|]. apply orb_prop in Ep.
    destruct Ep as [Ep|Ep]; apply andb_prop in Ep as [A B]; [left|right]; lia.
  - right. apply orb_false_elim in Ep as [A B].
    split; [split; intros; apply andb_false_iff in A; apply andb_false_iff in B; lia|].
    destruct (is_bad_src_ratio (src_ratio d)) eqn:Er; [injection H as <-; left; auto|].
    right. split; [reflexivity|]. rewrite !clamp_max in H. fold (clamped d) in H.
    destruct (overlap_test _ _) as [ov|] eqn:Eo; cbn [bind] in H; [|discriminate H].
    destruct ov; [injection H as <-; left; auto|]. right. split; [reflexivity|].
    set (st1 := if dlt (st_last_ratio st) _ then _ else _) in H.
    assert (K : kept st st1 /\ st_error st1 = st_error st).
    { unfold st1. destruct (dlt _ _); split; auto using kept_refl, kept_ratio. }
    destruct K as [K Ke].
    assert (H' : bind (vt_process st1 (set_counts (clamped d) 0 0) m)
                      (fun '(e, st2, d3, m') => Ok (e, Some st2, Some d3, m')) = Ok res) by (destruct (dlt (dabs _) _); exact H).
    clear H. destruct (vt_process _ _ _) as [[[[e st2] d3] m']|] eqn:E; cbn [bind] in H'; [|discriminate H'].
    injection H' as <-. exists st1, e, st2, d3, m'. auto.
Qed.

(** Effects of src_process on the state and on SRC_DATA. *)
Lemma process_shape st d m e so dop m' : src_process (Some st) (Some d) m = Ok (e, so, dop, m') ->
  exists st' d', so = Some st' /\ dop = Some d' /\ kept st st' /\ In e process_codes /\
    (st_error st' = st_error st \/ st_error st' = 0 \/ st_error st' = e) /\
    data_in d' = data_in d /\ data_out d' = data_out d /\ end_of_input d' = end_of_input d /\ src_ratio d' = src_ratio d.
Proof.
  intros H. apply process_inv in H.
  destruct H as [[E _]|(_ & [[E _]|(_ & [[E _]|(_ & [[E _]|(_ & st1 & e1 & st2 & d3 & m1 & K & Ke & _ & V & E)])])])];
    injection E as -> -> -> ->.
  1-3: exists st, d; repeat (split; [first [reflexivity|apply kept_refl|cbn; tauto]|]); reflexivity.
  - exists st, (clamped d). repeat (split; [first [reflexivity|apply kept_refl|cbn; tauto]|]); reflexivity.
  - apply vt_shape in V. destruct V as (Hc & K2 & Hd & _ & He). exists st2, d3.
    split; [reflexivity|]. split; [reflexivity|]. split; [eauto using kept_trans|].
    split; [cbn; intuition|]. split; [rewrite Ke in He; exact He|]. rewrite Hd. cbn. auto.
Qed.

(** The converters themselves never return a refusal code. *)
Lemma vt_not_refusal st d m e st' d' m' : vt_process st d m = Ok (e, st', d', m') -> ~ In e refusal_order.
Proof.
  intros H. apply vt_shape in H. destruct H as (Hc & _). cbn. unfold SRC_ERR_NO_PRIVATE, SRC_ERR_BAD_INTERNAL_STATE,
    SRC_ERR_SINC_PREPARE_DATA_BAD_LEN, SRC_ERR_BAD_STATE, SRC_ERR_BAD_MODE, SRC_ERR_BAD_DATA, SRC_ERR_BAD_DATA_PTR,
    SRC_ERR_BAD_SRC_RATIO, SRC_ERR_DATA_OVERLAP in *. lia.
Qed.

Lemma process_ratio_thm st d m : is_nan (src_ratio d) = false -> st_mode st = MODE_PROCESS ->
  (0 < input_frames d -> data_in d <> 0) -> (0 < output_frames d -> data_out d <> 0) ->
  (~ in_range (src_ratio d) -> src_process (Some st) (Some d) m = Ok (SRC_ERR_BAD_SRC_RATIO, Some st, Some d, m)) /\
  (in_range (src_ratio d) -> forall e so dop m', src_process (Some st) (Some d) m = Ok (e, so, dop, m') ->
     e <> SRC_ERR_BAD_SRC_RATIO).
Proof.
  intros N Em Pi Po. split.
  - intros H. apply (bad_ratio_true _ N) in H. unfold src_process. rewrite Em. cbn [is_process negb].
    replace (((data_in d =? 0) && (0 <? input_frames d)) || ((data_out d =? 0) && (0 <? output_frames d))) with false
      by lia. now rewrite H.
  - intros H e so dop m' E. apply (bad_ratio_spec _ N) in H. apply process_inv in E.
    destruct E as [[E M]|(_ & [[E P]|(_ & [[E B]|(_ & [[E _]|(_ & st1 & e1 & st2 & d3 & m1 & _ & _ & _ & V & E)])])])];
      try congruence; injection E as -> -> -> ->; try discriminate.
    apply vt_not_refusal in V. cbn in V. intuition congruence.
Qed.

(** ** The callback loop *)
Section Loop.
  Context {CS : Type} (cb : callback_t CS) (dummy : Z).
  Lemma loop_shape : forall fuel frames st d gen cs m res, cb_loop CS cb dummy fuel frames st d gen cs m = Ok res ->
    st_mode st = MODE_CALLBACK -> is_bad_src_ratio (src_ratio d) = false ->
    let '(e, st', d', _, _, _) := res in
    kept st st' /\ In e process_codes /\ e <> SRC_ERR_BAD_SRC_RATIO /\
    (st_error st' = st_error st \/ st_error st' = 0 \/ st_error st' = e).
  Proof.
    induction fuel as [|f IH]; cbn [cb_loop]; intros frames st d gen cs m res H Em Er; [discriminate H|].
    ok_step H; [|injection H as <-; split; [apply kept_refl|]; cbn; repeat split; auto; discriminate].
    destruct (cb_fetch CS cb dummy st d cs m) as [[d1 cs1] m1] eqn:Ef.
    assert (Er1 : is_bad_src_ratio (src_ratio d1) = false).
    { unfold cb_fetch in Ef. destruct (input_frames d =? 0).
      - destruct (cb _ _ _ _) as [[[? ?] ?] ?]. injection Ef as <- <- <-. exact Er.
      - injection Ef as <- <- <-. exact Er. }
    ok_step H. destruct v as [[[e so] dop] m2].
    assert (Rr : e <> SRC_ERR_BAD_SRC_RATIO).
    { intros ->. apply process_inv in E.
      destruct E as [[E M]|(_ & [[E P]|(_ & [[E B]|(_ & [[E _]|(_ & st1 & e1 & st2 & d3 & m3 & _ & _ & _ & V & E)])])])];
        try congruence; try discriminate E. injection E as <- _ _ _.
      apply vt_not_refusal in V. cbn in V. intuition congruence. }
    apply process_shape in E. destruct E as (st2 & d2 & -> & -> & K & Hc & He & _ & _ & _ & Hr).
    assert (K' : kept st (set_mode st2 MODE_CALLBACK)).
    { destruct K as [K1 K2 K3 K4 K5 K6 K7 K8]; cbn in *. constructor; cbn; congruence || auto. }
    ok_step H.
    - injection H as <-. auto.
    - apply negb_false_iff, Z.eqb_eq in Heqb0. subst e. do 5 ok_step H. cbn [bind] in H. ok_step H.
      + injection H as <-. split; [exact K'|]. cbn. repeat split; auto; discriminate.
      + apply IH in H; [|reflexivity|cbn; congruence]. destruct res as [[[[[e' st'] d'] ?] ?] ?].
        destruct H as (K2 & Hc2 & Hr2 & He2). split; [eauto using kept_trans|]. split; [exact Hc2|]. split; [exact Hr2|].
        cbn in He2, He. intuition congruence.
  Qed.
End Loop.

Lemma read_shape {CS} (cb : callback_t CS) dummy fuel st ratio frames data cs m n so cs' m' :
  src_callback_read CS cb dummy fuel (Some st) ratio frames data cs m = Ok (n, so, cs', m') ->
  exists st', so = Some st' /\ st_vt st' = st_vt st /\ st_channels st' = st_channels st /\ st_mode st' = st_mode st /\
    st_callback st' = st_callback st /\ st_user_data st' = st_user_data st /\ same_shape (st_priv st) (st_priv st') /\
    (st_error st' = st_error st \/ In (st_error st') (SRC_ERR_NULL_CALLBACK :: process_codes)) /\
    (in_range ratio -> st_error st' = st_error st \/ st_error st' <> SRC_ERR_BAD_SRC_RATIO).
Proof.
  unfold src_callback_read. intros H.
  assert (Same : forall s : SRC_STATE, Ok (n, so, cs', m') = Ok (n, Some s, cs', m') ->
            s = st \/ s = set_error st SRC_ERR_BAD_MODE \/ s = set_error st SRC_ERR_NULL_CALLBACK -> 
            exists st', so = Some st' /\ st_vt st' = st_vt st /\ st_channels st' = st_channels st /\ st_mode st' = st_mode st /\
    st_callback st' = st_callback st /\ st_user_data st' = st_user_data st /\ same_shape (st_priv st) (st_priv st') /\
    (st_error st' = st_error st \/ In (st_error st') (SRC_ERR_NULL_CALLBACK :: process_codes)) /\
    (in_range ratio -> st_error st' = st_error st \/ st_error st' <> SRC_ERR_BAD_SRC_RATIO)).
  { intros s E Hs. injection E as ->. exists s.
    destruct Hs as [->|[->| ->]]; cbn; repeat (split; [first [reflexivity|apply shape_refl|tauto]|]); auto; right; discriminate. }
  ok_step H. { injection H as <- <- <- <-. eapply Same; [reflexivity|auto]. }
  destruct (st_mode st) eqn:Em. { injection H as <- <- <- <-. eapply Same; [reflexivity|auto]. }
  ok_step H. { injection H as <- <- <- <-. eapply Same; [reflexivity|auto]. }
  ok_step H.
  { injection H as <- <- <- <-. eexists. split; [reflexivity|]. cbn.
    repeat (split; [first [reflexivity|apply shape_refl|assumption|tauto]|]).
    intros R. apply (is_bad_src_ratio_spec ratio) in Heqb1 || (assert (is_bad_src_ratio ratio = false) by
      (apply is_bad_src_ratio_spec; now right); congruence). }
  ok_step H. destruct v as [[[[[e st1] d1] gen] cs1] m1]. apply loop_shape in E; auto.
  destruct E as (K & Hc & Hr & He). destruct K as [K1 K2 K3 K4 K5 K6 K7 K8].
  ok_step H; injection H as <- <- <- <-; eexists; (split; [reflexivity|]); cbn;
    repeat (split; [first [reflexivity|congruence|assumption]|]).
  - split; [right; right; exact Hc|auto].
  - apply negb_false_iff, Z.eqb_eq in Heqb2. subst e. destruct He as [->|[->| ->]]; split; auto;
      try (right; discriminate); right; cbn; auto.
Qed.
