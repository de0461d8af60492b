(** Proofs of C07-C12. *)
From Coq Require Import ZArith List Bool Reals Lia Lra String.
From Flocq Require Import Core IEEE754.BinarySingleNaN.
From Verif Require Import Base Types Common Zoh Linear Sinc Api Heap Callback HoldSpec ApiHist ProcFacts PosFacts ApiSpec ApiFacts.
Import ListNotations.
Local Open Scope Z_scope.

(** ** C07 *)
Lemma read_ratio_thm {CS} (cb : callback_t CS) dummy fuel st ratio frames data cs m :
  is_nan ratio = false -> 0 < frames -> st_mode st = MODE_CALLBACK -> st_callback st <> 0 ->
  (~ in_range ratio -> src_callback_read CS cb dummy fuel (Some st) ratio frames data cs m =
                       Ok (0, Some (set_error st SRC_ERR_BAD_SRC_RATIO), cs, m)) /\
  (in_range ratio -> forall n so cs' m',
     src_callback_read CS cb dummy fuel (Some st) ratio frames data cs m = Ok (n, so, cs', m') ->
     src_error so = SRC_ERR_BAD_SRC_RATIO -> st_error st = SRC_ERR_BAD_SRC_RATIO).
Proof.
  intros N F M C. split; intros R.
  - apply (bad_ratio_true _ N) in R. unfold src_callback_read. rewrite M, R.
    replace (frames <=? 0) with false by lia. replace (st_callback st =? 0) with false by lia. reflexivity.
  - intros n so cs' m' E. apply read_shape in E. destruct E as (st' & -> & _ & _ & _ & _ & _ & _ & _ & H).
    specialize (H R). cbn. intuition congruence.
Qed.

Definition nan64 : f64 := B754_nan.

(** ** C08, C09 *)
Lemma apart_iff ch d : addressable ch d -> 0 <= ch ->
  exists b, overlap_test ch (clamped d) = Ok b /\
    (b = false <-> apart (data_in d) (Z.max 0 (input_frames d) * ch) (data_out d) (Z.max 0 (output_frames d) * ch)).
Proof.
  intros (Ai & Ao & Bi & Bo & Ci & Co) Hc. unfold overlap_test, clamped, apart.
  cbn [data_in data_out input_frames output_frames set_frames].
  assert (0 <= Z.max 0 (input_frames d) * ch) by (apply Z.mul_nonneg_nonneg; lia).
  assert (0 <= Z.max 0 (output_frames d) * ch) by (apply Z.mul_nonneg_nonneg; lia).
  set (a := Z.max 0 (input_frames d) * ch) in *. set (b := Z.max 0 (output_frames d) * ch) in *. clearbody a b.
  unfold long_op, in_long, long_min, long_max, ptr_add.
  destruct (Z.ltb_spec (data_in d) (data_out d)) as [L|L].
  - replace ((- 2 ^ 63 <=? a) && (a <=? 2 ^ 63 - 1)) with true by lia. cbn [bind].
    replace ((0 <=? data_in d + a) && (data_in d + a <? 2 ^ 62)) with true by lia. cbn [bind].
    eexists. split; [reflexivity|]. lia.
  - replace ((- 2 ^ 63 <=? b) && (b <=? 2 ^ 63 - 1)) with true by lia. cbn [bind].
    replace ((0 <=? data_out d + b) && (data_out d + b <? 2 ^ 62)) with true by lia. cbn [bind].
    eexists. split; [reflexivity|]. lia.
Qed.

Lemma rej_2 data m : src_process None data m = Ok (SRC_ERR_BAD_STATE, None, data, m).
Proof. reflexivity. Qed.

Ltac codes := unfold SRC_ERR_BAD_STATE, SRC_ERR_BAD_MODE, SRC_ERR_BAD_DATA, SRC_ERR_BAD_DATA_PTR,
    SRC_ERR_BAD_SRC_RATIO, SRC_ERR_DATA_OVERLAP in *.

Lemma viol_state st d : violated st d SRC_ERR_BAD_STATE <-> st = None.
Proof. unfold violated. codes. intuition (try discriminate; try lia). Qed.
Lemma viol_mode st d : violated st d SRC_ERR_BAD_MODE <-> exists s, st = Some s /\ st_mode s = MODE_CALLBACK.
Proof. unfold violated. codes. intuition (try discriminate; try lia). Qed.
Lemma viol_data st d : violated st d SRC_ERR_BAD_DATA <-> d = None.
Proof. unfold violated. codes. intuition (try discriminate; try lia). Qed.
Lemma viol_ptr st d : violated st d SRC_ERR_BAD_DATA_PTR <-> exists x, d = Some x /\
     ((data_in x = 0 /\ 0 < input_frames x) \/ (data_out x = 0 /\ 0 < output_frames x)).
Proof. unfold violated. codes. intuition (try discriminate; try lia). Qed.
Lemma viol_ratio st d : violated st d SRC_ERR_BAD_SRC_RATIO <-> exists x, d = Some x /\ is_nan (src_ratio x) = false /\ ~ in_range (src_ratio x).
Proof. unfold violated. codes. intuition (try discriminate; try lia). Qed.
Lemma viol_overlap st d : violated st d SRC_ERR_DATA_OVERLAP <-> exists s x, st = Some s /\ d = Some x /\
     ~ apart (data_in x) (Z.max 0 (input_frames x) * st_channels s)
             (data_out x) (Z.max 0 (output_frames x) * st_channels s).
Proof. unfold violated. codes. intuition (try discriminate; try lia). Qed.

(** The cases of the first violation. *)
Lemma first_cases st d e : first_violated st d e ->
  (e = SRC_ERR_BAD_STATE /\ violated st d SRC_ERR_BAD_STATE) \/
  (~ violated st d SRC_ERR_BAD_STATE /\
   ((e = SRC_ERR_BAD_MODE /\ violated st d SRC_ERR_BAD_MODE) \/
    (~ violated st d SRC_ERR_BAD_MODE /\
     ((e = SRC_ERR_BAD_DATA /\ violated st d SRC_ERR_BAD_DATA) \/
      (~ violated st d SRC_ERR_BAD_DATA /\
       ((e = SRC_ERR_BAD_DATA_PTR /\ violated st d SRC_ERR_BAD_DATA_PTR) \/
        (~ violated st d SRC_ERR_BAD_DATA_PTR /\
         ((e = SRC_ERR_BAD_SRC_RATIO /\ violated st d SRC_ERR_BAD_SRC_RATIO) \/
          (~ violated st d SRC_ERR_BAD_SRC_RATIO /\
           e = SRC_ERR_DATA_OVERLAP /\ violated st d SRC_ERR_DATA_OVERLAP))))))))).
Proof.
  intros (pre & post & E & V & P). unfold refusal_order in E.
  assert (Q : forall (x y : Z) l l', x :: l = y :: l' -> x = y /\ l = l') by (intros ? ? ? ? Q; injection Q; auto).
  destruct pre as [|p1 pre]; cbn [app] in E; apply Q in E as [<- E]; [left; auto|right; split; [apply P; cbn; auto 10|]].
  destruct pre as [|p2 pre]; cbn [app] in E; apply Q in E as [<- E]; [left; auto|right; split; [apply P; cbn; auto 10|]].
  destruct pre as [|p3 pre]; cbn [app] in E; apply Q in E as [<- E]; [left; auto|right; split; [apply P; cbn; auto 10|]].
  destruct pre as [|p4 pre]; cbn [app] in E; apply Q in E as [<- E]; [left; auto|right; split; [apply P; cbn; auto 10|]].
  destruct pre as [|p5 pre]; cbn [app] in E; apply Q in E as [<- E]; [left; auto|right; split; [apply P; cbn; auto 10|]].
  destruct pre as [|p6 pre]; cbn [app] in E; apply Q in E as [<- E]; [auto|]. destruct pre; discriminate E.
Qed.

Lemma refused_thm state data m e :
  (forall st d, state = Some st -> data = Some d ->
     0 <= st_channels st /\ addressable (st_channels st) d) ->
  first_violated state data e ->
  exists data', src_process state data m = Ok (e, state, data', m) /\
    (data' = data \/ (e = SRC_ERR_DATA_OVERLAP /\ data' = option_map clamped data)).
Proof.
  intros Hyp F. apply first_cases in F.
  destruct F as [[-> V]|[N2 F]]. { apply viol_state in V. subst. exists data. auto. }
  destruct state as [st|]; [|destruct N2; apply viol_state; reflexivity].
  destruct F as [[-> V]|[N18 F]].
  { apply viol_mode in V. destruct V as (s & E & M). injection E as <-. exists data. split; [|auto].
    unfold src_process. now rewrite M. }
  assert (M : st_mode st = MODE_PROCESS).
  { destruct (st_mode st) eqn:M; [reflexivity|]. destruct N18. apply viol_mode. exists st. auto. }
  destruct F as [[-> V]|[N3 F]].
  { apply viol_data in V. subst. exists None. split; [|auto]. unfold src_process. now rewrite M. }
  destruct data as [d|]; [|destruct N3; apply viol_data; reflexivity].
  destruct (Hyp st d eq_refl eq_refl) as (Hch & Ad).
  destruct F as [[-> V]|[N4 F]].
  { apply viol_ptr in V. destruct V as (x & E & V). injection E as <-. exists (Some d). split; [|auto].
    unfold src_process. rewrite M. cbn [is_process negb].
    replace (((data_in d =? 0) && (0 <? input_frames d)) || ((data_out d =? 0) && (0 <? output_frames d))) with true by lia.
    reflexivity. }
  assert (P : ((data_in d =? 0) && (0 <? input_frames d)) || ((data_out d =? 0) && (0 <? output_frames d)) = false).
  { destruct (_ || _) eqn:P; [|reflexivity]. destruct N4. apply viol_ptr. exists d. split; [reflexivity|]. lia. }
  destruct F as [[-> V]|[N6 [-> V]]].
  { apply viol_ratio in V. destruct V as (x & E & V). injection E as <-. exists (Some d). split; [|auto].
    apply bad_ratio_iff in V. unfold src_process. rewrite M. cbn [is_process negb]. now rewrite P, V. }
  apply viol_overlap in V. destruct V as (s & x & E1 & E2 & V). injection E1 as <-. injection E2 as <-.
  assert (R : is_bad_src_ratio (src_ratio d) = false).
  { destruct (is_bad_src_ratio (src_ratio d)) eqn:R; [|reflexivity]. destruct N6. apply viol_ratio.
    exists d. split; [reflexivity|]. now apply bad_ratio_iff. }
  destruct (apart_iff _ _ Ad Hch) as (b & Eb & Hb). destruct b; [|tauto].
  exists (Some (clamped d)). split; [|auto]. unfold src_process. rewrite M. cbn [is_process negb]. rewrite P, R.
  rewrite !clamp_max. fold (clamped d). rewrite Eb. reflexivity.
Qed.

Lemma accepted_thm state data m e state' data' m' :
  (forall st d, state = Some st -> data = Some d -> 0 <= st_channels st /\ addressable (st_channels st) d) ->
  src_process state data m = Ok (e, state', data', m') -> In e refusal_order -> first_violated state data e.
Proof.
  intros Ad E I.
  destruct state as [st|].
  2: { injection E as <- <- <- <-. exists [], (tl refusal_order). split; [reflexivity|].
       split; [now apply viol_state|]. intros x []. }
  assert (N2 : ~ violated (Some st) data SRC_ERR_BAD_STATE) by (rewrite viol_state; discriminate).
  destruct (st_mode st) eqn:M.
  2: { unfold src_process in E. rewrite M in E. injection E as <- <- <- <-.
       exists [2], [3; 4; 6; 16]. split; [reflexivity|]. split; [apply viol_mode; eauto|].
       intros x [<-|[]]. exact N2. }
  assert (N18 : ~ violated (Some st) data SRC_ERR_BAD_MODE).
  { rewrite viol_mode. intros (s & Es & Ms). congruence. }
  destruct data as [d|].
  2: { unfold src_process in E. rewrite M in E. injection E as <- <- <- <-.
       exists [2; 18], [4; 6; 16]. split; [reflexivity|]. split; [now apply viol_data|].
       intros x [<-|[<-|[]]]; auto. }
  assert (N3 : ~ violated (Some st) (Some d) SRC_ERR_BAD_DATA) by (rewrite viol_data; discriminate).
  destruct (Ad st d eq_refl eq_refl) as [Hch Hd].
  apply process_inv in E.
  destruct E as [[_ C]|(_ & [[E P]|((P1 & P2) & [[E B]|(B & [[E Ov]|(Ov & st1 & e1 & st2 & d3 & m1 & _ & _ & _ & V & E)])])])].
  - congruence.
  - injection E as -> _ _ _. exists [2; 18; 3], [6; 16]. split; [reflexivity|]. split; [apply viol_ptr; eauto|].
    intros x [<-|[<-|[<-|[]]]]; auto.
  - assert (N4 : ~ violated (Some st) (Some d) SRC_ERR_BAD_DATA_PTR).
    { rewrite viol_ptr. intros (x & Ex & Hx). injection Ex as <-. lia. }
    injection E as -> _ _ _. exists [2; 18; 3; 4], [16]. split; [reflexivity|].
    split; [apply viol_ratio; exists d; split; [reflexivity|now apply bad_ratio_iff]|].
    intros x [<-|[<-|[<-|[<-|[]]]]]; auto.
  - assert (N4 : ~ violated (Some st) (Some d) SRC_ERR_BAD_DATA_PTR).
    { rewrite viol_ptr. intros (x & Ex & Hx). injection Ex as <-. lia. }
    assert (N6 : ~ violated (Some st) (Some d) SRC_ERR_BAD_SRC_RATIO).
    { rewrite viol_ratio. intros (x & Ex & Hx). injection Ex as <-. apply bad_ratio_iff in Hx. congruence. }
    injection E as -> _ _ _. exists [2; 18; 3; 4; 6], []. split; [reflexivity|]. split.
    + apply viol_overlap. exists st, d. split; [reflexivity|]. split; [reflexivity|].
      destruct (apart_iff _ _ Hd Hch) as (b & Eb & Hb). rewrite <- Hb. congruence.
    + intros x [<-|[<-|[<-|[<-|[<-|[]]]]]]; auto.
  - injection E as -> _ _ _. destruct (vt_not_refusal _ _ _ _ _ _ _ V I).
Qed.

Lemma refused_later CS (cb : callback_t CS) dummy st d m e d' m' st1 cs :
  api_step CS cb dummy st (A_process d m) = Ok (R_process e d' m', st1) -> In e refusal_order ->
  st1 = st /\ m' = m /\
  api_run CS cb dummy st (A_process d m :: cs) =
  (do (rs, st2) <- api_run CS cb dummy st cs ; Ok (R_process e d' m' :: rs, st2)).
Proof.
  intros E I. cbn [api_run]. rewrite E. cbn [bind]. cbn [api_step] in E.
  assert (S : st1 = st /\ m' = m).
  { ok_step E. destruct v as [[[e1 so] d1] m1]. injection E as -> -> -> <-. destruct d as [d|].
    - apply process_inv in E0.
      destruct E0 as [[E _]|(_ & [[E _]|(_ & [[E _]|(_ & [[E _]|(_ & s1 & e1 & s2 & d3 & m1 & _ & _ & _ & V & E)])])])];
        injection E as -> -> -> ->; auto. destruct (vt_not_refusal _ _ _ _ _ _ _ V I).
    - unfold src_process in E0. destruct (st_mode st); injection E0 as <- <- <- <-; auto. }
  destruct S as [-> ->]. auto.
Qed.

(** C09 *)
Lemma overlap_thm st d m : st_mode st = MODE_PROCESS -> 0 < st_channels st -> addressable (st_channels st) d ->
  0 <= input_frames d -> 0 <= output_frames d ->
  is_nan (src_ratio d) = false -> in_range (src_ratio d) ->
  (0 < input_frames d -> data_in d <> 0) -> (0 < output_frames d -> data_out d <> 0) ->
  ((exists a, data_in d <= a < data_in d + input_frames d * st_channels st /\
              data_out d <= a < data_out d + output_frames d * st_channels st) ->
   src_process (Some st) (Some d) m = Ok (SRC_ERR_DATA_OVERLAP, Some st, Some d, m)) /\
  (0 < input_frames d -> 0 < output_frames d ->
   (forall a, data_in d <= a < data_in d + input_frames d * st_channels st ->
              data_out d <= a < data_out d + output_frames d * st_channels st -> False) ->
   forall e so dop m', src_process (Some st) (Some d) m = Ok (e, so, dop, m') -> e <> SRC_ERR_DATA_OVERLAP).
Proof.
  intros M Hch Ad Hi Ho Nan R Pi Po. destruct (apart_iff _ _ Ad (Z.lt_le_incl _ _ Hch)) as (b & Eb & Hb).
  rewrite !Z.max_r in Hb by lia. split.
  - intros (a & A1 & A2). destruct b.
    2: { destruct (proj1 Hb eq_refl); lia. }
    assert (Ec : clamped d = d) by (unfold clamped; rewrite !Z.max_r by lia; now destruct d).
    unfold src_process. rewrite M. cbn [is_process negb].
    replace (((data_in d =? 0) && (0 <? input_frames d)) || ((data_out d =? 0) && (0 <? output_frames d))) with false by lia.
    apply (bad_ratio_spec _ Nan) in R. rewrite R, !clamp_max. fold (clamped d). rewrite Eb, Ec. reflexivity.
  - intros Ni No Dis e so dop m' E. assert (b = false).
    { apply Hb. unfold apart. assert (0 < input_frames d * st_channels st) by nia.
      assert (0 < output_frames d * st_channels st) by nia.
      set (la := input_frames d * st_channels st) in *. set (lb := output_frames d * st_channels st) in *. clearbody la lb.
      destruct (Z.lt_ge_cases (data_in d) (data_out d)) as [L|L].
      - left. split; [exact L|]. destruct (Z.le_gt_cases (data_in d + la) (data_out d)) as [G|G]; [exact G|].
        destruct (Dis (data_out d)); lia.
      - right. destruct (Z.le_gt_cases (data_out d + lb) (data_in d)) as [G|G]; [exact G|].
        destruct (Dis (data_in d)); lia. }
    subst b. apply process_inv in E.
    destruct E as [[E _]|(_ & [[E _]|(_ & [[E _]|(_ & [[E Q]|(_ & s1 & e1 & s2 & d3 & m1 & _ & _ & _ & V & E)])])])];
      injection E as -> -> -> ->; try discriminate; [congruence|].
    apply vt_not_refusal in V. cbn in V. intuition congruence.
Qed.

(** ** C10: the mode never changes *)
Lemma hold_reset_kept st st' : hold_reset st = Ok st' -> kept st st' /\ st_error st' = st_error st.
Proof.
  unfold hold_reset. intros H. ok_step H; try discriminate H.
  - injection H as <-. auto using kept_refl.
  - ok_step H. injection H as <-. split; [|reflexivity]. apply blit_length in E. fin_kept.
Qed.
Lemma sinc_reset_kept st st' : sinc_reset st = Ok st' -> kept st st' /\ st_error st' = st_error st.
Proof.
  unfold sinc_reset. intros H. ok_step H; try discriminate H.
  - injection H as <-. auto using kept_refl.
  - unfold sinc_reset_priv in H. ok_step H. ok_step E. ok_step E. injection E as <-. injection H as <-.
    split; [|reflexivity]. apply blit_length in E0, E1. fin_kept. repeat split; auto. congruence.
Qed.
Lemma vt_reset_kept st st' : vt_reset st = Ok st' -> kept st st' /\ st_error st' = st_error st.
Proof. unfold vt_reset. destruct (st_vt st); intros H; [now apply hold_reset_kept|now apply hold_reset_kept|now apply sinc_reset_kept..]. Qed.

(** Everything but the saved block survives any API call. *)
Record kept' (st st' : SRC_STATE) : Prop := {
  k'_vt : st_vt st = st_vt st';
  k'_ch : st_channels st = st_channels st';
  k'_mode : st_mode st = st_mode st';
  k'_cb : st_callback st = st_callback st';
  k'_ud : st_user_data st = st_user_data st';
  k'_priv : same_shape (st_priv st) (st_priv st')
}.
Lemma kept_kept' st st' : kept st st' -> kept' st st'.
Proof. intros []. constructor; auto. Qed.
Lemma kept'_refl st : kept' st st.
Proof. apply kept_kept', kept_refl. Qed.
Lemma kept'_trans a b c : kept' a b -> kept' b c -> kept' a c.
Proof. intros [] []. constructor; try congruence. eauto using shape_trans. Qed.

Lemma reset_kept st e so : src_reset (Some st) = Ok (e, so) ->
  exists st', so = Some st' /\ kept' st st' /\ e = 0 /\ st_error st' = 0.
Proof.
  cbn [src_reset]. intros H. ok_step H. apply vt_reset_kept in E. destruct E as [[] _]. injection H as <- <-. eexists.
  split; [reflexivity|]. split; [|split; reflexivity]. constructor; auto.
Qed.

(** Error codes that can end up in state->error. *)
Definition api_codes : list Z := SRC_ERR_NULL_CALLBACK :: process_codes.

Lemma step_kept CS (cb : callback_t CS) dummy st c r st' : api_step CS cb dummy st c = Ok (r, st') ->
  kept' st st' /\ (st_error st' = st_error st \/ In (st_error st') api_codes).
Proof.
  destruct c as [d m|fuel ratio frames data cs m|ra| | |]; cbn [api_step]; intros H.
  - ok_step H. destruct v as [[[e so] d'] m']. injection H as <- <-. destruct d as [d|].
    + apply process_shape in E. destruct E as (s & d1 & -> & -> & K & Hc & He & _). cbn [keep].
      split; [now apply kept_kept'|]. destruct He as [->|[->| ->]]; [auto|right; cbn; auto|right; right; exact Hc].
    + unfold src_process in E. destruct (st_mode st); injection E as <- <- <- <-; cbn [keep]; auto using kept'_refl.
  - ok_step H. destruct v as [[[n so] cs'] m']. injection H as <- <-. apply read_shape in E.
    destruct E as (s & -> & H1 & H2 & H3 & H4 & H5 & H6 & H7 & _). cbn [keep]. split; [constructor; auto|exact H7].
  - destruct (src_set_ratio (Some st) ra) as [e so] eqn:E. injection H as <- <-. unfold src_set_ratio in E.
    destruct (is_bad_src_ratio ra); injection E as <- <-; cbn [keep]; auto using kept'_refl, kept_kept', kept_ratio.
  - ok_step H. destruct v as [e so]. injection H as <- <-. apply reset_kept in E. destruct E as (s & -> & K & _ & He).
    cbn [keep]. split; [exact K|]. rewrite He. right. cbn. auto.
  - injection H as <- <-. auto using kept'_refl.
  - injection H as <- <-. auto using kept'_refl.
Qed.

Lemma new_shape bld orc ty ch h e c h' : src_new bld orc ty ch h = Ok (e, Some c, h') ->
  e = 0 /\ st_mode (c_state c) = MODE_PROCESS /\ st_error (c_state c) = 0 /\ st_channels (c_state c) = ch /\
  st_last_ratio (c_state c) = dzero /\ st_last_position (c_state c) = dzero /\
  st_saved_frames (c_state c) = 0 /\ st_saved_data (c_state c) = 0.
Proof.
  assert (Hold : forall vt, hold_state_new orc vt ch h = Ok (e, Some c, h') ->
     e = 0 /\ st_mode (c_state c) = MODE_PROCESS /\ st_error (c_state c) = 0 /\ st_channels (c_state c) = ch /\
     st_last_ratio (c_state c) = dzero /\ st_last_position (c_state c) = dzero /\
     st_saved_frames (c_state c) = 0 /\ st_saved_data (c_state c) = 0).
  { intros vt H. unfold hold_state_new in H. ok_step H; [discriminate H|].
    destruct (alloc orc h) as [[b1|] h1]; [|discriminate H]. destruct (alloc orc h1) as [[b2|] h2]; [|ok_step H; discriminate H].
    destruct (alloc orc h2) as [[b3|] h3]; [|ok_step H; ok_step H; discriminate H].
    cbv zeta in H. ok_step H. injection H as <- <- <-. cbn [c_state].
    unfold hold_reset in E. cbn [st_priv blank_state] in E. ok_step E. injection E as <-. cbn. auto 10. }
  unfold src_new. destruct (sinc_table bld ty) as [[inc co]|].
  - intros H. unfold sinc_state_new in H. ok_step H; [discriminate H|]. ok_step H; [discriminate H|].
    destruct (alloc orc h) as [[b1|] h1]; [|discriminate H]. destruct (alloc orc h1) as [[b2|] h2]; [|ok_step H; discriminate H].
    cbv zeta in H. ok_step H. ok_step H.
    destruct (alloc orc h2) as [[b3|] h3]; [|ok_step H; ok_step H; discriminate H].
    ok_step H. injection H as <- <- <-. cbn [c_state]. unfold sinc_reset in E1. cbn [st_priv blank_state] in E1.
    ok_step E1. injection E1 as <-. cbn. auto 10.
  - intros H. ok_step H; [now apply (Hold VT_zoh)|]. ok_step H; [now apply (Hold VT_linear)|discriminate H].
Qed.

Lemma callback_new_shape bld orc func ty ch ud h e c h' : src_callback_new bld orc func ty ch ud h = Ok (e, Some c, h') ->
  e = 0 /\ st_mode (c_state c) = MODE_CALLBACK /\ st_error (c_state c) = 0 /\ st_channels (c_state c) = ch /\
  st_callback (c_state c) = func /\ func <> 0.
Proof.
  unfold src_callback_new. intros H. ok_step H; [discriminate H|]. ok_step H. destruct v as [[e1 c1] h1].
  destruct c1 as [c1|]; [|discriminate H]. apply new_shape in E. destruct E as (E1 & E2 & E3 & E4 & _).
  ok_step H. destruct v as [e2 so]. apply reset_kept in E. destruct E as (st' & -> & K & -> & He).
  injection H as -> <- <-. cbn. destruct K. repeat split; auto; [congruence|lia].
Qed.

Lemma copy_shape p ch p' : copy_buffer p ch = Ok p' ->
  match p, p' with P_null, P_null | P_hold _, P_hold _ | P_sinc _, P_sinc _ => True | _, _ => False end.
Proof. unfold copy_buffer. intros H. ok_steps H; auto. Qed.

Lemma clone_shape orc c h e c' h' : src_clone orc (Some c) h = Ok (e, Some c', h') ->
  e = 0 /\ exists p, copy_buffer (st_priv (c_state c)) (st_channels (c_state c)) = Ok p /\ c_state c' = set_priv (c_state c) p.
Proof.
  unfold src_clone, vt_copy. intros H. ok_step H. destruct v as [r hh]. injection H as <- -> <-. split; [reflexivity|].
  destruct (st_priv (c_state c)) eqn:Ep; [discriminate E|..].
  all: destruct (alloc orc h) as [[b1|] h1]; [|discriminate E].
  all: destruct (alloc orc h1) as [[b2|] h2]; [|ok_step E; discriminate E].
  all: destruct (alloc orc h2) as [[b3|] h3]; [|ok_step E; ok_step E; discriminate E].
  all: ok_step E; injection E as <- <-; eexists; split; reflexivity.
Qed.

Lemma life_facts md st : life md st ->
  st_mode st = md /\ In (st_error st) api_codes /\ (md = MODE_CALLBACK -> st_callback st <> 0).
Proof.
  induction 1 as [bld orc ty ch h e c h' H|bld orc func ty ch ud h e c h' H|md CS cb dummy st c r st' L IH H|md orc c h e c' h' L IH H].
  - apply new_shape in H. destruct H as (_ & M & E & _). rewrite M, E. cbn. repeat split; auto. discriminate.
  - apply callback_new_shape in H. destruct H as (_ & M & E & _ & Cb & Nz). rewrite M, E, Cb. cbn. auto.
  - apply step_kept in H. destruct H as [[] He]. destruct IH as (M & E & Cb).
    split; [congruence|]. split; [destruct He as [->|He]; auto|]. intros Hm. rewrite <- k'_cb0. auto.
  - apply clone_shape in H. destruct H as (_ & p & _ & Ep). rewrite Ep. exact IH.
Qed.

Lemma process_mode_thm st CS (cb : callback_t CS) dummy fuel ratio frames data cs m : life MODE_PROCESS st -> 0 < frames ->
  exists st', src_callback_read CS cb dummy fuel (Some st) ratio frames data cs m = Ok (0, Some st', cs, m) /\
              src_error (Some st') = SRC_ERR_BAD_MODE.
Proof.
  intros L F. apply life_facts in L. destruct L as (M & _). unfold src_callback_read. rewrite M.
  replace (frames <=? 0) with false by lia. eexists. split; reflexivity.
Qed.
Lemma callback_mode_thm st d m : life MODE_CALLBACK st -> src_process (Some st) d m = Ok (SRC_ERR_BAD_MODE, Some st, d, m).
Proof. intros L. apply life_facts in L. destruct L as (M & _). unfold src_process. now rewrite M. Qed.

(** A history on a src_new converter does not depend on the callback at all. *)
Lemma no_callback_thm CS (cb cb' : callback_t CS) dummy : forall cs st, life MODE_PROCESS st ->
  api_run CS cb dummy st cs = api_run CS cb' dummy st cs.
Proof.
  induction cs as [|c cs IH]; intros st L; [reflexivity|]. cbn [api_run].
  assert (E : api_step CS cb dummy st c = api_step CS cb' dummy st c).
  { destruct c; try reflexivity. cbn [api_step]. destruct (life_facts _ _ L) as (M & _). unfold src_callback_read. now rewrite M. }
  rewrite <- E. destruct (api_step CS cb dummy st c) as [[r st1]|f] eqn:S; cbn [bind]; [|reflexivity].
  rewrite IH; [reflexivity|]. eapply L_step; eauto.
Qed.

(** ** C11 *)
Lemma name_thm z : src_get_name z <> None <-> 0 <= z <= 4.
Proof.
  unfold src_get_name, sinc_get_name, zoh_get_name, linear_get_name, SRC_SINC_BEST_QUALITY, SRC_SINC_MEDIUM_QUALITY,
    SRC_SINC_FASTEST, SRC_ZERO_ORDER_HOLD, SRC_LINEAR.
  repeat match goal with |- context [z =? ?k] => destruct (Z.eqb_spec z k); [split; [lia|discriminate]|] end.
  split; [congruence|lia].
Qed.
Lemma description_thm z : src_get_description z <> None <-> 0 <= z <= 4.
Proof.
  unfold src_get_description, sinc_get_description, zoh_get_description, linear_get_description, SRC_SINC_BEST_QUALITY,
    SRC_SINC_MEDIUM_QUALITY, SRC_SINC_FASTEST, SRC_ZERO_ORDER_HOLD, SRC_LINEAR.
  repeat match goal with |- context [z =? ?k] => destruct (Z.eqb_spec z k); [split; [lia|discriminate]|] end.
  split; [congruence|lia].
Qed.

Definition all_codes : list Z := map Z.of_nat (seq 0 24).
Lemma in_all z : 0 <= z <= 23 <-> In z all_codes.
Proof.
  unfold all_codes. rewrite in_map_iff. setoid_rewrite in_seq. split.
  - intros H. exists (Z.to_nat z). lia.
  - intros (n & <- & H). lia.
Qed.
Lemma strerror_thm z : src_strerror z <> None <-> 0 <= z <= 23.
Proof.
  split.
  - intros H. destruct (Z.le_gt_cases 0 z) as [A|A]; [destruct (Z.le_gt_cases z 23) as [B|B]; [lia|]|];
      exfalso; apply H; unfold src_strerror;
      repeat match goal with |- context [(z =? ?k)%Z] =>
        replace (z =? k)%Z with false by (symmetry; apply Z.eqb_neq; unfold k; lia) end; reflexivity.
  - rewrite in_all. intros H. assert (F : Forall (fun z => src_strerror z <> None) all_codes) by (repeat constructor; discriminate).
    rewrite Forall_forall in F. auto.
Qed.
Fixpoint distinct (l : list (option string)) : bool :=
  match l with
  | [] => true
  | None :: r => distinct r
  | Some x :: r => forallb (fun y => match y with Some s => negb (String.eqb x s) | None => true end) r && distinct r
  end.
Lemma distinct_nth l : distinct l = true -> forall i j s, (i < j)%nat -> nth_error l i = Some (Some s) ->
  nth_error l j = Some (Some s) -> False.
Proof.
  induction l as [|x l IH]; intros D i j s L Hi Hj; [destruct i; discriminate Hi|].
  destruct j as [|j]; [lia|]. cbn [nth_error] in Hj. destruct i as [|i].
  - injection Hi as ->. cbn [distinct] in D. apply andb_prop in D as [D _]. rewrite forallb_forall in D.
    apply nth_error_In in Hj. apply D in Hj. rewrite String.eqb_refl in Hj. discriminate Hj.
  - cbn [nth_error] in Hi. destruct x; cbn [distinct] in D; [apply andb_prop in D as [_ D]|]; apply (IH D i j s); auto; lia.
Qed.
Lemma table_inj (f : Z -> option string) (n : nat) : distinct (map f (map Z.of_nat (seq 0 n))) = true ->
  (forall z, f z <> None -> 0 <= z < Z.of_nat n) ->
  forall a b s, f a = Some s -> f b = Some s -> a = b.
Proof.
  intros D R a b s Ha Hb.
  assert (Na : 0 <= a < Z.of_nat n) by (apply R; congruence). assert (Nb : 0 <= b < Z.of_nat n) by (apply R; congruence).
  assert (G : forall z, 0 <= z < Z.of_nat n -> nth_error (map f (map Z.of_nat (seq 0 n))) (Z.to_nat z) = Some (f z)).
  { intros z Hz. rewrite !nth_error_map. rewrite (nth_error_nth' _ O) by (rewrite seq_length; lia).
    rewrite seq_nth by lia. cbn. now rewrite Z2Nat.id by lia. }
  destruct (Z.lt_trichotomy a b) as [L|[L|L]]; [exfalso|exact L|exfalso].
  - apply (distinct_nth _ D (Z.to_nat a) (Z.to_nat b) s); [lia|rewrite G by lia; congruence|rewrite G by lia; congruence].
  - apply (distinct_nth _ D (Z.to_nat b) (Z.to_nat a) s); [lia|rewrite G by lia; congruence|rewrite G by lia; congruence].
Qed.
Lemma strings_distinct_thm a b s :
  (src_strerror a = Some s -> src_strerror b = Some s -> a = b) /\
  (src_get_name a = Some s -> src_get_name b = Some s -> a = b) /\
  (src_get_description a = Some s -> src_get_description b = Some s -> a = b).
Proof.
  split; [|split].
  - apply (table_inj src_strerror 24); [vm_compute; reflexivity|]. intros z Hz. apply strerror_thm in Hz. lia.
  - apply (table_inj src_get_name 5); [vm_compute; reflexivity|]. intros z Hz. apply name_thm in Hz. lia.
  - apply (table_inj src_get_description 5); [vm_compute; reflexivity|]. intros z Hz. apply description_thm in Hz. lia.
Qed.

Lemma new_codes bld orc ty ch h e c h' : src_new bld orc ty ch h = Ok (e, c, h') ->
  In e [0; SRC_ERR_MALLOC_FAILED; SRC_ERR_BAD_CONVERTER; SRC_ERR_BAD_CHANNEL_COUNT] /\ (e = 0 <-> c <> None).
Proof.
  assert (Hold : forall vt, hold_state_new orc vt ch h = Ok (e, c, h') ->
     In e [0; SRC_ERR_MALLOC_FAILED; SRC_ERR_BAD_CONVERTER; SRC_ERR_BAD_CHANNEL_COUNT] /\ (e = 0 <-> c <> None)).
  { intros vt H. unfold hold_state_new in H. ok_step H; [discriminate H|].
    destruct (alloc orc h) as [[b1|] h1]; [|injection H as <- <- <-; cbn; intuition discriminate].
    destruct (alloc orc h1) as [[b2|] h2]; [|ok_step H; injection H as <- <- <-; cbn; intuition discriminate].
    destruct (alloc orc h2) as [[b3|] h3]; [|ok_step H; ok_step H; injection H as <- <- <-; cbn; intuition discriminate].
    cbv zeta in H. ok_step H. injection H as <- <- <-. cbn. intuition discriminate. }
  unfold src_new. destruct (sinc_table bld ty) as [[inc co]|].
  - intros H. unfold sinc_state_new in H. ok_step H; [discriminate H|].
    ok_step H; [injection H as <- <- <-; cbn; intuition discriminate|].
    destruct (alloc orc h) as [[b1|] h1]; [|injection H as <- <- <-; cbn; intuition discriminate].
    destruct (alloc orc h1) as [[b2|] h2]; [|ok_step H; injection H as <- <- <-; cbn; intuition discriminate].
    cbv zeta in H. ok_step H. ok_step H.
    destruct (alloc orc h2) as [[b3|] h3]; [|ok_step H; ok_step H; injection H as <- <- <-; cbn; intuition discriminate].
    ok_step H. injection H as <- <- <-. cbn. intuition discriminate.
  - intros H. ok_step H; [now apply (Hold VT_zoh)|]. ok_step H; [now apply (Hold VT_linear)|].
    injection H as <- <- <-. cbn. intuition discriminate.
Qed.

Definition has_string (e : Z) : Prop := exists s, src_strerror e = Some s.
Lemma has_string_iff e : has_string e <-> 0 <= e <= 23.
Proof. rewrite <- strerror_thm. unfold has_string. destruct (src_strerror e); split; eauto; [congruence|intros [? ?]; congruence|congruence]. Qed.
Lemma codes_ok l e : forallb (fun z => (0 <=? z) && (z <=? 23)) l = true -> In e l -> has_string e.
Proof. intros F I. rewrite forallb_forall in F. apply F in I. apply has_string_iff. lia. Qed.

Lemma process_code state data m e so dop m' : src_process state data m = Ok (e, so, dop, m') -> In e process_codes.
Proof.
  destruct state as [st|]; [|intros H; injection H as <- _ _ _; cbn; auto].
  destruct data as [d|].
  - intros H. apply process_shape in H. destruct H as (? & ? & _ & _ & _ & Hc & _). exact Hc.
  - unfold src_process. destruct (st_mode st); intros H; injection H as <- _ _ _; cbn; auto.
Qed.

Lemma code_strings_thm :
  (forall state data m e so dop m', src_process state data m = Ok (e, so, dop, m') -> has_string e) /\
  (forall state r e so, src_set_ratio state r = (e, so) -> has_string e) /\
  (forall state e so, src_reset state = Ok (e, so) -> has_string e) /\
  (forall bld orc ty ch h e c h', src_new bld orc ty ch h = Ok (e, c, h') -> has_string e) /\
  (forall bld orc f ty ch ud h e c h', src_callback_new bld orc f ty ch ud h = Ok (e, c, h') -> has_string e) /\
  (forall orc c h e c' h', src_clone orc c h = Ok (e, c', h') -> has_string e) /\
  (forall bld orc d ty ch h m e d' h' m', src_simple bld orc d ty ch h m = Ok (e, d', h', m') -> has_string e) /\
  (forall md st, life md st -> has_string (src_error (Some st))).
Proof.
  assert (P : forall state data m e so dop m', src_process state data m = Ok (e, so, dop, m') -> has_string e).
  { intros state data m e so dop m' H. apply process_code in H. revert H. apply codes_ok. reflexivity. }
  assert (N : forall bld orc ty ch h e c h', src_new bld orc ty ch h = Ok (e, c, h') -> has_string e).
  { intros bld orc ty ch h e c h' H. apply new_codes in H. destruct H as [H _]. revert H. apply codes_ok. reflexivity. }
  split; [exact P|]. repeat split.
  - intros state r e so H. unfold src_set_ratio in H. apply has_string_iff.
    destruct state; [destruct (is_bad_src_ratio r)|]; injection H as <- <-; cbv; intuition discriminate.
  - intros state e so H. apply has_string_iff. destruct state as [st|].
    + apply reset_kept in H. destruct H as (? & _ & _ & -> & _). lia.
    + injection H as <- <-. cbv; intuition discriminate.
  - exact N.
  - intros bld orc f ty ch ud h e c h' H. unfold src_callback_new in H. ok_step H.
    + injection H as <- _ _. apply has_string_iff. cbv; intuition discriminate.
    + ok_step H. destruct v as [[e1 [c1|]] h1]; [|injection H as <- _ _; eapply N; eassumption].
      ok_step H. destruct v as [e2 [st|]]; [|discriminate H]. injection H as <- _ _. eapply N; eassumption.
  - intros orc c h e c' h' H. apply has_string_iff. unfold src_clone in H. destruct c as [c|].
    + ok_step H. ok_step H. destruct o; injection H as <- _ _; cbv; intuition discriminate.
    + injection H as <- _ _. cbv; intuition discriminate.
  - intros bld orc d ty ch h m e d' h' m' H. unfold src_simple in H. ok_step H.
    destruct v as [[e1 [c1|]] h1]; [|injection H as <- _ _ _; eapply N; eassumption].
    destruct d as [d|]; [|discriminate H]. ok_step H. destruct v as [[[e2 [st|]] d2] m2]; [|discriminate H].
    ok_step H. injection H as <- _ _ _. eapply P; eassumption.
  - intros md st L. apply life_facts in L. destruct L as (_ & E & _). cbn [src_error]. revert E. apply codes_ok. reflexivity.
Qed.

(** ** A NaN ratio is accepted everywhere (C07) *)
Definition nan_mem : mem := fun a =>
  if (100 <=? a) && (a <? 104) then Some fzero else if (200 <=? a) && (a <? 216) then Some fzero else None.
Definition nan_data : SRC_DATA := mkData 100 200 4 16 0 0 0 nan64.
Definition nan_conv : SRC_STATE := blank_state VT_zoh 1 (P_hold (mkHold false 0 0 0 0 [fzero])).
Lemma nan_created : exists bld orc h c h', src_new bld orc SRC_ZERO_ORDER_HOLD 1 h = Ok (0, Some c, h') /\ nan_conv = c_state c.
Proof. exists (mkBuild None None None), (fun _ => true), (mkHeap 1 []). eexists _, _. split; reflexivity. Qed.
Lemma nan_thm : src_is_valid_ratio nan64 = 1 /\ (forall st, src_set_ratio (Some st) nan64 = (0, Some (set_ratio st nan64))) /\
  match src_process (Some nan_conv) (Some nan_data) nan_mem with
  | Ok (e, _, Some d, _) => e = 0 /\ input_frames_used d = - 2 ^ 31
  | _ => False
  end.
Proof. split; [reflexivity|]. split; [intros; reflexivity|]. vm_compute. split; reflexivity. Qed.
