(** Locality: a call that succeeds on some memory behaves the same when there is more memory around it (C36). *)
From Coq Require Import ZArith List Bool Reals Lia FunctionalExtensionality.
From Verif Require Import Base SincCopies SincCopiesEq Types Common Zoh Linear Sinc Api Heap Callback HoldSpec ApiHist ProcFacts LifeSpec.
Import ListNotations.
Local Open Scope Z_scope.

Lemma dom_refl m : same_dom m m.
Proof. intros a; tauto. Qed.
Lemma dom_trans a b c : same_dom a b -> same_dom b c -> same_dom a c.
Proof. intros H K x. rewrite (H x). apply K. Qed.

Lemma mread_loc m g a x : mread m a = Ok x -> mread (splice m g) a = Ok x.
Proof. unfold mread, splice. destruct (m a); [auto|discriminate]. Qed.
Lemma mwrite_loc m g a x m' : mwrite m a x = Ok m' -> mwrite (splice m g) a x = Ok (splice m' g) /\ same_dom m m'.
Proof.
  unfold mwrite, splice. destruct (m a) eqn:E; [|discriminate]. intros H. injection H as <-. split.
  - f_equal. apply functional_extensionality. intros b. destruct (b =? a); reflexivity.
  - intros b. destruct (Z.eqb_spec b a) as [->|]; [rewrite E; split; discriminate|tauto].
Qed.
Lemma mread_n_loc m g : forall n a l, mread_n m a n = Ok l -> mread_n (splice m g) a n = Ok l.
Proof.
  induction n as [|n IH]; intros a l H; cbn [mread_n] in *; [exact H|].
  ok_step H. rewrite (mread_loc _ g _ _ E). cbn [bind]. ok_step H. rewrite (IH _ _ E0). exact H.
Qed.
Lemma load_frame_loc m g : forall n a lv ch lv', load_frame m a lv ch n = Ok lv' -> load_frame (splice m g) a lv ch n = Ok lv'.
Proof.
  induction n as [|n IH]; intros a lv ch lv' H; cbn [load_frame] in *; [exact H|].
  ok_step H. rewrite (mread_loc _ g _ _ E). cbn [bind]. ok_step H. cbn [bind]. exact (IH _ _ _ _ H).
Qed.

Section Emit.
  Variable g : mem.
  Lemma emit_last_loc lv out : forall n m og ch m' og', zoh_emit_last m lv out og ch n = Ok (m', og') ->
    zoh_emit_last (splice m g) lv out og ch n = Ok (splice m' g, og') /\ same_dom m m'.
  Proof.
    induction n as [|n IH]; intros m og ch m' og' H; cbn [zoh_emit_last] in *.
    - injection H as <- <-. auto using dom_refl.
    - ok_step H. cbn [bind]. ok_step H. destruct (mwrite_loc _ g _ _ _ E0) as [-> D]. cbn [bind].
      ok_step H. cbn [bind]. destruct (IH _ _ _ _ _ H) as [-> D']. eauto using dom_trans.
  Qed.
  Lemma emit_in_loc inp off out : forall n m og ch m' og', zoh_emit_in m inp off out og ch n = Ok (m', og') ->
    zoh_emit_in (splice m g) inp off out og ch n = Ok (splice m' g, og') /\ same_dom m m'.
  Proof.
    induction n as [|n IH]; intros m og ch m' og' H; cbn [zoh_emit_in] in *.
    - injection H as <- <-. auto using dom_refl.
    - ok_step H. rewrite (mread_loc _ g _ _ E). cbn [bind]. ok_step H. destruct (mwrite_loc _ g _ _ _ E0) as [-> D]. cbn [bind].
      ok_step H. cbn [bind]. destruct (IH _ _ _ _ _ H) as [-> D']. eauto using dom_trans.
  Qed.
  Lemma lemit_last_loc lv inp out idx : forall n m og ch m' og', lin_emit_last m lv inp out idx og ch n = Ok (m', og') ->
    lin_emit_last (splice m g) lv inp out idx og ch n = Ok (splice m' g, og') /\ same_dom m m'.
  Proof.
    induction n as [|n IH]; intros m og ch m' og' H; cbn [lin_emit_last] in *.
    - injection H as <- <-. auto using dom_refl.
    - ok_step H. cbn [bind]. ok_step H. rewrite (mread_loc _ g _ _ E0). cbn [bind].
      ok_step H. destruct (mwrite_loc _ g _ _ _ E1) as [-> D]. cbn [bind].
      ok_step H. cbn [bind]. destruct (IH _ _ _ _ _ H) as [-> D']. eauto using dom_trans.
  Qed.
  Lemma lemit_in_loc inp off iu out idx : forall n m og ch m' og', lin_emit_in m inp off iu out idx og ch n = Ok (m', og') ->
    lin_emit_in (splice m g) inp off iu out idx og ch n = Ok (splice m' g, og') /\ same_dom m m'.
  Proof.
    induction n as [|n IH]; intros m og ch m' og' H; cbn [lin_emit_in] in *.
    - injection H as <- <-. auto using dom_refl.
    - ok_step H. rewrite (mread_loc _ g _ _ E). cbn [bind]. ok_step H. rewrite (mread_loc _ g _ _ E0). cbn [bind].
      ok_step H. destruct (mwrite_loc _ g _ _ _ E1) as [-> D]. cbn [bind].
      ok_step H. cbn [bind]. destruct (IH _ _ _ _ _ H) as [-> D']. eauto using dom_trans.
  Qed.

  Lemma zloop1_loc ch out lr t lv iu ic oc : forall n m og idx r m' og' idx' r',
    zoh_loop1 n ch out lr t lv iu ic oc m og idx r = Ok (m', og', idx', r') ->
    zoh_loop1 n ch out lr t lv iu ic oc (splice m g) og idx r = Ok (splice m' g, og', idx', r') /\ same_dom m m'.
  Proof.
    induction n as [|n IH]; intros m og idx r m' og' idx' r' H; cbn [zoh_loop1] in *; [discriminate H|].
    destruct (_ && _).
    - destruct (dge _ _); [injection H as <- <- <- <-; auto using dom_refl|].
      ok_step H. destruct v as [m1 og1]. destruct (emit_last_loc _ _ _ _ _ _ _ _ E) as [-> D]. cbn [bind].
      destruct (IH _ _ _ _ _ _ _ _ H) as [-> D']. eauto using dom_trans.
    - injection H as <- <- <- <-; auto using dom_refl.
  Qed.
  Lemma zloop2_loc ch inp out lr t ic oc : forall n m iu og idx r m' iu' og' idx' r',
    zoh_loop2 n ch inp out lr t ic oc m iu og idx r = Ok (m', iu', og', idx', r') ->
    zoh_loop2 n ch inp out lr t ic oc (splice m g) iu og idx r = Ok (splice m' g, iu', og', idx', r') /\ same_dom m m'.
  Proof.
    induction n as [|n IH]; intros m iu og idx r m' iu' og' idx' r' H; cbn [zoh_loop2] in *; [discriminate H|].
    destruct (_ && _).
    - ok_step H. cbn [bind]. ok_step H. destruct v0 as [m1 og1]. destruct (emit_in_loc _ _ _ _ _ _ _ _ _ E0) as [-> D]. cbn [bind].
      ok_step H. destruct v0 as [iu1 idx1]. cbn [bind].
      destruct (IH _ _ _ _ _ _ _ _ _ _ H) as [-> D']. eauto using dom_trans.
    - injection H as <- <- <- <- <-; auto using dom_refl.
  Qed.
  Lemma lloop1_loc ch inp out lr t lv iu ic oc : forall n m og idx r m' og' idx' r',
    lin_loop1 n ch inp out lr t lv iu ic oc m og idx r = Ok (m', og', idx', r') ->
    lin_loop1 n ch inp out lr t lv iu ic oc (splice m g) og idx r = Ok (splice m' g, og', idx', r') /\ same_dom m m'.
  Proof.
    induction n as [|n IH]; intros m og idx r m' og' idx' r' H; cbn [lin_loop1] in *; [discriminate H|].
    destruct (_ && _).
    - destruct (dge _ _); [injection H as <- <- <- <-; auto using dom_refl|].
      ok_step H. destruct v as [m1 og1]. destruct (lemit_last_loc _ _ _ _ _ _ _ _ _ _ E) as [-> D]. cbn [bind].
      destruct (IH _ _ _ _ _ _ _ _ H) as [-> D']. eauto using dom_trans.
    - injection H as <- <- <- <-; auto using dom_refl.
  Qed.
  Lemma lloop2_loc ch inp out lr t ic oc : forall n m iu og idx r m' iu' og' idx' r',
    lin_loop2 n ch inp out lr t ic oc m iu og idx r = Ok (m', iu', og', idx', r') ->
    lin_loop2 n ch inp out lr t ic oc (splice m g) iu og idx r = Ok (splice m' g, iu', og', idx', r') /\ same_dom m m'.
  Proof.
    induction n as [|n IH]; intros m iu og idx r m' iu' og' idx' r' H; cbn [lin_loop2] in *; [discriminate H|].
    destruct (_ && _).
    - ok_step H. cbn [bind]. ok_step H. destruct v0 as [m1 og1]. destruct (lemit_in_loc _ _ _ _ _ _ _ _ _ _ _ E0) as [-> D]. cbn [bind].
      ok_step H. destruct v0 as [iu1 idx1]. cbn [bind].
      destruct (IH _ _ _ _ _ _ _ _ _ _ H) as [-> D']. eauto using dom_trans.
    - injection H as <- <- <- <- <-; auto using dom_refl.
  Qed.

  (** What locality means for a process function. *)
  Definition local_proc (f : mem -> outcome proc_result) : Prop :=
    forall m e st d m', f m = Ok (e, st, d, m') -> f (splice m g) = Ok (e, st, d, splice m' g) /\ same_dom m m'.

  Lemma zoh_local st d : local_proc (zoh_vari_process st d).
  Proof.
    intros m e st' d' m' H. unfold zoh_vari_process in *.
    destruct (input_frames d <=? 0); [injection H as <- <- <- <-; auto using dom_refl|].
    destruct (st_priv st) as [|x|x]; [injection H as <- <- <- <-; auto using dom_refl| |discriminate H].
    ok_step H. assert (E' : (if h_dirty x then Ok (h_last_value x)
                else load_frame (splice m g) (data_in d) (h_last_value x) 0 (Z.to_nat (st_channels st))) = Ok v).
    { destruct (h_dirty x); [exact E|]. now apply load_frame_loc. }
    rewrite E'. cbn [bind]. clear E'. ok_step H. cbn [bind]. ok_step H. cbn [bind].
    destruct (is_bad_src_ratio _); [injection H as <- <- <- <-; auto using dom_refl|].
    ok_step H. destruct v2 as [[[m1 og1] idx1] r1]. destruct (zloop1_loc _ _ _ _ _ _ _ _ _ _ _ _ _ _ _ _ _ E2) as [-> D1]. cbn [bind].
    ok_step H. destruct v2 as [iu1 idx1']. cbn [bind].
    ok_step H. destruct v2 as [[[[m2 iu2] og2] idx2] r2]. destruct (zloop2_loc _ _ _ _ _ _ _ _ _ _ _ _ _ _ _ _ _ _ E4) as [-> D2]. cbn [bind].
    ok_step H. destruct v2 as [iu3 idx3]. cbn [bind].
    ok_step H. assert (E' : (if 0 <? iu3
                 then do off <- long_op (iu3 - st_channels st) ;
                      load_frame (splice m2 g) (data_in d + off) v 0 (Z.to_nat (st_channels st))
                 else Ok v) = Ok v2).
    { destruct (0 <? iu3); [|exact E6]. ok_step E6. cbn [bind]. now apply load_frame_loc. }
    rewrite E'. cbn [bind]. ok_step H. cbn [bind]. ok_step H. cbn [bind].
    injection H as <- <- <- <-. eauto using dom_trans.
  Qed.
  Lemma linear_local st d : local_proc (linear_vari_process st d).
  Proof.
    intros m e st' d' m' H. unfold linear_vari_process in *.
    destruct (input_frames d <=? 0); [injection H as <- <- <- <-; auto using dom_refl|].
    destruct (st_priv st) as [|x|x]; [injection H as <- <- <- <-; auto using dom_refl| |discriminate H].
    ok_step H. assert (E' : (if h_dirty x then Ok (h_last_value x)
                else load_frame (splice m g) (data_in d) (h_last_value x) 0 (Z.to_nat (st_channels st))) = Ok v).
    { destruct (h_dirty x); [exact E|]. now apply load_frame_loc. }
    rewrite E'. cbn [bind]. clear E'. ok_step H. cbn [bind]. ok_step H. cbn [bind].
    destruct (is_bad_src_ratio _); [injection H as <- <- <- <-; auto using dom_refl|].
    ok_step H. destruct v2 as [[[m1 og1] idx1] r1]. destruct (lloop1_loc _ _ _ _ _ _ _ _ _ _ _ _ _ _ _ _ _ _ E2) as [-> D1]. cbn [bind].
    ok_step H. destruct v2 as [iu1 idx1']. cbn [bind].
    ok_step H. destruct v2 as [[[[m2 iu2] og2] idx2] r2]. destruct (lloop2_loc _ _ _ _ _ _ _ _ _ _ _ _ _ _ _ _ _ _ E4) as [-> D2]. cbn [bind].
    ok_step H. destruct v2 as [iu3 idx3]. cbn [bind].
    ok_step H. assert (E' : (if 0 <? iu3
                 then do off <- long_op (iu3 - st_channels st) ;
                      load_frame (splice m2 g) (data_in d + off) v 0 (Z.to_nat (st_channels st))
                 else Ok v) = Ok v2).
    { destruct (0 <? iu3); [|exact E6]. ok_step E6. cbn [bind]. now apply load_frame_loc. }
    rewrite E'. cbn [bind]. ok_step H. cbn [bind]. ok_step H. cbn [bind].
    injection H as <- <- <- <-. eauto using dom_trans.
  Qed.

  (** sinc *)
  Lemma mwrite_list_loc : forall xs m a m', mwrite_list m a xs = Ok m' -> mwrite_list (splice m g) a xs = Ok (splice m' g) /\ same_dom m m'.
  Proof.
    induction xs as [|x xs IH]; intros m a m' H; cbn [mwrite_list] in *; [injection H as <-; auto using dom_refl|].
    ok_step H. destruct (mwrite_loc _ g _ _ _ E) as [-> D]. cbn [bind]. destruct (IH _ _ _ H) as [-> D']. eauto using dom_trans.
  Qed.
  Lemma prepare_loc s ch d half m r : prepare_data s ch d half m = Ok r -> prepare_data s ch d half (splice m g) = Ok r.
  Proof.
    unfold prepare_data. intros H. destruct (0 <=? s_b_real_end s); [exact H|]. destruct (data_in d =? 0); [exact H|].
    ok_step H. destruct v as [s1 room]. cbn [bind]. ok_step H. cbn [bind]. ok_step H. cbn [bind]. ok_step H. cbn [bind].
    destruct (_ || _); [exact H|]. ok_step H. rewrite (mread_n_loc _ g _ _ _ E3). cbn [bind]. exact H.
  Qed.

  Lemma sloop_loc mono nch ch half d lr tm : forall n s err idx r m e s' err' idx' r' m',
    sinc_loop n mono nch ch half d lr tm s err idx r m = Ok (e, s', err', idx', r', m') ->
    sinc_loop n mono nch ch half d lr tm s err idx r (splice m g) = Ok (e, s', err', idx', r', splice m' g) /\ same_dom m m'.
  Proof.
    induction n as [|n IH]; intros s err idx r m e s' err' idx' r' m' H; cbn [sinc_loop] in *; [discriminate H|].
    destruct (s_out_gen s <? s_out_count s); [|injection H as <- <- <- <- <- <-; auto using dom_refl].
    ok_step H. cbn [bind]. ok_step H. destruct v0 as [[s1 err1] stop].
    match type of E0 with ?x = Ok _ => match x with context C [prepare_data s ch d half m] =>
      let y := context C [prepare_data s ch d half (splice m g)] in assert (E0' : y = Ok (s1, err1, stop)) end end.
    { destruct (v <=? half); [|exact E0]. ok_step E0. rewrite (prepare_loc _ _ _ _ _ _ E1). exact E0. }
    rewrite E0'. cbn [bind]. clear E0'.
    destruct stop; [injection H as <- <- <- <- <- <-; auto using dom_refl|].
    destruct (at_end _ _ _ _); [injection H as <- <- <- <- <- <-; auto using dom_refl|].
    ok_step H. cbn [bind]. ok_step H. destruct (mwrite_list_loc _ _ _ _ E2) as [-> D]. cbn [bind].
    ok_step H. cbn [bind]. ok_step H. destruct v3 as [s2 idx2]. cbn [bind].
    destruct (IH _ _ _ _ _ _ _ _ _ _ _ H) as [-> D']. eauto using dom_trans.
  Qed.
  Lemma sinc_local mono nch st d : local_proc (sinc_process mono nch st d).
  Proof.
    intros m e st' d' m' H. unfold sinc_process in *.
    destruct (st_priv st) as [|x|x]; [injection H as <- <- <- <-; auto using dom_refl|discriminate H|].
    ok_step H. cbn [bind]. ok_step H. cbn [bind].
    destruct (is_bad_src_ratio _); [injection H as <- <- <- <-; auto using dom_refl|].
    ok_step H. cbn [bind]. ok_step H. destruct v2 as [s1 idx]. cbn [bind].
    ok_step H. destruct v2 as [[[[[e1 s2] err] idx2] r2] m2].
    destruct (sloop_loc _ _ _ _ _ _ _ _ _ _ _ _ _ _ _ _ _ _ _ E3) as [-> D]. cbn [bind].
    destruct (negb _); [injection H as <- <- <- <-; auto|].
    ok_step H. cbn [bind]. ok_step H. cbn [bind]. injection H as <- <- <- <-. auto.
  Qed.
  Lemma vt_local st d : local_proc (vt_process st d).
  Proof.
    unfold vt_process. destruct (st_vt st);
      [exact (zoh_local st d)|exact (linear_local st d)|intros m e st' d' m' H..];
      [rewrite mono_copy in *|rewrite stereo_copy in *|rewrite quad_copy in *|rewrite hex_copy in *|rewrite multichan_copy in *]; exact (sinc_local _ _ st d m e st' d' m' H).
  Qed.

  Lemma process_local state data m e so dop m' : src_process state data m = Ok (e, so, dop, m') ->
    src_process state data (splice m g) = Ok (e, so, dop, splice m' g) /\ same_dom m m'.
  Proof.
    unfold src_process. intros H. destruct state as [st|]; [|injection H as <- <- <- <-; auto using dom_refl].
    destruct (negb _); [injection H as <- <- <- <-; auto using dom_refl|].
    destruct data as [d|]; [|injection H as <- <- <- <-; auto using dom_refl].
    destruct (_ || _); [injection H as <- <- <- <-; auto using dom_refl|].
    destruct (is_bad_src_ratio _); [injection H as <- <- <- <-; auto using dom_refl|].
    ok_step H. cbn [bind]. destruct v; [injection H as <- <- <- <-; auto using dom_refl|].
    ok_step H. destruct v as [[[e1 st2] d3] m2]. destruct (dlt (dabs _) _).
    all: destruct (vt_local _ _ _ _ _ _ _ E0) as [-> D]; cbn [bind]; injection H as <- <- <- <-; auto.
  Qed.

  Lemma fetch_local {CS} (cb : callback_t CS) dummy st d cs m d1 cs1 m1 : local_cb g cb ->
    cb_fetch CS cb dummy st d cs m = (d1, cs1, m1) ->
    cb_fetch CS cb dummy st d cs (splice m g) = (d1, cs1, splice m1 g) /\ same_dom m m1.
  Proof.
    intros L. unfold cb_fetch. destruct (input_frames d =? 0); [|intros H; injection H as <- <- <-; auto using dom_refl].
    specialize (L (st_callback st) (st_user_data st) cs m). destruct (cb _ _ cs m) as [[[cs' m'] p] n].
    destruct L as [-> D]. intros H. injection H as <- <- <-. auto.
  Qed.
  Lemma loop_local {CS} (cb : callback_t CS) dummy : local_cb g cb -> forall fuel frames st d gen cs m e st' d' gen' cs' m',
    cb_loop CS cb dummy fuel frames st d gen cs m = Ok (e, st', d', gen', cs', m') ->
    cb_loop CS cb dummy fuel frames st d gen cs (splice m g) = Ok (e, st', d', gen', cs', splice m' g) /\ same_dom m m'.
  Proof.
    intros L. induction fuel as [|fuel IH]; intros frames st d gen cs m e st' d' gen' cs' m' H; cbn [cb_loop] in *; [discriminate H|].
    destruct (gen <? frames); [|injection H as <- <- <- <- <- <-; auto using dom_refl].
    destruct (cb_fetch CS cb dummy st d cs m) as [[d1 cs1] m1] eqn:F.
    destruct (fetch_local cb dummy _ _ _ _ _ _ _ L F) as [-> D]. clear F.
    ok_step H. destruct v as [[[e1 so] dop] m2]. destruct (process_local _ _ _ _ _ _ _ E) as [-> D2]. cbn [bind].
    destruct so as [st2|]; [|discriminate H]. destruct dop as [d2|]; [|discriminate H].
    destruct (negb _); [injection H as <- <- <- <- <- <-; eauto using dom_trans|].
    ok_step H. cbn [bind]. ok_step H. cbn [bind]. ok_step H. cbn [bind]. ok_step H. cbn [bind]. ok_step H. cbn [bind].
    destruct (_ && _); [injection H as <- <- <- <- <- <-; eauto using dom_trans|].
    destruct (IH _ _ _ _ _ _ _ _ _ _ _ _ H) as [-> D3]. eauto using dom_trans.
  Qed.
  Lemma read_local {CS} (cb : callback_t CS) dummy fuel state ratio frames data cs m n so cs' m' : local_cb g cb ->
    src_callback_read CS cb dummy fuel state ratio frames data cs m = Ok (n, so, cs', m') ->
    src_callback_read CS cb dummy fuel state ratio frames data cs (splice m g) = Ok (n, so, cs', splice m' g) /\ same_dom m m'.
  Proof.
    intros L. unfold src_callback_read. intros H. destruct state as [st|]; [|injection H as <- <- <- <-; auto using dom_refl].
    destruct (frames <=? 0); [injection H as <- <- <- <-; auto using dom_refl|].
    destruct (st_mode st); [injection H as <- <- <- <-; auto using dom_refl|].
    destruct (st_callback st =? 0); [injection H as <- <- <- <-; auto using dom_refl|].
    destruct (is_bad_src_ratio _); [injection H as <- <- <- <-; auto using dom_refl|].
    ok_step H. destruct v as [[[[[e1 st1] d1] gen] cs1] m1].
    destruct (loop_local cb dummy L _ _ _ _ _ _ _ _ _ _ _ _ _ E) as [-> D]. cbn [bind].
    destruct (negb _); injection H as <- <- <- <-; auto.
  Qed.
End Emit.

(** ** Interleavings *)
Section World.
  Variable CS : Type.
  Variable cb : Z -> callback_t CS.
  Variable dummy : Z -> Z.
  Hypothesis L : forall g i, local_cb g (cb i).

  Lemma one_local g i s c m r s' m' : one CS cb dummy i s c m = Ok (r, s', m') ->
    one CS cb dummy i s c (splice m g) = Ok (r, s', splice m' g) /\ same_dom m m'.
  Proof.
    destruct s as [st cs]. destruct c as [d|fuel ratio frames data|ra| | | |a x]; cbn [one]; intros H.
    - ok_step H. destruct v as [[[e so] d'] m1]. destruct (process_local g _ _ _ _ _ _ _ E) as [-> D]. cbn [bind].
      injection H as <- <- <-. auto.
    - ok_step H. destruct v as [[[n so] cs'] m1]. destruct (read_local g (cb i) _ _ _ _ _ _ _ _ _ _ _ _ (L g i) E) as [-> D]. cbn [bind].
      injection H as <- <- <-. auto.
    - destruct (src_set_ratio (Some st) ra) as [e so]. injection H as <- <- <-. auto using dom_refl.
    - ok_step H. destruct v as [e so]. cbn [bind]. injection H as <- <- <-. auto using dom_refl.
    - injection H as <- <- <-. auto using dom_refl.
    - injection H as <- <- <-. auto using dom_refl.
    - ok_step H. destruct (mwrite_loc _ g _ _ _ E) as [-> D]. cbn [bind]. injection H as <- <- <-. auto.
  Qed.

  Lemma splice_sub (m M : mem) : (forall a x, m a = Some x -> M a = Some x) -> splice m M = M.
  Proof.
    intros H. apply functional_extensionality. intros a. unfold splice. destruct (m a) eqn:E; [symmetry; now apply H|reflexivity].
  Qed.

  Lemma together_thm : forall sched S own M rs s' m',
    (forall i j a, i <> j -> own i a <> None -> own j a = None) ->
    (forall i a x, own i a = Some x -> M a = Some x) ->
    (forall i, alone CS cb dummy i (S i) (calls_of i sched) (own i) = Ok (rs i, s' i, m' i)) ->
    exists out S' M', together CS cb dummy S sched M = Ok (out, S', M') /\
      (forall i, results_of i out = rs i /\ S' i = s' i /\ (forall a x, m' i a = Some x -> M' a = Some x)) /\
      (forall a, (forall i, own i a = None) -> M' a = M a).
  Proof.
    induction sched as [|[i c] sched IH]; intros S own M rs s' m' Dis Sub Al.
    - exists [], S, M. split; [reflexivity|]. split; [|auto]. intros i. specialize (Al i). cbn in Al. injection Al as <- <- <-. cbn.
      split; [reflexivity|]. split; [reflexivity|]. apply Sub.
    - pose proof (Al i) as Ai. cbn [calls_of] in Ai. rewrite Z.eqb_refl in Ai. cbn [alone] in Ai.
      ok_step Ai. destruct v as [[r s1] m1]. ok_step Ai. destruct v as [[rs1 s2] m2].
      destruct (one_local M _ _ _ _ _ _ _ E) as [E1 D]. rewrite splice_sub in E1 by (apply Sub).
      edestruct (IH (fun j => if j =? i then s1 else S j) (fun j => if j =? i then m1 else own j) (splice m1 M)
        (fun j => if j =? i then rs1 else rs j) s' m') as (out & S' & M' & Et & Rs & Un).
      + intros j k a Njk. destruct (Z.eqb_spec j i) as [->|Nj], (Z.eqb_spec k i) as [->|Nk]; intros Ha; try congruence.
        * apply (Dis i k a Njk). rewrite (D a). exact Ha.
        * apply (D a). now apply (Dis j i a Njk).
        * now apply (Dis j k a Njk).
      + intros j a x. unfold splice. destruct (Z.eqb_spec j i) as [->|Nj]; [now intros ->|]. intros Hj.
        replace (m1 a) with (@None f32); [now apply (Sub j)|]. symmetry. apply (D a). apply (Dis j i a Nj). congruence.
      + intros j. cbv beta. destruct (Z.eqb_spec j i) as [->|Nj]; [rewrite E0; injection Ai as _ -> ->; reflexivity|].
        specialize (Al j). cbn [calls_of] in Al. replace (i =? j) with false in Al by lia. exact Al.
      + exists ((i, r) :: out), S', M'. cbn [together]. rewrite E1. cbn [bind]. rewrite Et. cbn [bind]. split; [reflexivity|]. split.
        * intros j. destruct (Rs j) as (R1 & R2 & R3). split; [|auto]. cbn [results_of]. cbv beta in R1.
          destruct (Z.eqb_spec i j) as [->|Nj].
          -- rewrite Z.eqb_refl in R1. rewrite R1. injection Ai as <- _ _. reflexivity.
          -- replace (j =? i) with false in R1 by lia. exact R1.
        * intros a Ha. rewrite Un.
          -- unfold splice. replace (m1 a) with (@None f32); [reflexivity|]. symmetry. apply (D a), Ha.
          -- intros j. destruct (j =? i); [apply (D a), Ha|apply Ha].
  Qed.
End World.
