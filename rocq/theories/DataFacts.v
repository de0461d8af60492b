(** No converter looks at sample values to decide what to do. *)
From Coq Require Import ZArith List Bool Lia.
From Flocq Require Import Core IEEE754.BinarySingleNaN.
From Verif Require Import Base SincCopies SincCopiesEq Types Common Zoh Linear Sinc Api Heap Callback ApiHist ApiSpec ApiThms DataSpec SincAlike.
Import ListNotations.
Local Open Scope Z_scope.

Section Data.
  Variable strict : Prop.
  Notation both := (both strict).
  Notation like_mem := (like_mem strict).

  Lemma mread_both m m' a : like_mem m m' -> both (fun _ _ => True) (mread m a) (mread m' a).
  Proof. intros L. unfold mread. destruct (m a) eqn:E, (m' a) eqn:E'; cbn; auto; intros St; specialize (L St a); intuition congruence. Qed.
  Lemma zset_both {A} (l l' : list A) i x x' : like_len l l' -> both like_len (zset l i x) (zset l' i x').
  Proof.
    intros L. unfold zset. rewrite (len_z _ _ L). destruct (_ || _); [apply both_fault|]. cbn. unfold like_len in *.
    rewrite !app_length, !firstn_length. cbn [length]. rewrite !skipn_length. lia.
  Qed.
  Lemma load_both n : forall m m' a lv lv' c, like_mem m m' -> like_len lv lv' -> both like_len (load_frame m a lv c n) (load_frame m' a lv' c n).
  Proof.
    induction n as [|n IH]; intros m m' a lv lv' c M L; cbn [load_frame]; [exact L|].
    eapply both_bind; [now apply mread_both|]. intros x y _. eapply both_bind; [now apply zset_both|]. intros; now apply IH.
  Qed.

  Definition like_pair (x y : mem * Z) : Prop := like_mem (fst x) (fst y) /\ snd x = snd y.
  Ltac step := eapply both_bind; [first [apply zget_both; assumption | apply mread_both; assumption | apply mwrite_both; assumption]|intros].

  Lemma zoh_last_both n : forall m m' lv lv' o g c, like_mem m m' -> like_len lv lv' ->
    both like_pair (zoh_emit_last m lv o g c n) (zoh_emit_last m' lv' o g c n).
  Proof.
    induction n as [|n IH]; intros m m' lv lv' o g c M L; cbn [zoh_emit_last]; [split; auto|]. step. step. apply both_same. intros. now apply IH.
  Qed.
  Lemma zoh_in_both n : forall m m' i f o g c, like_mem m m' -> both like_pair (zoh_emit_in m i f o g c n) (zoh_emit_in m' i f o g c n).
  Proof. induction n as [|n IH]; intros m m' i f o g c M; cbn [zoh_emit_in]; [split; auto|]. step. step. apply both_same. intros. now apply IH. Qed.
  Lemma lin_last_both n : forall m m' lv lv' i o x g c, like_mem m m' -> like_len lv lv' ->
    both like_pair (lin_emit_last m lv i o x g c n) (lin_emit_last m' lv' i o x g c n).
  Proof. induction n as [|n IH]; intros m m' lv lv' i o x g c M L; cbn [lin_emit_last]; [split; auto|]. do 3 step. apply both_same. intros. now apply IH. Qed.
  Lemma lin_in_both n : forall m m' i f u o x g c, like_mem m m' -> both like_pair (lin_emit_in m i f u o x g c n) (lin_emit_in m' i f u o x g c n).
  Proof. induction n as [|n IH]; intros m m' i f u o x g c M; cbn [lin_emit_in]; [split; auto|]. do 3 step. apply both_same. intros. now apply IH. Qed.

  Definition like1 (x y : mem * Z * f64 * f64) : Prop :=
    let '(m, a, b, c) := x in let '(m', a', b', c') := y in like_mem m m' /\ a = a' /\ b = b' /\ c = c'.
  Definition like2 (x y : mem * Z * Z * f64 * f64) : Prop :=
    let '(m, u, a, b, c) := x in let '(m', u', a', b', c') := y in like_mem m m' /\ u = u' /\ a = a' /\ b = b' /\ c = c'.

  Lemma zoh1_both : forall fuel ch o lr tg lv lv' iu ic oc m m' g x r, like_mem m m' -> like_len lv lv' ->
    both like1 (zoh_loop1 fuel ch o lr tg lv iu ic oc m g x r) (zoh_loop1 fuel ch o lr tg lv' iu ic oc m' g x r).
  Proof.
    induction fuel as [|fuel IH]; intros ch o lr tg lv lv' iu ic oc m m' g x r M L; cbn [zoh_loop1]; [apply both_fault|].
    destruct (_ && _); [|cbn; auto]. destruct (dge _ _); [cbn; auto|].
    eapply both_bind; [apply zoh_last_both; eassumption|]. intros [a b] [a' b'] [H H']. cbn [fst snd] in *. subst b'. now apply IH.
  Qed.
  Lemma zoh2_both : forall fuel ch i o lr tg ic oc m m' u g x r, like_mem m m' ->
    both like2 (zoh_loop2 fuel ch i o lr tg ic oc m u g x r) (zoh_loop2 fuel ch i o lr tg ic oc m' u g x r).
  Proof.
    induction fuel as [|fuel IH]; intros ch i o lr tg ic oc m m' u g x r M; cbn [zoh_loop2]; [apply both_fault|].
    destruct (_ && _); [|cbn; auto]. apply both_same. intros off.
    eapply both_bind; [apply zoh_in_both; eassumption|]. intros [a b] [a' b'] [H H']. cbn [fst snd] in *. subst b'.
    apply both_same. intros [iu idx]. now apply IH.
  Qed.
  Lemma lin1_both : forall fuel ch i o lr tg lv lv' iu ic oc m m' g x r, like_mem m m' -> like_len lv lv' ->
    both like1 (lin_loop1 fuel ch i o lr tg lv iu ic oc m g x r) (lin_loop1 fuel ch i o lr tg lv' iu ic oc m' g x r).
  Proof.
    induction fuel as [|fuel IH]; intros ch i o lr tg lv lv' iu ic oc m m' g x r M L; cbn [lin_loop1]; [apply both_fault|].
    destruct (_ && _); [|cbn; auto]. destruct (dge _ _); [cbn; auto|].
    eapply both_bind; [apply lin_last_both; eassumption|]. intros [a b] [a' b'] [H H']. cbn [fst snd] in *. subst b'. now apply IH.
  Qed.
  Lemma lin2_both : forall fuel ch i o lr tg ic oc m m' u g x r, like_mem m m' ->
    both like2 (lin_loop2 fuel ch i o lr tg ic oc m u g x r) (lin_loop2 fuel ch i o lr tg ic oc m' u g x r).
  Proof.
    induction fuel as [|fuel IH]; intros ch i o lr tg ic oc m m' u g x r M; cbn [lin_loop2]; [apply both_fault|].
    destruct (_ && _); [|cbn; auto]. apply both_same. intros off.
    eapply both_bind; [apply lin_in_both; eassumption|]. intros [a b] [a' b'] [H H']. cbn [fst snd] in *. subst b'.
    apply both_same. intros [iu idx]. now apply IH.
  Qed.

  (** ** Converters *)
  Definition like_priv (p p' : priv_ptr) : Prop :=
    match p, p' with
    | P_null, P_null => True
    | P_hold h, P_hold h' => exists lv, h' = mkHold (h_dirty h) (h_in_count h) (h_in_used h) (h_out_count h) (h_out_gen h) lv /\ like_len (h_last_value h) lv
    | P_sinc s, P_sinc s' => like s s'
    | _, _ => False
    end.
  Definition alike (st st' : SRC_STATE) : Prop := exists p, st' = set_priv st p /\ like_priv (st_priv st) p.
  Definition alike_reply (x y : proc_result) : Prop :=
    let '(e, st, d, m) := x in let '(e', st', d', m') := y in e = e' /\ alike st st' /\ d = d' /\ like_mem m m'.

  Lemma alike_refl st : alike st st.
  Proof.
    exists (st_priv st). split; [now destruct st|]. destruct (st_priv st) as [|h|s]; cbn; [exact I| |apply like_refl].
    exists (h_last_value h). split; [now destruct h|reflexivity].
  Qed.
  Lemma alike_hold st h h' : like_priv (P_hold h) (P_hold h') -> alike (set_priv st (P_hold h)) (set_priv st (P_hold h')).
  Proof. exists (P_hold h'). auto. Qed.

  Lemma zoh_both st st' d m m' : alike st st' -> like_mem m m' -> both alike_reply (zoh_vari_process st d m) (zoh_vari_process st' d m').
  Proof.
    intros A M. assert (A0 := A). destruct A as (p & -> & L). unfold zoh_vari_process.
    cbn [set_priv st_priv st_channels st_last_ratio st_last_position].
    destruct (input_frames d <=? 0); [cbn; auto|].
    destruct (st_priv st) as [|h|s], p as [|h'|s']; cbn [like_priv] in L; try contradiction; [cbn; auto| |apply both_fault].
    destruct L as (lv0 & -> & L). cbn [h_dirty h_last_value].
    eapply (both_bind strict like_len).
    { destruct (h_dirty h); [exact L|now apply load_both]. }
    intros lv lv' Llv. apply both_same. intros ic. apply both_same. intros oc.
    destruct (is_bad_src_ratio _).
    { cbn. split; [reflexivity|]. split; [|auto]. exists (P_hold (mkHold true ic 0 oc 0 lv')). split; [reflexivity|]. exists lv'. auto. }
    eapply both_bind; [now apply zoh1_both|]. intros [[[m1 a] b] c] [[[m1' a'] b'] c'] (M1 & -> & -> & ->).
    apply both_same. intros [iu1 i1]. eapply both_bind; [now apply zoh2_both|].
    intros [[[[m2 u2] a2] b2] c2] [[[[m2' u2'] a2'] b2'] c2'] (M2 & -> & -> & -> & ->).
    apply both_same. intros [iu3 i3].
    eapply (both_bind strict like_len).
    { destruct (0 <? iu3); [|exact Llv]. apply both_same. intros off. now apply load_both. }
    intros w w' Lw. apply both_same. intros used. apply both_same. intros gen. cbn. split; [reflexivity|]. split; [|auto].
    eexists (P_hold _). split; [reflexivity|]. exists w'. auto.
  Qed.
  Lemma lin_both st st' d m m' : alike st st' -> like_mem m m' -> both alike_reply (linear_vari_process st d m) (linear_vari_process st' d m').
  Proof.
    intros A M. assert (A0 := A). destruct A as (p & -> & L). unfold linear_vari_process.
    cbn [set_priv st_priv st_channels st_last_ratio st_last_position].
    destruct (input_frames d <=? 0); [cbn; auto|].
    destruct (st_priv st) as [|h|s], p as [|h'|s']; cbn [like_priv] in L; try contradiction; [cbn; auto| |apply both_fault].
    destruct L as (lv0 & -> & L). cbn [h_dirty h_last_value].
    eapply (both_bind strict like_len).
    { destruct (h_dirty h); [exact L|now apply load_both]. }
    intros lv lv' Llv. apply both_same. intros ic. apply both_same. intros oc.
    destruct (is_bad_src_ratio _).
    { cbn. split; [reflexivity|]. split; [|auto]. exists (P_hold (mkHold true ic 0 oc 0 lv')). split; [reflexivity|]. exists lv'. auto. }
    eapply both_bind; [now apply lin1_both|]. intros [[[m1 a] b] c] [[[m1' a'] b'] c'] (M1 & -> & -> & ->).
    apply both_same. intros [iu1 i1]. eapply both_bind; [now apply lin2_both|].
    intros [[[[m2 u2] a2] b2] c2] [[[[m2' u2'] a2'] b2'] c2'] (M2 & -> & -> & -> & ->).
    apply both_same. intros [iu3 i3].
    eapply (both_bind strict like_len).
    { destruct (0 <? iu3); [|exact Llv]. apply both_same. intros off. now apply load_both. }
    intros w w' Lw. apply both_same. intros used. apply both_same. intros gen. cbn. split; [reflexivity|]. split; [|auto].
    eexists (P_hold _). split; [reflexivity|]. exists w'. auto.
  Qed.
  Lemma sinc_both mono nch st st' d m m' : alike st st' -> like_mem m m' -> both alike_reply (sinc_process mono nch st d m) (sinc_process mono nch st' d m').
  Proof.
    intros A M. assert (A0 := A). destruct A as (p & -> & L).
    destruct (st_priv st) as [|h|s] eqn:E, p as [|h'|s']; cbn [like_priv] in L; try contradiction.
    - unfold sinc_process. rewrite E. cbn. auto.
    - unfold sinc_process. rewrite E. apply both_fault.
    - assert (Q : SincAlike.both strict (like_reply strict) (sinc_process mono nch st d m) (sinc_process mono nch (set_priv st (P_sinc s')) d m')).
      { apply process_both; [|exact M]. exists s, s'. auto. }
      revert Q. destruct (sinc_process mono nch st d m) as [[[[e1 st1] d1] m1]|], (sinc_process mono nch (set_priv st (P_sinc s')) d m') as [[[[e2 st2] d2] m2]|]; cbn; auto.
      intros (-> & (x & x' & Q1 & -> & Q2) & -> & Q3). split; [reflexivity|]. split; [|auto]. exists (P_sinc x'). rewrite Q1. auto.
  Qed.

  Lemma vt_both st st' d m m' : alike st st' -> like_mem m m' -> both alike_reply (vt_process st d m) (vt_process st' d m').
  Proof.
    intros A M. unfold vt_process. assert (E : st_vt st' = st_vt st) by (destruct A as (p & -> & _); reflexivity).
    assert (Ec : st_channels st' = st_channels st) by (destruct A as (p & -> & _); reflexivity).
    rewrite E. destruct (st_vt st); [now apply zoh_both|now apply lin_both|rewrite !mono_copy|rewrite !stereo_copy|rewrite !quad_copy
      |rewrite !hex_copy|rewrite !multichan_copy, Ec]; now apply sinc_both.
  Qed.
  Lemma reset_both st st' : alike st st' -> both alike (vt_reset st) (vt_reset st').
  Proof.
    intros A. assert (A0 := A). destruct A as (p & -> & L). unfold vt_reset. cbn [set_priv st_vt].
    assert (H : both alike (hold_reset st) (hold_reset (set_priv st p))).
    { unfold hold_reset. cbn [set_priv st_priv st_channels].
      destruct (st_priv st) as [|h|s] eqn:E, p as [|h'|s']; cbn [like_priv] in L; try contradiction; [exact A0| |apply both_fault].
      destruct L as (lv & -> & L). cbn [h_last_value]. eapply both_bind; [apply blit_both; [exact L|reflexivity]|].
      intros w w' Lw. eexists (P_hold _). split; [reflexivity|]. exists w'. auto. }
    assert (S : both alike (sinc_reset st) (sinc_reset (set_priv st p))).
    { unfold sinc_reset. cbn [set_priv st_priv st_channels].
      destruct (st_priv st) as [|h|s] eqn:E, p as [|h'|s']; cbn [like_priv] in L; try contradiction; [exact A0|apply both_fault|].
      destruct L as (b & -> & L). apply (both_bind strict like).
      - unfold sinc_reset_priv. cbn [with_buf s_buffer s_b_len].
        eapply both_bind; [apply blit_both; [exact L|reflexivity]|]. intros w w' Lw.
        eapply both_bind; [apply blit_both; [exact Lw|reflexivity]|]. intros v v' Lv. exists v'. auto.
      - intros x x' Lx. exists (P_sinc x'). auto. }
    destruct (st_vt st); assumption.
  Qed.

  Definition alike_call (x y : Z * option SRC_STATE * option SRC_DATA * mem) : Prop :=
    let '(e, so, d, m) := x in let '(e', so', d', m') := y in e = e' /\ d = d' /\ like_mem m m' /\
    match so, so' with Some st, Some st' => alike st st' | _, _ => False end.
  Lemma call_both st st' d m m' : alike st st' -> like_mem m m' -> both alike_call (src_process (Some st) d m) (src_process (Some st') d m').
  Proof.
    intros A M. unfold src_process.
    assert (E : st_mode st' = st_mode st /\ st_channels st' = st_channels st /\ st_last_ratio st' = st_last_ratio st) by (destruct A as (p & -> & _); auto).
    destruct E as (-> & -> & Er). destruct (negb _); [cbn; auto|]. destruct d as [d|]; [|cbn; auto].
    destruct (_ || _); [cbn; auto|]. destruct (is_bad_src_ratio _); [cbn; auto|].
    apply both_same. intros [|]; [cbn; auto|]. rewrite Er.
    set (st1 := if dlt (st_last_ratio st) _ then _ else st). set (st1' := if dlt (st_last_ratio st) _ then _ else st').
    assert (A1 : alike st1 st1').
    { unfold st1, st1'. destruct (dlt _ _); [|exact A]. destruct A as (p & -> & L). exists p. auto. }
    assert (Er1 : st_last_ratio st1' = st_last_ratio st1) by (destruct A1 as (p & -> & _); reflexivity). rewrite Er1.
    eapply (both_bind strict alike_reply).
    - destruct (dlt (dabs _) _); now apply vt_both.
    - intros [[[e s2] d2] m2] [[[e' s2'] d2'] m2'] (-> & A2 & -> & M2). cbn. auto.
  Qed.

End Data.

(** ** Histories *)
Lemma strictly m m' : like_mem True m m' <-> same_places m m'.
Proof. unfold like_mem, same_places. tauto. Qed.
Notation both_ := (both True).

Section Hist.
  Variables (CS : Type) (cb cb' : callback_t CS) (dummy : Z).
  Definition supplies (st : SRC_STATE) : Prop := st_mode st = MODE_PROCESS \/ same_supply cb cb'.

  Definition like_run (x y : loop_result CS) : Prop :=
    let '(e, st, d, g, cs, m) := x in let '(e', st', d', g', cs', m') := y in
    (e, d, g, cs) = (e', d', g', cs') /\ alike st st' /\ same_places m m'.

  Lemma fetch_both st st' d cs m m' : same_supply cb cb' -> alike st st' -> same_places m m' ->
    let '(d1, cs1, m1) := cb_fetch CS cb dummy st d cs m in let '(d1', cs1', m1') := cb_fetch CS cb' dummy st' d cs m' in
    (d1, cs1) = (d1', cs1') /\ same_places m1 m1'.
  Proof.
    intros S A M. unfold cb_fetch. assert (E : st_callback st' = st_callback st /\ st_user_data st' = st_user_data st) by (destruct A as (p & -> & _); auto).
    destruct E as [-> ->]. destruct (input_frames d =? 0); [|auto]. specialize (S (st_callback st) (st_user_data st) cs m m' M).
    destruct (cb _ _ _ _) as [[[cs1 m1] p] n], (cb' _ _ _ _) as [[[cs1' m1'] p'] n']. destruct S as [S1 S2]. injection S1 as -> -> ->. auto.
  Qed.

  Lemma alike_set_mode st st' md : alike st st' -> alike (set_mode st md) (set_mode st' md).
  Proof. intros (p & -> & L). exists p. auto. Qed.
  Lemma alike_set_error st st' e : alike st st' -> alike (set_error st e) (set_error st' e).
  Proof. intros (p & -> & L). exists p. auto. Qed.
  Lemma alike_set_ratio st st' r : alike st st' -> alike (set_ratio st r) (set_ratio st' r).
  Proof. intros (p & -> & L). exists p. auto. Qed.

  Lemma cb_loop_both : same_supply cb cb' -> forall fuel frames st st' d g cs m m', alike st st' -> same_places m m' ->
    both_ like_run (cb_loop CS cb dummy fuel frames st d g cs m) (cb_loop CS cb' dummy fuel frames st' d g cs m').
  Proof.
    intros S. induction fuel as [|fuel IH]; intros frames st st' d g cs m m' A M; cbn [cb_loop]; [apply both_fault|].
    destruct (g <? frames); [|cbn; auto].
    assert (F := fetch_both st st' d cs m m' S A M). destruct (cb_fetch _ _ _ st _ _ _) as [[d1 cs1] m1], (cb_fetch _ _ _ st' _ _ _) as [[d1' cs1'] m1'].
    destruct F as [F1 F2]. injection F1 as -> ->. apply (proj2 (strictly _ _)) in F2.
    eapply both_bind; [apply call_both; [apply alike_set_mode; exact A|exact F2]|].
    intros [[[e so] d2] m2] [[[e' so'] d2'] m2'] (-> & -> & M2 & A2). apply (proj1 (strictly _ _)) in M2.
    destruct so as [st2|], so' as [st2'|]; try contradiction. destruct d2' as [d2|]; [|apply both_fault].
    assert (A3 := alike_set_mode _ _ MODE_CALLBACK A2).
    destruct (negb _); [cbn; auto|].
    replace (st_channels (set_mode st2' MODE_CALLBACK)) with (st_channels (set_mode st2 MODE_CALLBACK)) by (destruct A2 as (p & -> & _); reflexivity).
    do 5 (apply both_same; intros). destruct (_ && _); [cbn; auto|]. now apply IH.
  Qed.

  Lemma read_both fuel st st' ratio frames data cs m m' : supplies st -> alike st st' -> same_places m m' ->
    both_ (fun x y => let '(n, so, c, m1) := x in let '(n', so', c', m1') := y in (n, c) = (n', c') /\ same_places m1 m1' /\
        match so, so' with Some s, Some s' => alike s s' | _, _ => False end)
      (src_callback_read CS cb dummy fuel (Some st) ratio frames data cs m) (src_callback_read CS cb' dummy fuel (Some st') ratio frames data cs m').
  Proof.
    intros S A M. unfold src_callback_read.
    assert (E : st_mode st' = st_mode st /\ st_callback st' = st_callback st /\ st_saved_data st' = st_saved_data st /\ st_saved_frames st' = st_saved_frames st)
      by (destruct A as (p & -> & _); auto). destruct E as (-> & -> & -> & ->).
    destruct (frames <=? 0); [cbn; auto|]. destruct (st_mode st) eqn:Em; [cbn; auto using alike_set_error|].
    destruct S as [S|S]; [congruence|].
    destruct (_ =? 0); [cbn; auto using alike_set_error|]. destruct (is_bad_src_ratio ratio); [cbn; auto using alike_set_error|].
    eapply both_bind; [now apply cb_loop_both|].
    intros [[[[[e st1] d1] g] cs1] m1] [[[[[e' st1'] d1'] g'] cs1'] m1'] (Q & A1 & M1). injection Q as -> -> -> ->.
    assert (A2 : alike (set_saved st1 (input_frames d1') (data_in d1')) (set_saved st1' (input_frames d1') (data_in d1')))
      by (destruct A1 as (p & -> & L); exists p; auto).
    destruct (negb _); cbn; auto using alike_set_error.
  Qed.

  Lemma step_both st st' c c' : supplies st -> alike st st' -> same_request c c' ->
    both_ (fun x y => same_reply (fst x) (fst y) /\ alike (snd x) (snd y)) (api_step CS cb dummy st c) (api_step CS cb' dummy st' c').
  Proof.
    intros S A R. destruct c as [d m|fuel ratio frames data cs m|ra| | |], c' as [d' m'|fuel' ratio' frames' data' cs' m'|ra'| | |];
      cbn [same_request] in R; try discriminate R; cbn [api_step].
    - destruct R as [<- R]. apply (proj2 (strictly _ _)) in R. eapply both_bind; [apply call_both; eassumption|].
      intros [[[e so] d2] m2] [[[e' so'] d2'] m2'] (-> & -> & M2 & A2). apply (proj1 (strictly _ _)) in M2.
      destruct so, so'; try contradiction. cbn. auto.
    - destruct R as [Q R]. injection Q as <- <- <- <- <-. eapply both_bind; [now apply read_both|].
      intros [[[n so] c] m2] [[[n' so'] c'] m2'] (Q & M2 & A2). injection Q as -> ->. destruct so, so'; try contradiction. cbn. auto.
    - injection R as <-. unfold src_set_ratio. destruct (is_bad_src_ratio ra); cbn; auto using alike_set_ratio.
    - unfold src_reset. assert (B := reset_both True st st' A). destruct (vt_reset st) as [s|f], (vt_reset st') as [s'|f']; cbn in *; try tauto. split; [reflexivity|].
      destruct B as (p & -> & L). exists p. auto.
    - cbn. split; [destruct A as (p & -> & _); reflexivity|exact A].
    - cbn. split; [destruct A as (p & -> & _); reflexivity|exact A].
  Qed.

  Lemma step_supplies st c r st' : supplies st -> api_step CS cb dummy st c = Ok (r, st') -> supplies st'.
  Proof. intros [S|S] E; [|now right]. left. apply step_kept in E. destruct E as [[_ _ K _ _ _] _]. congruence. Qed.

  Lemma run_both : forall cs cs' st st', supplies st -> alike st st' -> Forall2 same_request cs cs' ->
    both_ (fun x y => Forall2 same_reply (fst x) (fst y) /\ alike (snd x) (snd y)) (api_run CS cb dummy st cs) (api_run CS cb' dummy st' cs').
  Proof.
    induction cs as [|c cs IH]; intros cs' st st' S A F; inversion F as [|? c' ? cs1 R F1]; subst; cbn [api_run]; [cbn; auto|].
    assert (B := step_both st st' c c' S A R). destruct (api_step CS cb dummy st c) as [[r st1]|f] eqn:E, (api_step CS cb' dummy st' c') as [[r' st1']|f'];
      cbn [both] in B; try (exfalso; apply B; exact I).
    2: { cbn [bind]. exact B. }
    destruct B as [B1 B2]. cbn [fst snd] in *. cbn [bind]. eapply both_bind; [apply (IH _ st1 st1'); [exact (step_supplies _ _ _ _ S E)|exact B2|exact F1]|].
    intros [rs s2] [rs' s2'] [Q1 Q2]. cbn [fst snd] in *. cbn. auto.
  Qed.
End Hist.

Lemma both_outcome {CS} (x y : outcome (list (api_result CS) * SRC_STATE)) :
  both_ (fun x y => Forall2 same_reply (fst x) (fst y) /\ alike (snd x) (snd y)) x y -> same_outcome x y.
Proof. destruct x as [[rs s]|f], y as [[rs' s']|g]; cbn; tauto. Qed.

Lemma samples_do_not_steer CS (cb : callback_t CS) dummy st cs cs' : life MODE_PROCESS st -> Forall2 same_request cs cs' ->
  same_outcome (api_run CS cb dummy st cs) (api_run CS cb dummy st cs').
Proof. intros L F. apply both_outcome, run_both; [left; now apply life_facts in L|apply alike_refl|exact F]. Qed.
Lemma supplied_samples_do_not_steer CS (cb cb' : callback_t CS) dummy md st cs cs' : life md st -> same_supply cb cb' -> Forall2 same_request cs cs' ->
  same_outcome (api_run CS cb dummy st cs) (api_run CS cb' dummy st cs').
Proof. intros L S F. apply both_outcome, run_both; [now right|apply alike_refl|exact F]. Qed.
