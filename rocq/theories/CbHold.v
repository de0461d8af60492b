(** The callback interface with zero-order hold and linear, and with sinc: results of single reads. *)
From Coq Require Import ZArith Reals List Bool Lia Lra.
From Flocq Require Import Core IEEE754.BinarySingleNaN.
From Verif Require Import Base FloatFacts PosFacts Types Common Sinc Api Heap Callback ApiHist HoldSpec HoldFacts HoldCore HoldCall HoldProcess
  LinAny HoldMain LifeFacts SincSpec SincFacts SincCalc SincPrep SincLoop SincProcess SincCall SincApi SincHist CbSpec CbCore.
Import ListNotations.
Local Open Scope Z_scope.

Lemma cb_new_shape bld orc func ty ch ud h c h' : src_callback_new bld orc func ty ch ud h = Ok (0, Some c, h') ->
  func <> 0 /\ exists c0, src_new bld orc ty ch h = Ok (0, Some c0, h') /\ c_state c = set_callback (set_mode (c_state c0) MODE_CALLBACK) func ud.
Proof.
  intros E. destruct (Z.eq_dec func 0) as [->|Nf].
  { unfold src_callback_new in E. cbn in E. discriminate E. }
  split; [exact Nf|]. rewrite callback_new_ok in E by exact Nf. destruct (src_new bld orc ty ch h) as [[[e [c0|]] h1]|f]; try discriminate E.
  injection E as -> <- ->. exists c0. split; reflexivity.
Qed.

(** ** Zero-order hold and linear *)
Section Hold.
  Variables (kd : kind) (ch : Z) (CS : Type) (cb : callback_t CS) (dummy : Z) (pool : Z -> Prop).
  Hypothesis Hfit : channels_fit ch.
  Hypothesis Hcb : proper CS cb dummy pool ch.

  Definition hold_good (st : SRC_STATE) : Prop := hold_ok kd st /\ st_channels st = ch.
  Definition hold_faults (f : fault) : Prop := match kd with Zoh => False | Lin => f <> F_fuel end.

  Lemma hg_ch st : hold_good st -> st_channels st = ch. Proof. intros H; apply H. Qed.
  Lemma hg_mode st x : hold_good st -> hold_good (set_mode st x).
  Proof. intros H; exact H. Qed.
  Lemma hg_saved st x y : hold_good st -> hold_good (set_saved st x y).
  Proof. intros H; exact H. Qed.
  Lemma hg_error st x : hold_good st -> hold_good (set_error st x).
  Proof. intros H; exact H. Qed.
  Lemma hg_ratio st r : hold_good st -> is_nan r = false -> is_bad_src_ratio r = false -> hold_good (set_ratio st r).
  Proof.
    intros [H E] N B. destruct (set_ratio_ok kd st r H N) as (e & st' & Q & Ok' & _ & C). unfold src_set_ratio in Q. rewrite B in Q.
    injection Q as _ <-. split; [exact Ok'|congruence].
  Qed.
  Lemma hg_reset st : hold_good st -> exists st', src_reset (Some st) = Ok (0, Some st') /\ hold_good st' /\
    st_mode st' = st_mode st /\ st_callback st' = st_callback st.
  Proof.
    intros [H E]. destruct (hold_reset_ok kd st H) as (st' & Q & Ok' & M & C & _). exists st'. split; [exact Q|].
    split; [split; [exact Ok'|congruence]|]. split; [exact M|]. unfold src_reset in Q.
    destruct (vt_reset st) as [s|] eqn:V; [|discriminate Q]. cbn [bind] in Q. injection Q as <-. cbn.
    unfold vt_reset in V. rewrite (proj1 H) in V. assert (W : hold_reset st = Ok s) by (destruct kd; exact V).
    unfold hold_reset in W. destruct (st_priv st) as [|hd|sd]; try discriminate W.
    - injection W as <-. reflexivity.
    - destruct (blit _ _ _) as [l|]; [|discriminate W]. injection W as <-. reflexivity.
  Qed.
  Lemma hg_call st d m : hold_good st -> st_mode st = MODE_PROCESS -> valid_call ch d m ->
    (exists f, src_process (Some st) (Some d) m = Fault f /\ hold_faults f) \/
    (exists e st' d' m', src_process (Some st) (Some d) m = Ok (e, Some st', Some d', m') /\ truthful_reply ch d m e d' m' /\ hold_good st').
  Proof.
    intros [H E] Hm V. rewrite <- E in V. destruct (hold_any kd st d m H Hm V) as [A B].
    destruct (src_process (Some st) (Some d) m) as [[[[e st'] d'] m']|f] eqn:Q.
    - right. destruct (hold_shape kd st d m e st' d' m' H Hm V Q) as (s & d1 & -> & ->).
      destruct (B _ _ _ _ eq_refl) as (R & O & S & _). exists e, s, d1, m'. split; [reflexivity|]. rewrite E in R.
      split; [left; exact R|]. split; [exact O|]. destruct S as (_ & _ & S & _). congruence.
    - left. exists f. split; [reflexivity|]. unfold hold_faults. destruct kd; [|intros ->; now apply A].
      destruct (process_honest Zoh st d m H Hm V I) as (st' & d' & m' & Q' & _). congruence.
  Qed.

  Definition hold_mu (st : SRC_STATE) : Z := fst (split_pos (st_last_position st)).
  Lemma hg_drains : drains ch hold_good hold_mu 257.
  Proof.
    split; [reflexivity|]. split.
    - intros st [H _]. apply split_lt258; apply H.
    - intros st d m st' d' m' [H E] Hm V Q. rewrite <- E in V. destruct (proj2 (hold_any kd st d m H Hm V) _ _ _ _ Q) as (_ & _ & _ & _ & P1 & P2).
      split; [exact P1|]. intros G. specialize (P2 G). unfold hold_mu. lia.
  Qed.

  Lemma hold_cb_new st : cb_created (type_of kd) ch st -> cb_good pool ch hold_good st /\ 0 < ch.
  Proof.
    intros (bld & orc & func & ud & h & c & h' & E & ->). destruct (cb_new_shape _ _ _ _ _ _ _ _ _ E) as (Nf & c0 & E0 & ->).
    assert (C : created (type_of kd) ch (c_state c0)) by (exists bld, orc, h, c0, h'; auto).
    destruct (created_state kd ch _ C) as [L Es]. destruct (created_fresh kd ch _ C Hfit) as [K Kc _ _ _ _].
    split; [|exact L]. split; [split; [exact K|exact Kc]|]. split; [reflexivity|]. split; [exact Nf|].
    rewrite Es. cbn. split; [lia|left; lia].
  Qed.
  Lemma hold_cb_after st : cb_after CS cb dummy (cb_created (type_of kd) ch) pool ch st -> cb_good pool ch hold_good st /\ 0 < ch.
  Proof.
    intros (st0 & cs & rs & C & V & E). destruct (hold_cb_new st0 C) as [G L]. split; [|exact L].
    destruct (cb_run CS cb dummy pool ch hold_good hold_faults L hg_ch hg_mode hg_saved hg_error hg_call Hcb hg_ratio hg_reset cs st0 G V)
      as [(rs' & st' & E' & G')|(f & E' & _)]; rewrite E in E'; [|discriminate E']. injection E' as _ <-. exact G'.
  Qed.

  Lemma hold_read st ratio frames data cs m fuel : cb_after CS cb dummy (cb_created (type_of kd) ch) pool ch st ->
    legal_read pool ch ratio frames data m ->
    match src_callback_read CS cb dummy fuel (Some st) ratio frames data cs m with
    | Ok (n, st', cs', m') => exists s, st' = Some s /\ read_ok CS cb ch ratio frames data st m n s cs' m'
    | Fault f => hold_faults f \/ (f = F_fuel /\ (nonnegative CS cb -> Z.of_nat fuel <= 259 * frames + 258))
    end.
  Proof.
    intros A Lg. destruct (hold_cb_after st A) as [G L].
    destruct (read_plain CS cb dummy pool ch hold_good hold_faults L hg_ch hg_mode hg_saved hg_error hg_call Hcb hold_mu 257 st ratio frames data cs m fuel G Lg)
      as [(n & st' & cs' & m' & E & _ & R)|(f & E & [Af|[Ef Of]])]; rewrite E.
    - exists st'. auto.
    - now left.
    - right. split; [exact Ef|]. intros Nn. specialize (Of hg_drains Nn). lia.
  Qed.
End Hold.

(** ** Sinc *)
Section Sinc.
  Variables (inc : Z) (coeffs : list f32) (ch : Z) (CS : Type) (cb : callback_t CS) (dummy : Z) (pool : Z -> Prop).
  Hypothesis Ht : table_fit (inc, coeffs).
  Hypothesis Hch : 1 <= ch <= 128.
  Hypothesis Hcb : proper CS cb dummy pool ch.

  Definition sinc_good (st : SRC_STATE) : Prop := exists X base ph s, sinc_ok inc coeffs ch X base ph s st /\ 0 <= base + end_of ph.
  Definition sinc_faults (f : fault) : Prop := f <> F_fuel.

  Lemma sg_ch st : sinc_good st -> st_channels st = ch. Proof. intros (X & base & ph & s & H & _). apply H. Qed.
  Ltac same := intros (X & base & ph & s & H & O); exists X, base, ph, s; split; [destruct H; constructor; assumption|exact O].
  Lemma sg_mode st x : sinc_good st -> sinc_good (set_mode st x). Proof. same. Qed.
  Lemma sg_saved st x y : sinc_good st -> sinc_good (set_saved st x y). Proof. same. Qed.
  Lemma sg_error st x : sinc_good st -> sinc_good (set_error st x). Proof. same. Qed.
  Lemma sg_ratio st r : sinc_good st -> is_nan r = false -> is_bad_src_ratio r = false -> sinc_good (set_ratio st r).
  Proof.
    intros (X & base & ph & s & H & O) N B. exists X, base, ph, s. split; [|exact O]. apply is_bad_src_ratio_spec in B.
    destruct B as [B|B]; [congruence|]. destruct H; constructor; auto.
  Qed.
  Lemma sg_reset st : sinc_good st -> exists st', src_reset (Some st) = Ok (0, Some st') /\ sinc_good st' /\
    st_mode st' = st_mode st /\ st_callback st' = st_callback st.
  Proof.
    intros (X & base & ph & s & H & O). destruct (sinc_reset_call inc coeffs ch Ht Hch X base ph s st H) as (st' & s' & E & Ok' & M' & _).
    exists st'. split; [exact E|]. split; [exists silence, 0, Fresh, s'; split; [exact Ok'|cbn; lia]|]. split; [exact M'|].
    unfold src_reset in E. destruct (vt_reset st) as [q|] eqn:V; [|discriminate E]. cbn [bind] in E. injection E as <-. cbn.
    assert (W : sinc_reset st = Ok q).
    { unfold vt_reset in V. rewrite (so_vt _ _ _ _ _ _ _ _ H) in V. unfold sinc_vt in V.
      destruct (ch =? 1), (ch =? 2), (ch =? 4), (ch =? 6); exact V. }
    unfold sinc_reset in W. rewrite (so_priv _ _ _ _ _ _ _ _ H) in W.
    repeat match type of W with bind ?e _ = Ok _ => destruct e; [cbn [bind] in W|discriminate W] end.
    injection W as <-. reflexivity.
  Qed.
  Lemma sg_call st d m : sinc_good st -> st_mode st = MODE_PROCESS -> valid_call ch d m ->
    (exists f, src_process (Some st) (Some d) m = Fault f /\ sinc_faults f) \/
    (exists e st' d' m', src_process (Some st) (Some d) m = Ok (e, Some st', Some d', m') /\ truthful_reply ch d m e d' m' /\ sinc_good st').
  Proof.
    intros (X & base & ph & s & H & O) Hm V.
    destruct (sinc_any_call inc coeffs ch Ht Hch X base ph s st d m H O Hm V) as [(f & E & Nf & Ns)|R]; [left; eauto|right].
    destruct R as (X' & e & used & k & base' & ph' & s' & st' & d' & m' & dep & E & R). exists e, st', d', m'. split; [exact E|].
    split; [exact (reply_truthful inc coeffs ch Hch _ _ _ _ _ _ _ _ _ _ _ _ _ _ _ _ _ V R)|]. exists X', base', ph', s'.
    split; [exact (re_ok _ _ _ _ _ _ _ _ _ _ _ _ _ _ _ _ _ _ _ _ R)|].
    assert (Nx := re_next _ _ _ _ _ _ _ _ _ _ _ _ _ _ _ _ _ _ _ _ R). assert (Us := re_used _ _ _ _ _ _ _ _ _ _ _ _ _ _ _ _ _ _ _ _ R). lia.
  Qed.
End Sinc.

Lemma sinc_cb_state inc coeffs ch st pool : table_fit (inc, coeffs) -> sinc_cb_new (inc, coeffs) ch st ->
  1 <= ch <= 128 /\ cb_good pool ch (sinc_good inc coeffs ch) st.
Proof.
  intros Ht (bld & orc & func & ty & ud & h & c & h' & T & E & ->). destruct (cb_new_shape _ _ _ _ _ _ _ _ _ E) as (Nf & c0 & E0 & ->).
  assert (C : sinc_new (inc, coeffs) ch (c_state c0)) by (exists bld, orc, ty, h, c0, h'; auto).
  destruct (sinc_new_state _ _ _ _ C) as (Hch & b & Eb & Es). split; [exact Hch|].
  destruct (sinc_created inc coeffs ch Ht Hch b Eb) as (s & Ok' & _). rewrite <- Es in Ok'.
  split; [exists silence, 0, Fresh, s; split; [destruct Ok'; constructor; assumption|cbn; lia]|]. split; [reflexivity|]. split; [exact Nf|].
  rewrite Es. cbn. split; [lia|left; lia].
Qed.

Lemma sinc_cb_after t ch CS (cb : callback_t CS) dummy pool st : table_fit t -> proper CS cb dummy pool ch ->
  cb_after CS cb dummy (sinc_cb_new t ch) pool ch st ->
  1 <= ch <= 128 /\ cb_good pool ch (sinc_good (fst t) (snd t) ch) st.
Proof.
  intros Ht Hcb (st0 & cs & rs & C & V & E). destruct t as [inc coeffs]. destruct (sinc_cb_state inc coeffs ch st0 pool Ht C) as [Hch G]. split; [exact Hch|].
  cbn [fst snd].
  destruct (cb_run CS cb dummy pool ch (sinc_good inc coeffs ch) sinc_faults ltac:(lia) (sg_ch inc coeffs ch) (sg_mode inc coeffs ch)
    (sg_saved inc coeffs ch) (sg_error inc coeffs ch) (sg_call inc coeffs ch Ht Hch) Hcb (sg_ratio inc coeffs ch) (sg_reset inc coeffs ch Ht Hch) cs st0 G V)
    as [(rs' & st' & E' & G')|(f & E' & _)]; rewrite E in E'; [|discriminate E']. injection E' as _ <-. exact G'.
Qed.

Lemma sinc_read t ch CS (cb : callback_t CS) dummy pool st ratio frames data cs m fuel n st' cs' m' : table_fit t -> proper CS cb dummy pool ch ->
  cb_after CS cb dummy (sinc_cb_new t ch) pool ch st -> legal_read pool ch ratio frames data m ->
  src_callback_read CS cb dummy fuel (Some st) ratio frames data cs m = Ok (n, st', cs', m') ->
  exists s, st' = Some s /\ read_ok CS cb ch ratio frames data st m n s cs' m'.
Proof.
  intros Ht Hcb A Lg E. destruct (sinc_cb_after t ch CS cb dummy pool st Ht Hcb A) as [Hch G]. destruct t as [inc coeffs]. cbn [fst snd] in G.
  destruct (read_plain CS cb dummy pool ch (sinc_good inc coeffs ch) sinc_faults ltac:(lia) (sg_ch inc coeffs ch) (sg_mode inc coeffs ch)
    (sg_saved inc coeffs ch) (sg_error inc coeffs ch) (sg_call inc coeffs ch Ht Hch) Hcb (fun _ => 0) 0 st ratio frames data cs m fuel G Lg)
    as [(n1 & st1 & cs1 & m1 & E1 & _ & R)|(f & E1 & _)]; rewrite E in E1; [|discriminate E1].
  injection E1 as -> -> -> ->. eauto.
Qed.
