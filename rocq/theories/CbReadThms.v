(** The statements about C29 in Properties_Callback. *)
From Coq Require Import ZArith Reals List Bool Lia.
From Flocq Require Import Core IEEE754.BinarySingleNaN.
From Verif Require Import Base Types Api Heap Callback ApiHist HoldSpec HoldFacts HoldMain HoldThms SincSpec SincApi SincCall SincHist SincStream SincMain SincThms CbSpec CbCore CbHold CbReadSpec CbTwin CbStream.
Import ListNotations.
Local Open Scope Z_scope.

Section Hold.
  Variables (ch : Z) (CS : Type) (cb : callback_t CS) (dummy : Z) (pool : Z -> Prop) (al : f64 -> Prop).
  Hypothesis Hfit : channels_fit ch.
  Hypothesis Hcb : proper CS cb dummy pool ch.
  Variables (cs0 : CS) (m0 : mem) (asked : list (f64 * Z + f64)) (out : list f32) (st0 st : SRC_STATE) (cs : CS) (rec : list (list f32)) (m : mem) (X : stream) (N : Z).
  Hypothesis Hx : begins ch X (concat rec) N.

  Lemma hold_stream kd : cb_created (type_of kd) ch st0 -> (kd = Lin -> big_blocks cb) ->
    reads _ (recorded CS cb dummy ch) dummy pool ch al (match kd with Lin => 1 | Zoh => 0 end) st0 (cs0, []) m0 asked out st (cs, rec) m ->
    exists T log T' o, created (type_of kd) ch T /\ streaming ch X al (lin_legal kd ch X) T 0 log out T' o /\ behind asked log /\
      o + st_saved_frames st = N /\ 0 <= st_saved_frames st * ch <= zlen (last rec []).
  Proof.
    intros C Hb R. destruct (hold_cb_new kd ch pool Hfit st0 C) as [G L].
    destruct C as (bld & orc & func & ud & h & c & h' & E & Es). destruct (cb_new_shape _ _ _ _ _ _ _ _ _ E) as (Nf & c0 & E0 & Ec).
    assert (C : created (type_of kd) ch (c_state c0)) by (exists bld, orc, h, c0, h'; auto).
    destruct (created_state kd ch _ C) as [_ Ek].
    assert (Sv : st_saved_frames st0 = 0) by (rewrite Es, Ec, Ek; reflexivity).
    assert (Tw : twins (c_state c0) (set_mode st0 MODE_PROCESS)) by (rewrite Es, Ec, Ek; reflexivity).
    destruct (reads_stream CS cb dummy pool ch (hold_good kd ch) (hold_faults kd) L (hg_ch kd ch) (hg_mode kd ch) (hg_saved kd ch) (hg_error kd ch) (hg_call kd ch) (hg_ratio kd ch) Hcb
      kd False (fun _ => True) X al Hb (fun f => match f with end) st0 cs0 m0 asked out st (cs, rec) m R G Sv (c_state c0) Tw) as (_ & P & A).
    destruct (A N) as [(log & tw & A0 & A1 & _) A2 A3 A4 A5]. { split; [exact Hx|intros []]. }
    exists (c_state c0), log, tw, (N - st_saved_frames st). split; [exact C|].
    split; [exact (run_streaming ch kd False X al _ _ _ _ _ A1)|]. split; [exact A0|]. split; [lia|]. cbn [snd] in A5. nia.
  Qed.
End Hold.

Lemma zoh_stream : forall ch CS (cb : callback_t CS) dummy pool al cs0 m0 asked out st0 st cs rec m X N, channels_fit ch -> proper CS cb dummy pool ch ->
  cb_created SRC_ZERO_ORDER_HOLD ch st0 -> reads _ (recorded CS cb dummy ch) dummy pool ch al 0 st0 (cs0, []) m0 asked out st (cs, rec) m ->
  begins ch X (concat rec) N ->
  exists T log T' o, created SRC_ZERO_ORDER_HOLD ch T /\ streaming ch X al (fun _ _ _ => True) T 0 log out T' o /\ behind asked log /\
    o + st_saved_frames st = N /\ 0 <= st_saved_frames st * ch <= zlen (last rec []).
Proof.
  intros ch CS cb dummy pool al cs0 m0 asked out st0 st cs rec m X N F P C R B.
  exact (hold_stream ch CS cb dummy pool al F P cs0 m0 asked out st0 st cs rec m X N B Zoh C (fun Q => match (eq_ind Zoh (fun k => match k with Zoh => True | Lin => False end) I Lin Q) with end) R).
Qed.
Lemma linear_stream : forall ch CS (cb : callback_t CS) dummy pool al cs0 m0 asked out st0 st cs rec m X N, channels_fit ch -> proper CS cb dummy pool ch ->
  big_blocks cb -> cb_created SRC_LINEAR ch st0 -> reads _ (recorded CS cb dummy ch) dummy pool ch al 1 st0 (cs0, []) m0 asked out st (cs, rec) m ->
  begins ch X (concat rec) N ->
  exists T log T' o, created SRC_LINEAR ch T /\ streaming ch X al (lin_legal Lin ch X) T 0 log out T' o /\ behind asked log /\
    o + st_saved_frames st = N /\ 0 <= st_saved_frames st * ch <= zlen (last rec []).
Proof.
  intros ch CS cb dummy pool al cs0 m0 asked out st0 st cs rec m X N F P Bb C R B.
  exact (hold_stream ch CS cb dummy pool al F P cs0 m0 asked out st0 st cs rec m X N B Lin C (fun _ => Bb) R).
Qed.

Lemma sinc_stream : forall t ch CS (cb : callback_t CS) dummy pool ended al cs0 m0 asked out st0 st cs rec m X N, table_fit t -> proper CS cb dummy pool ch ->
  marks_end CS cb ended -> stays_ended CS cb ended ->
  sinc_cb_new t ch st0 -> reads _ (recorded CS cb dummy ch) dummy pool ch al 0 st0 (cs0, []) m0 asked out st (cs, rec) m ->
  begins ch X (concat rec) N -> (ended cs -> forall i c, N <= i -> X i c = fzero) ->
  exists T log T' o, sinc_new t ch T /\ sinc_streaming ch X al T 0 log out T' o /\ behind asked log /\
    o + st_saved_frames st = N /\ 0 <= st_saved_frames st * ch <= zlen (last rec []).
Proof.
  intros [inc coeffs] ch CS cb dummy pool ended al cs0 m0 asked out st0 st cs rec m X N Ht Hcb Me Se C R Hx Hz.
  destruct (sinc_cb_state inc coeffs ch st0 pool Ht C) as [Hch G].
  destruct C as (bld & orc & func & ty & ud & h & c & h' & T & E & Es). destruct (cb_new_shape _ _ _ _ _ _ _ _ _ E) as (Nf & c0 & E0 & Ec).
  assert (C : sinc_new (inc, coeffs) ch (c_state c0)) by (exists bld, orc, ty, h, c0, h'; auto).
  destruct (sinc_new_state _ _ _ _ C) as (_ & b & Eb & Ek).
  assert (Sv : st_saved_frames st0 = 0) by (rewrite Es, Ec, Ek; reflexivity).
  assert (Tw : twins (c_state c0) (set_mode st0 MODE_PROCESS)) by (rewrite Es, Ec, Ek; reflexivity).
  destruct (reads_stream CS cb dummy pool ch (sinc_good inc coeffs ch) sinc_faults ltac:(lia) (sg_ch inc coeffs ch) (sg_mode inc coeffs ch)
    (sg_saved inc coeffs ch) (sg_error inc coeffs ch) (sg_call inc coeffs ch Ht Hch) (sg_ratio inc coeffs ch) Hcb
    Zoh True ended X al (fun Q => match (eq_ind Zoh (fun k => match k with Zoh => True | Lin => False end) I Lin Q) with end) (fun _ => conj Me Se)
    st0 cs0 m0 asked out st (cs, rec) m R G Sv (c_state c0) Tw) as (_ & P & A).
  destruct (A N) as [(log & tw & A0 & A1 & _) A2 A3 A4 A5]. { split; [exact Hx|intros _; exact Hz]. }
  exists (c_state c0), log, tw, (N - st_saved_frames st). split; [exact C|].
  split; [exact (run_sinc ch Zoh True X al _ _ _ _ _ I A1)|]. split; [exact A0|]. split; [lia|]. cbn [snd] in A5. nia.
Qed.

(** ** The output of the reads and that of src_process calls at the same ratio on the same stream *)
Lemma hold_agree kd ch X r st1 log1 out1 st1' o1 st2 log2 out2 st2' o2 : channels_fit ch -> in_range r ->
  at_start kd ch st1 -> at_start kd ch st2 ->
  streaming ch X (eq r) (lin_legal kd ch X) st1 0 log1 out1 st1' o1 ->
  streaming ch X (eq r) (lin_legal kd ch X) st2 0 log2 out2 st2' o2 -> agree out1 out2.
Proof.
  intros F R A1 A2 S1 S2. destruct (Z.le_ge_cases (total_gen log1) (total_gen log2)) as [L|L].
  - destruct kd.
    + destruct (thm_C23_zoh_same_prefix ch X r _ _ _ _ _ _ _ _ _ _ A1 A2 F R S1 S2 L) as [l ->]. exists l. auto.
    + destruct (thm_C24_linear_same_prefix_partial ch X r _ _ _ _ _ _ _ _ _ _ A1 A2 F R S1 S2 L) as [l ->]. exists l. auto.
  - destruct kd.
    + destruct (thm_C23_zoh_same_prefix ch X r _ _ _ _ _ _ _ _ _ _ A2 A1 F R S2 S1 L) as [l ->]. exists l. auto.
    + destruct (thm_C24_linear_same_prefix_partial ch X r _ _ _ _ _ _ _ _ _ _ A2 A1 F R S2 S1 L) as [l ->]. exists l. auto.
Qed.

Lemma zoh_same : forall ch CS (cb : callback_t CS) dummy pool r cs0 m0 asked out st0 st cs rec m X N T log out2 T' o, channels_fit ch -> proper CS cb dummy pool ch ->
  in_range r -> cb_created SRC_ZERO_ORDER_HOLD ch st0 -> reads _ (recorded CS cb dummy ch) dummy pool ch (eq r) 0 st0 (cs0, []) m0 asked out st (cs, rec) m ->
  begins ch X (concat rec) N -> at_start Zoh ch T -> streaming ch X (eq r) (fun _ _ _ => True) T 0 log out2 T' o -> agree out out2.
Proof.
  intros ch CS cb dummy pool r cs0 m0 asked out st0 st cs rec m X N T log out2 T' o F P Ir C R B A S.
  destruct (zoh_stream ch CS cb dummy pool (eq r) cs0 m0 asked out st0 st cs rec m X N F P C R B) as (T1 & log1 & T1' & o1 & C1 & S1 & _).
  exact (hold_agree Zoh ch X r _ _ _ _ _ _ _ _ _ _ F Ir (or_introl C1) A S1 S).
Qed.
Lemma linear_same : forall ch CS (cb : callback_t CS) dummy pool r cs0 m0 asked out st0 st cs rec m X N T log out2 T' o, channels_fit ch -> proper CS cb dummy pool ch ->
  big_blocks cb -> in_range r -> cb_created SRC_LINEAR ch st0 -> reads _ (recorded CS cb dummy ch) dummy pool ch (eq r) 1 st0 (cs0, []) m0 asked out st (cs, rec) m ->
  begins ch X (concat rec) N -> at_start Lin ch T -> streaming ch X (eq r) (lin_legal Lin ch X) T 0 log out2 T' o -> agree out out2.
Proof.
  intros ch CS cb dummy pool r cs0 m0 asked out st0 st cs rec m X N T log out2 T' o F P Bb Ir C R B A S.
  destruct (linear_stream ch CS cb dummy pool (eq r) cs0 m0 asked out st0 st cs rec m X N F P Bb C R B) as (T1 & log1 & T1' & o1 & C1 & S1 & _).
  exact (hold_agree Lin ch X r _ _ _ _ _ _ _ _ _ _ F Ir (or_introl C1) A S1 S).
Qed.
Lemma sinc_same : forall t ch CS (cb : callback_t CS) dummy pool ended r cs0 m0 asked out st0 st cs rec m X N T log out2 T' o, table_fit t -> proper CS cb dummy pool ch ->
  marks_end CS cb ended -> stays_ended CS cb ended -> in_range r ->
  sinc_cb_new t ch st0 -> reads _ (recorded CS cb dummy ch) dummy pool ch (eq r) 0 st0 (cs0, []) m0 asked out st (cs, rec) m ->
  begins ch X (concat rec) N -> (ended cs -> forall i c, N <= i -> X i c = fzero) -> (forall i c, i < 0 -> X i c = fzero) ->
  sinc_start t ch T -> sinc_streaming ch X (eq r) T 0 log out2 T' o -> agree out out2.
Proof.
  intros t ch CS cb dummy pool ended r cs0 m0 asked out st0 st cs rec m X N T log out2 T' o Ht P Me Se Ir C R B Z0 Z1 A S.
  destruct (sinc_stream t ch CS cb dummy pool ended (eq r) cs0 m0 asked out st0 st cs rec m X N Ht P Me Se C R B Z0) as (T1 & log1 & T1' & o1 & C1 & S1 & _).
  destruct t as [inc coeffs]. destruct (Z.le_ge_cases (total_gen log1) (total_gen log)) as [L|L].
  - destruct (sinc_same_prefix inc coeffs ch X r _ _ _ _ _ _ _ _ _ _ Ht (or_introl C1) A Z1 Ir S1 S L) as [l ->]. exists l. auto.
  - destruct (sinc_same_prefix inc coeffs ch X r _ _ _ _ _ _ _ _ _ _ Ht A (or_introl C1) Z1 Ir S S1 L) as [l ->]. exists l. auto.
Qed.
