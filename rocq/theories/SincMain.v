(** Theorems about streams through sinc converters at varying ratios. *)
From Coq Require Import ZArith Reals List Bool Lia Lra.
From Flocq Require Import Core IEEE754.BinarySingleNaN.
From Verif Require Import Base FloatFacts PosFacts Types Common Sinc Api Heap Callback ApiHist HoldSpec HoldFacts HoldRamp HoldCore
  HoldProcess HoldStream LifeSpec ErrFacts ProcFacts HeapFacts LifeFacts SincSpec SincFacts SincCalc SincPrep SincLoop SincProcess SincCall
  SincApi SincHist SincStream.
Import ListNotations.
Local Open Scope Z_scope.

(** How far the ramp is from the straight line. *)
Lemma sinc_ramp_close last new ch frames (k : nat) : good_ratio last -> good_ratio new ->
  0 < ch -> Z.of_nat k < frames -> frames * ch <= 2 ^ 50 ->
  (Rabs (B2R (sinc_ramp last new ch frames k) - (B2R last + IZR (Z.of_nat k) * (B2R new - B2R last) / IZR frames)) <= / IZR (2 ^ 33))%R.
Proof.
  intros G1 G2 Hc Hk Hf. assert (F0 : (0 < IZR frames)%R) by (apply IZR_lt; lia). assert (C0 : (0 < IZR ch)%R) by (apply IZR_lt; lia).
  assert (K0 : (0 <= IZR (Z.of_nat k) <= IZR frames)%R) by (split; apply IZR_le; lia).
  unfold sinc_ramp.
  assert (A : (Rabs (val last - val new) <= 1024)%R).
  { apply Rle_trans with 256%R; [|lra]. destruct G1, G2. apply Rabs_le. lra. }
  destruct (dsub_val last new (proj1 G1) (proj1 G2) (le1000 _ A)) as [V F].
  assert (Fa : fin (dabs (dsub last new))) by (unfold fin, dabs; rewrite is_finite_Babs; exact F).
  assert (Va : val (dabs (dsub last new)) = Rabs (rnd64 (val last - val new))).
  { unfold dabs. rewrite B2R_Babs. now rewrite V. }
  change (Bdiv mode_NE (d_of_Z 1) (d_of_Z 10000000000)) with (lit_1em 10) in *.
  change (Babs (Bminus mode_NE last new)) with (dabs (dsub last new)) in *.
  change (Bleb (dabs (dsub last new)) (lit_1em 10)) with (dle (dabs (dsub last new)) (lit_1em 10)) in *.
  assert (F10 : fin (lit_1em 10)) by reflexivity.
  rewrite dle_spec by assumption.
  destruct (Rle_bool_spec (val (dabs (dsub last new))) (val (lit_1em 10))) as [L|L].
  - assert (D : (Rabs (val last - val new) <= / IZR (2 ^ 33))%R).
    { destruct (Rle_or_lt (Rabs (val last - val new)) (/ IZR (2 ^ 33))) as [Q|Q]; [exact Q|exfalso].
      rewrite Va in L. unfold rnd64 in L. rewrite <- round_NE_abs in L by typeclasses eauto. fold (rnd64 (Rabs (val last - val new))) in L.
      assert (M : (rnd64 (bpow radix2 (-33)) <= rnd64 (Rabs (val last - val new)))%R) by (apply rnd64_mono; left; exact Q).
      rewrite rnd64_id in M by (apply fmt64_bpow; lia).
      assert (T : (val (lit_1em 10) < bpow radix2 (-33))%R) by (vm_compute; lra). lra. }
    replace (B2R last - (B2R last + IZR (Z.of_nat k) * (B2R new - B2R last) / IZR frames))%R
      with ((IZR (Z.of_nat k) / IZR frames) * (val last - val new))%R by (field; lra).
    rewrite Rabs_mult. rewrite (Rabs_pos_eq (_ / _)).
    2:{ apply Rmult_le_pos; [lra|]. left. now apply Rinv_0_lt_compat. }
    apply Rle_trans with (1 * Rabs (val last - val new))%R; [|lra]. apply Rmult_le_compat_r; [apply Rabs_pos|].
    apply Rmult_le_reg_r with (IZR frames); [lra|]. unfold Rdiv. rewrite Rmult_assoc, Rinv_l by lra. lra.
  - assert (N : val last <> val new).
    { intros Q. rewrite Va, Q, Rminus_diag_eq, rnd64_0, Rabs_R0 in L by reflexivity.
      assert ((0 <= val (lit_1em 10))%R) by (vm_compute; lra). lra. }
    destruct (ramp_val last new (Z.of_nat k * ch) (frames * ch) G1 G2) as (_ & _ & B); [nia|exact Hf|exact N|].
    rewrite !mult_IZR in B.
    replace (IZR (Z.of_nat k) * IZR ch * (val new - val last) / (IZR frames * IZR ch))%R
      with (IZR (Z.of_nat k) * (val new - val last) / IZR frames)%R in B by (field; lra).
    apply Rle_trans with (1 := B). change (bpow radix2 (-42)) with (/ IZR (2 ^ 42))%R. cbn; lra.
Qed.

Section Conv.
  Variables (inc : Z) (coeffs : list f32) (ch : Z).
  Hypothesis Ht : table_fit (inc, coeffs).
  Hypothesis Hch : 1 <= ch <= 128.
  Variable X : stream.

  Lemma vari_run st o log out st' o' : sinc_streaming ch X in_range st o log out st' o' ->
    forall ph, on_tape inc coeffs ch X st o ph -> exists ph', on_tape inc coeffs ch X st' o' ph'.
  Proof.
    intros S. induction S as [st o|st o d m st1 d1 m1 chunk log out st2 o2 V Hin Ha Hend E Hc S IH|st o r st1 log out st2 o2 Ir Ha E S IH];
      intros ph Ot.
    - eauto.
    - destruct (tape_call inc coeffs ch Ht Hch X st o ph d m st1 d1 m1 Ot V Hin Hend E) as (ph1 & dep & Ot1 & _). eauto.
    - destruct Ot as (Hm & base & s & Hok & Eo & Ep).
      assert (E1 : st1 = set_ratio st r).
      { unfold src_set_ratio in E. destruct (is_bad_src_ratio r); [discriminate E|]. injection E as E. now symmetry. }
      assert (Ok1 : sinc_ok inc coeffs ch X base ph s st1) by (rewrite E1; destruct Hok; constructor; try assumption; now right).
      apply (IH ph). split; [rewrite E1; exact Hm|]. exists base, s. split; [exact Ok1|]. split; [exact Eo|]. now apply (position_ok inc coeffs ch Hch X base ph s).
  Qed.

  Lemma tape_ratio st o ph : on_tape inc coeffs ch X st o ph -> st_last_ratio st = dzero \/ in_range (st_last_ratio st).
  Proof. intros (_ & base & s & Hok & _). exact (so_ratio _ _ _ _ _ _ _ _ Hok). Qed.
End Conv.

Lemma sinc_ramp_in_call inc coeffs ch X st log out st1 o1 d m st2 d2 m2 : table_fit (inc, coeffs) -> sinc_start (inc, coeffs) ch st ->
  (forall i k, i < 0 -> X i k = fzero) -> sinc_streaming ch X in_range st 0 log out st1 o1 ->
  valid_call ch d m -> holds m (data_in d) ch (input_frames d) X o1 ->
  (end_of_input d <> 0 -> forall i c, o1 + input_frames d <= i -> X i c = fzero) ->
  src_process (Some st1) (Some d) m = Ok (0, Some st2, Some d2, m2) ->
  let last := if Beqb (st_last_ratio st1) dzero then src_ratio d else st_last_ratio st1 in
  exists rho depth,
    (forall k, Z.of_nat k < output_frames d ->
       in_range (rho k) /\
       (Rmin (B2R last) (B2R (src_ratio d)) <= B2R (rho k) <= Rmax (B2R last) (B2R (src_ratio d)))%R /\
       (Rabs (B2R (rho k) - (B2R last + IZR (Z.of_nat k) * (B2R (src_ratio d) - B2R last) / IZR (output_frames d)))
          <= / IZR (2 ^ 33))%R) /\
    (0 < output_frames d -> rho O = last) /\
    wrote m m2 (data_out d) ch (output_frames_gen d2)
          (fun k c => sinc_sample inc coeffs (fun i => X i c) (depth (Z.to_nat k)) (pos_at (sinc_position st1 o1) rho (Z.to_nat k)) (rho (Z.to_nat k))) /\
    sinc_position st2 (o1 + input_frames_used d2) = pos_at (sinc_position st1 o1) rho (Z.to_nat (output_frames_gen d2)) /\
    st_last_ratio st2 = match Z.to_nat (output_frames_gen d2) with O => last | S j => rho j end.
Proof.
  intros Ht S Hx Run V Hin Hend E last. destruct (start_tape inc coeffs ch X st Ht S Hx) as (Hch & Ot & _ & _).
  destruct (vari_run inc coeffs ch Ht Hch X _ _ _ _ _ _ Run Fresh Ot) as (ph1 & Ot1).
  destruct (tape_call inc coeffs ch Ht Hch X st1 o1 ph1 d m st2 d2 m2 Ot1 V Hin Hend E) as (ph2 & dep & Ot2 & _ & _ & _ & _ & Wr & Po & Lr & _).
  assert (Hr : in_range (src_ratio d)) by apply V.
  assert (El : start_ratio st1 (src_ratio d) = last).
  { unfold last, start_ratio. destruct (tape_ratio _ _ _ _ _ _ _ Ot1) as [Z0|G].
    - rewrite Z0, zero_low. reflexivity.
    - rewrite (good_not_low _ G). rewrite Beqb_spec by (try apply G; reflexivity). rewrite Req_bool_false; [reflexivity|].
      change (val dzero) with 0%R. destruct G as [_ G]. lra. }
  rewrite El in *.
  assert (Gl : good_ratio last).
  { unfold last. destruct (Beqb (st_last_ratio st1) dzero) eqn:Q; [exact Hr|]. destruct (tape_ratio _ _ _ _ _ _ _ Ot1) as [Z0|G]; [|exact G].
    rewrite Z0 in Q. discriminate Q. }
  assert (Hmc : output_frames d * ch <= 2 ^ 50) by apply V.
  exists (sinc_ramp last (src_ratio d) ch (output_frames d)), dep. split; [|split; [|split; [|split]]]; auto.
  - intros k Hk. destruct (sinc_ramp_ok last (src_ratio d) ch (output_frames d) k last Gl Hr) as (_ & Q1 & Q2); auto; try lia.
    split; [exact Q1|]. split; [exact Q2|]. apply sinc_ramp_close; auto; lia.
  - intros Ho. destruct (sinc_ramp_ok last (src_ratio d) ch (output_frames d) 0 last Gl Hr) as (_ & Q1 & Q2); auto; try lia.
    assert (Q3 := ramp_first last (src_ratio d) ch (output_frames d) Gl Hr ltac:(lia) Ho Hmc).
    unfold ramp in Q3. unfold sinc_ramp. destruct (Bleb _ _) eqn:B; [reflexivity|].
    destruct (Beqb last (src_ratio d)) eqn:B2; [|exact Q3]. exfalso.
    rewrite Beqb_spec in B2 by (apply Gl || apply Hr). destruct (Req_bool_spec (val last) (val (src_ratio d))) as [B3|]; [|discriminate B2].
    assert (Eq := good_eq _ _ Gl Hr B3). rewrite <- Eq in B.
    assert (A : Bleb (Babs (Bminus mode_NE last last)) (Bdiv mode_NE (d_of_Z 1) (d_of_Z 10000000000)) = true) by (apply same_close; exact Gl). congruence.
Qed.
