(** Constant ratio: sinc converters take all the input there is room for, and the length of the output. *)
From Coq Require Import ZArith Reals List Bool Lia Lra.
From Flocq Require Import Core IEEE754.BinarySingleNaN.
From Verif Require Import Base FloatFacts PosFacts Types Common Sinc Api Heap Callback ApiHist HoldSpec HoldFacts HoldValue HoldRamp HoldCore
  HoldProcess HoldStream LifeSpec ErrFacts ProcFacts HeapFacts LifeFacts SincSpec SincFacts SincCalc SincPrep SincLoop SincProcess SincCall
  SincApi SincHist SincStream.
Import ListNotations.
Local Open Scope Z_scope.

Section Len.
  Variables (inc : Z) (coeffs : list f32) (ch : Z).
  Hypothesis Ht : table_fit (inc, coeffs).
  Hypothesis Hch : 1 <= ch <= 128.
  Variable X : stream.
  Variable r : f64.
  Hypothesis G : good_ratio r.
  Notation h := (hlen inc coeffs r).
  Notation W := (width inc coeffs).

  Record flow (st : SRC_STATE) (o : Z) (ph : phase) : Prop := {
    fl_tape : on_tape inc coeffs ch X st o ph;
    fl_ratio : st_last_ratio st = dzero \/ st_last_ratio st = r;
    fl_lead : lead inc coeffs r r ph;
    fl_seal : sealed inc coeffs ch st h ph }.

  Lemma hl_same : hl inc coeffs r r = h.
  Proof. unfold hl. f_equal. unfold dmin. now destruct (dlt _ _). Qed.

  Lemma flow_call st o ph d m st1 d1 m1 : flow st o ph -> valid_call ch d m -> src_ratio d = r ->
    holds m (data_in d) ch (input_frames d) X o -> (end_of_input d <> 0 -> forall i c, o + input_frames d <= i -> X i c = fzero) ->
    src_process (Some st) (Some d) m = Ok (0, Some st1, Some d1, m1) ->
    exists ph1, flow st1 (o + input_frames_used d1) ph1 /\
    0 <= input_frames_used d1 <= input_frames d /\ 0 <= output_frames_gen d1 <= output_frames d /\
    sinc_position st1 (o + input_frames_used d1) = pos_at (sinc_position st o) (fun _ => r) (Z.to_nat (output_frames_gen d1)) /\
    (closed ph -> closed ph1 /\ input_frames_used d1 = 0) /\
    (closed ph1 -> closed ph \/ (end_of_input d <> 0 /\ input_frames_used d1 = input_frames d)) /\
    (forall j, Z.of_nat j < output_frames_gen d1 -> fst (pos_at (sinc_position st o) (fun _ => r) j) < o + input_frames_used d1) /\
    (output_frames_gen d1 < output_frames d -> data_in d <> 0 -> input_frames d * ch < 2 ^ 31 -> 4 * h + 3 <= W ->
     (~ closed ph1 /\ input_frames_used d1 = input_frames d /\ end_of_input d = 0) \/
     (closed ph1 /\
        let p := sinc_position st1 (o + input_frames_used d1) in
        (IZR (o + input_frames_used d1) <= IZR (fst p) + val (snd p) + / val r + / IZR (2 ^ 20))%R)).
  Proof.
    intros [Ot Hl Ld Sl] V Er Hin Hend E.
    assert (Es : start_ratio st (src_ratio d) = r).
    { apply (start_val st _ (fun x => x = r)); [destruct Hl as [Hl|Hl]; [now left|right; rewrite Hl; exact G]|exact Hl|exact Er]. }
    destruct (tape_call inc coeffs ch Ht Hch X st o ph d m st1 d1 m1 Ot V Hin Hend E)
      as (ph1 & dep & Ot1 & Hu & Hg & _ & _ & _ & Po & Lr & _ & Sl1 & Ld1 & C1 & C2 & Bl & Why).
    rewrite Es, Er in *. rewrite hl_same in *.
    assert (Rho : forall k, sinc_ramp r r ch (output_frames d) k = r) by (intros; now apply ramp_same).
    assert (Pe : forall k, pos_at (sinc_position st o) (sinc_ramp r r ch (output_frames d)) k = pos_at (sinc_position st o) (fun _ => r) k)
      by (intros k; apply pos_at_ext; intros; apply Rho).
    rewrite Pe in Po. exists ph1. split.
    { constructor; [exact Ot1| |auto|auto]. right. rewrite Lr. destruct (Z.to_nat (output_frames_gen d1)); [reflexivity|apply Rho]. }
    split; [exact Hu|]. split; [exact Hg|]. split; [exact Po|]. split; [exact C1|]. split; [exact C2|].
    split. { intros j Hj. rewrite <- Pe. now apply Bl. }
    assert (H0 : 0 <= h) by (destruct (hlen_val inc coeffs (proj1 Ht) r G) as [_ Bh]; lia).
    intros Lt Hd Hs Hr. destruct (Why Lt Hd Hs ltac:(lia) Ld) as [Q|[Q1 Q2]]; [now left|right]. split; [exact Q1|].
    apply Q2; [exact Hr|exact Sl].
  Qed.

  Lemma flow_ratio st o ph st1 : flow st o ph -> src_set_ratio (Some st) r = (0, Some st1) -> flow st1 o ph /\ sinc_position st1 o = sinc_position st o.
  Proof.
    intros [(Hm & base & s & Hok & Eo & Ep) Hl Ld Sl] E.
    assert (E1 : st1 = set_ratio st r).
    { unfold src_set_ratio in E. destruct (is_bad_src_ratio r); [discriminate E|]. injection E as E. now symmetry. }
    assert (Ok1 : sinc_ok inc coeffs ch X base ph s st1) by (rewrite E1; destruct Hok; constructor; try assumption; now right).
    split; [|rewrite E1; reflexivity]. constructor.
    - split; [rewrite E1; exact Hm|]. exists base, s. split; [exact Ok1|]. split; [exact Eo|]. now apply (position_ok inc coeffs ch Hch X base ph s).
    - right. rewrite E1. reflexivity.
    - exact Ld.
    - rewrite E1. exact Sl.
  Qed.

  Lemma tape_frac st o ph : flow st o ph -> frac (snd (sinc_position st o)).
  Proof. intros [(Hm & base & s & Hok & Eo & Ep) _ _ _]. rewrite Ep. apply Hok. Qed.

  Lemma flow_run st o log out st' o' : sinc_streaming ch X (eq r) st o log out st' o' -> forall ph, flow st o ph ->
    exists ph', flow st' o' ph' /\ o <= o' /\ 0 <= total_gen log /\
    sinc_position st' o' = pos_at (sinc_position st o) (fun _ => r) (Z.to_nat (total_gen log)) /\
    (forall j, Z.of_nat j < total_gen log -> fst (pos_at (sinc_position st o) (fun _ => r) j) < o') /\
    (forall N, ends_at N o log -> (closed ph -> o = N) -> closed ph' -> o' = N).
  Proof.
    intros S. induction S as [st o|st o d m st1 d1 m1 chunk log out st2 o2 V Hin Ha Hend E Hc S IH|st o r' st1 log out st2 o2 Ir Ha E S IH]; intros ph Fl.
    - exists ph. split; [exact Fl|]. split; [lia|]. split; [cbn; lia|]. split; [reflexivity|]. split; [cbn; intros; lia|auto].
    - destruct (flow_call st o ph d m st1 d1 m1 Fl V (eq_sym Ha) Hin Hend E) as (ph1 & Fl1 & Hu & Hg & Po & C1 & C2 & Bl & _).
      destruct (IH ph1 Fl1) as (ph' & Fl' & Ho & Tg & P' & Bl' & C').
      assert (Sum : forall k, pos_at (sinc_position st1 (o + input_frames_used d1)) (fun _ => r) k =
                     pos_at (sinc_position st o) (fun _ => r) (Z.to_nat (output_frames_gen d1) + k)%nat).
      { intros k. rewrite Po. now rewrite pos_at_add. }
      cbn [total_gen]. exists ph'. split; [exact Fl'|]. split; [lia|]. split; [lia|].
      split. { rewrite P', Sum. f_equal. lia. }
      split.
      { intros j Hj. destruct (Z_lt_ge_dec (Z.of_nat j) (output_frames_gen d1)) as [L|L]; [specialize (Bl j L); lia|].
        specialize (Bl' (j - Z.to_nat (output_frames_gen d1))%nat ltac:(lia)). rewrite Sum in Bl'.
        replace (Z.to_nat (output_frames_gen d1) + (j - Z.to_nat (output_frames_gen d1)))%nat with j in Bl' by lia. exact Bl'. }
      intros N [En1 En2] Cn Cl. apply (C' N En2); [|exact Cl]. intros Q. destruct (C2 Q) as [Q2|[Q2 Q3]].
      + destruct (C1 Q2) as [_ ->]. rewrite Z.add_0_r. now apply Cn.
      + rewrite Q3. now apply En1.
    - subst r'. destruct (flow_ratio st o ph st1 Fl E) as [Fl1 Ps]. destruct (IH ph Fl1) as (ph' & Fl' & Ho & Tg & P' & Bl' & C').
      rewrite Ps in *. cbn [total_gen]. exists ph'. split; [exact Fl'|]. split; [lia|]. split; [lia|]. split; [exact P'|].
      split; [exact Bl'|]. exact C'.
  Qed.
End Len.

Lemma start_flow inc coeffs ch X r st : table_fit (inc, coeffs) -> sinc_start (inc, coeffs) ch st -> (forall i k, i < 0 -> X i k = fzero) ->
  1 <= ch <= 128 /\ flow inc coeffs ch X r st 0 Fresh /\ sinc_position st 0 = (0, dzero).
Proof.
  intros Ht S Hx. destruct (start_tape inc coeffs ch X st Ht S Hx) as (Hch & Ot & Lr & P). split; [exact Hch|]. split; [|exact P].
  constructor; [exact Ot|now left|exact I|]. unfold sealed. now destruct (st_priv st).
Qed.

(** Constant ratio: with output room left, all the input is taken. *)
Lemma sinc_takes_all inc coeffs ch X r N st log out st1 o1 d m st2 d2 m2 :
  table_fit (inc, coeffs) -> sinc_start (inc, coeffs) ch st -> (forall i k, i < 0 -> X i k = fzero) ->
  in_range r -> (/ 191 <= B2R r)%R -> sinc_streaming ch X (eq r) st 0 log out st1 o1 ->
  ends_at N 0 log -> o1 + input_frames d <= N -> (end_of_input d <> 0 -> o1 + input_frames d = N) ->
  valid_call ch d m -> holds m (data_in d) ch (input_frames d) X o1 -> src_ratio d = r ->
  (end_of_input d <> 0 -> forall i c, o1 + input_frames d <= i -> X i c = fzero) ->
  data_in d <> 0 -> input_frames d * ch < 2 ^ 31 ->
  src_process (Some st1) (Some d) m = Ok (0, Some st2, Some d2, m2) ->
  output_frames_gen d2 < output_frames d -> input_frames_used d2 = input_frames d.
Proof.
  intros Ht S Hx G Lo Run En Ln Ee V Hin Er Hend Hd Hs E Lt. destruct (start_flow inc coeffs ch X r st Ht S Hx) as (Hch & Fl & P).
  destruct (flow_run inc coeffs ch Ht Hch X r G _ _ _ _ _ _ Run Fresh Fl) as (ph1 & Fl1 & Ho & Tg & P1 & Bl & Cl).
  destruct (flow_call inc coeffs ch Ht Hch X r G st1 o1 ph1 d m st2 d2 m2 Fl1 V Er Hin Hend E) as (ph2 & Fl2 & Hu & Hg & P2 & C1 & C2 & _ & Why).
  assert (Rm : 4 * hlen inc coeffs r + 3 <= width inc coeffs) by (apply wide_roomy; [apply Ht|exact G|exact Lo]).
  destruct (Why Lt Hd Hs Rm) as [(_ & Q & _)|[Q _]]; [exact Q|]. destruct (C2 Q) as [Q2|[_ Q2]]; [|exact Q2].
  assert (Q3 := Cl N En ltac:(intros []) Q2). lia.
Qed.

(** Constant ratio: the length of the output. *)
Lemma sinc_length inc coeffs ch X r st log out st1 o1 d m st2 d2 m2 :
  table_fit (inc, coeffs) -> sinc_start (inc, coeffs) ch st -> (forall i k, i < 0 -> X i k = fzero) ->
  in_range r -> (/ 191 <= B2R r)%R -> sinc_streaming ch X (eq r) st 0 log out st1 o1 ->
  valid_call ch d m -> holds m (data_in d) ch (input_frames d) X o1 -> src_ratio d = r ->
  end_of_input d <> 0 -> (forall i c, o1 + input_frames d <= i -> X i c = fzero) ->
  data_in d <> 0 -> input_frames d * ch < 2 ^ 31 ->
  src_process (Some st1) (Some d) m = Ok (0, Some st2, Some d2, m2) -> output_frames_gen d2 < output_frames d ->
  let N := o1 + input_frames_used d2 in
  let G := IZR (total_gen log + output_frames_gen d2) in
  (Rabs (G - B2R r * IZR N) <= 1 + (B2R r + 1) * (/ IZR (2 ^ 20) + G / IZR (2 ^ 52)))%R.
Proof.
  intros Ht S Hx G Lo Run V Hin Er He Hend Hd Hs E Lt N Gr. destruct (start_flow inc coeffs ch X r st Ht S Hx) as (Hch & Fl & P).
  destruct (flow_run inc coeffs ch Ht Hch X r G _ _ _ _ _ _ Run Fresh Fl) as (ph1 & Fl1 & Ho & Tg & P1 & Bl & Cl).
  destruct (flow_call inc coeffs ch Ht Hch X r G st1 o1 ph1 d m st2 d2 m2 Fl1 V Er Hin (fun _ => Hend) E)
    as (ph2 & Fl2 & Hu & Hg & P2 & C1 & C2 & Bl2 & Why).
  assert (Rm : 4 * hlen inc coeffs r + 3 <= width inc coeffs) by (apply wide_roomy; [apply Ht|exact G|exact Lo]).
  assert (F0' := tape_frac inc coeffs ch X r st 0 Fresh Fl). rewrite P in *. set (P0 := (0, dzero) : position) in *. set (Gz := total_gen log + output_frames_gen d2) in *.
  assert (Sum : forall k, pos_at (sinc_position st1 o1) (fun _ => r) k = pos_at P0 (fun _ => r) (Z.to_nat (total_gen log) + k)%nat)
    by (intros k; rewrite P1; now rewrite pos_at_add).
  assert (F0 : frac (snd P0)) by exact F0'.
  assert (Gp : good_ratio r) by exact G.
  assert (Rp : (0 < val r)%R) by (destruct G as [_ G']; lra).
  assert (Ri : (val r * / val r = 1)%R) by (apply Rinv_r; lra).
  assert (B52 : bpow radix2 (-52) = (/ IZR (2 ^ 52))%R) by reflexivity.
  set (u := (/ IZR (2 ^ 52))%R) in *. assert (Up : (0 < u)%R) by (apply Rinv_0_lt_compat, IZR_lt; lia).
  assert (Gz0 : (0 <= Gr)%R) by (apply (IZR_le 0); lia).
  set (w := (/ IZR (2 ^ 20))%R) in *. assert (Wp : (0 < w)%R) by (apply Rinv_0_lt_compat, IZR_lt; lia).
  assert (Low : (IZR N <= pval (pos_at P0 (fun _ => r) (Z.to_nat Gz)) + / val r + w)%R).
  { destruct (Why Lt Hd Hs Rm) as [(_ & _ & Q)|[_ Q]]; [contradiction|]. cbv zeta in Q. rewrite P2, Sum in Q.
    replace (Z.to_nat (total_gen log) + Z.to_nat (output_frames_gen d2))%nat with (Z.to_nat Gz) in Q by lia. exact Q. }
  assert (D := drift P0 r (Z.to_nat Gz) F0 Gp).
  rewrite INR_IZR_INZ, Z2Nat.id in D by lia. fold Gr in D. change (pval P0) with (0 + 0)%R in D. rewrite B52 in D. fold u in D.
  replace (Gr / IZR (2 ^ 52))%R with (Gr * u)%R by reflexivity.
  apply Rabs_le_inv in D. apply Rabs_le. split.
  - assert (H1 : (IZR N - / val r - w - Gr * / val r <= Gr * (u * (1 + / val r)))%R) by lra.
    apply (Rmult_le_compat_l (val r)) in H1; [|lra].
    replace (val r * (IZR N - / val r - w - Gr * / val r))%R with (val r * IZR N - val r * / val r - val r * w - Gr * (val r * / val r))%R in H1 by ring.
    replace (val r * (Gr * (u * (1 + / val r))))%R with (Gr * u * (val r + val r * / val r))%R in H1 by ring.
    rewrite Ri in H1. lra.
  - destruct (Z.eq_dec Gz 0) as [Z0|Z0].
    { unfold Gr in *. rewrite Z0. simpl IZR. assert (0 <= IZR N)%R by (apply (IZR_le 0); lia).
      assert (0 <= val r * IZR N)%R by (apply Rmult_le_pos; lra). assert (0 <= (val r + 1) * w)%R by (apply Rmult_le_pos; lra). lra. }
    assert (Fg : frac (snd (pos_at P0 (fun _ => r) (Z.to_nat (Gz - 1))))) by (apply pos_at_frac; auto).
    assert (Up1 : (pval (pos_at P0 (fun _ => r) (Z.to_nat (Gz - 1))) <= IZR N)%R).
    { assert (Q : fst (pos_at P0 (fun _ => r) (Z.to_nat (Gz - 1))) < N).
      { destruct (Z.eq_dec (output_frames_gen d2) 0) as [Y|Y].
        - assert (Q := Bl (Z.to_nat (Gz - 1)) ltac:(lia)). lia.
        - assert (Q := Bl2 (Z.to_nat (output_frames_gen d2 - 1)) ltac:(lia)). rewrite Sum in Q.
          replace (Z.to_nat (total_gen log) + Z.to_nat (output_frames_gen d2 - 1))%nat with (Z.to_nat (Gz - 1)) in Q by lia. exact Q. }
      unfold pval. assert (Q2 : fst (pos_at P0 (fun _ => r) (Z.to_nat (Gz - 1))) <= N - 1) by lia. apply IZR_le in Q2. rewrite minus_IZR in Q2.
      destruct Fg as (_ & _ & Fg). lra. }
    assert (D1 := drift P0 r (Z.to_nat (Gz - 1)) F0 Gp).
    rewrite INR_IZR_INZ, Z2Nat.id in D1 by lia. change (pval P0) with (0 + 0)%R in D1. rewrite B52 in D1. fold u in D1.
    rewrite minus_IZR in D1. fold Gr in D1. apply Rabs_le_inv in D1.
    assert (H1 : ((Gr - 1) * / val r - IZR N <= (Gr - 1) * (u * (1 + / val r)))%R) by lra.
    apply (Rmult_le_compat_l (val r)) in H1; [|lra].
    replace (val r * ((Gr - 1) * / val r - IZR N))%R with ((Gr - 1) * (val r * / val r) - val r * IZR N)%R in H1 by ring.
    replace (val r * ((Gr - 1) * (u * (1 + / val r))))%R with ((Gr - 1) * u * (val r + val r * / val r))%R in H1 by ring.
    rewrite Ri in H1. assert (0 <= u * (val r + 1))%R by (apply Rmult_le_pos; lra). assert (0 <= (val r + 1) * w)%R by (apply Rmult_le_pos; lra). lra.
Qed.
