(** The theorems of Properties_Var.v: changing speeds (C52). *)
From Coq Require Import ZArith Reals List Bool Lia Lra.
From Flocq Require Import Core IEEE754.BinarySingleNaN.
From Verif Require Import Base FloatFacts PosFacts Types Sinc Api ApiHist HoldSpec HoldFacts HoldCore HoldProcess HoldStream HoldRamp HoldValue HoldMain HoldThms LifeSpec
  SincSpec SincFacts SincPrep SincLoop SincProcess SincCall SincApi SincHist SincStream SincLen SincMain SincPair SincTables AccSpec GainFloat GainBound GainMain GainTables GainThms AccFacts AccThms CbStream VarSpec.
Import ListNotations.
Local Open Scope Z_scope.

(** ** Ratios *)
Lemma ramped_ext eps s n N g rho rho' : (forall k, (k < g)%nat -> rho k = rho' k) -> ramped eps s n N g rho -> ramped eps s n N g rho'.
Proof.
  intros H [A B]. split; [|intros G; rewrite <- H by exact G; auto]. intros k Hk. rewrite <- H by exact Hk. auto.
Qed.
Lemma follows_ext eps log : forall last rho rho', (forall k, rho k = rho' k) -> follows eps last log rho -> follows eps last log rho'.
Proof.
  induction log as [|[d d'|r] log IH]; intros last rho rho' H F; cbn in *; auto.
  - destruct F as [F1 F2]. split; [revert F1; apply ramped_ext; auto|]. destruct (Z.to_nat (output_frames_gen d')) as [|j] eqn:G.
    + revert F2. apply IH. intros k. apply H.
    + rewrite <- H. revert F2. apply IH. intros k. apply H.
  - eauto.
Qed.

(** A request followed by the rest. *)
Definition spliced {A} (g : nat) (a b : nat -> A) (k : nat) : A := if (k <? g)%nat then a k else b (k - g)%nat.
Lemma spliced_low {A} g (a b : nat -> A) k : (k < g)%nat -> spliced g a b k = a k.
Proof. intros H. unfold spliced. apply Nat.ltb_lt in H. now rewrite H. Qed.
Lemma spliced_high {A} g (a b : nat -> A) k : spliced g a b (g + k) = b k.
Proof. unfold spliced. replace (g + k <? g)%nat with false by (symmetry; apply Nat.ltb_ge; lia). f_equal. lia. Qed.

Definition in_force (last : option f64) (st : SRC_STATE) : Prop :=
  match last with None => st_last_ratio st = dzero | Some r => st_last_ratio st = r /\ good_ratio r end.
Lemma in_force_start last st r : in_force last st -> start_ratio st r = match last with Some x => x | None => r end.
Proof.
  intros H. unfold start_ratio. destruct last as [x|]; cbn in H.
  - destruct H as [-> G]. now rewrite good_not_low.
  - now rewrite H, zero_low.
Qed.
Lemma in_force_cases last st : in_force last st -> st_last_ratio st = dzero \/ good_ratio (st_last_ratio st).
Proof. destruct last; cbn; [intros [-> G]; now right|now left]. Qed.

Lemma follows_call eps last d d1 log ramp rho :
  let start := match last with Some r => r | None => src_ratio d end in let g := Z.to_nat (output_frames_gen d1) in
  ramped eps start (src_ratio d) (output_frames d) g ramp ->
  follows eps (Some (match g with O => start | S j => ramp j end)) log rho ->
  follows eps last (Ev_call d d1 :: log) (spliced g ramp rho).
Proof.
  intros start g R F. cbn [follows]. fold start. fold g. split.
  - revert R. apply ramped_ext. intros k Hk. now rewrite spliced_low.
  - replace (match g with O => start | S j => spliced g ramp rho j end) with (match g with O => start | S j => ramp j end).
    + revert F. apply follows_ext. intros k. now rewrite spliced_high.
    + destruct g as [|j]; [reflexivity|]. rewrite spliced_low by lia. reflexivity.
Qed.

Lemma pos_at_splice p g a b k : (k <= g)%nat -> pos_at p (spliced g a b) k = pos_at p a k.
Proof. intros H. apply pos_at_ext. intros j Hj. apply spliced_low. lia. Qed.
Lemma pos_at_spliced p g a b k : pos_at p (spliced g a b) (g + k) = pos_at (pos_at p a g) b k.
Proof.
  rewrite pos_at_add, pos_at_splice by lia. apply pos_at_ext. intros j _. apply spliced_high.
Qed.

(** ** Positions *)
Lemma travel p rho k : frac (snd p) -> (forall j, (j < k)%nat -> good_ratio (rho j)) ->
  (Rabs (pval (pos_at p rho k) - (pval p + travelled rho k)) <= bpow radix2 (-52) * (INR k + travelled rho k))%R.
Proof.
  intros Fp. induction k as [|k IH]; intros G.
  - cbn [pos_at travelled]. simpl INR. rewrite !Rplus_0_r, Rmult_0_r. unfold Rminus. rewrite Rplus_opp_r, Rabs_R0. lra.
  - rewrite S_INR. cbn [pos_at travelled].
    destruct (move_val (pos_at p rho k) (rho k)) as [M _]; auto. { apply pos_at_frac; auto. }
    specialize (IH ltac:(auto)). apply Rabs_le_inv in IH. apply Rabs_le_inv in M. apply Rabs_le. split; nra.
Qed.

Lemma placed rho k : 0 <= k -> (forall j, (j < Z.to_nat k)%nat -> good_ratio (rho j)) ->
  let p := pos_at (0, dzero) rho (Z.to_nat k) in frac (snd p) /\ reached rho k (fst p) (B2R (snd p)).
Proof.
  intros Hk G p. assert (Fz : frac dzero) by apply frac_zero. assert (Fp : frac (snd p)) by (apply pos_at_frac; auto).
  split; [exact Fp|]. split; [apply Fp|].
  assert (D := travel (0, dzero) rho (Z.to_nat k) Fz G). fold p in D. rewrite INR_IZR_INZ, Z2Nat.id in D by exact Hk.
  unfold pval in D. cbn [fst snd] in D. change (B2R dzero) with 0%R in D. rewrite small in D. change (IZR 0 + 0)%R with (0 + 0)%R in D. rewrite !Rplus_0_l in D.
  unfold Rdiv. eapply Rle_trans; [exact D|]. apply Req_le. ring.
Qed.

(** ** Zero-order hold and linear *)
Lemma hold_vari kd ch X st o log out st1 o1 : streaming ch X in_range (lin_legal kd ch X) st o log out st1 o1 ->
  on_stream kd X st o -> st_channels st = ch -> forall last, in_force last st ->
  0 <= total_gen log /\ exists rho, follows (/ IZR (2 ^ 42)) last log rho /\
  (forall k, (k < Z.to_nat (total_gen log))%nat -> good_ratio (rho k)) /\
  is_frames ch out (total_gen log) (fun k c => value kd (from0 X) (pos_at (stream_pos st o) rho (Z.to_nat k)) c) /\
  stream_pos st1 o1 = pos_at (stream_pos st o) rho (Z.to_nat (total_gen log)) /\
  on_stream kd X st1 o1 /\ st_channels st1 = ch /\ (st_last_ratio st1 = dzero \/ in_range (st_last_ratio st1)) /\
  forall k, (k < Z.to_nat (total_gen log))%nat -> reads kd (pos_at (stream_pos st o) rho k) < presented o log.
Proof.
  intros Ha.
  assert (Rin : forall s, (st_last_ratio s = dzero \/ in_range (st_last_ratio s)) -> ratio_in (/256) 256 s).
  { intros s [Z|Z]; [now left|right]. split; [exact Z|apply Z]. }
  induction Ha as [st o|st o d m e st1 d1 m1 chunk log out st2 o2 Hv Hin Hal Hl E Hch Hs IH|st o r st1 log out st2 o2 Hr Hal E Hs IH];
    intros Oa Ca last La.
  - cbn [total_gen]. split; [lia|]. exists (fun _ => dzero). split; [exact I|]. split; [intros; cbn in *; lia|]. split; [split; [reflexivity|intros; lia]|].
    split; [reflexivity|]. split; [exact Oa|]. split; [exact Ca|]. split; [exact (in_force_cases _ _ La)|intros; cbn in *; lia].
  - rewrite <- Ca in *. assert (Bd : band (/256) 256 (src_ratio d)) by (split; [exact Hal|apply Hal]).
    assert (Call := stream_call kd X st o d m e st1 d1 m1 (/256) 256 Oa (Rin _ (in_force_cases _ _ La)) Hv Hin Bd Hl E). cbv zeta in Call.
    destruct Call as (O1 & B1 & C1 & (_ & D1 & _ & G1 & _) & _ & R1 & Br & P1 & Rd & W1 & _ & N1).
    rewrite (in_force_start last st (src_ratio d) La) in *. set (start := match last with Some x => x | None => src_ratio d end) in *.
    set (ra := ramp start (src_ratio d) (st_channels st) (output_frames d)) in *. set (g := output_frames_gen d1) in *.
    assert (Hch0 : 0 < st_channels st) by apply Oa.
    destruct (IH O1 C1 (Some (match Z.to_nat g with O => start | S j => ra j end))) as (G0 & rho & Fo & Gr & Fr & Po & O' & C' & L' & Rd').
    { split; [exact R1|]. rewrite <- R1. apply B1. }
    cbn [total_gen]. fold g. split; [lia|]. exists (spliced (Z.to_nat g) ra rho).
    assert (Gs : good_ratio start). { unfold start. destruct last; [apply La|exact Hal]. }
    assert (Hmc : output_frames d * st_channels st <= 2 ^ 50) by apply Hv.
    split; [|split; [|split; [|split; [|split; [exact O'|split; [exact C'|split; [exact L'|]]]]]]].
    + apply follows_call; [|exact Fo]. fold start. fold g. split.
      * intros k Hk. destruct (ramp_ok start (src_ratio d) (st_channels st) (output_frames d) k start Gs Hal Hch0 ltac:(lia) Hmc) as (_ & Q1 & Q2 & Q3); auto.
        rewrite <- INR_IZR_INZ in Q3. split; [exact Q1|]. split; [exact Q2|]. exact Q3.
      * intros Hg. apply ramp_first; auto. lia.
    + intros k Hk. destruct (lt_dec k (Z.to_nat g)) as [L|L].
      * rewrite spliced_low by exact L. apply Br. exact L.
      * replace k with (Z.to_nat g + (k - Z.to_nat g))%nat by lia. rewrite spliced_high. apply Gr. lia.
    + refine (is_frames_ext _ _ _ _ _ (is_frames_app _ _ _ _ _ _ _ Hch0 (proj1 G1) G0 (wrote_chunk _ _ _ _ _ _ _ Hch0 (proj1 G1) W1 Hch) Fr) _).
      intros k c Hk _. cbv beta. destruct (Z.ltb_spec k g) as [L|L].
      * rewrite pos_at_splice by lia. reflexivity.
      * replace (Z.to_nat k) with (Z.to_nat g + Z.to_nat (k - g))%nat by lia. rewrite pos_at_spliced, <- P1. reflexivity.
    + rewrite Po, P1, <- pos_at_spliced. f_equal. lia.
    + cbn [presented]. intros k Hk. destruct (lt_dec k (Z.to_nat g)) as [L|L].
      * rewrite pos_at_splice by lia. assert (Q := Rd k L). lia.
      * replace k with (Z.to_nat g + (k - Z.to_nat g))%nat by lia. rewrite pos_at_spliced, <- P1. assert (Q := Rd' (k - Z.to_nat g)%nat ltac:(lia)). lia.
  - unfold src_set_ratio in E. destruct (is_bad_src_ratio r) eqn:Eb; [discriminate E|]. injection E as <-.
    assert (Up : on_stream kd X (set_ratio st r) o).
    { destruct Oa as [A1 A2 A3 A4 A5]. constructor; auto.
      destruct A1 as (B1 & B2 & B3 & B4 & B5 & B6 & B7). repeat split; cbn; auto; try apply B5. }
    destruct (IH Up Ca (Some r) (conj eq_refl Hr)) as (G0 & rho & Fo & Rest). split; [exact G0|]. exists rho. split; [exact Fo|exact Rest].
Qed.

Lemma hold_start kd ch X st log out st1 o1 : at_start kd ch st -> channels_fit ch -> streaming ch X in_range (lin_legal kd ch X) st 0 log out st1 o1 ->
  exists rho, follows (/ IZR (2 ^ 42)) None log rho /\
  (forall k, (k < Z.to_nat (total_gen log))%nat -> good_ratio (rho k)) /\
  is_frames ch out (total_gen log) (fun k c => value kd (from0 X) (pos_at (0, dzero) rho (Z.to_nat k)) c) /\
  stream_pos st1 o1 = pos_at (0, dzero) rho (Z.to_nat (total_gen log)) /\
  0 <= total_gen log /\ on_stream kd X st1 o1 /\ st_channels st1 = ch /\ (st_last_ratio st1 = dzero \/ in_range (st_last_ratio st1)) /\
  forall k, (k < Z.to_nat (total_gen log))%nat -> reads kd (pos_at (0, dzero) rho k) < presented 0 log.
Proof.
  intros A F S. assert (Fr := start_fresh kd ch st A F). destruct (fresh_stream kd ch X st Fr) as (O & P & _).
  destruct (hold_vari kd ch X st 0 log out st1 o1 S O (fr_ch _ _ _ Fr) None (fr_ratio _ _ _ Fr)) as (G0 & rho & Fo & Gr & Fm & Po & Rest).
  rewrite P in *. exists rho. auto 8.
Qed.

Lemma zoh_varied ch X st log out st1 o1 : at_start Zoh ch st -> channels_fit ch -> streaming ch X in_range (fun _ _ _ => True) st 0 log out st1 o1 ->
  exists rho, follows (/ IZR (2 ^ 42)) None log rho /\
  forall k c, 0 <= k < total_gen log -> 0 <= c < ch -> exists u t, reached rho k u t /\ sample ch out k c = Some (X (Z.max 0 (u - 1)) c).
Proof.
  intros A F S. destruct (hold_start Zoh ch X st log out st1 o1 A F S) as (rho & Fo & Gr & Fr & _). exists rho. split; [exact Fo|]. intros k c Hk Hc.
  destruct (placed rho k ltac:(lia)) as [_ N]. { intros j Hj. apply Gr. lia. } do 2 eexists. split; [exact N|]. now apply Fr.
Qed.
Lemma lin_varied ch X (A : f32) st log out st1 o1 : at_start Lin ch st -> channels_fit ch -> within ch X A ->
  streaming ch X in_range (lin_legal Lin ch X) st 0 log out st1 o1 ->
  exists rho, follows (/ IZR (2 ^ 42)) None log rho /\
  forall k c, 0 <= k < total_gen log -> 0 <= c < ch -> exists u t y, reached rho k u t /\ sample ch out k c = Some y /\ is_finite y = true /\
    (Rabs (B2R y - on_line (B2R (X (Z.max 0 (u - 1)) c)) (B2R (X (Z.max 0 u) c)) t) <= / 16000000 * Rabs (B2R A) + / IZR (2 ^ 149))%R.
Proof.
  intros A0 F W S. destruct (hold_start Lin ch X st log out st1 o1 A0 F S) as (rho & Fo & Gr & Fr & _). exists rho. split; [exact Fo|]. intros k c Hk Hc.
  destruct (placed rho k ltac:(lia)) as [Fp N]. { intros j Hj. apply Gr. lia. } do 3 eexists. split; [exact N|]. split; [now apply Fr|].
  rewrite <- small. unfold value, lin_value, from0. apply interpolate_near; try apply W; auto. apply sized_val.
Qed.

(** ** Sinc *)
Section Sinc.
  Variables (inc : Z) (coeffs : list f32) (ch : Z).
  Hypothesis Ht : table_fit (inc, coeffs).
  Hypothesis Hch : 1 <= ch <= 128.
  Variable X : stream.

  Definition ahead (h : Z) (ph : phase) : Prop := match ph with Open c e => c <= h \/ h <= 2 * (e - c) | _ => True end.

  (** No ratio is below lo or above hi. *)
  Lemma sinc_vari lo hi : good_ratio hi -> forall st o log out st' o', sinc_streaming ch X (fun r => (lo <= B2R r <= B2R hi)%R) st o log out st' o' ->
    forall ph last, on_tape inc coeffs ch X st o ph -> in_force last st -> (forall r, last = Some r -> lo <= B2R r <= B2R hi)%R -> deep (hlen inc coeffs hi) ph ->
    0 <= total_gen log /\ exists rho dep, follows (/ IZR (2 ^ 33)) last log rho /\
    (forall k, (k < Z.to_nat (total_gen log))%nat -> good_ratio (rho k) /\ hlen inc coeffs hi <= dep k /\ (lo <= B2R (rho k) <= B2R hi)%R) /\
    is_frames ch out (total_gen log)
      (fun k c => sinc_sample inc coeffs (fun i => X i c) (dep (Z.to_nat k)) (pos_at (sinc_position st o) rho (Z.to_nat k)) (rho (Z.to_nat k))) /\
    sinc_position st' o' = pos_at (sinc_position st o) rho (Z.to_nat (total_gen log)) /\
    o <= o' /\ (forall k, (k < Z.to_nat (total_gen log))%nat -> fst (pos_at (sinc_position st o) rho k) < o') /\
    exists ph', on_tape inc coeffs ch X st' o' ph' /\ (st_last_ratio st' = dzero \/ (good_ratio (st_last_ratio st') /\ (lo <= B2R (st_last_ratio st') <= B2R hi)%R)) /\
    (forall N, ends_at N o log -> (closed ph -> o = N) -> closed ph' -> o' = N) /\
    ((forall r, good_ratio r -> (lo <= B2R r <= B2R hi)%R -> hlen inc coeffs r = hlen inc coeffs hi) ->
     ahead (hlen inc coeffs hi) ph -> sealed inc coeffs ch st (hlen inc coeffs hi) ph ->
     ahead (hlen inc coeffs hi) ph' /\ sealed inc coeffs ch st' (hlen inc coeffs hi) ph').
  Proof.
    intros Gh st o log out st' o' S. induction S as [st o|st o d m st1 d1 m1 chunk log out st2 o2 V Hin Ha Hend E Hc S IH|st o r st1 log out st2 o2 Ir Ha E S IH];
      intros ph last Ot La Lh Hd.
    - split; [cbn; lia|]. exists (fun _ => dzero), (fun _ => 0). split; [exact I|]. split; [intros; cbn in *; lia|]. split; [split; [reflexivity|intros; cbn in *; lia]|].
      split; [reflexivity|]. split; [lia|]. split; [intros; cbn in *; lia|]. exists ph. split; [exact Ot|]. split; [|auto].
      destruct last as [r|]; [right|left; exact La]. destruct La as [-> La]. split; [exact La|now apply Lh].
    - destruct (tape_call inc coeffs ch Ht Hch X st o ph d m st1 d1 m1 Ot V Hin Hend E) as (ph1 & dep & Ot1 & Hu & Hg & _ & Dp & Wr & Po & Lr & Gl & Sl & Ld & Cs & Cl & Bl & _).
      rewrite (in_force_start last st (src_ratio d) La) in *. set (start := match last with Some x => x | None => src_ratio d end) in *.
      assert (Hal : in_range (src_ratio d)) by apply V.
      assert (Gs : good_ratio start). { unfold start. destruct last; [apply La|exact Hal]. }
      assert (Ls : (lo <= B2R start <= B2R hi)%R). { unfold start. destruct last; [now apply Lh|exact Ha]. }
      set (ra := sinc_ramp start (src_ratio d) ch (output_frames d)) in *. set (g := output_frames_gen d1) in *.
      assert (Hmc : output_frames d * ch <= 2 ^ 50) by apply V.
      assert (Rk : forall k, (k < Z.to_nat g)%nat -> good_ratio (ra k) /\ (Rmin (B2R start) (B2R (src_ratio d)) <= B2R (ra k) <= Rmax (B2R start) (B2R (src_ratio d)))%R).
      { intros k Hk. destruct (sinc_ramp_ok start (src_ratio d) ch (output_frames d) k start Gs Hal ltac:(lia) ltac:(lia) Hmc) as (_ & Q1 & Q2); auto. }
      assert (Hh : hlen inc coeffs hi <= hl inc coeffs start (src_ratio d)).
      { unfold hl. destruct Ht as (T1 & T2 & T3). unfold dmin. destruct (dlt start (src_ratio d)); apply hlen_mono; try assumption; [apply Ls|apply Ha]. }
      assert (Rb : forall k, (k < Z.to_nat g)%nat -> (lo <= B2R (ra k) <= B2R hi)%R).
      { intros k Hk. destruct (Rk k Hk) as [_ [L U]]. split.
        - apply Rle_trans with (2 := L). apply Rmin_glb; [apply Ls|apply Ha].
        - apply Rle_trans with (1 := U). apply Rmax_lub; [apply Ls|apply Ha]. }
      destruct (Dp _ Hh Hd) as [Hd1 Hdep].
      destruct (IH ph1 (Some (match Z.to_nat g with O => start | S j => ra j end)) Ot1) as (G0 & rho & dep' & Fo & Gr & Fr & Pe & Oo & Bl' & ph' & Ot' & L' & C' & A').
      { split; [exact Lr|]. rewrite <- Lr. exact Gl. }
      { intros r [= <-]. destruct (Z.to_nat g) as [|j] eqn:Eg; [exact Ls|]. apply Rb. lia. }
      { exact Hd1. }
      cbn [total_gen]. fold g. split; [lia|]. exists (spliced (Z.to_nat g) ra rho), (spliced (Z.to_nat g) dep dep'). split; [|split; [|split; [|split; [|split; [lia|split]]]]].
      + apply follows_call; [|exact Fo]. fold start. fold g. split.
        * intros k Hk. destruct (Rk k Hk) as [Q1 Q2]. split; [exact Q1|]. split; [exact Q2|]. rewrite INR_IZR_INZ. apply sinc_ramp_close; auto; lia.
        * intros G. assert (Ho : 0 < output_frames d) by lia.
          assert (Q3 := ramp_first start (src_ratio d) ch (output_frames d) Gs Hal ltac:(lia) Ho Hmc).
          unfold ramp in Q3. unfold ra, sinc_ramp. destruct (Bleb _ _) eqn:B; [reflexivity|].
          destruct (Beqb start (src_ratio d)) eqn:B2; [|exact Q3]. exfalso.
          rewrite Beqb_spec in B2 by (apply Gs || apply Hal). destruct (Req_bool_spec (val start) (val (src_ratio d))) as [B3|]; [|discriminate B2].
          assert (Eq := good_eq _ _ Gs Hal B3). rewrite <- Eq in B.
          assert (A : Bleb (Babs (Bminus mode_NE start start)) (Bdiv mode_NE (d_of_Z 1) (d_of_Z 10000000000)) = true) by (apply same_close; exact Gs). congruence.
      + intros k Hk. destruct (lt_dec k (Z.to_nat g)) as [L|L].
        * rewrite !spliced_low by exact L. split; [apply Rk; exact L|]. split; [apply Hdep; unfold g in L; lia|]. apply Rb. exact L.
        * replace k with (Z.to_nat g + (k - Z.to_nat g))%nat by lia. rewrite !spliced_high. apply Gr. lia.
      + assert (F1 := wrote_chunk _ _ _ ch _ _ _ ltac:(lia) (proj1 Hg) Wr Hc).
        eapply is_frames_ext; [apply (is_frames_app ch _ _ _ _ _ _ ltac:(lia) (proj1 Hg) G0 F1 Fr)|].
        intros k c Hk Hcc. cbv beta. destruct (Z.ltb_spec k g) as [L|L].
        * rewrite pos_at_splice, !spliced_low by lia. reflexivity.
        * replace (Z.to_nat k) with (Z.to_nat g + Z.to_nat (k - g))%nat by lia. rewrite pos_at_spliced, !spliced_high, <- Po. reflexivity.
      + rewrite Pe, Po, <- pos_at_spliced. f_equal. lia.
      + intros k Hk. destruct (lt_dec k (Z.to_nat g)) as [L|L].
        * rewrite pos_at_splice by lia. assert (Q := Bl k ltac:(unfold g in L; lia)). lia.
        * replace k with (Z.to_nat g + (k - Z.to_nat g))%nat by lia. rewrite pos_at_spliced, <- Po. apply Bl'. lia.
      + exists ph'. split; [exact Ot'|]. split; [exact L'|]. split.
        * intros N [En1 En2] Cn C. apply (C' N En2); [|exact C]. intros C1. destruct (Cl C1) as [C2|[C2 C3]]; [|rewrite C3; now apply En1].
          destruct (Cs C2) as [_ ->]. rewrite Z.add_0_r. now apply Cn.
        * intros Hc' Ah Se. assert (Eh : hl inc coeffs start (src_ratio d) = hlen inc coeffs hi).
          { unfold hl, dmin. destruct (dlt start (src_ratio d)); apply Hc'; assumption. }
          rewrite Eh in Sl. unfold lead in Ld. rewrite Eh in Ld. apply A'; [exact Hc'|exact (Ld Ah)|exact (Sl Se)].
    - destruct Ot as (Hm & base & s & Hok & Eo & Ep).
      assert (E1 : st1 = set_ratio st r).
      { unfold src_set_ratio in E. destruct (is_bad_src_ratio r); [discriminate E|]. injection E as E. now symmetry. }
      assert (Ok1 : sinc_ok inc coeffs ch X base ph s st1) by (rewrite E1; destruct Hok; constructor; try assumption; now right).
      assert (Pp : sinc_position st1 o = sinc_position st o) by (rewrite E1; reflexivity).
      destruct (IH ph (Some r)) as (G0 & rho & dep & Fo & Gr & Fr & Pe & Oo & Bl & ph' & Ot' & L' & C' & A'); auto.
      + split; [rewrite E1; exact Hm|]. exists base, s. split; [exact Ok1|]. split; [exact Eo|]. now apply (position_ok inc coeffs ch Hch X base ph s).
      + split; [rewrite E1; reflexivity|exact Ir].
      + intros r' [= <-]. exact Ha.
      + rewrite Pp in *. split; [exact G0|]. exists rho, dep. repeat (split; [assumption|]). exists ph'. split; [exact Ot'|]. split; [exact L'|]. split.
        * exact C'.
        * intros Hc Ah Se. apply A'; auto. rewrite E1. exact Se.
  Qed.
End Sinc.

Section Near.
  Variables (inc : Z) (coeffs : list f32).
  Hypothesis Hg : table_gain (inc, coeffs).
  Let last := (zlen coeffs - 2) * 4096.

  (** Silence adds nothing to a sum. *)
  Lemma rsum_short w n m : (n <= m)%nat -> (forall i, Z.of_nat n <= i < Z.of_nat m -> w i = 0%R) -> rsum w m = rsum w n.
  Proof.
    intros L. induction L as [|m L IH]; intros H; [reflexivity|]. cbn [rsum]. rewrite IH by (intros; apply H; lia). rewrite H by lia. apply Rplus_0_r.
  Qed.

  Lemma ideal_cut (x : Z -> R) cut pos ro : good_ratio ro -> frac (snd pos) -> cut <= fst pos - table_reach inc coeffs ro ->
    ideal_sinc inc coeffs (from_on cut x) pos ro = ideal_sinc inc coeffs x pos ro.
  Proof.
    intros G Ft Hc. destruct (frac_first inc coeffs Hg ro (snd pos) G Ft) as [B0 B1]. unfold table_reach in Hc. fold last in Hc.
    unfold ideal_sinc. cbv zeta. fold last. change sum_to with rsum.
    set (I := fixed_point (table_step inc ro)) in *. set (first := fixed_point (Bmult mode_NE (snd pos) (table_step inc ro))) in *.
    set (p := if first =? I then fst pos + 1 else fst pos). set (t := if first =? I then 0 else first).
    assert (Hp : fst pos <= p) by (unfold p; destruct (first =? I); lia).
    assert (HtI : 0 <= t < I) by (unfold t; destruct (Z.eqb_spec first I); lia).
    assert (L0 : (last - t) / I <= last / I) by (apply Z.div_le_mono; lia).
    destruct (gain_table inc coeffs Hg) as (_ & T2 & _). assert (P0 : 0 <= last / I) by (apply Z.div_pos; unfold last; lia).
    f_equal. f_equal; apply rsum_ext; intros i Hi; f_equal; unfold from_on.
    - replace (p - i <? cut) with false; [reflexivity|]. symmetry. apply Z.ltb_ge. lia.
    - replace (p + 1 + i <? cut) with false; [reflexivity|]. symmetry. apply Z.ltb_ge. lia.
  Qed.

  Lemma exact_ideal (x : Z -> R) depth pos ro M : good_ratio ro -> frac (snd pos) -> sized M -> (M <= bpow radix2 128)%R -> 0 <= depth -> (forall i, Rabs (x i) <= M)%R ->
    (Rabs (exact_sum inc coeffs x depth pos ro - ideal_sinc inc coeffs (from_on (fst pos - depth) x) pos ro) <= 26 / 100000000 * M)%R.
  Proof.
    intros G Ft HM UM Hd Hx. destruct (frac_first inc coeffs Hg ro (snd pos) G Ft) as [B0 B1]. assert (PM := sized_pos M HM).
    destruct (step_facts inc coeffs (gain_table inc coeffs Hg) ro G) as (_ & Vf & Bz & _ & Bf).
    destruct (tab_R inc coeffs (gain_table inc coeffs Hg)) as (Ri & _).
    unfold exact_sum, ideal_sinc. cbv zeta. fold last.
    set (step := table_step inc ro) in *. set (I := fixed_point step) in *. set (first := fixed_point (Bmult mode_NE (snd pos) step)) in *.
    set (y := from_on (fst pos - depth) x). set (d := if first =? I then depth + 1 else depth).
    set (p := if first =? I then fst pos + 1 else fst pos). set (t := if first =? I then 0 else first).
    assert (HtI : 0 <= t < I) by (unfold t; destruct (Z.eqb_spec first I); lia).
    assert (Hpd : p - d = fst pos - depth) by (unfold p, d; destruct (first =? I); lia).
    assert (Hd0 : 0 <= d) by (unfold d; destruct (first =? I); lia).
    assert (Hy : forall i, (Rabs (y i) <= M)%R). { intros i. unfold y, from_on. destruct (i <? _); [rewrite Rabs_R0; exact PM|apply Hx]. }
    set (nl := Z.to_nat ((last - t) / I + 1)). set (nr := Z.to_nat ((last + t) / I)).
    assert (HL : forall i, 0 <= i < Z.of_nat nl -> 0 <= t + i * I <= last).
    { intros i Hi. split; [nia|]. apply (left_reach coeffs I t nl); auto; try lia. }
    assert (HR : forall i, 0 <= i < Z.of_nat nr -> 0 <= I - t + i * I <= last).
    { intros i Hi. split; [nia|]. apply (right_reach coeffs I t); auto; lia. }
    (* the sums of the library are those over y *)
    replace (rsum (fun i => (val (weight coeffs (t + i * I)) * x (p - i)%Z)%R) (Z.to_nat (Z.min ((last - t) / I) d + 1)))
      with (rsum (fun i => (val (weight coeffs (t + i * I)) * y (p - i)%Z)%R) nl).
    2:{ rewrite (rsum_short _ (Z.to_nat (Z.min ((last - t) / I) d + 1)) nl).
        - apply rsum_ext. intros i Hi. f_equal. unfold y, from_on. replace (p - i <? fst pos - depth) with false; [reflexivity|]. symmetry. apply Z.ltb_ge. lia.
        - unfold nl. lia.
        - intros i Hi. unfold y, from_on. replace (p - i <? fst pos - depth) with true; [apply Rmult_0_r|]. symmetry. apply Z.ltb_lt. unfold nl in Hi. lia. }
    replace (rsum (fun i => (val (weight coeffs (I - t + i * I)) * x (p + 1 + i)%Z)%R) nr)
      with (rsum (fun i => (val (weight coeffs (I - t + i * I)) * y (p + 1 + i)%Z)%R) nr).
    2:{ apply rsum_ext. intros i Hi. f_equal. unfold y, from_on. replace (p + 1 + i <? fst pos - depth) with false; [reflexivity|]. symmetry. apply Z.ltb_ge. lia. }
    destruct (sample_close inc coeffs Hg ro t nl nr (fun _ => fzero) (fun _ => fzero) M G HtI HM UM) as (_ & _ & _ & NL & NR & _).
    { intros i Hi. split; [now apply HL|]. split; [reflexivity|]. change (val fzero) with 0%R. rewrite Rabs_R0. exact PM. }
    { intros i Hi. split; [now apply HR|]. split; [reflexivity|]. change (val fzero) with 0%R. rewrite Rabs_R0. exact PM. }
    fold step in NL, NR.
    destruct (wing_near inc coeffs Hg y (fun i => p - i) (fun i => t + i * I) nl M PM Hy HL) as [WL SL].
    destruct (wing_near inc coeffs Hg y (fun i => p + 1 + i) (fun i => I - t + i * I) nr M PM Hy HR) as [WR SR].
    cbv beta in WL, SL, WR, SR. clear HL HR Hx Hy. clearbody y.
    set (PL := rsum _ nl) in *. set (PR := rsum _ nr) in *. set (QL := sum_to _ nl) in *. set (QR := sum_to _ nr) in *.
    set (s0 := (val step / IZR inc)%R) in *. set (mr := Rmin 1 (val ro)) in *.
    assert (Pl := pos_INR nl). assert (Pr := pos_INR nr).
    assert (S0 : (/ 256 <= s0 <= 1)%R).
    { unfold s0. split; apply (Rmult_le_reg_r (IZR inc)); try lra; unfold Rdiv; rewrite Rmult_assoc, Rinv_l by lra; lra. }
    assert (Cl : (INR nl <= 17408)%R) by nra. assert (Cr : (INR nr <= 17408)%R) by nra.
    assert (D1 : (Rabs (s0 * (PL + PR) - s0 * (QL + QR)) <= 136 * (/ 530000000 * M))%R).
    { replace (s0 * (PL + PR) - s0 * (QL + QR))%R with (s0 * ((PL - QL) + (PR - QR)))%R by ring. rewrite Rabs_mult, (Rabs_pos_eq s0) by lra.
      apply Rle_trans with (s0 * (INR nl * (/ 530000000 * M) + INR nr * (/ 530000000 * M)))%R.
      - apply Rmult_le_compat_l; [lra|]. eapply Rle_trans; [apply Rabs_triang|]. lra.
      - replace (s0 * (INR nl * (/ 530000000 * M) + INR nr * (/ 530000000 * M)))%R with ((s0 * INR nl + s0 * INR nr) * (/ 530000000 * M))%R by ring.
        apply Rmult_le_compat_r; lra. }
    assert (D2 : (Rabs (s0 - mr) <= / 1000000000000000)%R).
    { assert (T := rnd64_gen (IZR inc * mr)). fold mr in Vf. rewrite <- Vf in T.
      assert (Bm : (0 <= mr <= 1)%R). { unfold mr, Rmin. destruct G as [_ G]. destruct (Rle_dec 1 (val ro)); lra. }
      assert (T1053 : (bpow radix2 (-1053) <= / 100000000000000000)%R).
      { apply Rle_trans with (bpow radix2 (-57)); [apply bpow_le; lia|]. change (bpow radix2 (-57)) with (/ 144115188075855872)%R. lra. }
      replace (s0 - mr)%R with ((val step - IZR inc * mr) * / IZR inc)%R by (unfold s0; field; lra).
      rewrite Rabs_mult, (Rabs_pos_eq (/ IZR inc)) by (left; apply Rinv_0_lt_compat; lra).
      apply (Rmult_le_reg_r (IZR inc)); [lra|]. rewrite Rmult_assoc, Rinv_l, Rmult_1_r by lra. eapply Rle_trans; [exact T|].
      rewrite Rabs_pos_eq by (apply Rmult_le_pos; lra). unfold eps. nra. }
    assert (D3 : (Rabs (s0 * (QL + QR) - mr * (QL + QR)) <= / 1000000000000000 * (69632 * M))%R).
    { replace (s0 * (QL + QR) - mr * (QL + QR))%R with ((s0 - mr) * (QL + QR))%R by ring. rewrite Rabs_mult.
      apply Rmult_le_compat; try apply Rabs_pos; [exact D2|]. eapply Rle_trans; [apply Rabs_triang|].
      assert (INR nl * (2 * M) <= 17408 * (2 * M))%R by (apply Rmult_le_compat_r; lra). assert (INR nr * (2 * M) <= 17408 * (2 * M))%R by (apply Rmult_le_compat_r; lra). lra. }
    replace (s0 * (PL + PR) - mr * (QL + QR))%R with ((s0 * (PL + PR) - s0 * (QL + QR)) + (s0 * (QL + QR) - mr * (QL + QR)))%R by ring.
    eapply Rle_trans; [apply Rabs_triang|]. lra.
  Qed.

  Lemma sample_ideal (x : Z -> f32) depth pos ro M : good_ratio ro -> frac (snd pos) -> sized M -> (6 * M < bpow radix2 128)%R -> 0 <= depth ->
    (forall i, fin (x i) /\ (Rabs (val (x i)) <= M)%R) ->
    fin (sinc_sample inc coeffs x depth pos ro) /\
    (Rabs (val (sinc_sample inc coeffs x depth pos ro) - ideal_sinc inc coeffs (from_on (fst pos - depth) (fun i => val (x i))) pos ro) <= 6 / 10000000 * M + bpow radix2 (-149))%R.
  Proof.
    intros G Ft HM UM Hd Hx. assert (PM := sized_pos M HM).
    destruct (sample_near inc coeffs Hg x depth pos ro M G Ft HM UM Hx) as [F A]. split; [exact F|].
    assert (B := exact_ideal (fun i => val (x i)) depth pos ro M G Ft HM ltac:(lra) Hd (fun i => proj2 (Hx i))).
    set (v := val _) in *. set (e := exact_sum _ _ _ _ _ _) in *. set (w := ideal_sinc _ _ _ _ _) in *.
    replace (v - w)%R with ((v - e) + (e - w))%R by ring. eapply Rle_trans; [apply Rabs_triang|]. lra.
  Qed.
End Near.

Lemma frames_near inc coeffs ch X lo hi (A : f32) out G rho dep : table_gain (inc, coeffs) -> table_fit (inc, coeffs) -> in_range hi ->
  within ch X A -> (6 * Rabs (B2R A) < bpow radix2 128)%R ->
  (forall k, (k < Z.to_nat G)%nat -> good_ratio (rho k) /\ hlen inc coeffs hi <= dep k /\ (lo <= B2R (rho k) <= B2R hi)%R) ->
  is_frames ch out G (fun k c => sinc_sample inc coeffs (fun i => X i c) (dep (Z.to_nat k)) (pos_at (0, dzero) rho (Z.to_nat k)) (rho (Z.to_nat k))) ->
  forall k c, 0 <= k < G -> 0 <= c < ch -> exists u t y cut, reached rho k u (B2R t) /\ is_finite t = true /\
    sample ch out k c = Some y /\ is_finite y = true /\ cut < u - table_reach inc coeffs hi /\
    (Rabs (B2R y - ideal_sinc inc coeffs (from_on cut (fun i => B2R (X i c))) (u, t) (rho (Z.to_nat k))) <= 6 / 10000000 * Rabs (B2R A) + / IZR (2 ^ 149))%R /\
    (table_reach inc coeffs (rho (Z.to_nat k)) <= table_reach inc coeffs hi ->
     (Rabs (B2R y - ideal_sinc inc coeffs (fun i => B2R (X i c)) (u, t) (rho (Z.to_nat k))) <= 6 / 10000000 * Rabs (B2R A) + / IZR (2 ^ 149))%R) /\
    in_range (rho (Z.to_nat k)) /\ (lo <= B2R (rho (Z.to_nat k)) <= B2R hi)%R.
Proof.
  intros Hg Ht G0 W U Gd Fr k c Hk Hc. destruct (placed rho k ltac:(lia)) as [Fp N]. { intros j Hj. apply Gd. lia. }
  destruct (Gd (Z.to_nat k) ltac:(lia)) as (Gk & Dk & Bk). set (p := pos_at (0, dzero) rho (Z.to_nat k)) in *.
  destruct Ht as (T1 & T2 & T3). destruct (hlen_val inc coeffs T1 hi G0) as [_ Bh].
  assert (Rb := reach_bound inc coeffs T1 T2 hi hi (snd p) 0 G0 G0 ltac:(lra) Fp ltac:(lia)). rewrite Z.sub_0_r in Rb.
  assert (Hcut : fst p - dep (Z.to_nat k) < fst p - table_reach inc coeffs hi) by (unfold table_reach; lia).
  exists (fst p), (snd p). eexists. exists (fst p - dep (Z.to_nat k)). split; [exact N|]. split; [apply Fp|]. split; [apply Fr; assumption|].
  fold p. rewrite <- small, <- surjective_pairing.
  destruct (sample_ideal inc coeffs Hg (fun i => X i c) (dep (Z.to_nat k)) p (rho (Z.to_nat k)) (Rabs (B2R A)) Gk Fp (sized_val A) U ltac:(lia)) as [F1 F2].
  { intros i. now apply W. }
  split; [exact F1|]. split; [exact Hcut|]. split; [exact F2|]. split; [|split; assumption].
  intros L. rewrite (ideal_cut inc coeffs Hg) in F2; auto. lia.
Qed.

Lemma sinc_varied inc coeffs ch X lo hi (A : f32) st log out st1 o1 : (inc, coeffs) = fastest_table \/ (inc, coeffs) = mid_qual_table ->
  sinc_start (inc, coeffs) ch st -> in_range hi -> within ch X A -> (6 * Rabs (B2R A) < IZR (2 ^ 128))%R -> (forall i j, i < 0 -> X i j = fzero) ->
  sinc_streaming ch X (fun r => (lo <= B2R r <= B2R hi)%R) st 0 log out st1 o1 ->
  exists rho, follows (/ IZR (2 ^ 33)) None log rho /\
  forall k c, 0 <= k < total_gen log -> 0 <= c < ch -> exists u t y cut, reached rho k u (B2R t) /\ is_finite t = true /\
    sample ch out k c = Some y /\ is_finite y = true /\ cut < u - table_reach inc coeffs hi /\
    (Rabs (B2R y - ideal_sinc inc coeffs (from_on cut (fun i => B2R (X i c))) (u, t) (rho (Z.to_nat k))) <= 6 / 10000000 * Rabs (B2R A) + / IZR (2 ^ 149))%R /\
    (table_reach inc coeffs (rho (Z.to_nat k)) <= table_reach inc coeffs hi ->
     (Rabs (B2R y - ideal_sinc inc coeffs (fun i => B2R (X i c)) (u, t) (rho (Z.to_nat k))) <= 6 / 10000000 * Rabs (B2R A) + / IZR (2 ^ 149))%R) /\
    in_range (rho (Z.to_nat k)) /\ (lo <= B2R (rho (Z.to_nat k)) <= B2R hi)%R.
Proof.
  intros T S G W U Z0 Run. destruct (flat_gain _ T) as [Ht Hg]. clear T. rewrite <- big in U.
  destruct (start_tape inc coeffs ch X st Ht S Z0) as (Hch & Ot & Sr & Sp).
  destruct (sinc_vari inc coeffs ch Ht Hch X lo hi G st 0 log out st1 o1 Run Fresh None Ot Sr ltac:(discriminate) I) as (_ & rho & dep & Fo & Gd & Fr & _ & _).
  rewrite Sp in Fr. exists rho. split; [exact Fo|]. exact (frames_near inc coeffs ch X lo hi A out _ rho dep Hg Ht G W U Gd Fr).
Qed.

Lemma step_above r : in_range r -> (1 <= B2R r)%R -> forall inc, table_step inc r = table_step inc (d_of_Z 1).
Proof.
  intros G H inc. unfold table_step. destruct (d_of_Z_val 1) as [V F]; [lia|].
  change (Bltb r (d_of_Z 1)) with (dlt r (d_of_Z 1)). rewrite dlt_spec by (assumption || apply G). rewrite V, Rlt_bool_false by exact H.
  change (Bltb (d_of_Z 1) (d_of_Z 1)) with (dlt (d_of_Z 1) (d_of_Z 1)). rewrite dlt_spec by assumption. rewrite Rlt_bool_false by lra. reflexivity.
Qed.
Lemma sinc_varied_up inc coeffs ch X (A : f32) st log out st1 o1 : (inc, coeffs) = fastest_table \/ (inc, coeffs) = mid_qual_table ->
  sinc_start (inc, coeffs) ch st -> within ch X A -> (6 * Rabs (B2R A) < IZR (2 ^ 128))%R -> (forall i j, i < 0 -> X i j = fzero) ->
  sinc_streaming ch X (fun r => (1 <= B2R r <= 256)%R) st 0 log out st1 o1 ->
  exists rho, follows (/ IZR (2 ^ 33)) None log rho /\
  forall k c, 0 <= k < total_gen log -> 0 <= c < ch -> exists u t y, reached rho k u (B2R t) /\ is_finite t = true /\
    sample ch out k c = Some y /\ is_finite y = true /\
    (Rabs (B2R y - ideal_sinc inc coeffs (fun i => B2R (X i c)) (u, t) (rho (Z.to_nat k))) <= 6 / 10000000 * Rabs (B2R A) + / IZR (2 ^ 149))%R.
Proof.
  intros T S W U Z0 Run. destruct (d_of_Z_val 256) as [V F]; [lia|]. assert (G : in_range (d_of_Z 256)). { split; [exact F|]. rewrite V. lra. }
  rewrite <- V in Run.
  destruct (sinc_varied inc coeffs ch X 1 (d_of_Z 256) A st log out st1 o1 T S G W U Z0 Run) as (rho & Fo & H). exists rho. split; [exact Fo|].
  intros k c Hk Hc. destruct (H k c Hk Hc) as (u & t & y & cut & R1 & R2 & R3 & R4 & _ & _ & R5 & R6 & R7). exists u, t, y. repeat (split; [assumption|]).
  apply R5. unfold table_reach. rewrite (step_above (rho (Z.to_nat k))), (step_above (d_of_Z 256)); try assumption; [lia|rewrite V; lra|apply R7].
Qed.

(** ** Duration *)
Lemma reached_near rho k u t : reached rho k u t -> (IZR u <= travelled rho (Z.to_nat k) + wander rho k /\ travelled rho (Z.to_nat k) <= IZR u + 1 + wander rho k)%R.
Proof. intros [T A]. fold (wander rho k) in A. apply Rabs_le_inv in A. lra. Qed.

Lemma wrote_read m m1 a ch g f : 0 < ch -> 0 <= g -> wrote m m1 a ch g f -> exists chunk, mread_n m1 a (Z.to_nat (g * ch)) = Ok chunk.
Proof.
  intros Hc Hg [W1 _]. apply mread_n_ok. intros j Hj. assert (M := Z.mod_pos_bound j ch Hc). assert (Q := Z.div_mod j ch ltac:(lia)).
  assert (0 <= j / ch) by (apply Z.div_pos; lia). assert (j / ch < g) by (apply Z.div_lt_upper_bound; nia).
  replace j with (j / ch * ch + j mod ch) by lia. rewrite W1 by lia. discriminate.
Qed.

Lemma hold_duration kd ch X N st log out st1 o1 d m e st2 d2 m2 :
  at_start kd ch st -> channels_fit ch -> streaming ch X in_range (lin_legal kd ch X) st 0 log out st1 o1 -> presented 0 log <= N ->
  valid_call ch d m -> holds m (data_in d) ch (input_frames d) X o1 -> lin_legal kd ch X o1 d m -> o1 + input_frames d = N ->
  src_process (Some st1) (Some d) m = Ok (e, Some st2, Some d2, m2) -> output_frames_gen d2 < output_frames d ->
  exists rho, follows (/ IZR (2 ^ 42)) None (log ++ [Ev_call d d2]) rho /\ covers rho (total_gen log + output_frames_gen d2) N 1 1.
Proof.
  intros A F Hs Hp Vd Hd Ld EN Ed Lt.
  destruct (hold_start kd ch X st log out st1 o1 A F Hs) as (_ & _ & _ & _ & _ & G0 & O & C & L & _).
  assert (Hr : in_range (src_ratio d)) by apply Vd.
  assert (B : ratio_in (/256) 256 st1). { destruct L as [Z|Z]; [now left|right]. split; [exact Z|apply Z]. }
  assert (Bd : band (/256) 256 (src_ratio d)) by (split; [exact Hr|apply Hr]).
  assert (Vd' : valid_call (st_channels st1) d m) by now rewrite C.
  assert (Hd' : holds m (data_in d) (st_channels st1) (input_frames d) X o1) by now rewrite C.
  assert (Ld' : lin_legal kd (st_channels st1) X o1 d m) by now rewrite C.
  destruct (stream_call kd X st1 o1 d m e st2 d2 m2 (/256) 256 O B Vd' Hd' Bd Ld' Ed)
    as (O2 & B2 & C2 & (He & HD & HU & HG & _) & _ & _ & Rg & Pg & _ & Wr & Av & _).
  assert (Hc0 : 0 < ch) by (rewrite <- C; apply O). rewrite C in *.
  destruct (wrote_read _ _ _ _ _ _ Hc0 (proj1 HG) Wr) as [chunk Ck].
  destruct (HoldMain.streaming_snoc ch X in_range (lin_legal kd ch X) st 0 log out st1 o1 Hs d m e st2 d2 m2 chunk Vd Hd Hr Ld Ed Ck) as (S1 & S2 & S3).
  destruct (hold_start kd ch X st _ _ st2 _ A F S1) as (rho & Fo & Gr & _ & Po & T0 & T1 & T2 & _ & Rd). rewrite S2 in *.
  set (G := total_gen log + output_frames_gen d2) in *. exists rho. split; [exact Fo|].
  assert (Pp : 0 <= fst (split_pos (st_last_position st2))) by (apply split_lt258; apply T1).
  split.
  - destruct (placed rho G T0) as [Fg N0]. { intros j Hj. now apply Gr. } destruct (reached_near _ _ _ _ N0) as [N1 _].
    assert (Lo : N - 1 <= fst (pos_at (0, dzero) rho (Z.to_nat G))).
    { destruct (Av Lt) as [Z0|Af].
      - rewrite <- Po. unfold stream_pos, shift. cbn [fst]. lia.
      - rewrite <- Pg, Po in Af. set (p := pos_at (0, dzero) rho (Z.to_nat G)) in *.
        destruct (Z.eq_dec (input_frames d) 0) as [Z0|Z0].
        + rewrite <- Po. unfold stream_pos, shift. cbn [fst]. lia.
        + assert (Hn : 0 < input_frames d) by (assert (0 <= input_frames d) by apply Vd; lia).
          assert (Pos : 0 <= fst (shift (- o1) p)).
          { rewrite <- Po. unfold stream_pos, shift. cbn [fst]. lia. }
          assert (Q := avail_far kd ch (input_frames d) (shift (- o1) p)). unfold channels_fit in F.
          specialize (Q Hc0 ltac:(lia) Hn ltac:(apply Vd) Pos Fg Af). unfold shift in Q. cbn [fst] in Q. lia. }
    apply IZR_le in Lo. rewrite minus_IZR in Lo. lra.
  - intros k Hk. destruct (placed rho k ltac:(lia)) as [Fg N0]. { intros j Hj. apply Gr. lia. } destruct (reached_near _ _ _ _ N0) as [_ N1].
    assert (Q := Rd (Z.to_nat k) ltac:(lia)).
    assert (Q2 : fst (pos_at (0, dzero) rho (Z.to_nat k)) <= N) by (unfold reads in Q; destruct kd; lia). apply IZR_le in Q2. lra.
Qed.

Lemma sinc_at_most inc coeffs ch X st log out st1 o1 : table_fit (inc, coeffs) -> sinc_start (inc, coeffs) ch st -> (forall i j, i < 0 -> X i j = fzero) ->
  sinc_streaming ch X in_range st 0 log out st1 o1 ->
  exists rho, follows (/ IZR (2 ^ 33)) None log rho /\ forall k, 0 <= k < total_gen log -> (travelled rho (Z.to_nat k) <= IZR o1 + wander rho k)%R.
Proof.
  intros Ht S Z0 Run. destruct (start_tape inc coeffs ch X st Ht S Z0) as (Hch & Ot & Sr & Sp).
  destruct (d_of_Z_val 256) as [V F]; [lia|]. assert (G : in_range (d_of_Z 256)). { split; [exact F|]. rewrite V. lra. }
  assert (Run' : sinc_streaming ch X (fun r => (/ 256 <= B2R r <= B2R (d_of_Z 256))%R) st 0 log out st1 o1).
  { clear - Run V. induction Run; [constructor|eapply SS_call; eauto; rewrite V; apply H1|eapply SS_ratio; eauto; rewrite V; apply H0]. }
  destruct (sinc_vari inc coeffs ch Ht Hch X (/ 256) (d_of_Z 256) G st 0 log out st1 o1 Run' Fresh None Ot Sr ltac:(discriminate) I)
    as (_ & rho & dep & Fo & Gd & _ & _ & _ & Bl & _).
  rewrite Sp in Bl. exists rho. split; [exact Fo|]. intros k Hk.
  destruct (placed rho k ltac:(lia)) as [Fg N0]. { intros j Hj. apply Gd. lia. } destruct (reached_near _ _ _ _ N0) as [_ N1].
  assert (Q := Bl (Z.to_nat k) ltac:(lia)). apply Zlt_le_succ, IZR_le in Q. rewrite succ_IZR in Q. lra.
Qed.

Lemma sinc_takes_up inc coeffs ch X N st log out st1 o1 d m st2 d2 m2 :
  table_fit (inc, coeffs) -> sinc_start (inc, coeffs) ch st -> (forall i k, i < 0 -> X i k = fzero) ->
  sinc_streaming ch X (fun r => (1 <= B2R r <= 256)%R) st 0 log out st1 o1 ->
  ends_at N 0 log -> o1 + input_frames d <= N -> (end_of_input d <> 0 -> o1 + input_frames d = N) ->
  valid_call ch d m -> holds m (data_in d) ch (input_frames d) X o1 -> (1 <= B2R (src_ratio d))%R ->
  (end_of_input d <> 0 -> forall i c, o1 + input_frames d <= i -> X i c = fzero) ->
  data_in d <> 0 -> input_frames d * ch < 2 ^ 31 ->
  src_process (Some st1) (Some d) m = Ok (0, Some st2, Some d2, m2) ->
  output_frames_gen d2 < output_frames d -> input_frames_used d2 = input_frames d.
Proof.
  intros Ht S Z0 Run En Ln Ee Vd Hd R1 Hend Hdi Hn E Lt. destruct (start_tape inc coeffs ch X st Ht S Z0) as (Hch & Ot & Sr & Sp).
  destruct (d_of_Z_val 256) as [V F]; [lia|]. assert (G : in_range (d_of_Z 256)). { split; [exact F|]. rewrite V. lra. }
  rewrite <- V in Run.
  destruct (sinc_vari inc coeffs ch Ht Hch X 1 (d_of_Z 256) G st 0 log out st1 o1 Run Fresh None Ot Sr ltac:(discriminate) I)
    as (G0 & _ & _ & _ & _ & _ & _ & _ & _ & ph1 & Ot1 & L1 & C1 & A1).
  assert (Same : forall r, good_ratio r -> (1 <= B2R r <= B2R (d_of_Z 256))%R -> hlen inc coeffs r = hlen inc coeffs (d_of_Z 256)).
  { intros r Gr [Lr _]. destruct Ht as (T1 & _). destruct (hlen_val inc coeffs T1 r Gr) as [-> _]. destruct (hlen_val inc coeffs T1 _ G) as [-> _].
    destruct (count_facts inc coeffs T1 r Gr) as (_ & -> & _). destruct (count_facts inc coeffs T1 _ G) as (_ & -> & _). rewrite V, !Rmin_left by lra. reflexivity. }
  destruct (A1 Same I) as [Ah1 Se1]. { unfold sealed. destruct (st_priv st); exact I. } clear A1.
  assert (Ad : (1 <= B2R (src_ratio d) <= B2R (d_of_Z 256))%R). { split; [exact R1|]. rewrite V. apply Vd. }
  assert (Gd : in_range (src_ratio d)) by apply Vd.
  destruct (tape_call inc coeffs ch Ht Hch X st1 o1 ph1 d m st2 d2 m2 Ot1 Vd Hd Hend E)
    as (ph2 & dep & Ot2 & Hu & Hg & _ & _ & Wr & Po & Lr & Gl & Sl & Ld & _ & Cl & Bl & Why).
  set (start := start_ratio st1 (src_ratio d)) in *.
  assert (Gs : good_ratio start /\ (1 <= B2R start <= B2R (d_of_Z 256))%R).
  { unfold start, start_ratio. destruct L1 as [->|[L1 L2]]; [rewrite zero_low; auto|rewrite good_not_low; auto]. }
  assert (Eh : hl inc coeffs start (src_ratio d) = hlen inc coeffs (d_of_Z 256)).
  { unfold hl, dmin. destruct (dlt start (src_ratio d)); apply Same; try apply Gs; assumption. }
  unfold lead in Why. rewrite Eh in Why.
  assert (Rm : 4 * hlen inc coeffs (d_of_Z 256) + 3 <= width inc coeffs) by (apply wide_roomy; [apply Ht|exact G|rewrite V; lra]).
  assert (H0 : 0 <= hlen inc coeffs (d_of_Z 256)) by (destruct (hlen_val inc coeffs (proj1 Ht) _ G) as [_ Bh]; lia).
  destruct (Why Lt Hdi Hn ltac:(lia) Ah1) as [(_ & Q & _)|[Q1 _]]; [exact Q|].
  destruct (Cl Q1) as [Q|[_ Q]]; [|exact Q]. assert (Q3 := C1 N En ltac:(intros []) Q). lia.
Qed.
Lemma sinc_whole inc coeffs ch X N st log out st1 o1 d m st2 d2 m2 :
  table_fit (inc, coeffs) -> sinc_start (inc, coeffs) ch st -> (forall i k, i < 0 -> X i k = fzero) ->
  sinc_streaming ch X (fun r => (1 <= B2R r <= 256)%R) st 0 log out st1 o1 ->
  ends_at N 0 log ->
  valid_call ch d m -> holds m (data_in d) ch (input_frames d) X o1 -> (1 <= B2R (src_ratio d))%R -> end_of_input d <> 0 ->
  (forall i c, N <= i -> X i c = fzero) -> data_in d <> 0 -> input_frames d * ch < 2 ^ 31 -> o1 + input_frames d = N ->
  src_process (Some st1) (Some d) m = Ok (0, Some st2, Some d2, m2) -> output_frames_gen d2 < output_frames d ->
  input_frames_used d2 = input_frames d /\
  exists rho chunk, follows (/ IZR (2 ^ 33)) None (log ++ [Ev_call d d2]) rho /\ covers rho (total_gen log + output_frames_gen d2) N (1 + / IZR (2 ^ 20)) 0 /\
    sinc_streaming ch X (fun r => (1 <= B2R r <= 256)%R) st 0 (log ++ [Ev_call d d2]) (out ++ chunk) st2 N /\ mread_n m2 (data_out d) (Z.to_nat (output_frames_gen d2 * ch)) = Ok chunk /\
    (forall A : f32, (inc, coeffs) = fastest_table \/ (inc, coeffs) = mid_qual_table -> within ch X A -> (6 * Rabs (B2R A) < IZR (2 ^ 128))%R ->
     forall k c, 0 <= k < total_gen log + output_frames_gen d2 -> 0 <= c < ch -> exists u t y, reached rho k u (B2R t) /\ is_finite t = true /\
       sample ch (out ++ chunk) k c = Some y /\ is_finite y = true /\
       (Rabs (B2R y - ideal_sinc inc coeffs (fun i => B2R (X i c)) (u, t) (rho (Z.to_nat k))) <= 6 / 10000000 * Rabs (B2R A) + / IZR (2 ^ 149))%R).
Proof.
  intros Ht S Z0 Run Op Vd Hd R1 He Hend Hdi Hn EN E Lt. destruct (start_tape inc coeffs ch X st Ht S Z0) as (Hch & Ot & Sr & Sp).
  destruct (d_of_Z_val 256) as [V F]; [lia|]. assert (G : in_range (d_of_Z 256)). { split; [exact F|]. rewrite V. lra. }
  rewrite <- V in Run. assert (Hend' : end_of_input d <> 0 -> forall i c, o1 + input_frames d <= i -> X i c = fzero) by (rewrite EN; auto).
  destruct (sinc_vari inc coeffs ch Ht Hch X 1 (d_of_Z 256) G st 0 log out st1 o1 Run Fresh None Ot Sr ltac:(discriminate) I)
    as (G0 & _ & _ & _ & _ & _ & _ & _ & _ & ph1 & Ot1 & L1 & C1 & A1).
  assert (Same : forall r, good_ratio r -> (1 <= B2R r <= B2R (d_of_Z 256))%R -> hlen inc coeffs r = hlen inc coeffs (d_of_Z 256)).
  { intros r Gr [Lr _]. destruct Ht as (T1 & _). destruct (hlen_val inc coeffs T1 r Gr) as [-> _]. destruct (hlen_val inc coeffs T1 _ G) as [-> _].
    destruct (count_facts inc coeffs T1 r Gr) as (_ & -> & _). destruct (count_facts inc coeffs T1 _ G) as (_ & -> & _). rewrite V, !Rmin_left by lra. reflexivity. }
  destruct (A1 Same I) as [Ah1 Se1]. { unfold sealed. destruct (st_priv st); exact I. } clear A1.
  assert (Ad : (1 <= B2R (src_ratio d) <= B2R (d_of_Z 256))%R). { split; [exact R1|]. rewrite V. apply Vd. }
  assert (Gd : in_range (src_ratio d)) by apply Vd.
  destruct (tape_call inc coeffs ch Ht Hch X st1 o1 ph1 d m st2 d2 m2 Ot1 Vd Hd Hend' E)
    as (ph2 & dep & Ot2 & Hu & Hg & _ & _ & Wr & Po & Lr & Gl & Sl & Ld & _ & Cl & Bl & Why).
  set (start := start_ratio st1 (src_ratio d)) in *.
  assert (Gs : good_ratio start /\ (1 <= B2R start <= B2R (d_of_Z 256))%R).
  { unfold start, start_ratio. destruct L1 as [->|[L1 L2]]; [rewrite zero_low; auto|rewrite good_not_low; auto]. }
  assert (Eh : hl inc coeffs start (src_ratio d) = hlen inc coeffs (d_of_Z 256)).
  { unfold hl, dmin. destruct (dlt start (src_ratio d)); apply Same; try apply Gs; assumption. }
  unfold lead in Why. rewrite Eh in Why.
  assert (Rm : 4 * hlen inc coeffs (d_of_Z 256) + 3 <= width inc coeffs) by (apply wide_roomy; [apply Ht|exact G|rewrite V; lra]).
  assert (H0 : 0 <= hlen inc coeffs (d_of_Z 256)) by (destruct (hlen_val inc coeffs (proj1 Ht) _ G) as [_ Bh]; lia).
  destruct (Why Lt Hdi Hn ltac:(lia) Ah1) as [(_ & _ & Q)|[Q1 Q2]]; [contradiction|]. specialize (Q2 Rm Se1). cbv zeta in Q2.
  assert (U : input_frames_used d2 = input_frames d).
  { destruct (Cl Q1) as [Q|[_ Q]]; [|exact Q]. assert (Q3 := C1 N Op ltac:(intros []) Q). lia. }
  split; [exact U|]. rewrite U, EN in Q2.
  destruct (wrote_read _ _ _ ch _ _ ltac:(lia) (proj1 Hg) Wr) as [chunk Ck].
  assert (Run2 := CbStream.sinc_streaming_snoc ch X _ st 0 log out st1 o1 d m st2 d2 m2 chunk Run Vd Hd Ad Hend' E Ck). rewrite U, EN in Run2.
  assert (Tg : total_gen (log ++ [Ev_call d d2]) = total_gen log + output_frames_gen d2).
  { clear. induction log as [|[x y|x] l IH]; cbn [app total_gen]; [lia|lia|exact IH]. }
  destruct (sinc_vari inc coeffs ch Ht Hch X 1 (d_of_Z 256) G st 0 _ _ st2 N Run2 Fresh None Ot Sr ltac:(discriminate) I)
    as (T0 & rho & dep' & Fo & Gr & Fr2 & Pe & _ & Bl2 & _).
  rewrite Tg, Sp in *. set (Gz := total_gen log + output_frames_gen d2) in *. exists rho, chunk. split; [exact Fo|]. split; [split|split; [rewrite <- V; exact Run2|split; [exact Ck|]]].
  - destruct (placed rho Gz T0) as [Fg N0]. { intros j Hj. now apply Gr. } rewrite Pe in Q2.
    destruct N0 as [_ N0]. fold (wander rho Gz) in N0. apply Rabs_le_inv in N0.
    assert (I1 : (/ B2R start <= 1)%R). { rewrite <- Rinv_1. apply Rinv_le; [lra|apply Gs]. } lra.
  - intros k Hk. destruct (placed rho k ltac:(lia)) as [Fg N0]. { intros j Hj. apply Gr. lia. } destruct (reached_near _ _ _ _ N0) as [_ N1].
    assert (Q := Bl2 (Z.to_nat k) ltac:(lia)). apply Zlt_le_succ, IZR_le in Q. rewrite succ_IZR in Q. lra.
  - intros A T W U6 k c Hk Hc. destruct (flat_gain _ T) as [_ Hgn]. rewrite <- big in U6.
    destruct (frames_near inc coeffs ch X 1 (d_of_Z 256) A _ _ rho dep' Hgn Ht G W U6 Gr Fr2 k c Hk Hc) as (u & t & y & cut & S1 & S2 & S3 & S4 & _ & _ & S5 & S6 & S7).
    exists u, t, y. repeat (split; [assumption|]).
    apply S5. unfold table_reach. rewrite (step_above (rho (Z.to_nat k))), (step_above (d_of_Z 256)); try assumption; [lia|rewrite V; lra|apply S7].
Qed.
Lemma sinc_duration inc coeffs ch X N st log out st1 o1 d m st2 d2 m2 :
  table_fit (inc, coeffs) -> sinc_start (inc, coeffs) ch st -> (forall i k, i < 0 -> X i k = fzero) ->
  sinc_streaming ch X (fun r => (1 <= B2R r <= 256)%R) st 0 log out st1 o1 ->
  ends_at N 0 log ->
  valid_call ch d m -> holds m (data_in d) ch (input_frames d) X o1 -> (1 <= B2R (src_ratio d))%R -> end_of_input d <> 0 ->
  (forall i c, N <= i -> X i c = fzero) -> data_in d <> 0 -> input_frames d * ch < 2 ^ 31 -> o1 + input_frames d = N ->
  src_process (Some st1) (Some d) m = Ok (0, Some st2, Some d2, m2) -> output_frames_gen d2 < output_frames d ->
  input_frames_used d2 = input_frames d /\
  exists rho, follows (/ IZR (2 ^ 33)) None (log ++ [Ev_call d d2]) rho /\ covers rho (total_gen log + output_frames_gen d2) N (1 + / IZR (2 ^ 20)) 0.
Proof.
  intros Ht S Z0 Run Op Vd Hd R1 He Hend Hdi Hn EN E Lt.
  destruct (sinc_whole inc coeffs ch X N st log out st1 o1 d m st2 d2 m2 Ht S Z0 Run Op Vd Hd R1 He Hend Hdi Hn EN E Lt) as (U & rho & _ & Fo & Co & _).
  split; [exact U|]. exists rho. now split.
Qed.
Lemma zoh_duration ch X N st log out st1 o1 d m e st2 d2 m2 :
  at_start Zoh ch st -> channels_fit ch -> streaming ch X in_range (fun _ _ _ => True) st 0 log out st1 o1 -> presented 0 log <= N ->
  valid_call ch d m -> holds m (data_in d) ch (input_frames d) X o1 -> o1 + input_frames d = N ->
  src_process (Some st1) (Some d) m = Ok (e, Some st2, Some d2, m2) -> output_frames_gen d2 < output_frames d ->
  exists rho, follows (/ IZR (2 ^ 42)) None (log ++ [Ev_call d d2]) rho /\ covers rho (total_gen log + output_frames_gen d2) N 1 1.
Proof. intros A F S P V H EN E L. exact (hold_duration Zoh ch X N st log out st1 o1 d m e st2 d2 m2 A F S P V H I EN E L). Qed.
