(** One call of src_process on a zero-order-hold or linear converter. *)
From Coq Require Import ZArith Reals List Bool Lia Lra.
From Flocq Require Import Core IEEE754.BinarySingleNaN.
From Verif Require Import Base FloatFacts PosFacts Types Common Zoh Linear Api HoldSpec HoldFacts HoldRamp HoldCore
  ZohProofs LinearProofs.
Import ListNotations.
Local Open Scope Z_scope.

Definition vt_of (kd : kind) : vtable := match kd with Zoh => VT_zoh | Lin => VT_linear end.

(** ** served *)
Lemma served_spec : forall room av,
  (served av room <= room)%nat /\ (forall j, (j < served av room)%nat -> av j = true) /\
  (served av room = room \/ av (served av room) = false).
Proof.
  induction room as [|r IH]; intros av; cbn [served].
  - split; [lia|]. split; [intros j Hj; lia|auto].
  - destruct (av O) eqn:E.
    + destruct (IH (fun k => av (S k))) as (A & B & C). split; [lia|]. split.
      * intros [|j] Hj; [exact E|]. apply B. lia.
      * destruct C as [C|C]; [left; lia|right; exact C].
    + split; [lia|]. split; [intros j Hj; lia|auto].
Qed.

Lemma served_unique room av g : (g <= room)%nat -> (forall j, (j < g)%nat -> av j = true) ->
  (g = room \/ av g = false) -> g = served av room.
Proof.
  intros H1 H2 H3. destruct (served_spec room av) as (A & B & C).
  destruct (Nat.lt_trichotomy g (served av room)) as [L|[L|L]]; auto; exfalso.
  - destruct H3 as [H3|H3]; [lia|]. rewrite B in H3 by exact L. discriminate H3.
  - destruct C as [C|C]; [lia|]. rewrite H2 in C by exact L. discriminate C.
Qed.

Lemma served_ext room : forall av av', (forall j, (j < room)%nat -> av j = av' j) -> served av room = served av' room.
Proof.
  intros av av' H. destruct (served_spec room av) as (A & B & C). apply served_unique; auto.
  - intros j Hj. rewrite <- H by lia. now apply B.
  - destruct (Nat.eq_dec (served av room) room) as [|N]; [now left|right].
    destruct C as [C|C]; [lia|]. rewrite <- H by lia. exact C.
Qed.

(** ** When the linear converter leaves its first loop early *)
Lemma lin_break_far ch n t : 0 < ch -> ch <= 2 ^ 31 -> 0 < n -> n * ch <= 2 ^ 50 -> frac t -> 3 <= n -> lin_break ch n t = false.
Proof.
  intros Hc Hci Hn Hnc (F & S & L & U) H3. unfold lin_break.
  destruct done_val as [V1 F1].
  assert (B2 : (rnd64 (1 + val t) <= 2)%R) by (apply rnd64_le; [apply (fmt64_Z 2); lia|lra]).
  assert (B1 : (1 <= rnd64 (1 + val t))%R) by (apply rnd64_ge; [apply (fmt64_Z 1); lia|lra]).
  assert (E1024 : (bpow radix2 10 <= bpow radix2 1000)%R) by (apply bpow_le; lia).
  assert (E10 : bpow radix2 10 = 1024%R) by reflexivity.
  destruct (dadd_val done_ t F1 F) as [V2 F2].
  { rewrite V1. rewrite Rabs_pos_eq by lra. lra. }
  rewrite V1 in V2.
  destruct (d_of_Z_val ch) as [V3 F3]. { rewrite Z.abs_eq by lia. lia. }
  assert (Cr : (1 <= IZR ch)%R) by (apply (IZR_le 1); lia).
  assert (Cr2 : (IZR ch <= bpow radix2 31)%R).
  { apply Rle_trans with (IZR (2 ^ 31)); [now apply IZR_le|]. right. apply (IZR_Zpower radix2 31). lia. }
  assert (E32 : (bpow radix2 31 * 2 <= bpow radix2 1000)%R).
  { change 2%R with (bpow radix2 1). rewrite <- bpow_plus. apply bpow_le. lia. }
  destruct (dmul_val (d_of_Z ch) (dadd done_ t) F3 F2) as [V4 F4].
  { rewrite V3, V2. rewrite Rabs_pos_eq by (apply Rmult_le_pos; lra).
    apply Rle_trans with (bpow radix2 31 * 2)%R; [|exact E32]. apply Rmult_le_compat; lra. }
  rewrite V3, V2 in V4.
  assert (B4 : (rnd64 (IZR ch * rnd64 (1 + val t)) <= IZR (ch * 2))%R).
  { apply rnd64_le. apply fmt64_Z; rewrite Z.abs_eq by lia; lia. rewrite mult_IZR. apply Rmult_le_compat_l; lra. }
  assert (B0 : (0 <= rnd64 (IZR ch * rnd64 (1 + val t)))%R) by (apply mul_nonneg; lra).
  destruct (d_of_Z_val 0) as [V0 F0]; [simpl; lia|].
  assert (Cr3 : (IZR (ch * 2) <= bpow radix2 1000)%R).
  { rewrite mult_IZR. apply Rle_trans with (2 := E32). apply Rmult_le_compat_r; lra. }
  destruct (dadd_val (d_of_Z 0) (dmul (d_of_Z ch) (dadd done_ t)) F0 F4) as [V5 F5].
  { rewrite V0, V4. rewrite Rabs_pos_eq by lra. lra. }
  rewrite V0, V4, Rplus_0_l in V5.
  destruct (nc_val ch n Hc Hn Hnc) as [Vn Fn].
  rewrite dge_spec by auto. rewrite V5, Vn. apply Rle_bool_false.
  apply Rle_lt_trans with (IZR (ch * 2)).
  - apply rnd64_le; [|exact B4]. apply fmt64_Z; rewrite Z.abs_eq by lia; lia.
  - apply IZR_lt. nia.
Qed.

(** ** The invariant of a converter state *)
Definition hold_ok (kd : kind) (st : SRC_STATE) : Prop :=
  st_vt st = vt_of kd /\ 0 < st_channels st /\ st_channels st * 258 <= 2 ^ 31 - 1 /\
  (st_last_ratio st = dzero \/ good_ratio (st_last_ratio st)) /\
  pos_le 258 (st_last_position st) /\ (val (st_last_position st) < 258)%R /\
  exists h, st_priv st = P_hold h /\ zlen (h_last_value h) = st_channels st.

(** The stream X continues the converter's past: frame -1 is the last frame it consumed. *)
Definition follows (st : SRC_STATE) (X : stream) : Prop :=
  forall h, st_priv st = P_hold h ->
  if h_dirty h then frame_is (h_last_value h) (st_channels st) (X (-1))
  else forall c, 0 <= c < st_channels st -> X (-1) c = X 0 c.

(** Everything but ratio, position and private data is the same. *)
Definition same_frame (a b : SRC_STATE) : Prop :=
  st_vt b = st_vt a /\ st_error b = st_error a /\ st_channels b = st_channels a /\ st_mode b = st_mode a /\
  st_callback b = st_callback a /\ st_user_data b = st_user_data a /\
  st_saved_frames b = st_saved_frames a /\ st_saved_data b = st_saved_data a.

Definition is_dirty (st : SRC_STATE) : Prop := exists h, st_priv st = P_hold h /\ h_dirty h = true.

(** What one call computes. *)
Section Spec.
  Variables (kd : kind) (ch n mo : Z) (x0 last new : f64).
  Definition cpos (k : nat) : position := pos_at (split_pos x0) (ramp last new ch mo) k.
  Definition cgen : nat := served (fun k => avail kd ch n (cpos k)) (Z.to_nat mo).
  Definition cused : Z := Z.min n (fst (cpos cgen)).
  Definition cratio : f64 := cur_at ch mo last new cgen.
End Spec.

(** Linear only: it does not leave its first loop early, or the frame before the block happens to be readable and equal
    to the previous frame. *)
Definition lin_safe (ch n mo inp out : Z) (x0 last new : f64) (X : stream) (m : mem) : Prop :=
  (forall k, Z.of_nat k < mo -> fst (cpos ch mo x0 last new k) = 0 -> lin_break ch n (snd (cpos ch mo x0 last new k)) = false)
  \/ (holds m (inp - ch) ch 1 X (-1) /\ disjoint_ranges (inp - ch) ch out (mo * ch)).

Lemma prologue_ok st h m inp ch n X : st_priv st = P_hold h -> zlen (h_last_value h) = ch -> ch = st_channels st -> 0 < ch -> 0 < n ->
  follows st X -> holds m inp ch n X 0 ->
  exists lv, (if h_dirty h then Ok (h_last_value h) else load_frame m inp (h_last_value h) 0 (Z.to_nat ch)) = Ok lv /\
             frame_is lv ch (X (-1)).
Proof.
  intros Hp Hl -> Hc Hn Hf Hi. specialize (Hf h Hp). destruct (h_dirty h).
  - eauto.
  - destruct (load_frame_all m inp (st_channels st) (X 0) (h_last_value h)) as (lv & E & [L F]); auto.
    { intros j Hj. apply (Hi 0 j); lia. }
    exists lv. split; [exact E|]. split; [exact L|]. intros j Hj. rewrite Hf by exact Hj. now apply F.
Qed.

Section Call.
  Variables (kd : kind) (st : SRC_STATE) (d : SRC_DATA) (m : mem) (X : stream).
  Let ch := st_channels st.
  Let n := input_frames d.
  Let mo := output_frames d.
  Let x0 := st_last_position st.
  Let last := st_last_ratio st.
  Let new := src_ratio d.
  Hypothesis Hok : hold_ok kd st.
  Hypothesis G1 : good_ratio last.
  Hypothesis G2 : good_ratio new.
  Hypothesis Hn : 0 < n.
  Hypothesis Hnc : n * ch <= 2 ^ 50.
  Hypothesis Hmo : 0 <= mo.
  Hypothesis Hmc : mo * ch <= 2 ^ 50.
  Hypothesis Hin : holds m (data_in d) ch n X 0.
  Hypothesis Hout : writable m (data_out d) ch mo.
  Hypothesis Hdis : disjoint_ranges (data_in d) (n * ch) (data_out d) (mo * ch).
  Hypothesis Hf : follows st X.
  Hypothesis Hsafe : kd = Lin -> lin_safe ch n mo (data_in d) (data_out d) x0 last new X m.

  Let g := cgen kd ch n mo x0 last new.
  Let used := cused kd ch n mo x0 last new.

  Lemma vt_call : exists st' m',
    vt_process st d m = Ok (0, st', set_counts d used (Z.of_nat g), m') /\
    Z.of_nat g <= mo /\ 0 <= used <= n /\
    wrote m m' (data_out d) ch (Z.of_nat g) (fun k c => value kd X (cpos ch mo x0 last new (Z.to_nat k)) c) /\
    hold_ok kd st' /\ same_frame st st' /\ is_dirty st' /\
    split_pos (st_last_position st') = (fst (cpos ch mo x0 last new g) - used, snd (cpos ch mo x0 last new g)) /\
    st_last_ratio st' = cratio kd ch n mo x0 last new /\ good_ratio (st_last_ratio st') /\
    follows st' (fun i => X (used + i)).
  Proof.
    destruct Hok as (Hvt & Hch & Hci & Hlr & Hx & Hxl & h & Hp & Hl).
    fold ch in Hch, Hci, Hl. fold x0 in Hx, Hxl.
    destruct (prologue_ok st h m (data_in d) ch n X Hp Hl eq_refl Hch Hn Hf Hin) as (lv & El & Hlv).
    assert (Bad : is_bad_src_ratio last = false) by (apply is_bad_src_ratio_spec; now right).
    assert (Main : exists g0 m' x' lv',
       let used := Z.min n (fst (cpos ch mo x0 last new g0)) in
       vt_process st d m = Ok (0,
          set_priv (set_ratio (set_position st x') (cur_at ch mo last new g0))
                   (P_hold (mkHold true (n * ch) (used * ch) (mo * ch) (Z.of_nat g0 * ch) lv')),
          set_counts d used (Z.of_nat g0), m') /\
      Z.of_nat g0 <= mo /\ wrote m m' (data_out d) ch (Z.of_nat g0) (fun k c => value kd X (cpos ch mo x0 last new (Z.to_nat k)) c) /\
      (forall j, (j < g0)%nat -> avail kd ch n (cpos ch mo x0 last new j) = true) /\
      (Z.of_nat g0 = mo \/ avail kd ch n (cpos ch mo x0 last new g0) = false) /\
      pos_le 258 x' /\ (val x' < 258)%R /\
      split_pos x' = (fst (cpos ch mo x0 last new g0) - used, snd (cpos ch mo x0 last new g0)) /\
      frame_is lv' ch (X (used - 1)) /\ 0 <= used <= n).
    { unfold vt_process. rewrite Hvt. destruct kd; cbn [vt_of].
      - destruct (zoh_call_ok ch n mo (data_in d) (data_out d) last new X m x0 lv) as (g0 & m' & x' & lv' & E & R); auto.
        exists g0, m', x', lv'. cbv zeta in *. split; [|exact R].
        unfold zoh_vari_process. fold n mo ch x0 last new.
        replace (n <=? 0) with false by (symmetry; apply Z.leb_gt; lia).
        rewrite Hp. rewrite El. cbn [bind].
        rewrite !long_ok by lia. cbn [bind]. rewrite Bad.
        revert E. fold last new.
        destruct (zoh_loop1 _ _ _ _ _ _ _ _ _ _ _ _ _) as [[[[m1 og1] idx1] r1]|]; cbn [bind]; [|discriminate].
        destruct (advance ch 0 idx1) as [[iu1 idx1']|]; cbn [bind]; [|discriminate].
        destruct (zoh_loop2 _ _ _ _ _ _ _ _ _ _ _ _ _) as [[[[[m2 iu2] og2] idx2] r2]|]; cbn [bind]; [|discriminate].
        destruct (carry_over _ _ _ _) as [[iu3 idx3]|]; cbn [bind]; [|discriminate].
        match goal with |- bind ?a _ = _ -> bind ?b _ = _ => change b with a; destruct a as [lv2|] end; cbn [bind]; [|discriminate].
        destruct (c_div iu3 ch) as [u|]; cbn [bind]; [|discriminate].
        destruct (c_div og2 ch) as [gg|]; cbn [bind]; [|discriminate].
        intros E. injection E as <- -> -> <- -> <- -> ->. reflexivity.
      - destruct (lin_call_ok ch n mo (data_in d) (data_out d) last new X m x0 lv) as (g0 & m' & x' & lv' & E & R); auto.
        { apply Hsafe. reflexivity. }
        exists g0, m', x', lv'. cbv zeta in *. split; [|exact R].
        unfold linear_vari_process. fold n mo ch x0 last new.
        replace (n <=? 0) with false by (symmetry; apply Z.leb_gt; lia).
        rewrite Hp. rewrite El. cbn [bind].
        rewrite !long_ok by lia. cbn [bind]. rewrite Bad.
        revert E. fold last new.
        destruct (lin_loop1 _ _ _ _ _ _ _ _ _ _ _ _ _ _) as [[[[m1 og1] idx1] r1]|]; cbn [bind]; [|discriminate].
        destruct (advance ch 0 idx1) as [[iu1 idx1']|]; cbn [bind]; [|discriminate].
        destruct (lin_loop2 _ _ _ _ _ _ _ _ _ _ _ _ _) as [[[[[m2 iu2] og2] idx2] r2]|]; cbn [bind]; [|discriminate].
        destruct (carry_over _ _ _ _) as [[iu3 idx3]|]; cbn [bind]; [|discriminate].
        match goal with |- bind ?a _ = _ -> bind ?b _ = _ => change b with a; destruct a as [lv2|] end; cbn [bind]; [|discriminate].
        destruct (c_div iu3 ch) as [u|]; cbn [bind]; [|discriminate].
        destruct (c_div og2 ch) as [gg|]; cbn [bind]; [|discriminate].
        intros E. injection E as <- -> -> <- -> <- -> ->. reflexivity. }
    destruct Main as (g0 & m' & x' & lv' & E & A1 & A2 & A3 & A4 & A5 & A6 & A7 & A8 & A9). cbv zeta in *.
    assert (Eg : g0 = g).
    { unfold g, cgen. apply served_unique; [lia|exact A3|]. destruct A4; [left; lia|now right]. }
    clear A3 A4. subst g0. fold (cused kd ch n mo x0 last new) in *.
    change (Z.min n (fst (cpos ch mo x0 last new g))) with used in *.
    assert (Gc : good_ratio (cur_at ch mo last new g)) by (apply cur_good; auto).
    eexists; exists m'. split; [exact E|]. split; [exact A1|]. split; [exact A9|]. split; [exact A2|].
    split; [|split; [|split; [|split; [|split; [|split]]]]].
    - repeat split; cbn; auto; try apply A5. eexists; split; [reflexivity|]. cbn. apply A8.
    - repeat split.
    - eexists; split; reflexivity.
    - exact A7.
    - reflexivity.
    - exact Gc.
    - intros h' E'. cbn in E'. injection E' as <-. cbn. replace (used + -1) with (used - 1) by lia. exact A8.
  Qed.
End Call.
