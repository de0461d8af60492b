(** What the loops of the zero-order-hold and linear converters share: positions along a call, frames in memory. *)
From Coq Require Import ZArith Reals List Bool Lia Lra.
From Flocq Require Import Core IEEE754.BinarySingleNaN.
From Verif Require Import Base FloatFacts PosFacts Types Common HoldSpec HoldFacts HoldRamp.
Import ListNotations.
Local Open Scope Z_scope.

(** ** Frames in memory *)
Definition store_frame (m m' : mem) (a ch : Z) (f : Z -> f32) : Prop :=
  (forall c, 0 <= c < ch -> m' (a + c) = Some (f c)) /\
  (forall b, ~ (a <= b < a + ch) -> m' b = m b).

Lemma mwrite_ok m a x : m a <> None -> exists m', mwrite m a x = Ok m' /\ m' a = Some x /\ forall b, b <> a -> m' b = m b.
Proof.
  intros H. unfold mwrite. destruct (m a) as [y|]; [|congruence].
  eexists; split; [reflexivity|]. cbv beta. rewrite Z.eqb_refl. split; [reflexivity|].
  intros b Hb. destruct (Z.eqb_spec b a); congruence.
Qed.

Lemma mread_ok m a x : m a = Some x -> mread m a = Ok x.
Proof. intros H. unfold mread. now rewrite H. Qed.

Lemma zget_ok {A} (l : list A) i x : 0 <= i -> nth_error l (Z.to_nat i) = Some x -> zget l i = Ok x.
Proof. intros H E. unfold zget. replace (i <? 0) with false by (symmetry; apply Z.ltb_ge; lia). now rewrite E. Qed.

Lemma long_ok z : - 2 ^ 63 <= z <= 2 ^ 63 - 1 -> long_op z = Ok z.
Proof. intros H. unfold long_op. now rewrite (proj2 (in_long_true z)). Qed.
Lemma int_ok z : - 2 ^ 31 <= z <= 2 ^ 31 - 1 -> int_op z = Ok z.
Proof. intros H. unfold int_op. now rewrite (proj2 (in_int_true z)). Qed.

Lemma zset_spec {A} (l : list A) i x : 0 <= i < zlen l ->
  exists l', zset l i x = Ok l' /\ zlen l' = zlen l /\
    (forall j, 0 <= j -> nth_error l' (Z.to_nat j) = if j =? i then Some x else nth_error l (Z.to_nat j)).
Proof.
  intros H. unfold zset.
  replace ((i <? 0) || (zlen l <=? i)) with false.
  2: { symmetry. apply orb_false_iff. split; [apply Z.ltb_ge|apply Z.leb_gt]; lia. }
  eexists; split; [reflexivity|]. unfold zlen in *.
  set (k := Z.to_nat i). assert (Hk : (k < length l)%nat) by lia.
  split.
  - rewrite app_length. simpl. rewrite firstn_length, skipn_length. lia.
  - intros j Hj. destruct (Z.eqb_spec j i) as [->|N].
    + fold k. rewrite nth_error_app2; rewrite firstn_length; [|lia].
      replace (k - Nat.min k (length l))%nat with 0%nat by lia. reflexivity.
    + set (q := Z.to_nat j). assert (q <> k) by lia.
      destruct (Nat.lt_ge_cases q k).
      * rewrite nth_error_app1 by (rewrite firstn_length; lia).
        rewrite <- (firstn_skipn k l) at 2. rewrite nth_error_app1; [reflexivity|]. rewrite firstn_length; lia.
      * rewrite nth_error_app2 by (rewrite firstn_length; lia). rewrite firstn_length.
        replace (Nat.min k (length l)) with k by lia.
        replace (q - k)%nat with (S (q - k - 1)) by lia. simpl nth_error.
        rewrite <- (firstn_skipn (k + 1) l) at 2. rewrite nth_error_app2 by (rewrite firstn_length; lia).
        rewrite firstn_length. f_equal. lia.
Qed.

(** [load_frame] copies a frame into last_value. *)
Lemma load_frame_ok m a ch (f : Z -> f32) : forall n c lv,
  0 <= c -> c + Z.of_nat n = ch -> zlen lv = ch ->
  (forall j, c <= j < ch -> m (a + j) = Some (f j)) ->
  exists lv', load_frame m a lv c n = Ok lv' /\ zlen lv' = ch /\
    (forall j, c <= j < ch -> nth_error lv' (Z.to_nat j) = Some (f j)) /\
    (forall j, 0 <= j < c -> nth_error lv' (Z.to_nat j) = nth_error lv (Z.to_nat j)).
Proof.
  induction n as [|n IH]; intros c lv Hc Hn Hl Hm; cbn [load_frame].
  - exists lv. repeat split; auto. intros j Hj. lia.
  - rewrite (mread_ok _ _ (f c)) by (apply Hm; lia). cbn [bind].
    destruct (zset_spec lv c (f c)) as (lv1 & E & L & N); [lia|]. rewrite E. cbn [bind].
    destruct (IH (c + 1) lv1) as (lv2 & E2 & L2 & A & B); try lia.
    { intros j Hj. apply Hm. lia. }
    exists lv2. split; [exact E2|]. split; [exact L2|]. split.
    + intros j Hj. destruct (Z.eq_dec j c) as [->|Hne].
      * rewrite B by lia. rewrite N by lia. now rewrite Z.eqb_refl.
      * apply A. lia.
    + intros j Hj. rewrite B by lia. rewrite N by lia. destruct (Z.eqb_spec j c); [lia|reflexivity].
Qed.

(** [lv] holds one frame. *)
Definition frame_is (lv : list f32) (ch : Z) (f : Z -> f32) : Prop :=
  zlen lv = ch /\ forall j, 0 <= j < ch -> nth_error lv (Z.to_nat j) = Some (f j).

Lemma load_frame_all m a ch (f : Z -> f32) lv : 0 < ch -> zlen lv = ch ->
  (forall j, 0 <= j < ch -> m (a + j) = Some (f j)) ->
  exists lv', load_frame m a lv 0 (Z.to_nat ch) = Ok lv' /\ frame_is lv' ch f.
Proof.
  intros Hc Hl Hm. destruct (load_frame_ok m a ch f (Z.to_nat ch) 0 lv) as (lv' & E & L & A & _); try lia; auto.
  exists lv'. split; [exact E|]. split; auto.
Qed.

(** ** One call *)
Section Call.
  Variables (ch n mo inp out : Z) (last new : f64) (X : stream) (m0 : mem) (V : position -> Z -> f32) (p0 : position).
  Hypothesis Hch : 0 < ch.
  Hypothesis Hmc : mo * ch <= 2 ^ 50.
  Hypothesis G1 : good_ratio last.
  Hypothesis G2 : good_ratio new.
  Hypothesis Hp0 : frac (snd p0).
  Hypothesis Hin : holds m0 inp ch n X 0.
  Hypothesis Hout : writable m0 out ch mo.
  Hypothesis Hdis : disjoint_ranges inp (n * ch) out (mo * ch).

  Definition pos (k : nat) : position := pos_at p0 (ramp last new ch mo) k.
  Definition cur_at (k : nat) : f64 := match k with O => last | S j => ramp last new ch mo j end.

  Lemma cur_at_same k : last = new -> cur_at k = last.
  Proof.
    intros E. destruct k as [|j]; [reflexivity|]. simpl. unfold ramp.
    rewrite Beqb_spec by (apply G1 || apply G2). rewrite E. rewrite Req_bool_true by reflexivity. reflexivity.
  Qed.

  Lemma ramp_cur k : Z.of_nat k < mo ->
    ramp_ratio (lit_1em 20) last new (Z.of_nat k * ch) (mo * ch) (cur_at k) = cur_at (S k) /\ good_ratio (cur_at (S k)).
  Proof.
    intros Hk. destruct (ramp_ok last new ch mo k (cur_at k) G1 G2 Hch Hk Hmc) as (E & G & _).
    { apply cur_at_same. }
    split; [exact E|exact G].
  Qed.

  Lemma cur_good k : Z.of_nat k <= mo -> good_ratio (cur_at k).
  Proof. destruct k as [|j]; intros H; [exact G1|]. apply ramp_cur. lia. Qed.

  Lemma pos_S k : pos (S k) = move (pos k) (cur_at (S k)).
  Proof. reflexivity. Qed.

  Lemma pos_frac k : Z.of_nat k <= mo -> frac (snd (pos k)).
  Proof.
    induction k as [|k IH]; intros H; [exact Hp0|]. rewrite pos_S. apply move_ok. apply IH; lia. apply cur_good; lia.
  Qed.

  Lemma pos_step k : Z.of_nat k < mo ->
    fst (pos k) <= fst (pos (S k)) <= fst (pos k) + 257 /\
    exact_carry (snd (pos (S k))) (fst (pos (S k)) - fst (pos k)) /\
    pos_le 257 (next_index (snd (pos k)) (cur_at (S k))) /\
    pos (S k) = (fst (pos k) + Btrunc (next_index (snd (pos k)) (cur_at (S k))),
                 fraction (next_index (snd (pos k)) (cur_at (S k)))).
  Proof.
    intros H. rewrite pos_S. destruct (move_ok (pos k) (cur_at (S k))) as (_ & A & B & C & D).
    apply pos_frac; lia. apply cur_good; lia. auto.
  Qed.

  Lemma pos_mono j k : (j <= k)%nat -> Z.of_nat k <= mo -> fst (pos j) <= fst (pos k).
  Proof.
    induction 1 as [|k Hjk IH]; intros Hk; [lia|].
    assert (fst (pos j) <= fst (pos k)) by (apply IH; lia).
    destruct (pos_step k) as [A _]; lia.
  Qed.

  (** Memory after the first [k] outputs. *)
  Definition inv (m : mem) (k : nat) : Prop :=
    wrote m0 m out ch (Z.of_nat k) (fun j c => V (pos (Z.to_nat j)) c).

  Lemma inv_0 : inv m0 0.
  Proof. split; [intros k c Hk; lia|auto]. Qed.

  Lemma inv_in m k : inv m k -> Z.of_nat k <= mo -> holds m inp ch n X 0.
  Proof using Hch Hin Hdis. clear Hmc.
    intros [A B] Hk i c Hi Hc. rewrite B. apply Hin; auto.
    assert (0 <= i * ch + c < n * ch) by nia.
    assert (Z.of_nat k * ch <= mo * ch) by nia.
    destruct Hdis; lia.
  Qed.

  Lemma inv_writable m k : inv m k -> Z.of_nat k <= mo -> writable m out ch mo.
  Proof.
    intros [A B] Hk j Hj.
    destruct (Z_lt_ge_dec j (Z.of_nat k * ch)) as [L|L].
    - assert (D := Z_div_mod_eq_full j ch). assert (M := Z.mod_pos_bound j ch Hch).
      assert (Q : 0 <= j / ch < Z.of_nat k).
      { split; [apply Z.div_pos; lia|]. apply Z.div_lt_upper_bound; lia. }
      replace j with (j / ch * ch + j mod ch) by lia. rewrite A by lia. discriminate.
    - rewrite B by lia. now apply Hout.
  Qed.

  Lemma inv_step m m' k : inv m k -> Z.of_nat k < mo ->
    store_frame m m' (out + Z.of_nat k * ch) ch (V (pos k)) -> inv m' (S k).
  Proof.
    intros [A B] Hk [C D]. split.
    - intros j c Hj Hc. destruct (Z.eq_dec j (Z.of_nat k)) as [->|N].
      + rewrite Z.add_assoc. rewrite C by lia. now rewrite Nat2Z.id.
      + rewrite D. apply A; lia. nia.
    - intros b Hb. rewrite D by nia. apply B. nia.
  Qed.
End Call.

(** Comparison facts *)
Section Avail.
  Local Open Scope R_scope.
  Variables (ch n u : Z) (t : f64).
  Hypothesis Hch : (0 < ch)%Z.
  Hypothesis Hchi : (ch <= 2 ^ 31)%Z.
  Hypothesis Hn : (0 < n)%Z.
  Hypothesis Hnc : (n * ch <= 2 ^ 50)%Z.
  Hypothesis Hu : (0 <= u)%Z.
  Hypothesis Huc : (u * ch <= 2 ^ 52)%Z.
  Hypothesis Ht : frac t.

  Definition reach : f64 := dadd (d_of_Z (u * ch)) (dmul (d_of_Z ch) t).

  Lemma reach_val : fin reach /\ IZR (u * ch) <= val reach <= IZR (u * ch) + IZR ch /\
    val reach = rnd64 (IZR (u * ch) + rnd64 (IZR ch * val t)) /\ 0 <= rnd64 (IZR ch * val t) < IZR ch.
  Proof.
    destruct Ht as (F & S & L & U).
    assert (U' := lt1_pred t U).
    destruct (d_of_Z_val (u * ch)) as [V1 F1]. { rewrite Z.abs_eq by nia. lia. }
    destruct (d_of_Z_val ch) as [V2 F2]. { rewrite Z.abs_eq by lia. lia. }
    assert (Cr : 1 <= IZR ch) by (apply (IZR_le 1); lia).
    assert (Cr2 : IZR ch <= IZR (2 ^ 31)) by (apply IZR_le; lia).
    assert (Ur : 0 <= IZR (u * ch)) by (apply (IZR_le 0); nia).
    assert (Ur2 : IZR (u * ch) <= IZR (2 ^ 52)) by (apply IZR_le; lia).
    assert (E52 : IZR (2 ^ 52) <= bpow radix2 52) by (right; apply (IZR_Zpower radix2 52); lia).
    assert (E31 : IZR (2 ^ 31) <= bpow radix2 31) by (right; apply (IZR_Zpower radix2 31); lia).
    assert (L31 : bpow radix2 31 <= bpow radix2 52) by (apply bpow_le; lia).
    assert (L53 : bpow radix2 53 = 2 * bpow radix2 52).
    { change 2 with (bpow radix2 1). rewrite <- bpow_plus. reflexivity. }
    destruct (dmul_val (d_of_Z ch) t F2 F) as [V3 F3].
    { rewrite V2. rewrite Rabs_pos_eq by (apply Rmult_le_pos; lra).
      apply Rle_trans with (bpow radix2 52); [|apply bpow_le; lia]. nra. }
    rewrite V2 in V3.
    assert (B1 := mul_lt (IZR ch) (val t) Cr (conj L U')).
    assert (B0 : 0 <= rnd64 (IZR ch * val t)) by (apply mul_nonneg; lra).
    destruct (dadd_val (d_of_Z (u * ch)) (dmul (d_of_Z ch) t) F1 F3) as [V4 F4].
    { rewrite V1, V3. rewrite Rabs_pos_eq by lra.
      apply Rle_trans with (bpow radix2 53); [lra|apply bpow_le; lia]. }
    rewrite V1, V3 in V4. fold reach in V4, F4.
    split; [exact F4|]. split; [|split; [exact V4|lra]].
    rewrite V4. split.
    - apply rnd64_ge; [|lra]. apply fmt64_Z. rewrite Z.abs_eq by nia. lia.
    - apply rnd64_le; [|lra]. rewrite <- plus_IZR. apply fmt64_Z. rewrite Z.abs_eq by nia. lia.
  Qed.

  Lemma nc_val : val (d_of_Z (n * ch)) = IZR (n * ch) /\ fin (d_of_Z (n * ch)).
  Proof using Hch Hn Hnc. clear Hu Huc. apply d_of_Z_val. rewrite Z.abs_eq by nia. lia. Qed.

  Lemma reach_le_true : (u < n)%Z -> dle reach (d_of_Z (n * ch)) = true.
  Proof.
    intros H. destruct reach_val as (F & B & _). destruct nc_val as [V1 F1].
    apply dle_true; auto. rewrite V1. apply Rle_trans with (1 := proj2 B). rewrite <- plus_IZR. apply IZR_le. nia.
  Qed.
  Lemma reach_le_false : (n < u)%Z -> dle reach (d_of_Z (n * ch)) = false.
  Proof.
    intros H. destruct reach_val as (F & B & _). destruct nc_val as [V1 F1].
    apply not_true_is_false. rewrite dle_true by auto. rewrite V1.
    apply Rlt_not_le. apply Rlt_le_trans with (2 := proj1 B). apply IZR_lt. nia.
  Qed.
  Lemma reach_lt_false : (n <= u)%Z -> dlt reach (d_of_Z (n * ch)) = false.
  Proof.
    intros H. destruct reach_val as (F & B & _). destruct nc_val as [V1 F1].
    apply not_true_is_false. rewrite dlt_true by auto. rewrite V1.
    apply Rle_not_lt. apply Rle_trans with (2 := proj1 B). apply IZR_le. nia.
  Qed.
  Lemma reach_lt_true : (u + 1 < n)%Z -> dlt reach (d_of_Z (n * ch)) = true.
  Proof.
    intros H. destruct reach_val as (F & B & _). destruct nc_val as [V1 F1].
    apply dlt_true; auto. rewrite V1. apply Rle_lt_trans with (1 := proj2 B). rewrite <- plus_IZR. apply IZR_lt. nia.
  Qed.
  (** From a zero start the comparison is strict even for the last frame. *)
  Lemma reach_lt_true0 : u = 0%Z -> dlt reach (d_of_Z (n * ch)) = true.
  Proof.
    intros H. destruct reach_val as (F & B & V & B2). destruct nc_val as [V1 F1].
    apply dlt_true; auto. rewrite V1, V, H. rewrite Z.mul_0_l, Rplus_0_l.
    assert (IZR ch <= IZR (n * ch)) by (apply IZR_le; nia).
    destruct Ht as (Ft & St & Lt & Ut).
    apply Rle_lt_trans with (rnd64 (IZR ch * val t)); [|lra]. apply rnd64_le; [apply fmt64_rnd|lra].
  Qed.
End Avail.

(** Positions below one *)
Lemma split_lt1 (x : f64) : pos_le 258 x -> (val x < 1)%R -> split_pos x = (0, x) /\ frac x.
Proof.
  intros (F & S & L & U) H.
  assert (P : pos_le 2147483647 x) by (repeat split; auto; lra).
  destruct (split_ok x P) as (_ & _ & (Ff & Sf & Lf & Uf) & T & Vf & _).
  assert (Z0 : Zfloor (val x) = 0%Z) by (apply Zfloor_imp; simpl; lra).
  split; [|repeat split; auto; lra].
  unfold split_pos. rewrite T, Z0. f_equal. apply f64_eq; auto. rewrite Vf, Z0. simpl. ring. now rewrite Sf.
Qed.

Lemma split_ge1 (x : f64) : pos_le 258 x -> (1 <= val x)%R -> 1 <= fst (split_pos x).
Proof.
  intros (F & S & L & U) H.
  assert (P : pos_le 2147483647 x) by (repeat split; auto; lra).
  destruct (split_ok x P) as (_ & _ & _ & T & Vf & _).
  simpl. rewrite T. apply Zfloor_lub. simpl. lra.
Qed.

Lemma dlt_one (x : f64) : fin x -> dlt x done_ = Rlt_bool (val x) 1.
Proof. intros F. destruct done_val as [V1 F1]. now rewrite dlt_spec, V1. Qed.

Lemma split_lt258 (x : f64) : pos_le 258 x -> (val x < 258)%R -> 0 <= fst (split_pos x) <= 257.
Proof.
  intros (F & S & L & U) H.
  assert (P : pos_le 2147483647 x) by (repeat split; auto; lra).
  destruct (split_ok x P) as (_ & _ & _ & T & Vf & T0).
  simpl. split; [lia|]. rewrite T. apply Z.lt_succ_r. apply lt_IZR.
  generalize (Zfloor_frac (val x)). simpl. lra.
Qed.
