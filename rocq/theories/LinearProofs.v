(** The linear process function computes what HoldSpec says. *)
From Coq Require Import ZArith Reals List Bool Lia Lra.
From Flocq Require Import Core IEEE754.BinarySingleNaN.
From Verif Require Import Base FloatFacts PosFacts Types Common Linear HoldSpec HoldFacts HoldRamp HoldCore.
Import ListNotations.
Local Open Scope Z_scope.

Lemma lin_emit_last_ok lv inp out idx ch (f h : Z -> f32) : forall n c m og,
  0 <= c -> c + Z.of_nat n = ch -> frame_is lv ch f ->
  0 <= og -> og + Z.of_nat n <= 2 ^ 52 ->
  (forall j, c <= j < ch -> m (inp + j) = Some (h j)) ->
  (forall j, c <= j < ch -> ~ (out + og <= inp + j < out + og + Z.of_nat n)) ->
  (forall j, c <= j < ch -> m (out + og - c + j) <> None) ->
  exists m', lin_emit_last m lv inp out idx og c n = Ok (m', og + Z.of_nat n) /\
    (forall j, c <= j < ch -> m' (out + og - c + j) = Some (interpolate (f j) (h j) idx)) /\
    (forall b, ~ (out + og <= b < out + og + Z.of_nat n) -> m' b = m b).
Proof.
  induction n as [|n IH]; intros c m og Hc Hn Hf Ho Hob Hr Hd Hm; cbn [lin_emit_last].
  - exists m. rewrite Z.add_0_r. repeat split; auto. intros j Hj; lia.
  - rewrite (zget_ok lv c (f c)); [|lia|apply Hf; lia]. cbn [bind].
    rewrite (mread_ok m _ (h c)) by (apply Hr; lia). cbn [bind].
    destruct (mwrite_ok m (out + og) (lerp (f c) (h c) idx)) as (m1 & E1 & A1 & B1).
    { replace (out + og) with (out + og - c + c) by lia. apply Hm. lia. }
    rewrite E1. cbn [bind]. rewrite long_ok by lia. cbn [bind].
    destruct (IH (c + 1) m1 (og + 1)) as (m2 & E2 & A2 & B2); try lia; auto.
    { intros j Hj. specialize (Hd j). rewrite B1 by lia. apply Hr; lia. }
    { intros j Hj. specialize (Hd j). lia. }
    { intros j Hj. rewrite B1 by lia. replace (out + (og + 1) - (c + 1) + j) with (out + og - c + j) by lia. apply Hm; lia. }
    exists m2. rewrite E2. split; [f_equal; f_equal; lia|]. split.
    + intros j Hj. destruct (Z.eq_dec j c) as [->|N].
      * rewrite B2 by lia. replace (out + og - c + c) with (out + og) by lia. exact A1.
      * replace (out + og - c + j) with (out + (og + 1) - (c + 1) + j) by lia. apply A2. lia.
    + intros b Hb. rewrite B2 by lia. apply B1. lia.
Qed.

Lemma lin_emit_in_ok inp off iu out idx ch (f h : Z -> f32) : forall n c m og,
  0 <= c -> c + Z.of_nat n = ch ->
  0 <= og -> og + Z.of_nat n <= 2 ^ 52 ->
  (forall j, c <= j < ch -> m (inp + (off + j)) = Some (f j)) ->
  (forall j, c <= j < ch -> m (inp + (iu + j)) = Some (h j)) ->
  (forall j, c <= j < ch -> ~ (out + og <= inp + (off + j) < out + og + Z.of_nat n)) ->
  (forall j, c <= j < ch -> ~ (out + og <= inp + (iu + j) < out + og + Z.of_nat n)) ->
  (forall j, c <= j < ch -> m (out + og - c + j) <> None) ->
  exists m', lin_emit_in m inp off iu out idx og c n = Ok (m', og + Z.of_nat n) /\
    (forall j, c <= j < ch -> m' (out + og - c + j) = Some (interpolate (f j) (h j) idx)) /\
    (forall b, ~ (out + og <= b < out + og + Z.of_nat n) -> m' b = m b).
Proof.
  induction n as [|n IH]; intros c m og Hc Hn Ho Hob Hr Hr2 Hd Hd2 Hm; cbn [lin_emit_in].
  - exists m. rewrite Z.add_0_r. repeat split; auto. intros j Hj; lia.
  - rewrite (mread_ok m _ (f c)) by (apply Hr; lia). cbn [bind].
    rewrite (mread_ok m _ (h c)) by (apply Hr2; lia). cbn [bind].
    destruct (mwrite_ok m (out + og) (lerp (f c) (h c) idx)) as (m1 & E1 & A1 & B1).
    { replace (out + og) with (out + og - c + c) by lia. apply Hm. lia. }
    rewrite E1. cbn [bind]. rewrite long_ok by lia. cbn [bind].
    destruct (IH (c + 1) m1 (og + 1)) as (m2 & E2 & A2 & B2); try lia; auto.
    { intros j Hj. specialize (Hd j). rewrite B1 by lia. apply Hr; lia. }
    { intros j Hj. specialize (Hd2 j). rewrite B1 by lia. apply Hr2; lia. }
    { intros j Hj. specialize (Hd j). lia. }
    { intros j Hj. specialize (Hd2 j). lia. }
    { intros j Hj. rewrite B1 by lia. replace (out + (og + 1) - (c + 1) + j) with (out + og - c + j) by lia. apply Hm; lia. }
    exists m2. rewrite E2. split; [f_equal; f_equal; lia|]. split.
    + intros j Hj. destruct (Z.eq_dec j c) as [->|N].
      * rewrite B2 by lia. replace (out + og - c + c) with (out + og) by lia. exact A1.
      * replace (out + og - c + j) with (out + (og + 1) - (c + 1) + j) by lia. apply A2. lia.
    + intros b Hb. rewrite B2 by lia. apply B1. lia.
Qed.

(** Is the position available to a call with n input frames?  (The comparison of src_linear.c:109.) *)
Definition lin_avail (ch n : Z) (p : position) : bool :=
  dlt (dadd (d_of_Z (fst p * ch)) (dmul (d_of_Z ch) (snd p))) (d_of_Z (n * ch)).

(** The test of src_linear.c:88 that leaves the first loop early. *)
Definition lin_break (ch n : Z) (t : f64) : bool :=
  dge (dadd (d_of_Z 0) (dmul (d_of_Z ch) (dadd done_ t))) (d_of_Z (n * ch)).

Section LinCall.
  Variables (ch n mo inp out : Z) (last new : f64) (X : stream) (m0 : mem) (x0 : f64) (lv : list f32).
  Hypothesis Hch : 0 < ch.
  Hypothesis Hci : ch * 258 <= 2 ^ 31 - 1.
  Hypothesis Hn : 0 < n.
  Hypothesis Hnc : n * ch <= 2 ^ 50.
  Hypothesis Hmo : 0 <= mo.
  Hypothesis Hmc : mo * ch <= 2 ^ 50.
  Hypothesis G1 : good_ratio last.
  Hypothesis G2 : good_ratio new.
  Hypothesis Hx0 : pos_le 258 x0.
  Hypothesis Hx1 : (val x0 < 258)%R.
  Hypothesis Hlv : frame_is lv ch (X (-1)).
  Hypothesis Hin : holds m0 inp ch n X 0.
  Hypothesis Hout : writable m0 out ch mo.
  Hypothesis Hdis : disjoint_ranges inp (n * ch) out (mo * ch).
  (* the frame before the block is mapped, holds the previous frame and is not overwritten *)
  Definition prev_mapped : Prop :=
    holds m0 (inp - ch) ch 1 X (-1) /\ disjoint_ranges (inp - ch) ch out (mo * ch).
  Hypothesis Hsafe :
    (forall k, Z.of_nat k < mo -> fst (HoldSpec.pos_at (split_pos x0) (ramp last new ch mo) k) = 0 ->
               lin_break ch n (snd (HoldSpec.pos_at (split_pos x0) (ramp last new ch mo) k)) = false) \/ prev_mapped.

  Let p0 := split_pos x0.
  Let pos := pos ch mo last new p0.
  Let cur := cur_at ch mo last new.
  Let inv := inv ch mo out last new m0 (lin_value X) p0.

  Lemma Hp0 : frac (snd p0).
  Proof. apply split_pos_ok. destruct Hx0 as (A & B & C). repeat split; auto; lra. Qed.
  Lemma Hu0 : 0 <= fst p0 <= 257.
  Proof. now apply split_lt258. Qed.
  Lemma posf k : Z.of_nat k <= mo -> frac (snd (pos k)).
  Proof. intros. apply pos_frac; auto. apply Hp0. Qed.
  Lemma posu k : Z.of_nat k <= mo -> 0 <= fst (pos k).
  Proof.
    intros H. assert (A := pos_mono ch mo last new p0 Hch Hmc G1 G2 Hp0 0 k (Nat.le_0_l k) H).
    assert (B := Hu0). fold pos in A. change (pos 0) with p0 in A. lia.
  Qed.

  Lemma avail_0 k : Z.of_nat k <= mo -> fst (pos k) = 0 -> lin_avail ch n (pos k) = true.
  Proof.
    intros Hk H. unfold lin_avail. apply (reach_lt_true0 ch n (fst (pos k)) (snd (pos k))); auto; try lia.
    apply posf; auto.
  Qed.
  Lemma avail_lt k : Z.of_nat k <= mo -> fst (pos k) * ch <= 2 ^ 52 -> lin_avail ch n (pos k) = true -> fst (pos k) < n.
  Proof.
    intros Hk Hb H. destruct (Z_lt_ge_dec (fst (pos k)) n) as [L|L]; auto. exfalso.
    unfold lin_avail in H. fold (reach ch (fst (pos k)) (snd (pos k))) in H.
    assert (P := posu k Hk). assert (F := posf k Hk).
    rewrite (reach_lt_false ch n (fst (pos k)) (snd (pos k))) in H; auto; try lia.
  Qed.

  Lemma lin_loop1_ok : forall fuel k m x,
    Z.of_nat k <= mo -> mo - Z.of_nat k < Z.of_nat fuel ->
    inv m k -> split_pos x = pos k -> pos_le 258 x -> (val x < 258)%R ->
    (forall j, (j < k)%nat -> fst (pos j) = 0) ->
    exists k' m' x',
      lin_loop1 fuel ch inp out last new lv 0 (n * ch) (mo * ch) m (Z.of_nat k * ch) x (cur k)
        = Ok (m', Z.of_nat k' * ch, x', cur k') /\
      (k <= k')%nat /\ Z.of_nat k' <= mo /\ inv m' k' /\ split_pos x' = pos k' /\ pos_le 258 x' /\ (val x' < 258)%R /\
      (forall j, (j < k')%nat -> fst (pos j) = 0) /\
      (Z.of_nat k' = mo \/ 1 <= fst (pos k') \/ prev_mapped).
  Proof.
    induction fuel as [|fuel IH]; intros k m x Hk Hf Hi Hs Hx Hxl Hz; [lia|].
    cbn [lin_loop1]. rewrite dlt_one by apply Hx.
    destruct (Rlt_bool_spec (val x) 1) as [L|L].
    2: { exists k, m, x. cbn [andb]. repeat (split; [solve [auto]|]). right; left. rewrite <- Hs. now apply split_ge1. }
    cbn [andb]. destruct (Z.ltb_spec (Z.of_nat k * ch) (mo * ch)) as [Lt|Ge].
    2: { exists k, m, x. repeat (split; [solve [auto]|]). left. nia. }
    assert (Km : Z.of_nat k < mo) by nia.
    assert (Kc : 0 <= Z.of_nat k * ch /\ Z.of_nat k * ch + ch <= mo * ch) by nia.
    destruct (split_lt1 x Hx L) as [Es Ff].
    assert (Pk : pos k = (0, x)) by (rewrite <- Hs; exact Es).
    fold (lin_break ch n x). destruct (lin_break ch n x) eqn:Br.
    { exists k, m, x. repeat (split; [solve [auto]|]). right; right.
      destruct Hsafe as [Hs'|]; [exfalso|assumption].
      specialize (Hs' k Km). change (pos_at (split_pos x0) (ramp last new ch mo) k) with (pos k) in Hs'.
      rewrite Pk in Hs'. cbn [fst snd] in Hs'. rewrite Hs' in Br by reflexivity. discriminate Br. }
    destruct (ramp_cur ch mo last new Hch Hmc G1 G2 k Km) as [Er Gr]. fold cur in Er, Gr. rewrite Er.
    assert (I0 : holds m inp ch n X 0).
    { apply (inv_in ch n mo inp out last new X m0 (lin_value X) p0 Hch Hin Hdis m k Hi Hk). }
    destruct (lin_emit_last_ok lv inp out x ch (X (-1)) (X 0) (Z.to_nat ch) 0 m (Z.of_nat k * ch)) as (m1 & E1 & A1 & B1); rewrite ?Z2Nat.id by lia; try lia; auto.
    { intros j Hj. apply (I0 0 j); lia. }
    { intros j Hj. assert (ch <= n * ch) by nia. destruct Hdis; lia. }
    { intros j Hj. rewrite Z.sub_0_r, <- Z.add_assoc.
      apply (inv_writable ch mo out last new m0 (lin_value X) p0 Hch Hout m k Hi Hk). nia. }
    rewrite E1. cbn [bind].
    assert (I1 : inv m1 (S k)).
    { apply (inv_step ch mo out last new m0 (lin_value X) p0 Hch m m1 k Hi Km). split.
      - intros c Hc. specialize (A1 c). rewrite Z.sub_0_r in A1. rewrite A1 by lia.
        fold pos. rewrite Pk. reflexivity.
      - intros b Hb. apply B1. lia. }
    destruct (pos_step ch mo last new p0 Hch Hmc G1 G2 Hp0 k Km) as (S1 & S2 & S3 & S4).
    fold pos in S1, S2, S3, S4. fold cur in S2, S3, S4. rewrite Pk in S3, S4. cbn [fst snd] in S3, S4.
    assert (I2 : Z.of_nat (S k) <= mo) by lia.
    assert (I3 : mo - Z.of_nat (S k) < Z.of_nat fuel) by lia.
    assert (I4 : split_pos (next_index x (cur (S k))) = pos (S k)) by (rewrite S4; reflexivity).
    assert (I5 : pos_le 258 (next_index x (cur (S k))) /\ (val (next_index x (cur (S k))) < 258)%R).
    { destruct S3 as (a & b & c). repeat split; auto; lra. }
    assert (I6 : forall j, (j < S k)%nat -> fst (pos j) = 0).
    { intros j Hj. destruct (Nat.eq_dec j k) as [->|N]. now rewrite Pk. apply Hz. lia. }
    destruct (IH (S k) m1 _ I2 I3 I1 I4 (proj1 I5) (proj2 I5) I6) as (k' & m' & x' & Eq & R1 & R2 & R3 & R4 & R5 & R6 & R7 & R8).
    exists k', m', x'. replace (Z.of_nat k * ch + Z.of_nat (Z.to_nat ch)) with (Z.of_nat (S k) * ch) by lia.
    split; [exact Eq|]. repeat (split; [solve [auto | lia]|]). exact R8.
  Qed.

  Lemma lin_loop2_ok : forall fuel k m,
    Z.of_nat k <= mo -> mo - Z.of_nat k < Z.of_nat fuel ->
    inv m k -> (Z.of_nat k = mo \/ 1 <= fst (pos k) \/ prev_mapped) -> fst (pos k) <= n + 257 ->
    (forall j, (j < k)%nat -> lin_avail ch n (pos j) = true) ->
    exists k' m',
      lin_loop2 fuel ch inp out last new (n * ch) (mo * ch) m (fst (pos k) * ch) (Z.of_nat k * ch) (snd (pos k)) (cur k)
        = Ok (m', fst (pos k') * ch, Z.of_nat k' * ch, snd (pos k'), cur k') /\
      (k <= k')%nat /\ Z.of_nat k' <= mo /\ inv m' k' /\ fst (pos k') <= n + 257 /\
      (forall j, (j < k')%nat -> lin_avail ch n (pos j) = true) /\
      (Z.of_nat k' = mo \/ lin_avail ch n (pos k') = false).
  Proof.
    induction fuel as [|fuel IH]; intros k m Hk Hf Hi H1 Hub Hz; [lia|].
    cbn [lin_loop2].
    destruct (Z.ltb_spec (Z.of_nat k * ch) (mo * ch)) as [Lt|Ge]; cbn [andb].
    2: { exists k, m. repeat (split; [solve [auto]|]). left. nia. }
    assert (Km : Z.of_nat k < mo) by nia.
    assert (Kc : 0 <= Z.of_nat k * ch /\ Z.of_nat k * ch + ch <= mo * ch) by nia.
    fold (lin_avail ch n (pos k)).
    destruct (lin_avail ch n (pos k)) eqn:Av.
    2: { exists k, m. repeat (split; [solve [auto]|]). now right. }
    assert (Ub : fst (pos k) * ch <= 2 ^ 52) by nia.
    assert (Un : fst (pos k) < n) by now apply avail_lt.
    assert (U1 : 1 <= fst (pos k) \/ prev_mapped) by (destruct H1; [lia|assumption]).
    assert (Uk := posu k Hk).
    destruct (ramp_cur ch mo last new Hch Hmc G1 G2 k Km) as [Er Gr]. fold cur in Er, Gr. rewrite Er.
    rewrite long_ok by nia. cbn [bind].
    assert (I0 : holds m inp ch n X 0).
    { apply (inv_in ch n mo inp out last new X m0 (lin_value X) p0 Hch Hin Hdis m k Hi Hk). }
    assert (Wr := inv_writable ch mo out last new m0 (lin_value X) p0 Hch Hout m k Hi Hk).
    assert (Prev : forall j, 0 <= j < ch -> m (inp + (fst (pos k) * ch - ch + j)) = Some (X (fst (pos k) - 1) j) /\
              ~ (out + Z.of_nat k * ch <= inp + (fst (pos k) * ch - ch + j) < out + Z.of_nat k * ch + ch)).
    { intros j Hj. destruct (Z.eq_dec (fst (pos k)) 0) as [U0|U0].
      - destruct U1 as [U1|[Pm Pd]]; [lia|]. rewrite U0, Z.mul_0_l.
        assert (Q : m (inp + (0 - ch + j)) = m0 (inp + (0 - ch + j))).
        { apply Hi. destruct Pd; lia. }
        rewrite Q. replace (inp + (0 - ch + j)) with (inp - ch + (0 * ch + j)) by ring.
        rewrite (Pm 0 j) by lia. split; [reflexivity|]. destruct Pd; lia.
      - split.
        + replace (fst (pos k) * ch - ch + j) with ((fst (pos k) - 1) * ch + j) by ring.
          rewrite I0 by lia. reflexivity.
        + assert (0 <= fst (pos k) * ch - ch + j < n * ch) by nia. destruct Hdis; lia. }
    destruct (lin_emit_in_ok inp (fst (pos k) * ch - ch) (fst (pos k) * ch) out (snd (pos k)) ch
                (X (fst (pos k) - 1)) (X (fst (pos k))) (Z.to_nat ch) 0 m (Z.of_nat k * ch))
      as (m1 & E1 & A1 & B1); rewrite ?Z2Nat.id by lia; try lia; auto.
    { intros j Hj. apply Prev; lia. }
    { intros j Hj. rewrite I0 by lia. reflexivity. }
    { intros j Hj. apply Prev; lia. }
    { intros j Hj. assert (0 <= fst (pos k) * ch + j < n * ch) by nia. destruct Hdis; lia. }
    { intros j Hj. rewrite Z.sub_0_r, <- Z.add_assoc. apply Wr. nia. }
    rewrite E1. cbn [bind].
    assert (I1 : inv m1 (S k)).
    { apply (inv_step ch mo out last new m0 (lin_value X) p0 Hch m m1 k Hi Km). split.
      - intros c Hc. specialize (A1 c). rewrite Z.sub_0_r in A1. rewrite A1 by lia. reflexivity.
      - intros b Hb. apply B1. lia. }
    destruct (pos_step ch mo last new p0 Hch Hmc G1 G2 Hp0 k Km) as (S1 & S2 & S3 & S4).
    fold pos in S1, S2, S3, S4. fold cur in S2, S3, S4.
    rewrite advance_ok; auto; try lia.
    2: { destruct S3 as (a & b & c). repeat split; auto; lra. }
    2: { destruct S3 as (a & b & c). lra. }
    cbn [bind].
    replace (Z.of_nat k * ch + Z.of_nat (Z.to_nat ch)) with (Z.of_nat (S k) * ch) by lia.
    assert (Ef : fst (pos k) + Btrunc (next_index (snd (pos k)) (cur (S k))) = fst (pos (S k))) by (rewrite S4; reflexivity).
    assert (Es : fraction (next_index (snd (pos k)) (cur (S k))) = snd (pos (S k))) by (rewrite S4; reflexivity).
    rewrite Ef, Es.
    assert (I2 : Z.of_nat (S k) <= mo) by lia.
    assert (I3 : mo - Z.of_nat (S k) < Z.of_nat fuel) by lia.
    assert (I4 : Z.of_nat (S k) = mo \/ 1 <= fst (pos (S k)) \/ prev_mapped) by (right; destruct U1; [left; lia|now right]).
    assert (I5 : fst (pos (S k)) <= n + 257) by lia.
    assert (I6 : forall j, (j < S k)%nat -> lin_avail ch n (pos j) = true).
    { intros j Hj. destruct (Nat.eq_dec j k) as [->|N]. exact Av. apply Hz. lia. }
    destruct (IH (S k) m1 I2 I3 I1 I4 I5 I6) as (k' & m' & Eq & R1 & R2 & R3 & R4 & R5 & R6).
    exists k', m'. split; [exact Eq|]. repeat (split; [solve [auto | lia]|]). exact R6.
  Qed.

  (** The whole computation after the prologue. *)
  Lemma lin_call_ok :
    exists g m' x' lv',
      let used := Z.min n (fst (pos g)) in
      (do (m1, og1, idx1, r1) <- lin_loop1 (S (Z.to_nat (mo * ch))) ch inp out last new lv 0 (n * ch) (mo * ch) m0 0 x0 last ;
       do (iu1, idx1') <- advance ch 0 idx1 ;
       do (m2, iu2, og2, idx2, r2) <- lin_loop2 (S (Z.to_nat (mo * ch))) ch inp out last new
                                         (n * ch) (mo * ch) m1 iu1 og1 idx1' r1 ;
       do (iu3, idx3) <- carry_over ch (n * ch) iu2 idx2 ;
       do lv' <- (if 0 <? iu3
                  then do off <- long_op (iu3 - ch) ; load_frame m2 (inp + off) lv 0 (Z.to_nat ch)
                  else Ok lv) ;
       do used <- c_div iu3 ch ;
       do gen <- c_div og2 ch ;
       Ok (m2, iu3, og2, idx3, r2, lv', used, gen))
      = Ok (m', used * ch, Z.of_nat g * ch, x', cur g, lv', used, Z.of_nat g) /\
      Z.of_nat g <= mo /\ inv m' g /\
      (forall j, (j < g)%nat -> lin_avail ch n (pos j) = true) /\
      (Z.of_nat g = mo \/ lin_avail ch n (pos g) = false) /\
      pos_le 258 x' /\ (val x' < 258)%R /\ split_pos x' = (fst (pos g) - used, snd (pos g)) /\
      frame_is lv' ch (X (used - 1)) /\ 0 <= used <= n.
  Proof.
    assert (U0 := Hu0).
    destruct (lin_loop1_ok (S (Z.to_nat (mo * ch))) 0 m0 x0) as (k1 & m1 & x1 & E1 & _ & K1 & I1 & S1 & P1 & L1 & Z1 & D1);
      auto; try lia.
    { nia. }
    { apply inv_0. }
    change (Z.of_nat 0 * ch) with 0 in E1. change (cur 0) with last in E1. rewrite E1. cbn [bind].
    assert (Adv : advance ch 0 x1 = Ok (fst (pos k1) * ch, snd (pos k1))).
    { rewrite <- (Z.mul_0_l ch) at 1. rewrite advance_ok; auto; try lia. rewrite <- S1. f_equal. }
    rewrite Adv. cbn [bind].
    assert (U1 : fst (pos k1) <= 257). { rewrite <- S1. apply split_lt258; auto. }
    assert (Z1' : forall j, (j < k1)%nat -> lin_avail ch n (pos j) = true).
    { intros j Hj. apply avail_0; [lia|]. now apply Z1. }
    destruct (lin_loop2_ok (S (Z.to_nat (mo * ch))) k1 m1) as (g & m2 & E2 & K2 & Kg & I2 & U2 & Z2 & D2); auto; try lia; try nia.
    rewrite E2. cbn [bind].
    assert (Pg := posu g Kg). assert (Fg := posf g Kg).
    set (used := Z.min n (fst (pos g))). assert (U3 : 0 <= used <= n) by (unfold used; lia).
    (* carrying whole frames over *)
    assert (EC : exact_carry (snd (pos g)) (fst (pos g) - n)).
    { destruct g as [|j].
      - change (pos 0) with p0. assert (P' : pos_le 2147483647 x0).
        { destruct Hx0 as (A & B & C). repeat split; auto; lra. }
        destruct (split_pos_ok x0 P') as (_ & _ & EC). fold p0 in EC. eapply exact_carry_le; [exact EC|]. lia.
      - destruct (pos_step ch mo last new p0 Hch Hmc G1 G2 Hp0 j) as (Q1 & Q2 & _); [lia|].
        fold pos in Q1, Q2. eapply exact_carry_le; [exact Q2|].
        assert (fst (pos j) < n); [|lia].
        apply avail_lt; [lia| |apply Z2; lia].
        assert (fst (pos j) <= fst (pos (S j))) by lia. nia. }
    assert (Ug : fst (pos g) - n <= 257).
    { destruct g as [|j].
      - change (pos 0) with p0. lia.
      - destruct (pos_step ch mo last new p0 Hch Hmc G1 G2 Hp0 j) as (Q1 & Q2 & _); [lia|].
        fold pos in Q1, Q2.
        assert (fst (pos j) < n); [|lia].
        apply avail_lt; [lia| |apply Z2; lia].
        assert (fst (pos j) <= fst (pos (S j))) by lia. nia. }
    assert (Car : exists x', carry_over ch (n * ch) (fst (pos g) * ch) (snd (pos g)) = Ok (used * ch, x') /\
              pos_le 258 x' /\ (val x' < 258)%R /\ split_pos x' = (fst (pos g) - used, snd (pos g))).
    { unfold carry_over. destruct (Z.ltb_spec (n * ch) (fst (pos g) * ch)) as [Lt|Ge].
      - assert (Lt' : n < fst (pos g)) by nia.
        rewrite long_ok by nia. cbn [bind]. unfold c_div.
        replace (ch =? 0) with false by (symmetry; apply Z.eqb_neq; lia). cbn [bind].
        replace (fst (pos g) * ch - n * ch) with ((fst (pos g) - n) * ch) by ring. rewrite Z.quot_mul by lia.
        assert (Eu : used = n) by (unfold used; lia).
        destruct (exact_carry_split (snd (pos g)) (fst (pos g) - n) (fst (pos g) - n) Fg EC) as [Q1 Q2]; try lia.
        exists (dadd (snd (pos g)) (d_of_Z (fst (pos g) - n))). split; [now rewrite Eu|].
        destruct Fg as (fa & fb & fc).
        destruct (EC (fst (pos g) - n)) as (Vv & _); [lia|].
        assert (IZR (fst (pos g) - n) <= 257)%R by (apply IZR_le; lia).
        assert (0 <= IZR (fst (pos g) - n))%R by (apply (IZR_le 0); lia).
        split; [|split].
        + destruct Q2 as (a & b & c & e). rewrite Vv in c, e. split; [exact a|split; [exact b|]]. rewrite Vv. lra.
        + rewrite Vv. lra.
        + rewrite Q1. now rewrite Eu.
      - assert (Eu : used = fst (pos g)) by (unfold used; nia).
        exists (snd (pos g)). rewrite Eu. split; [reflexivity|].
        destruct Fg as (a & b & c).
        assert (P258 : pos_le 258 (snd (pos g))) by (repeat split; auto; lra).
        split; [exact P258|]. split; [lra|].
        destruct (split_lt1 (snd (pos g)) P258) as [Q _]; [lra|]. rewrite Q. f_equal. lia. }
    destruct Car as (x' & Ec & Px & Lx & Sx).
    rewrite Ec. cbn [bind].
    assert (Lvx : exists lv', (if 0 <? used * ch
        then do off <- long_op (used * ch - ch) ; load_frame m2 (inp + off) lv 0 (Z.to_nat ch)
        else Ok lv) = Ok lv' /\ frame_is lv' ch (X (used - 1))).
    { destruct (Z.ltb_spec 0 (used * ch)) as [Lt|Ge].
      - rewrite long_ok by nia. cbn [bind].
        apply load_frame_all; auto. apply Hlv.
        intros j Hj.
        assert (I0 : holds m2 inp ch n X 0).
        { apply (inv_in ch n mo inp out last new X m0 (lin_value X) p0 Hch Hin Hdis m2 g I2 Kg). }
        replace (inp + (used * ch - ch) + j) with (inp + ((used - 1) * ch + j)) by ring.
        rewrite I0; [reflexivity|nia|lia].
      - exists lv. split; [reflexivity|]. assert (used = 0) by (clearbody used; nia). replace (used - 1) with (-1) by lia. exact Hlv. }
    destruct Lvx as (lv' & El & Fl). rewrite El. cbn [bind].
    exists g, m2, x', lv'. fold used. unfold c_div.
    replace (ch =? 0) with false by (symmetry; apply Z.eqb_neq; lia). cbn [bind].
    rewrite !Z.quot_mul by lia.
    split; [reflexivity|]. repeat (split; [solve [auto]|]). lia.
  Qed.
End LinCall.
