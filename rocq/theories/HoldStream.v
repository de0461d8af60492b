(** Streams: what a sequence of calls computes. *)
From Coq Require Import ZArith Reals List Bool Lia Lra.
From Flocq Require Import Core IEEE754.BinarySingleNaN.
From Verif Require Import Base FloatFacts PosFacts Types Common Api Callback ApiHist HoldSpec HoldFacts HoldRamp HoldCore
  HoldCall HoldProcess.
Import ListNotations.
Local Open Scope Z_scope.

(** ** Positions *)
Definition shift (o : Z) (p : position) : position := (o + fst p, snd p).

Lemma pos_at_shift o p rho k : pos_at (shift o p) rho k = shift o (pos_at p rho k).
Proof.
  induction k as [|k IH]; [reflexivity|]. simpl. rewrite IH. unfold shift, move. simpl. f_equal. lia.
Qed.

Lemma pos_at_ext p rho rho' k : (forall j, (j < k)%nat -> rho j = rho' j) -> pos_at p rho k = pos_at p rho' k.
Proof.
  induction k as [|k IH]; intros H; [reflexivity|]. simpl. rewrite IH by (intros; apply H; lia). now rewrite (H k) by lia.
Qed.

Lemma pos_at_add p rho g k : pos_at p rho (g + k) = pos_at (pos_at p rho g) (fun j => rho (g + j)%nat) k.
Proof.
  induction k as [|k IH]; [now rewrite Nat.add_0_r|]. rewrite Nat.add_succ_r. simpl. now rewrite IH.
Qed.

Lemma value_shift kd X o p c : value kd (fun i => X (o + i)) p c = value kd X (shift o p) c.
Proof.
  destruct kd; unfold value, zoh_value, lin_value, shift; cbn [fst snd].
  - f_equal. lia.
  - f_equal. f_equal. lia.
Qed.

(** ** Interleaved lists *)
Lemma mread_n_spec m : forall n a l, mread_n m a n = Ok l ->
  length l = n /\ forall j, (j < n)%nat -> nth_error l j = m (a + Z.of_nat j).
Proof.
  induction n as [|n IH]; intros a l H; cbn [mread_n] in H.
  - injection H as <-. split; [reflexivity|]. intros; lia.
  - unfold mread in H. destruct (m a) as [x|] eqn:E; cbn [bind] in H; [|discriminate].
    destruct (mread_n m (a + 1) n) as [l'|] eqn:E'; cbn [bind] in H; [|discriminate].
    injection H as <-. destruct (IH _ _ E') as [L N]. split; [simpl; lia|].
    intros [|j] Hj; simpl nth_error.
    + rewrite Z.add_0_r. now symmetry.
    + rewrite N by lia. f_equal. lia.
Qed.

Lemma mread_n_ok m : forall n a, (forall j, 0 <= j < Z.of_nat n -> m (a + j) <> None) -> exists l, mread_n m a n = Ok l.
Proof.
  induction n as [|n IH]; intros a H; cbn [mread_n]; [eauto|].
  unfold mread. destruct (m a) as [x|] eqn:E.
  - cbn [bind]. destruct (IH (a + 1)) as [l El].
    { intros j Hj. rewrite <- Z.add_assoc. apply H. lia. }
    rewrite El. cbn [bind]. eauto.
  - exfalso. apply (H 0); [lia|]. now rewrite Z.add_0_r.
Qed.

Lemma wrote_chunk m m' a ch g v chunk : 0 < ch -> 0 <= g -> wrote m m' a ch g v ->
  mread_n m' a (Z.to_nat (g * ch)) = Ok chunk -> is_frames ch chunk g v.
Proof.
  intros Hc Hg [W _] H. destruct (mread_n_spec _ _ _ _ H) as [L N]. split.
  - unfold zlen. rewrite L. nia.
  - intros k c Hk Hcc. unfold sample. assert (0 <= k * ch + c < g * ch) by nia.
    rewrite N by lia. rewrite Z2Nat.id by lia. now apply W.
Qed.

Lemma is_frames_app ch a b ga gb Ya Yb : 0 < ch -> 0 <= ga -> 0 <= gb -> is_frames ch a ga Ya -> is_frames ch b gb Yb ->
  is_frames ch (a ++ b) (ga + gb) (fun k => if k <? ga then Ya k else Yb (k - ga)).
Proof.
  intros Hc Hga Hgb [La A] [Lb B]. split.
  - unfold zlen in *. rewrite app_length. lia.
  - intros k c Hk Hcc. unfold sample. destruct (Z.ltb_spec k ga) as [L|L].
    + rewrite nth_error_app1. now apply A. unfold zlen in La. assert (0 <= k * ch + c < ga * ch) by nia. lia.
    + rewrite nth_error_app2 by (unfold zlen in La; nia).
      replace (Z.to_nat (k * ch + c) - length a)%nat with (Z.to_nat ((k - ga) * ch + c)).
      * apply B; lia.
      * unfold zlen in La. assert (k * ch + c = ga * ch + ((k - ga) * ch + c)) by ring.
        assert (0 <= (k - ga) * ch + c) by nia. lia.
Qed.

Lemma is_frames_ext ch a g Y Y' : is_frames ch a g Y -> (forall k c, 0 <= k < g -> 0 <= c < ch -> Y k c = Y' k c) ->
  is_frames ch a g Y'.
Proof. intros [L A] H. split; [exact L|]. intros. rewrite A by auto. f_equal. now apply H. Qed.

(** ** The invariant of a stream *)
Definition stream_pos (st : SRC_STATE) (o : Z) : position := shift o (split_pos (st_last_position st)).

Record on_stream (kd : kind) (X : stream) (st : SRC_STATE) (o : Z) : Prop := {
  os_ok : hold_ok kd st;
  os_mode : st_mode st = MODE_PROCESS;
  os_nonneg : 0 <= o;
  os_follows : follows st (fun i => from0 X (o + i));
  os_start : is_dirty st \/ o = 0
}.

(** Ratios in a band. *)
Definition band (lo hi : R) (r : f64) : Prop := good_ratio r /\ (lo <= val r <= hi)%R.
Definition ratio_in (lo hi : R) (st : SRC_STATE) : Prop := st_last_ratio st = dzero \/ band lo hi (st_last_ratio st).

Lemma start_band lo hi st r : ratio_in lo hi st -> band lo hi r -> band lo hi (start_ratio st r).
Proof.
  intros [E|B] Br; unfold start_ratio.
  - rewrite E, zero_low. exact Br.
  - rewrite good_not_low by apply B. exact B.
Qed.

Lemma ramp_band lo hi last new ch mo k : band lo hi last -> band lo hi new -> 0 < ch -> Z.of_nat k < mo -> mo * ch <= 2 ^ 50 ->
  band lo hi (ramp last new ch mo k).
Proof.
  intros [G1 B1] [G2 B2] Hc Hk Hm.
  destruct (ramp_ok last new ch mo k last G1 G2 Hc Hk Hm) as (_ & G & [Lo Hi] & _); auto.
  split; [exact G|]. unfold Rmin, Rmax in *. destruct (Rle_dec _ _); lra.
Qed.

(** Last frame an output at position p looks at. *)
Definition reads (kd : kind) (p : position) : Z := match kd with Zoh => Z.max 0 (fst p - 1) | Lin => fst p end.

Lemma avail_reads kd ch n p : 0 < ch -> ch <= 2 ^ 31 -> 0 < n -> n * ch <= 2 ^ 50 -> 0 <= fst p -> fst p * ch <= 2 ^ 52 -> frac (snd p) ->
  avail kd ch n p = true -> reads kd p < n.
Proof.
  intros Hc Hci Hn Hnc Hu Huc Hf H.
  destruct (Z_lt_ge_dec (reads kd p) n) as [|G]; [assumption|exfalso]. unfold reads in G. destruct kd; unfold avail in H.
  - assert (T : dle (reach ch (fst p) (snd p)) (d_of_Z (n * ch)) = false) by (apply reach_le_false; auto; lia).
    unfold dle, reach, dadd, dmul in T. rewrite T in H. discriminate H.
  - assert (T : dlt (reach ch (fst p) (snd p)) (d_of_Z (n * ch)) = false) by (apply reach_lt_false; auto; lia).
    unfold dlt, reach, dadd, dmul in T. rewrite T in H. discriminate H.
Qed.

(** The counts a call reports: they depend on the position and the ratios only. *)
Definition call_counts (kd : kind) (ch : Z) (x0 last : f64) (d : SRC_DATA) : Z * Z :=
  if input_frames d =? 0 then (0, 0)
  else (cused kd ch (input_frames d) (output_frames d) x0 last (src_ratio d),
        Z.of_nat (cgen kd ch (input_frames d) (output_frames d) x0 last (src_ratio d))).

(** One call on a stream. *)
Lemma stream_call kd X st o d m e st1 d1 m1 lo hi : on_stream kd X st o -> ratio_in lo hi st ->
  valid_call (st_channels st) d m -> holds m (data_in d) (st_channels st) (input_frames d) X o ->
  band lo hi (src_ratio d) -> lin_legal kd (st_channels st) X o d m ->
  src_process (Some st) (Some d) m = Ok (e, Some st1, Some d1, m1) ->
  let g := Z.to_nat (output_frames_gen d1) in
  on_stream kd X st1 (o + input_frames_used d1) /\ band lo hi (st_last_ratio st1) /\ st_channels st1 = st_channels st /\
  honest_reply (st_channels st) d m e d1 m1 /\
  (is_dirty st1 \/ input_frames d = 0) /\
  let rho := ramp (start_ratio st (src_ratio d)) (src_ratio d) (st_channels st) (output_frames d) in
  st_last_ratio st1 = match g with O => start_ratio st (src_ratio d) | S j => rho j end /\
  (forall k, (k < g)%nat -> band lo hi (rho k)) /\
    stream_pos st1 (o + input_frames_used d1) = pos_at (stream_pos st o) rho g /\
    (forall k, (k < g)%nat -> 0 <= fst (pos_at (stream_pos st o) rho k) /\
                              reads kd (pos_at (stream_pos st o) rho k) < o + input_frames d) /\
    wrote m m1 (data_out d) (st_channels st) (output_frames_gen d1)
          (fun k c => value kd (from0 X) (pos_at (stream_pos st o) rho (Z.to_nat k)) c) /\
    (output_frames_gen d1 < output_frames d -> input_frames d = 0 \/
       avail kd (st_channels st) (input_frames d) (shift (- o) (pos_at (stream_pos st o) rho g)) = false) /\
    (input_frames_used d1, output_frames_gen d1) =
      call_counts kd (st_channels st) (st_last_position st) (start_ratio st (src_ratio d)) d.
Proof.
  intros [Hok Hm Ho Hfo Hst] Hri Hv Hin Hb Hll E.
  destruct (Z.eq_dec (input_frames d) 0) as [N0|N0].
  - (* nothing presented *)
    rewrite (process_empty kd st d m Hok Hm Hv N0) in E. injection E as <- <- <- <-. cbn.
    destruct (primed_ok kd st (src_ratio d) Hok) as (P1 & P2 & P3 & P4 & P5 & P6); [apply Hv|].
    rewrite Z.add_0_r.
    split. { constructor; auto.
      - unfold same_frame in P4. destruct P4 as (_ & _ & _ & P4 & _). congruence.
      - intros h Hh. rewrite P5 in Hh. specialize (Hfo h Hh). replace (st_channels (primed st (src_ratio d))) with (st_channels st); [exact Hfo|]. symmetry; apply P4.
      - unfold is_dirty. rewrite P5. exact Hst. }
    split. { rewrite P3. now apply start_band. }
    split; [apply P4|]. split.
    { split; [reflexivity|]. split; [reflexivity|]. cbn. split; [lia|]. split; [split; [lia|apply Hv]|].
      exists (fun _ _ => fzero). split; [intros; lia|auto]. }
    split; [now right|].
    split; [exact P3|]. split; [intros; lia|]. split; [unfold stream_pos; now rewrite P6|].
    split; [intros; lia|]. split; [split; [intros; lia|auto]|]. split; [now left|].
    unfold call_counts. now rewrite N0.
  - assert (Hn : 0 < input_frames d) by (assert (0 <= input_frames d) by apply Hv; lia).
    assert (Hch : 0 < st_channels st) by apply Hok.
    assert (Hci : st_channels st * 258 <= 2 ^ 31 - 1) by apply Hok.
    assert (Hnc : input_frames d * st_channels st <= 2 ^ 50) by apply Hv.
    assert (Hmc : output_frames d * st_channels st <= 2 ^ 50) by apply Hv.
    set (X' := fun i => from0 X (o + i)).
    assert (Hin' : holds m (data_in d) (st_channels st) (input_frames d) X' 0).
    { intros i c Hi Hc. rewrite (Hin i c Hi Hc). unfold X', from0. f_equal. f_equal. lia. }
    assert (Hsafe : kd = Lin -> lin_safe (st_channels st) (input_frames d) (output_frames d) (data_in d) (data_out d)
               (st_last_position st) (start_ratio st (src_ratio d)) (src_ratio d) X' m).
    { intros K. destruct (Z_lt_ge_dec (input_frames d) 3) as [L|L].
      - right. rewrite K in Hll. simpl in Hll. destruct Hll as [|[|[A B]]]; try lia. split; [|exact B].
        intros i c Hi Hc. rewrite (A i c Hi Hc). unfold X'. f_equal. f_equal. lia.
      - apply (room_safe kd); auto. rewrite K. simpl. lia. }
    destruct (process_call kd st d m X' Hok Hm Hv Hn Hin' Hfo Hsafe)
      as (st' & m' & E1 & R1 & R2 & R3 & R4 & R5 & R6 & R7 & R8 & R9 & R10).
    rewrite E1 in E. injection E as <- <- <- <-.
    cbn [output_frames_gen input_frames_used set_counts].
    set (g := cgen _ _ _ _ _ _ _) in *. set (used := cused _ _ _ _ _ _ _) in *.
    set (last := start_ratio st (src_ratio d)) in *. set (new := src_ratio d) in *.
    set (ch := st_channels st) in *. set (mo := output_frames d) in *. set (x0 := st_last_position st) in *.
    assert (Bl : band lo hi last) by now apply start_band.
    assert (Ec : st_channels st' = ch) by apply R5.
    rewrite Nat2Z.id.
    assert (Pk : forall k, pos_at (stream_pos st o) (ramp last new ch mo) k = shift o (cpos ch mo x0 last new k)).
    { intros k. unfold stream_pos. apply pos_at_shift. }
    split. { constructor; auto.
      - destruct R5 as (_ & _ & _ & R5 & _). congruence.
      - lia.
      - intros h Hh. specialize (R10 h Hh). cbv beta in R10. unfold X' in R10.
        destruct (h_dirty h); [|].
        + now rewrite <- Z.add_assoc.
        + intros c Hc. specialize (R10 c Hc). now rewrite <- !Z.add_assoc. }
    split. { rewrite R8. unfold cratio. fold g. destruct g as [|j] eqn:Eg; [exact Bl|].
      simpl. apply ramp_band; auto. rewrite <- Eg in R1. lia. }
    split; [exact Ec|]. split.
    { split; [reflexivity|]. split; [reflexivity|]. cbn. split; [exact R2|]. split; [lia|]. eexists; exact R3. }
    split; [now left|].
    split; [exact R8|].
    split; [intros k Hk; apply ramp_band; auto; lia|].
    split. { rewrite Pk. unfold stream_pos. rewrite R7. unfold shift. cbn [fst snd]. f_equal. lia. }
    assert (Pos0 : forall k, Z.of_nat k <= mo -> 0 <= fst (cpos ch mo x0 last new k)).
    { intros k Hk.
      assert (F0 : frac (snd (split_pos x0))).
      { assert (Q := cpos_frac kd st d m 0 Hok Hv ltac:(lia)). exact Q. }
      assert (A := pos_mono ch mo last new (split_pos x0) Hch Hmc (proj1 Bl) (proj1 Hb) F0 0 k (Nat.le_0_l k) Hk).
      assert (U0 : 0 <= fst (split_pos x0)).
      { apply split_lt258; apply Hok. }
      change (HoldCore.pos ch mo last new (split_pos x0) 0) with (split_pos x0) in A.
      change (HoldCore.pos ch mo last new (split_pos x0) k) with (cpos ch mo x0 last new k) in A. lia. }
    assert (Av := served_spec (Z.to_nat mo) (fun k => avail kd ch (input_frames d) (cpos ch mo x0 last new k))).
    fold (cgen kd ch (input_frames d) mo x0 last new) in Av. fold g in Av. destruct Av as (Av1 & Av2 & Av3).
    assert (Rd : forall k, (k < g)%nat -> reads kd (cpos ch mo x0 last new k) < input_frames d).
    { induction k as [|k IHk]; intros Hk.
      - assert (U0 : 0 <= fst (split_pos x0) <= 257) by (apply split_lt258; apply Hok).
        assert (F0 : frac (snd (cpos ch mo x0 last new 0))) by (apply (cpos_frac kd st d m 0 Hok Hv); lia).
        assert (A0 := Av2 0%nat Hk). cbv beta in A0.
        change (cpos ch mo x0 last new 0) with (split_pos x0) in *.
        apply (avail_reads kd ch); auto; try lia. nia.
      - assert (Hk' : (k < g)%nat) by lia. specialize (IHk Hk').
        assert (F0 : frac (snd (split_pos x0))) by (assert (Q := cpos_frac kd st d m 0 Hok Hv ltac:(lia)); exact Q).
        destruct (pos_step ch mo last new (split_pos x0) Hch Hmc (proj1 Bl) (proj1 Hb) F0 k) as (S1 & _); [lia|].
        change (HoldCore.pos ch mo last new (split_pos x0)) with (cpos ch mo x0 last new) in S1.
        assert (Pk0 := Pos0 k ltac:(lia)).
        assert (Bk : fst (cpos ch mo x0 last new k) <= input_frames d) by (unfold reads in IHk; destruct kd; lia).
        assert (Fk : frac (snd (cpos ch mo x0 last new (S k)))) by (apply (cpos_frac kd st d m (S k) Hok Hv); fold mo; lia).
        assert (Ak := Av2 (S k) Hk). cbv beta in Ak.
        apply (avail_reads kd ch); auto; try lia. nia. }
    split. { intros k Hk. rewrite Pk. unfold shift; cbn [fst]. split.
      - assert (Q := Pos0 k ltac:(lia)). lia.
      - specialize (Rd k Hk). unfold reads in *; destruct kd; cbn [fst]; lia. }
    split. { destruct R3 as [W1 W2]. split; [|exact W2]. intros k c Hk Hc. rewrite W1 by auto. f_equal.
      rewrite Pk. rewrite <- value_shift. reflexivity. }
    split.
    2: { unfold call_counts. now rewrite (proj2 (Z.eqb_neq _ _) N0). }
    intros Lt. right. rewrite Pk.
    replace (shift (- o) (shift o (cpos ch mo x0 last new g))) with (cpos ch mo x0 last new g).
    2: { unfold shift. cbn [fst snd]. destruct (cpos ch mo x0 last new g). cbn. f_equal. lia. }
    destruct Av3 as [Av3|Av3]; [lia|exact Av3].
Qed.

(** A whole stream. *)
Lemma stream_run kd ch X (allowed : f64 -> Prop) (legal : Z -> SRC_DATA -> mem -> Prop) lo hi :
  (forall r, allowed r -> band lo hi r) -> (forall o d m, legal o d m -> lin_legal kd ch X o d m) ->
  forall st o log out st' o', streaming ch X allowed legal st o log out st' o' ->
  on_stream kd X st o -> ratio_in lo hi st -> st_channels st = ch ->
  let G := Z.to_nat (total_gen log) in
  0 <= total_gen log /\ on_stream kd X st' o' /\ ratio_in lo hi st' /\ st_channels st' = ch /\
  exists rho, (forall k, (k < G)%nat -> band lo hi (rho k)) /\
    stream_pos st' o' = pos_at (stream_pos st o) rho G /\
    (forall k, (k < G)%nat -> 0 <= fst (pos_at (stream_pos st o) rho k) /\
                              reads kd (pos_at (stream_pos st o) rho k) < presented o log) /\
    is_frames ch out (total_gen log) (fun k c => value kd (from0 X) (pos_at (stream_pos st o) rho (Z.to_nat k)) c).
Proof.
  intros Hal Hle st o log out st' o' Hs.
  induction Hs as [st o|st o d m e st1 d1 m1 chunk log out st2 o2 Hv Hin Ha Hl E Hc Hs IH|st o r st1 log out st2 o2 Hr Ha E Hs IH];
    intros Hos Hri Hch.
  - split; [simpl; lia|]. split; [exact Hos|]. split; [exact Hri|]. split; [exact Hch|].
    exists (fun _ => dzero). cbn. repeat split; try (intros; lia). 
  - assert (Call := stream_call kd X st o d m e st1 d1 m1 lo hi Hos Hri).
    rewrite Hch in Call.
    specialize (Call Hv Hin (Hal _ Ha) (Hle _ _ _ Hl) E). cbv zeta in Call.
    destruct Call as (O1 & B1 & C1 & (_ & _ & Hu & Hg & _) & _ & _ & Q1 & Q2 & Q3 & Q4 & _ & _).
    specialize (IH O1 (or_intror B1) C1). cbv zeta in IH.
    destruct IH as (T0 & O2 & B2 & C2 & rho2 & P1 & P2 & P3 & P4).
    cbn [total_gen].
    set (rho1 := ramp (start_ratio st (src_ratio d)) (src_ratio d) ch (output_frames d)) in *.
    set (g := output_frames_gen d1) in *. set (G2 := total_gen log) in *.
    split; [lia|]. split; [exact O2|]. split; [exact B2|]. split; [exact C2|].
    set (rho := fun k => if (k <? Z.to_nat g)%nat then rho1 k else rho2 (k - Z.to_nat g)%nat).
    assert (Pa : forall k, (k <= Z.to_nat g)%nat -> pos_at (stream_pos st o) rho k = pos_at (stream_pos st o) rho1 k).
    { intros k Hk. apply pos_at_ext. intros j Hj. unfold rho. now rewrite (proj2 (Nat.ltb_lt j (Z.to_nat g))) by lia. }
    assert (Pb : forall k, pos_at (stream_pos st o) rho (Z.to_nat g + k) = pos_at (stream_pos st1 (o + input_frames_used d1)) rho2 k).
    { intros k. rewrite pos_at_add. rewrite Pa by lia. rewrite <- Q2. apply pos_at_ext. intros j Hj. unfold rho.
      rewrite (proj2 (Nat.ltb_ge (Z.to_nat g + j) (Z.to_nat g))) by lia. f_equal. lia. }
    exists rho. split; [|split; [|split]].
    + intros k Hk. unfold rho. destruct (Nat.ltb_spec k (Z.to_nat g)); [apply Q1; assumption|apply P1; lia].
    + rewrite P2. rewrite <- Pb. f_equal. lia.
    + intros k Hk. cbn [presented]. destruct (Nat.lt_ge_cases k (Z.to_nat g)) as [L|L].
      * rewrite Pa by lia. destruct (Q3 k L). split; [assumption|]. lia.
      * replace k with (Z.to_nat g + (k - Z.to_nat g))%nat by lia. rewrite Pb. destruct (P3 (k - Z.to_nat g)%nat); [lia|]. split; [assumption|lia].
    + assert (A := wrote_chunk _ _ _ _ _ _ _ (eq_ind _ (fun c => 0 < c) (proj1 (proj2 (os_ok _ _ _ _ Hos))) _ Hch) (proj1 Hg) Q4 Hc).
      assert (Hch0 : 0 < ch) by (rewrite <- Hch; apply Hos).
      apply (is_frames_ext ch _ _ _ _ (is_frames_app ch chunk out g G2 _ _ Hch0 (proj1 Hg) T0 A P4)).
      intros k c Hk Hcc. cbv beta. destruct (Z.ltb_spec k g) as [L|L].
      * f_equal. symmetry. apply Pa. lia.
      * f_equal. rewrite <- Pb. f_equal. lia.
  - unfold src_set_ratio in E. destruct (is_bad_src_ratio r); [discriminate E|]. injection E as <-.
    change (stream_pos st o) with (stream_pos (set_ratio st r) o). apply IH.
    + destruct Hos as [A B C D F]. constructor; auto.
      destruct A as (a1 & a2 & a3 & a4 & a5 & a6 & a7). repeat split; cbn; auto; try apply a5.
    + right. cbn. now apply Hal.
    + exact Hch.
Qed.
