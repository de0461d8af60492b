(** Linear interpolation when the frame before data_in may be read (C56): the call returns. *)
From Coq Require Import ZArith Reals List Bool Lia.
From Flocq Require Import Core IEEE754.BinarySingleNaN.
From Verif Require Import Base FloatFacts PosFacts Types Common Linear Api ApiHist HoldSpec HoldFacts HoldCore HoldCall HoldProcess ProcFacts LinAny.
Import ListNotations.
Local Open Scope Z_scope.

(** The same addresses are mapped. *)
Definition same_map (m n : mem) : Prop := forall a, m a = None <-> n a = None.

Lemma map_read m n a x : same_map m n -> mread m a = Ok x -> exists y, mread n a = Ok y.
Proof. unfold mread. intros S. specialize (S a). destruct (m a); [|discriminate]. destruct (n a); [eauto|]. destruct S as [_ S]. discriminate (S eq_refl). Qed.
Lemma map_write m n a x y m' : same_map m n -> mwrite m a x = Ok m' -> exists n', mwrite n a y = Ok n' /\ same_map m' n'.
Proof.
  unfold mwrite. intros S. assert (Sa := S a). destruct (m a); [|discriminate]. destruct (n a); [|destruct Sa as [_ Sa]; discriminate (Sa eq_refl)].
  intros H. injection H as <-. eexists. split; [reflexivity|]. intros b. destruct (b =? a); [split; discriminate|apply S].
Qed.
Lemma zset_len (l l' k : list f32) i x y : length k = length l -> zset l i x = Ok l' -> exists k', zset k i y = Ok k' /\ length k' = length l'.
Proof.
  unfold zset, zlen. intros L. rewrite L. destruct ((i <? 0) || _); [discriminate|]. intros H. injection H as <-. eexists. split; [reflexivity|].
  rewrite !app_length, !firstn_length. cbn [length]. rewrite !skipn_length. lia.
Qed.
Lemma zget_len (l k : list f32) i x : length k = length l -> zget l i = Ok x -> exists y, zget k i = Ok y.
Proof.
  unfold zget. intros L. destruct (i <? 0); [discriminate|]. destruct (nth_error l _) eqn:E; [|discriminate]. intros _.
  destruct (nth_error k (Z.to_nat i)) eqn:E'; [eauto|]. apply nth_error_None in E'. assert (Q : nth_error l (Z.to_nat i) <> None) by congruence.
  apply nth_error_Some in Q. lia.
Qed.

Lemma map_load addr : forall k m n lv c lv' lw, same_map m n -> length lw = length lv -> load_frame m addr lv c k = Ok lv' ->
  exists lw', load_frame n addr lw c k = Ok lw' /\ length lw' = length lv'.
Proof.
  induction k as [|k IH]; intros m n lv c lv' lw S L H; cbn [load_frame] in *.
  - injection H as <-. eauto.
  - ok_step H. ok_step H. destruct (map_read m n _ _ S E) as [y Ey]. rewrite Ey. cbn [bind].
    destruct (zset_len _ _ lw _ _ y L E0) as (lw' & E1 & L1). rewrite E1. cbn [bind]. exact (IH _ _ _ _ _ _ S L1 H).
Qed.
Lemma map_emit_last inp out idx : forall k m n lv lw og c m' og', same_map m n -> length lw = length lv -> lin_emit_last m lv inp out idx og c k = Ok (m', og') ->
  exists n', lin_emit_last n lw inp out idx og c k = Ok (n', og') /\ same_map m' n'.
Proof.
  induction k as [|k IH]; intros m n lv lw og c m' og' S L H; cbn [lin_emit_last] in *.
  - injection H as <- <-. eauto.
  - do 4 ok_step H. destruct (zget_len _ lw _ _ L E) as [a Ea]. rewrite Ea. cbn [bind]. destruct (map_read m n _ _ S E0) as [b Eb]. rewrite Eb. cbn [bind].
    destruct (map_write m n _ _ (lerp a b idx) _ S E1) as (n1 & En & S1). rewrite En. cbn [bind]. exact (IH _ _ _ _ _ _ _ _ S1 L H).
Qed.
Lemma map_emit_in inp off iu out idx : forall k m n og c m' og', same_map m n -> lin_emit_in m inp off iu out idx og c k = Ok (m', og') ->
  exists n', lin_emit_in n inp off iu out idx og c k = Ok (n', og') /\ same_map m' n'.
Proof.
  induction k as [|k IH]; intros m n og c m' og' S H; cbn [lin_emit_in] in *.
  - injection H as <- <-. eauto.
  - do 4 ok_step H. destruct (map_read m n _ _ S E) as [a Ea]. rewrite Ea. cbn [bind]. destruct (map_read m n _ _ S E0) as [b Eb]. rewrite Eb. cbn [bind].
    destruct (map_write m n _ _ (lerp a b idx) _ S E1) as (n1 & En & S1). rewrite En. cbn [bind]. exact (IH _ _ _ _ _ _ S1 H).
Qed.
Lemma map_loop1 ch inp out last new iu inc outc : forall f m n lv lw og idx r m' og' idx' r', same_map m n -> length lw = length lv ->
  lin_loop1 f ch inp out last new lv iu inc outc m og idx r = Ok (m', og', idx', r') ->
  exists n', lin_loop1 f ch inp out last new lw iu inc outc n og idx r = Ok (n', og', idx', r') /\ same_map m' n'.
Proof.
  induction f as [|f IH]; intros m n lv lw og idx r m' og' idx' r' S L H; cbn [lin_loop1] in *; [discriminate|].
  destruct (dlt idx done_ && (og <? outc)); [|injection H as <- <- <- <-; eauto].
  destruct (dge _ _); [injection H as <- <- <- <-; eauto|].
  ok_step H. destruct v as [m1 og1]. destruct (map_emit_last _ _ _ _ _ _ _ lw _ _ _ _ S L E) as (n1 & En & S1). rewrite En. cbn [bind]. exact (IH _ _ _ _ _ _ _ _ _ _ _ S1 L H).
Qed.
Lemma map_loop2 ch inp out last new inc outc : forall f m n iu og idx r m' iu' og' idx' r', same_map m n ->
  lin_loop2 f ch inp out last new inc outc m iu og idx r = Ok (m', iu', og', idx', r') ->
  exists n', lin_loop2 f ch inp out last new inc outc n iu og idx r = Ok (n', iu', og', idx', r') /\ same_map m' n'.
Proof.
  induction f as [|f IH]; intros m n iu og idx r m' iu' og' idx' r' S H; cbn [lin_loop2] in *; [discriminate|].
  destruct ((og <? outc) && _); [|injection H as <- <- <- <- <-; eauto].
  ok_step H. cbn [bind]. ok_step H. destruct v0 as [m1 og1]. destruct (map_emit_in _ _ _ _ _ _ _ _ _ _ _ _ S E0) as (n1 & En & S1). rewrite En. cbn [bind].
  ok_step H. destruct v0 as [iu1 idx1]. cbn [bind]. exact (IH _ _ _ _ _ _ _ _ _ _ _ S1 H).
Qed.

(** Whether a call returns does not depend on the values in memory. *)
Lemma map_linear st d m n r : same_map m n -> linear_vari_process st d m = Ok r -> exists r', linear_vari_process st d n = Ok r'.
Proof.
  intros S H. unfold linear_vari_process in *. destruct (input_frames d <=? 0); [eauto|]. destruct (st_priv st) as [|h|]; [eauto| |discriminate].
  ok_step H.
  assert (X : exists lw, (if h_dirty h then Ok (h_last_value h) else load_frame n (data_in d) (h_last_value h) 0 (Z.to_nat (st_channels st))) = Ok lw /\ length lw = length v).
  { destruct (h_dirty h); [injection E as <-; eauto|]. exact (map_load _ _ _ _ _ _ _ _ S eq_refl E). }
  destruct X as (lw & Ew & Lw). rewrite Ew. cbn [bind]. clear E Ew.
  ok_step H. ok_step H. cbn [bind]. destruct (is_bad_src_ratio _); [eauto|].
  ok_step H. destruct v2 as [[[m1 og1] idx1] r1]. destruct (map_loop1 _ _ _ _ _ _ _ _ _ _ _ _ lw _ _ _ _ _ _ _ S Lw E1) as (n1 & En & S1). rewrite En. cbn [bind].
  ok_step H. destruct v2 as [iu1 idx1']. cbn [bind]. 
  ok_step H. destruct v2 as [[[[m2 iu2] og2] idx2] r2]. destruct (map_loop2 _ _ _ _ _ _ _ _ _ _ _ _ _ _ _ _ _ _ _ S1 E3) as (n2 & En2 & S2). rewrite En2. cbn [bind].
  ok_step H. destruct v2 as [iu3 idx3]. cbn [bind]. ok_step H.
  assert (X : exists lw', (if 0 <? iu3 then do off <- long_op (iu3 - st_channels st); load_frame n2 (data_in d + off) lw 0 (Z.to_nat (st_channels st)) else Ok lw) = Ok lw').
  { destruct (0 <? iu3); [|eauto]. ok_step E5. cbn [bind]. destruct (map_load _ _ _ _ _ _ _ lw S2 Lw E5) as (lw' & El & _). eauto. }
  destruct X as (lw' & El). rewrite El. cbn [bind]. ok_step H. cbn [bind]. ok_step H. cbn [bind]. eauto.
Qed.

(** The memory with [f] in the frame at [a]. *)
Definition put_frame (m : mem) (a ch : Z) (f : Z -> f32) : mem := fun x => if (a <=? x) && (x <? a + ch) then (match m x with Some _ => Some (f (x - a)) | None => None end) else m x.
Lemma put_map m a ch f : same_map (put_frame m a ch f) m.
Proof. intros x. unfold put_frame. destruct (_ && _); [|reflexivity]. destruct (m x); split; congruence. Qed.
Lemma put_in m a ch f c : 0 <= c < ch -> m (a + c) <> None -> put_frame m a ch f (a + c) = Some (f c).
Proof.
  intros H N. unfold put_frame. replace ((a <=? a + c) && (a + c <? a + ch)) with true by (symmetry; apply andb_true_intro; split; [apply Z.leb_le|apply Z.ltb_lt]; lia).
  destruct (m (a + c)); [|now elim N]. do 2 f_equal. lia.
Qed.
Lemma put_out m a ch f x : ~ (a <= x < a + ch) -> put_frame m a ch f x = m x.
Proof.
  intros H. unfold put_frame. destruct (Z.leb_spec a x); [|reflexivity]. destruct (Z.ltb_spec x (a + ch)); [lia|reflexivity].
Qed.

(** A legal call of the linear converter returns if its block has three frames, or if the frame before it may be read. *)
Lemma linear_mapped st d m : hold_ok Lin st -> st_mode st = MODE_PROCESS -> valid_call (st_channels st) d m ->
  (0 < input_frames d < 3 -> (forall c, 0 <= c < st_channels st -> m (data_in d - st_channels st + c) <> None) /\
     disjoint_ranges (data_in d - st_channels st) (st_channels st) (data_out d) (output_frames d * st_channels st)) ->
  exists st' d' m', src_process (Some st) (Some d) m = Ok (0, Some st', Some d', m') /\
    honest_reply (st_channels st) d m 0 d' m' /\ hold_ok Lin st' /\ same_frame st st' /\ good_ratio (st_last_ratio st') /\
    (0 < input_frames d -> 0 < output_frames d -> 0 < input_frames_used d' \/ 0 < output_frames_gen d') /\
    (output_frames_gen d' = 0 ->
     fst (split_pos (st_last_position st')) = fst (split_pos (st_last_position st)) - input_frames_used d').
Proof.
  intros Hok Hm Hv Hr.
  destruct (Z_lt_ge_dec 0 (input_frames d)) as [Hn|Hn].
  2: { apply (process_honest Lin); auto. assert (0 <= input_frames d) by apply Hv. left. lia. }
  destruct (Z_lt_ge_dec (input_frames d) 3) as [Hs|Hs].
  2: { apply (process_honest Lin); auto. right. lia. }
  destruct (Hr (conj Hn Hs)) as [R1 R2]. assert (Hch : 0 < st_channels st) by apply Hok. set (ch := st_channels st) in *.
  set (X := mem_stream m (data_in d) ch (prev_frame st m (data_in d))).
  set (m1 := put_frame m (data_in d - ch) ch (X (-1))).
  assert (S := put_map m (data_in d - ch) ch (X (-1))). fold m1 in S.
  assert (W : forall a n, writable m a ch n -> writable m1 a ch n) by (intros a n W j Hj Q; apply (W j Hj), S, Q).
  assert (Hv1 : valid_call ch d m1).
  { destruct Hv as (A & B & C & D & E & F & G & H & I & J & K & L). unfold valid_call. do 9 (split; [assumption|]). split; [now apply W|]. split; [now apply W|exact L]. }
  destruct (process_safe Lin st d m1 X Hok Hm Hv1 Hn) as (st1 & d1 & n1 & E & _).
  - intros i c Hi Hc. unfold m1. rewrite put_out by (unfold ch in *; nia). apply (mem_stream_holds m _ _ (input_frames d)); auto. apply Hv.
  - now apply (prev_follows Lin).
  - intros _. right. split; [|exact R2]. intros i c Hi Hc. assert (i = 0) by lia. subst i. unfold m1. rewrite Z.mul_0_l, Z.add_0_l, put_in; auto.
  - rewrite (process_reduce st d m1 Hm Hch Hv1) in E. destruct (linear_any st d m Hok Hm Hv) as [_ An].
    destruct (primed_ok Lin st (src_ratio d) Hok) as (P1 & _); [apply Hv|]. assert (Hvt : st_vt (primed st (src_ratio d)) = VT_linear) by apply P1.
    assert (Er := process_reduce st d m Hm Hch Hv). unfold vt_process in E, Er. rewrite Hvt in E, Er. ok_step E. destruct v as [[[e2 st2] d2] m2].
    destruct (map_linear _ _ _ _ _ S E0) as ([[[e3 st3] d3] m3] & E3). rewrite E3 in Er. cbn [bind] in Er.
    destruct (An _ _ _ _ Er) as (H1 & H2). assert (e3 = 0) by apply H1. subst e3. exists st3, d3, m3. auto.
Qed.
