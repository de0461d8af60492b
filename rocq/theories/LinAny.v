(** Linear interpolation with blocks of any size: what holds whenever the call returns, and that it does not loop for ever. *)
From Coq Require Import ZArith Reals List Bool Lia Lra.
From Flocq Require Import Core IEEE754.BinarySingleNaN.
From Verif Require Import Base FloatFacts PosFacts Types Common Linear Api Heap Callback HoldSpec HoldFacts HoldRamp HoldCore HoldCall ApiHist
  HoldProcess ProcFacts.
Import ListNotations.
Local Open Scope Z_scope.

(** ** Emitting a frame *)
(** [m'] differs from [m] at most in [a, a + n), and maps the same addresses. *)
Definition touched (m m' : mem) (a n : Z) : Prop := (forall b, ~ (a <= b < a + n) -> m' b = m b) /\ (forall b, m b <> None -> m' b <> None).
Lemma touched_refl m a n : touched m m a n.
Proof. split; auto. Qed.
Lemma touched_trans m1 m2 m3 a n n' b : touched m1 m2 a n -> touched m2 m3 b n' -> b = a + n -> 0 <= n -> 0 <= n' -> touched m1 m3 a (n + n').
Proof.
  intros [A B] [C D] -> H H'. split; [|auto]. intros x Hx. rewrite C by lia. apply A. lia.
Qed.
Lemma mwrite_touched m a x m' : mwrite m a x = Ok m' -> touched m m' a 1.
Proof.
  unfold mwrite. destruct (m a) eqn:E; [|discriminate]. intros H. injection H as <-. split.
  - intros b Hb. destruct (Z.eqb_spec b a); [lia|reflexivity].
  - intros b Hb. destruct (Z.eqb_spec b a); [discriminate|exact Hb].
Qed.
Lemma long_is z z' : long_op z = Ok z' -> z' = z.
Proof. unfold long_op. destruct (in_long z); [|discriminate]. intros H. now injection H. Qed.

Lemma emit_last_effect lv inp out idx : forall n m og c m' og', lin_emit_last m lv inp out idx og c n = Ok (m', og') ->
  og' = og + Z.of_nat n /\ touched m m' (out + og) (Z.of_nat n).
Proof.
  induction n as [|n IH]; intros m og c m' og' H; cbn [lin_emit_last] in H.
  - injection H as <- <-. split; [lia|apply touched_refl].
  - do 4 ok_step H. apply long_is in E2. subst. apply mwrite_touched in E1. apply IH in H as [-> H].
    split; [lia|]. replace (Z.of_nat (S n)) with (1 + Z.of_nat n) by lia. apply (touched_trans _ v1 _ _ _ _ (out + (og + 1))); auto; lia.
Qed.
Lemma emit_in_effect inp off iu out idx : forall n m og c m' og', lin_emit_in m inp off iu out idx og c n = Ok (m', og') ->
  og' = og + Z.of_nat n /\ touched m m' (out + og) (Z.of_nat n).
Proof.
  induction n as [|n IH]; intros m og c m' og' H; cbn [lin_emit_in] in H.
  - injection H as <- <-. split; [lia|apply touched_refl].
  - do 4 ok_step H. apply long_is in E2. subst. apply mwrite_touched in E1. apply IH in H as [-> H].
    split; [lia|]. replace (Z.of_nat (S n)) with (1 + Z.of_nat n) by lia. apply (touched_trans _ v1 _ _ _ _ (out + (og + 1))); auto; lia.
Qed.

(** ** The loops *)
Section Loops.
  Variables (ch : Z) (last new : f64) (inc outc : Z).
  Hypothesis Hch : 0 < ch.

  Lemma loop1_effect inp out lv : forall f iu m og idx r m' og' idx' r',
    lin_loop1 f ch inp out last new lv iu inc outc m og idx r = Ok (m', og', idx', r') ->
    og <= og' /\ (exists k, og' = og + k * ch) /\ touched m m' (out + og) (og' - og).
  Proof.
    induction f as [|f IH]; intros iu m og idx r m' og' idx' r' H; cbn [lin_loop1] in H; [discriminate H|].
    assert (Stop : Ok (m, og, idx, r) = Ok (m', og', idx', r') -> og <= og' /\ (exists k, og' = og + k * ch) /\ touched m m' (out + og) (og' - og)).
    { intros Q. injection Q as <- <- _ _. split; [lia|]. split; [exists 0; lia|apply touched_refl]. }
    ok_step H; [|now apply Stop]. ok_step H; [now apply Stop|]. cbv zeta in H. ok_step H. destruct v as [m1 og1].
    apply emit_last_effect in E as [-> T]. apply IH in H as (A & (k & B) & C). rewrite Z2Nat.id in * by lia.
    split; [lia|]. split; [exists (k + 1); lia|]. replace (og' - og) with (ch + (og' - (og + ch))) by lia.
    apply (touched_trans _ m1 _ _ _ _ (out + (og + ch))); auto; lia.
  Qed.
  Lemma loop2_effect inp out : forall f m iu og idx r m' iu' og' idx' r',
    lin_loop2 f ch inp out last new inc outc m iu og idx r = Ok (m', iu', og', idx', r') ->
    og <= og' /\ (exists k, og' = og + k * ch) /\ touched m m' (out + og) (og' - og).
  Proof.
    induction f as [|f IH]; intros m iu og idx r m' iu' og' idx' r' H; cbn [lin_loop2] in H; [discriminate H|].
    ok_step H.
    - cbv zeta in H. ok_step H. ok_step H. destruct v0 as [m1 og1]. ok_step H. destruct v0 as [iu1 idx1].
      apply emit_in_effect in E0 as [-> T]. apply IH in H as (A & (k & B) & C). rewrite Z2Nat.id in * by lia.
      split; [lia|]. split; [exists (k + 1); lia|]. replace (og' - og) with (ch + (og' - (og + ch))) by lia.
      apply (touched_trans _ m1 _ _ _ _ (out + (og + ch))); auto; lia.
    - injection H as <- <- <- _ _. split; [lia|]. split; [exists 0; lia|apply touched_refl].
  Qed.

  (** Two runs on different memory take the same course. *)
  Lemma loop1_pair inp out lv inp2 out2 lv2 : forall f iu m og idx r m' og' idx' r' n n' og2 idx2 r2,
    lin_loop1 f ch inp out last new lv iu inc outc m og idx r = Ok (m', og', idx', r') ->
    lin_loop1 f ch inp2 out2 last new lv2 iu inc outc n og idx r = Ok (n', og2, idx2, r2) ->
    og' = og2 /\ idx' = idx2 /\ r' = r2.
  Proof.
    induction f as [|f IH]; intros iu m og idx r m' og' idx' r' n n' og2 idx2 r2 H K; cbn [lin_loop1] in H, K; [discriminate H|].
    destruct (dlt idx done_ && (og <? outc)); [|injection H as <- <- <- <-; injection K as <- <- <- <-; auto].
    destruct (dge _ _); [injection H as <- <- <- <-; injection K as <- <- <- <-; auto|]. cbv zeta in H, K.
    ok_step H. destruct v as [m1 og1]. ok_step K. destruct v as [n1 og3].
    apply emit_last_effect in E as [-> _]. apply emit_last_effect in E0 as [-> _]. exact (IH _ _ _ _ _ _ _ _ _ _ _ _ _ _ H K).
  Qed.
  Lemma loop2_pair inp out inp2 out2 : forall f m iu og idx r m' iu' og' idx' r' n n' iu2 og2 idx2 r2,
    lin_loop2 f ch inp out last new inc outc m iu og idx r = Ok (m', iu', og', idx', r') ->
    lin_loop2 f ch inp2 out2 last new inc outc n iu og idx r = Ok (n', iu2, og2, idx2, r2) ->
    iu' = iu2 /\ og' = og2 /\ idx' = idx2 /\ r' = r2.
  Proof.
    induction f as [|f IH]; intros m iu og idx r m' iu' og' idx' r' n n' iu2 og2 idx2 r2 H K; cbn [lin_loop2] in H, K; [discriminate H|].
    destruct ((og <? outc) && _); [|injection H as <- <- <- <- <-; injection K as <- <- <- <- <-; auto]. cbv zeta in H, K.
    ok_step H. cbn [bind] in K. ok_step H. destruct v0 as [m1 og1]. ok_step H. destruct v0 as [iu1 idx1].
    ok_step K. destruct v0 as [n1 og3]. cbn [bind] in K.
    apply emit_in_effect in E0 as [-> _]. apply emit_in_effect in E2 as [-> _]. exact (IH _ _ _ _ _ _ _ _ _ _ _ _ _ _ _ _ H K).
  Qed.

  (** Enough fuel. *)
  Lemma emit_last_end lv inp out idx : forall n m og c, lin_emit_last m lv inp out idx og c n <> Fault F_fuel.
  Proof.
    induction n as [|n IH]; intros m og c; cbn [lin_emit_last]; [discriminate|].
    unfold zget, mread, mwrite, long_op.
    destruct (c <? 0); cbn [bind]; [discriminate|]. destruct (nth_error lv (Z.to_nat c)); cbn [bind]; [|discriminate].
    destruct (m (inp + c)); cbn [bind]; [|discriminate]. destruct (m (out + og)); cbn [bind]; [|discriminate].
    destruct (in_long (og + 1)); cbn [bind]; [apply IH|discriminate].
  Qed.
  Lemma emit_in_end inp off iu out idx : forall n m og c, lin_emit_in m inp off iu out idx og c n <> Fault F_fuel.
  Proof.
    induction n as [|n IH]; intros m og c; cbn [lin_emit_in]; [discriminate|].
    unfold mread, mwrite, long_op.
    destruct (m (inp + (off + c))); cbn [bind]; [|discriminate].
    destruct (m (inp + (iu + c))); cbn [bind]; [|discriminate]. destruct (m (out + og)); cbn [bind]; [|discriminate].
    destruct (in_long (og + 1)); cbn [bind]; [apply IH|discriminate].
  Qed.
  Lemma advance_end pos idx : advance ch pos idx <> Fault F_fuel.
  Proof.
    unfold advance, int_op, long_op. destruct (in_int _); cbn [bind]; [|discriminate]. destruct (in_long _); cbn [bind]; discriminate.
  Qed.
  Lemma loop1_end inp out lv iu : forall f m og idx r, (0 < f)%nat -> outc - og < Z.of_nat f ->
    lin_loop1 f ch inp out last new lv iu inc outc m og idx r <> Fault F_fuel.
  Proof.
    induction f as [|f IH]; intros m og idx r H0 Hf; cbn [lin_loop1]; [lia|].
    destruct (dlt idx done_ && (og <? outc)) eqn:G; [|discriminate]. apply andb_prop in G as [_ G]. apply Z.ltb_lt in G.
    destruct (dge _ _); [discriminate|]. cbv zeta.
    destruct (lin_emit_last m lv inp out idx og 0 (Z.to_nat ch)) as [[m1 og1]|e] eqn:E; cbn [bind].
    - apply emit_last_effect in E as [-> _]. rewrite Z2Nat.id by lia. apply IH; lia.
    - intros Q. injection Q as ->. now apply emit_last_end in E.
  Qed.
  Lemma loop2_end inp out : forall f m iu og idx r, (0 < f)%nat -> outc - og < Z.of_nat f ->
    lin_loop2 f ch inp out last new inc outc m iu og idx r <> Fault F_fuel.
  Proof.
    induction f as [|f IH]; intros m iu og idx r H0 Hf; cbn [lin_loop2]; [lia|].
    destruct ((og <? outc) && _) eqn:G; [|discriminate]. apply andb_prop in G as [G _]. apply Z.ltb_lt in G. cbv zeta.
    unfold long_op at 1. destruct (in_long (iu - ch)); cbn [bind]; [|discriminate].
    destruct (lin_emit_in m inp (iu - ch) iu out idx og 0 (Z.to_nat ch)) as [[m1 og1]|e] eqn:E; cbn [bind].
    - destruct (advance ch iu _) as [[iu1 idx1]|e] eqn:A; cbn [bind].
      + apply emit_in_effect in E as [-> _]. rewrite Z2Nat.id by lia. apply IH; lia.
      + intros Q. injection Q as ->. now apply advance_end in A.
    - intros Q. injection Q as ->. now apply emit_in_end in E.
  Qed.
End Loops.

(** ** The process function *)
Lemma load_frame_end m : forall n a lv c, load_frame m a lv c n <> Fault F_fuel.
Proof.
  induction n as [|n IH]; intros a lv c; cbn [load_frame]; [discriminate|].
  unfold mread, zset. destruct (m (a + c)); cbn [bind]; [|discriminate].
  destruct ((c <? 0) || (zlen lv <=? c)); cbn [bind]; [discriminate|apply IH].
Qed.
Lemma long_end z : long_op z <> Fault F_fuel.
Proof. unfold long_op. destruct (in_long z); discriminate. Qed.
Lemma div_end a b : c_div a b <> Fault F_fuel.
Proof. unfold c_div. destruct (b =? 0); [discriminate|]. try apply long_end. discriminate. Qed.

Lemma bind_end {A B} (x : outcome A) (k : A -> outcome B) : x <> Fault F_fuel -> (forall a, x = Ok a -> k a <> Fault F_fuel) ->
  bind x k <> Fault F_fuel.
Proof. intros H K. destruct x as [a|e]; cbn [bind]; [now apply K|]. intros Q. injection Q as ->. now apply H. Qed.

Lemma linear_end st d m : 0 < st_channels st -> linear_vari_process st d m <> Fault F_fuel.
Proof.
  intros Hch. unfold linear_vari_process. destruct (input_frames d <=? 0); [discriminate|].
  destruct (st_priv st) as [|h|s]; try discriminate.
  apply bind_end. { destruct (h_dirty h); [discriminate|apply load_frame_end]. }
  intros lv _. apply bind_end; [apply long_end|]. intros inc _. apply bind_end; [apply long_end|]. intros outc Eo. cbv zeta.
  destruct (is_bad_src_ratio _); [discriminate|].
  apply bind_end. { apply loop1_end; lia. }
  intros [[[m1 og1] idx1] r1] E1. apply loop1_effect in E1 as (O1 & _); [|exact Hch].
  apply bind_end; [apply advance_end|]. intros [iu1 idx1'] _.
  apply bind_end. { apply loop2_end; lia. }
  intros [[[[m2 iu2] og2] idx2] r2] _.
  apply bind_end. { unfold carry_over. destruct (inc <? iu2); [|discriminate].
    apply bind_end; [apply long_end|]. intros diff _. apply bind_end; [apply div_end|]. discriminate. }
  intros [iu3 idx3] _. apply bind_end.
  { destruct (0 <? iu3); [|discriminate]. apply bind_end; [apply long_end|]. intros off _. apply load_frame_end. }
  intros lv' _. apply bind_end; [apply div_end|]. intros u _. apply bind_end; [apply div_end|]. discriminate.
Qed.

Lemma linear_effect st d m e st' d' m' : 0 < st_channels st -> output_frames_gen d = 0 ->
  linear_vari_process st d m = Ok (e, st', d', m') ->
  same_frame st st' /\ touched m m' (data_out d) (output_frames_gen d' * st_channels st).
Proof.
  intros Hch Hg H. unfold linear_vari_process in H.
  assert (SF : forall x r p, same_frame st (set_priv (set_ratio (set_position st x) r) p)) by (intros; repeat split; reflexivity).
  destruct (input_frames d <=? 0).
  { injection H as _ <- <- <-. split; [repeat split; reflexivity|apply touched_refl]. }
  destruct (st_priv st) as [|h|s]; [injection H as _ <- <- <-; split; [repeat split; reflexivity|apply touched_refl]| |discriminate H].
  do 3 ok_step H. cbv zeta in H. ok_step H.
  { injection H as _ <- <- <-. split; [repeat split; reflexivity|apply touched_refl]. }
  ok_step H. destruct v2 as [[[m1 og1] idx1] r1]. ok_step H. destruct v2 as [iu1 idx1'].
  ok_step H. destruct v2 as [[[[m2 iu2] og2] idx2] r2]. ok_step H. destruct v2 as [iu3 idx3]. do 3 ok_step H.
  injection H as _ <- <- <-. split; [apply SF|]. cbn [output_frames_gen set_counts].
  match goal with Q : lin_loop1 _ _ _ _ _ _ _ _ _ _ _ _ _ _ = _ |- _ => apply loop1_effect in Q as (A1 & (k1 & B1) & T1); [|exact Hch] end.
  match goal with Q : lin_loop2 _ _ _ _ _ _ _ _ _ _ _ _ _ = _ |- _ => apply loop2_effect in Q as (A2 & (k2 & B2) & T2); [|exact Hch] end.
  assert (og2 = v4 * st_channels st) as <-.
  { match goal with Q : c_div og2 _ = _ |- _ => unfold c_div in Q; destruct (Z.eqb_spec (st_channels st) 0) in Q; [lia|]; injection Q as <- end.
    replace og2 with ((k1 + k2) * st_channels st) by lia. now rewrite Z.quot_mul by lia. }
  replace og2 with ((og1 - 0) + (og2 - og1)) by lia. rewrite Z.add_0_r in T1.
  apply (touched_trans _ m1 _ _ _ _ (data_out d + og1)); auto; lia.
Qed.

Lemma linear_pair st d m e st' d' m' st2 d2 m2 e2 st2' d2' m2' :
  0 < st_channels st -> st_channels st2 = st_channels st -> st_last_ratio st2 = st_last_ratio st ->
  st_last_position st2 = st_last_position st -> (exists h, st_priv st = P_hold h) -> (exists h, st_priv st2 = P_hold h) ->
  input_frames d2 = input_frames d -> output_frames d2 = output_frames d -> src_ratio d2 = src_ratio d ->
  input_frames_used d2 = input_frames_used d -> output_frames_gen d2 = output_frames_gen d ->
  linear_vari_process st d m = Ok (e, st', d', m') -> linear_vari_process st2 d2 m2 = Ok (e2, st2', d2', m2') ->
  e = e2 /\ st_last_ratio st' = st_last_ratio st2' /\ st_last_position st' = st_last_position st2' /\
  input_frames_used d' = input_frames_used d2' /\ output_frames_gen d' = output_frames_gen d2'.
Proof.
  intros Hch A1 A2 A3 (h & P) (h2 & P2) B1 B2 B3 B4 B5 H K. unfold linear_vari_process in H, K.
  rewrite P in H. rewrite P2, A1, A2, A3, B1, B2, B3 in K.
  destruct (input_frames d <=? 0).
  { injection H as <- <- <- _. injection K as <- <- <- _. auto. }
  ok_step H. ok_step K. ok_step H. cbn [bind] in K. ok_step H. cbn [bind] in K. cbv zeta in H, K.
  destruct (is_bad_src_ratio _).
  { injection H as <- <- <- _. injection K as <- <- <- _. cbn. auto. }
  ok_step H. destruct v3 as [[[m1 og1] idx1] r1]. ok_step K. destruct v3 as [[[n1 og3] idx3] r3].
  match goal with Q : _ = Ok (m1, og1, idx1, r1), Q' : _ = Ok (n1, og3, idx3, r3) |- _ =>
    destruct (loop1_pair _ _ _ _ _ _ _ _ _ _ _ _ _ _ _ _ _ _ _ _ _ _ _ _ _ _ Q Q') as (<- & <- & <-) end.
  ok_step H. destruct v3 as [iu1 idx1']. cbn [bind] in K.
  ok_step H. destruct v3 as [[[[m3 iu2] og2] idx2] r2]. ok_step K. destruct v3 as [[[[n3 iu4] og4] idx4] r4].
  match goal with Q : _ = Ok (m3, iu2, og2, idx2, r2), Q' : _ = Ok (n3, iu4, og4, idx4, r4) |- _ =>
    destruct (loop2_pair _ _ _ _ _ _ _ _ _ _ _ _ _ _ _ _ _ _ _ _ _ _ _ _ _ _ Q Q') as (<- & <- & <- & <-) end.
  ok_step H. destruct v3 as [iu5 idx5]. cbn [bind] in K. ok_step H. ok_step K. ok_step H. cbn [bind] in K. ok_step H. cbn [bind] in K.
  injection H as <- <- <- _. injection K as <- <- <- _. cbn. auto.
Qed.

(** A second run, in memory where nothing can go wrong. *)
Definition roomy_mem : mem := fun _ => Some fzero.
Definition roomy_data (d : SRC_DATA) : SRC_DATA :=
  mkData (2 ^ 55) 1 (input_frames d) (output_frames d) (input_frames_used d) (output_frames_gen d) (end_of_input d) (src_ratio d).
Definition clean (st : SRC_STATE) : SRC_STATE :=
  set_priv st (P_hold (mkHold false 0 0 0 0 (repeat fzero (Z.to_nat (st_channels st))))).

Lemma clean_ok st : hold_ok Lin st -> hold_ok Lin (clean st).
Proof.
  intros (A & B & C & D & E & F & h & P & L). repeat split; auto; try apply E. eexists; split; [reflexivity|].
  cbn. unfold zlen. rewrite repeat_length. lia.
Qed.
Lemma roomy_valid ch d m : 0 < ch -> valid_call ch d m -> valid_call ch (roomy_data d) roomy_mem.
Proof.
  intros Hc (A & B & C & D & E & F & G & H & I & J & K & L). unfold valid_call, roomy_data, roomy_mem, writable, apart.
  cbn [input_frames output_frames data_in data_out src_ratio].
  assert (0 <= output_frames d * ch) by nia.
  do 4 (split; [assumption|]). split; [exact E|]. split; [lia|]. split; [lia|]. split; [lia|]. split; [lia|].
  split; [intros; discriminate|]. split; [intros; discriminate|]. right. lia.
Qed.

Lemma roomy_run st d m : hold_ok Lin st -> st_mode st = MODE_PROCESS -> valid_call (st_channels st) d m -> 0 < input_frames d ->
  exists st' d' m', src_process (Some (clean st)) (Some (roomy_data d)) roomy_mem = Ok (0, Some st', Some d', m') /\
    honest_reply (st_channels st) (roomy_data d) roomy_mem 0 d' m' /\ hold_ok Lin st' /\ same_frame (clean st) st' /\ good_ratio (st_last_ratio st') /\
    (0 < input_frames d -> 0 < output_frames d -> 0 < input_frames_used d' \/ 0 < output_frames_gen d') /\
    (output_frames_gen d' = 0 ->
     fst (split_pos (st_last_position st')) = fst (split_pos (st_last_position st)) - input_frames_used d').
Proof.
  intros Hok Hm Hv Hn.
  apply (process_safe Lin (clean st) (roomy_data d) roomy_mem (fun _ _ => fzero)).
  - now apply clean_ok.
  - exact Hm.
  - apply roomy_valid with m; [apply Hok|exact Hv].
  - exact Hn.
  - intros i c _ _. reflexivity.
  - intros h P. injection P as <-. intros c _. reflexivity.
  - intros _. right. split; [intros i c _ _; reflexivity|].
    assert (H := proj1 (proj2 (proj2 Hok))). destruct Hv as (A & B & C & D & _). unfold disjoint_ranges, roomy_data, clean.
    cbn [data_in data_out output_frames st_channels set_priv]. right. lia.
Qed.

(** ** One call *)
(** A legal call of the linear converter, with a block of any size: whatever it returns is honest, and it does not run for ever. *)
Lemma linear_any st d m : hold_ok Lin st -> st_mode st = MODE_PROCESS -> valid_call (st_channels st) d m ->
  src_process (Some st) (Some d) m <> Fault F_fuel /\
  forall e st1 d1 m1, src_process (Some st) (Some d) m = Ok (e, Some st1, Some d1, m1) ->
    honest_reply (st_channels st) d m e d1 m1 /\ hold_ok Lin st1 /\ same_frame st st1 /\ good_ratio (st_last_ratio st1) /\
    (0 < input_frames d -> 0 < output_frames d -> 0 < input_frames_used d1 \/ 0 < output_frames_gen d1) /\
    (output_frames_gen d1 = 0 ->
     fst (split_pos (st_last_position st1)) = fst (split_pos (st_last_position st)) - input_frames_used d1).
Proof.
  intros Hok Hm Hv. assert (Hch : 0 < st_channels st) by apply Hok.
  destruct (Z.eq_dec (input_frames d) 0) as [Z0|Z0].
  { destruct (process_honest Lin st d m Hok Hm Hv) as (st' & d' & m' & E & R).
    { unfold lin_room. rewrite Z0. auto. }
    rewrite E. split; [discriminate|]. intros e st1 d1 m1 Q. injection Q as <- <- <- <-. exact R. }
  assert (Hn : 0 < input_frames d) by (assert (0 <= input_frames d) by apply Hv; lia).
  destruct (primed_ok Lin st (src_ratio d) Hok) as (P1 & P2 & P3 & P4 & P5 & P6); [apply Hv|].
  assert (Ec : st_channels (primed st (src_ratio d)) = st_channels st) by apply P4.
  assert (Hvt : st_vt (primed st (src_ratio d)) = VT_linear) by apply P1.
  rewrite process_reduce by auto. unfold vt_process. rewrite Hvt. split.
  { apply bind_end; [apply linear_end; lia|]. intros [[[? ?] ?] ?] _. discriminate. }
  intros e st1 d1 m1 H. ok_step H. destruct v as [[[e' st1'] d1'] m1']. injection H as <- <- <- <-. rename E into H.
  destruct (roomy_run st d m Hok Hm Hv Hn) as (st2 & d2 & m2 & K & K1 & K2 & K3 & K4 & K5).
  destruct (primed_ok Lin (clean st) (src_ratio d) (clean_ok st Hok)) as (Q1 & Q2 & Q3 & Q4 & Q5 & Q6); [apply Hv|].
  rewrite process_reduce in K; [|exact Hm|exact Hch|apply roomy_valid with m; auto].
  change (src_ratio (roomy_data d)) with (src_ratio d) in K.
  assert (Hvt2 : st_vt (primed (clean st) (src_ratio d)) = VT_linear) by apply Q1.
  unfold vt_process in K. rewrite Hvt2 in K. ok_step K. destruct v as [[[e2 st2'] d2'] m2']. injection K as -> -> -> ->.
  rename E into K.
  assert (S2 := linear_shape _ _ _ _ H).
  assert (Hc' : 0 < st_channels (primed st (src_ratio d))) by (rewrite Ec; exact Hch).
  destruct (linear_effect _ (set_counts d 0 0) _ _ _ _ _ Hc' eq_refl H) as [T1 T2]. rewrite Ec in T2. change (data_out (set_counts d 0 0)) with (data_out d) in T2.
  assert (X1 : exists h, st_priv (primed st (src_ratio d)) = P_hold h) by (destruct P1 as (_ & _ & _ & _ & _ & _ & h & P & _); eauto).
  assert (X2 : exists h, st_priv (primed (clean st) (src_ratio d)) = P_hold h) by (destruct Q1 as (_ & _ & _ & _ & _ & _ & h & P & _); eauto).
  assert (X3 : st_channels (primed (clean st) (src_ratio d)) = st_channels (primed st (src_ratio d))) by (rewrite Ec; apply Q4).
  assert (X4 : st_last_ratio (primed (clean st) (src_ratio d)) = st_last_ratio (primed st (src_ratio d))) by (rewrite P3, Q3; reflexivity).
  assert (X5 : st_last_position (primed (clean st) (src_ratio d)) = st_last_position (primed st (src_ratio d))) by (rewrite P6, Q6; reflexivity).
  destruct (linear_pair _ (set_counts d 0 0) _ _ _ _ _ _ (set_counts (roomy_data d) 0 0) _ _ _ _ _ Hc' X3 X4 X5 X1 X2 eq_refl eq_refl eq_refl eq_refl eq_refl H K)
    as (-> & U1 & U2 & U3 & U4).
  clear X1 X2 X3 X4 X5 H K. assert (S' := same_frame_trans _ _ _ P4 T1).
  destruct S2 as (_ & Kp & Sd & _). destruct K1 as (_ & _ & J1 & J2 & _).
  change (input_frames (roomy_data d)) with (input_frames d) in J1. change (output_frames (roomy_data d)) with (output_frames d) in J2.
  rewrite <- U3, <- ?U4 in *. split.
  { split; [reflexivity|]. split; [exact Sd|]. split; [exact J1|]. split; [exact J2|].
    exists (fun k c => match m1' (data_out d + (k * st_channels st + c)) with Some x => x | None => fzero end).
    split; [|exact (proj1 T2)]. intros k c Hk Hc.
    assert (W : m1' (data_out d + (k * st_channels st + c)) <> None).
    { apply (proj2 T2). apply Hv. nia. }
    destruct (m1' _); [reflexivity|]. now elim W. }
  split; [|split; [exact S'|split; [rewrite U1; exact K4|rewrite U2; exact K5]]].
  destruct K2 as (_ & _ & _ & L4 & L5 & L6 & _). unfold hold_ok. destruct S' as (V1 & _ & V2 & _). rewrite V1, V2, U1, U2.
  destruct Hok as (O1 & O2 & O3 & _). do 6 (split; [assumption|]).
  destruct P1 as (_ & _ & _ & _ & _ & _ & h & Ph & Lh). destruct Kp as [_ _ _ _ _ _ _ Sh]. rewrite Ph in Sh.
  destruct (st_priv st1') as [|h'|]; cbn in Sh; try contradiction. exists h'. split; [reflexivity|].
  unfold zlen in *. rewrite <- Sh. rewrite <- Ec. exact Lh.
Qed.

(** The same for both converters. *)
Lemma hold_any kd st d m : hold_ok kd st -> st_mode st = MODE_PROCESS -> valid_call (st_channels st) d m ->
  src_process (Some st) (Some d) m <> Fault F_fuel /\
  forall e st1 d1 m1, src_process (Some st) (Some d) m = Ok (e, Some st1, Some d1, m1) ->
    honest_reply (st_channels st) d m e d1 m1 /\ hold_ok kd st1 /\ same_frame st st1 /\ good_ratio (st_last_ratio st1) /\
    (0 < input_frames d -> 0 < output_frames d -> 0 < input_frames_used d1 \/ 0 < output_frames_gen d1) /\
    (output_frames_gen d1 = 0 ->
     fst (split_pos (st_last_position st1)) = fst (split_pos (st_last_position st)) - input_frames_used d1).
Proof.
  intros Hok Hm Hv. destruct kd; [|now apply linear_any].
  destruct (process_honest Zoh st d m Hok Hm Hv I) as (st' & d' & m' & E & R).
  rewrite E. split; [discriminate|]. intros e st1 d1 m1 Q. injection Q as <- <- <- <-. exact R.
Qed.
Lemma hold_shape kd st d m e st' d' m' : hold_ok kd st -> st_mode st = MODE_PROCESS -> valid_call (st_channels st) d m ->
  src_process (Some st) (Some d) m = Ok (e, st', d', m') -> exists st1 d1, st' = Some st1 /\ d' = Some d1.
Proof.
  intros Hok Hm Hv E. rewrite process_reduce in E; auto; [|apply Hok]. ok_step E. destruct v as [[[? ?] ?] ?]. injection E as <- <- <- <-. eauto.
Qed.

(** ** Histories *)
Lemma hold_step kd CS (cb : callback_t CS) dummy st c : hold_ok kd st -> st_mode st = MODE_PROCESS -> valid_op (st_channels st) c ->
  api_step CS cb dummy st c <> Fault F_fuel /\
  forall r st1, api_step CS cb dummy st c = Ok (r, st1) ->
    honest (st_channels st) c r /\ hold_ok kd st1 /\ st_mode st1 = MODE_PROCESS /\ st_channels st1 = st_channels st.
Proof.
  intros Hok Hm V. destruct c as [[d|] m|fuel ratio frames data cs0 m|r| | |]; cbn [api_step].
  - destruct (hold_any kd st d m Hok Hm V) as [A B]. split.
    { apply bind_end; [exact A|]. intros [[[? ?] ?] ?] _. discriminate. }
    intros r st1 E. ok_step E. destruct v as [[[e st'] d'] m'].
    destruct (hold_shape kd st d m _ _ _ _ Hok Hm V E0) as (s & d1 & -> & ->). cbn [keep] in E. injection E as <- <-.
    destruct (B _ _ _ _ eq_refl) as (H & O & S & _). split; [exact H|]. split; [exact O|]. destruct S as (_ & _ & S1 & S2 & _). split; congruence.
  - unfold src_process. rewrite Hm. cbn. split; [discriminate|]. intros r st1 E. injection E as <- <-.
    repeat split; auto; try apply Hok. discriminate.
  - unfold src_callback_read. destruct (frames <=? 0); [|rewrite Hm]; cbn; (split; [discriminate|]); intros r st1 E; injection E as <- <-;
      repeat split; auto; try apply Hok.
  - destruct (set_ratio_ok kd st r Hok V) as (e & st' & E & O & M & C). rewrite E. cbn [keep]. split; [discriminate|].
    intros r1 st1 Q. injection Q as <- <-. split; [exact I|]. split; [exact O|]. split; congruence.
  - destruct (hold_reset_ok kd st Hok) as (st' & E & O & M & C & _). rewrite E. cbn [bind keep]. split; [discriminate|].
    intros r1 st1 Q. injection Q as <- <-. split; [exact I|]. split; [exact O|]. split; congruence.
  - split; [discriminate|]. intros r st1 E. injection E as <- <-. repeat split; auto; apply Hok.
  - split; [discriminate|]. intros r st1 E. injection E as <- <-. repeat split; auto; apply Hok.
Qed.
Lemma hold_history kd CS (cb : callback_t CS) dummy : forall cs st,
  hold_ok kd st -> st_mode st = MODE_PROCESS -> Forall (valid_op (st_channels st)) cs ->
  api_run CS cb dummy st cs <> Fault F_fuel /\
  forall rs st', api_run CS cb dummy st cs = Ok (rs, st') ->
    Forall2 (honest (st_channels st)) cs rs /\ hold_ok kd st' /\ st_mode st' = MODE_PROCESS /\ st_channels st' = st_channels st.
Proof.
  induction cs as [|c cs IH]; intros st Hok Hm Hv; cbn [api_run].
  - split; [discriminate|]. intros rs st' E. injection E as <- <-. repeat split; auto; apply Hok.
  - inversion Hv as [|? ? V1 V2]; subst. destruct (hold_step kd CS cb dummy st c Hok Hm V1) as [A B]. split.
    + apply bind_end; [exact A|]. intros [r st1] E. destruct (B _ _ E) as (_ & O & M & C).
      apply bind_end; [apply IH; auto; now rewrite C|]. intros [? ?] _. discriminate.
    + intros rs st' E. ok_step E. destruct v as [r st1]. destruct (B _ _ eq_refl) as (H & O & M & C). ok_step E. destruct v as [rs1 st2].
      injection E as <- <-. destruct (IH st1 O M) as [_ D]; [now rewrite C|]. destruct (D _ _ E1) as (H2 & O2 & M2 & C2).
      rewrite C in H2. split; [constructor; auto|]. split; [exact O2|]. split; congruence.
Qed.
