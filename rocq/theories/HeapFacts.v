(** Allocation: creating, cloning and deleting converters (C12, C13, C37). *)
From Coq Require Import ZArith List Bool Reals Lia Lra Permutation.
From Flocq Require Import Core IEEE754.BinarySingleNaN.
From Verif Require Import Base FloatFacts ErrFacts PosFacts Types Common Sinc Api Heap Callback HoldSpec HoldCore ApiHist ProcFacts ApiSpec ApiFacts ApiThms LifeSpec.
Import ListNotations.
Local Open Scope Z_scope.

(** ** Lists *)
Lemma blit_ok {A} (l src : list A) off : 0 <= off -> off + zlen src <= zlen l ->
  blit l off src = Ok (firstn (Z.to_nat off) l ++ src ++ skipn (Z.to_nat off + length src) l).
Proof. intros H1 H2. unfold blit. replace ((off <? 0) || (zlen l <? off + zlen src)) with false by lia. reflexivity. Qed.
Lemma zlen_repeat {A} (x : A) n : 0 <= n -> zlen (repeat x (Z.to_nat n)) = n.
Proof. intros H. unfold zlen. rewrite repeat_length. lia. Qed.

(** ** The allocator *)
Lemma alloc_spec orc h r h' : alloc orc h = (r, h') -> heap_ok h ->
  hp_next h' = hp_next h + 1 /\ heap_ok h' /\
  match r with
  | Some b => b = hp_next h /\ orc (hp_next h) = true /\ hp_live h' = b :: hp_live h
  | None => orc (hp_next h) = false /\ hp_live h' = hp_live h
  end.
Proof.
  unfold alloc. intros E [N B]. destruct (orc (hp_next h)) eqn:O; injection E as <- <-; cbn; (split; [reflexivity|]).
  - split; [|auto]. split; cbn.
    + constructor; [|exact N]. intros I. apply B in I. lia.
    + intros b [<-|I]; [lia|]. apply B in I. lia.
  - split; [|auto]. split; cbn; [exact N|]. intros b I. apply B in I. lia.
Qed.

Lemma filter_notin b l : ~ In b l -> filter (fun x => negb (x =? b)) l = l.
Proof.
  induction l as [|x l IH]; cbn; intros H; [reflexivity|]. destruct (Z.eqb_spec x b) as [->|N]; [tauto|].
  cbn. f_equal. tauto.
Qed.

(** free of a live block: it disappears, everything else stays. *)
Lemma free_spec h b : heap_ok h -> In b (hp_live h) ->
  exists h', free h b = Ok h' /\ hp_next h' = hp_next h /\ heap_ok h' /\ Permutation (hp_live h) (b :: hp_live h').
Proof.
  intros [N B] I. unfold free. assert (L : is_live h b = true).
  { unfold is_live. apply existsb_exists. exists b. split; [exact I|apply Z.eqb_refl]. }
  rewrite L. eexists. split; [reflexivity|]. cbn. split; [reflexivity|].
  assert (P : Permutation (hp_live h) (b :: filter (fun x => negb (x =? b)) (hp_live h))).
  { destruct (in_split _ _ I) as (l1 & l2 & E). rewrite E in *. apply NoDup_remove_2 in N.
    rewrite filter_app. cbn. rewrite Z.eqb_refl. cbn. rewrite !filter_notin by (intros Q; apply N, in_or_app; auto).
    symmetry. apply Permutation_middle. }
  split; [|exact P]. split; cbn.
  - now apply NoDup_filter.
  - intros x Hx. apply filter_In in Hx. apply B, Hx.
Qed.
Lemma free_head h b : heap_ok h -> forall l, hp_live h = b :: l ->
  exists h', free h b = Ok h' /\ hp_next h' = hp_next h /\ heap_ok h' /\ hp_live h' = l.
Proof.
  intros [N B] l E. unfold free, is_live. rewrite E in *. cbn [existsb filter]. rewrite Z.eqb_refl. cbn [orb negb].
  apply NoDup_cons_iff in N as [N1 N2].
  eexists. split; [reflexivity|]. cbn [hp_next hp_live]. rewrite filter_notin by exact N1.
  split; [reflexivity|]. split; [|reflexivity]. split; [exact N2|].
  intros x Hx. apply B. cbn. auto.
Qed.
Lemma free_second h a b : heap_ok h -> forall l, hp_live h = a :: b :: l ->
  exists h', free h b = Ok h' /\ hp_next h' = hp_next h /\ heap_ok h' /\ hp_live h' = a :: l.
Proof.
  intros [N B] l E. unfold free, is_live. rewrite E in *.
  apply NoDup_cons_iff in N as [N1 N2]. apply NoDup_cons_iff in N2 as [N2 N3].
  assert (a <> b) by (intros ->; apply N1; cbn; auto).
  cbn [existsb filter]. rewrite Z.eqb_refl. rewrite orb_true_r. replace (a =? b) with false by lia. cbn [negb].
  eexists. split; [reflexivity|]. cbn [hp_next hp_live]. rewrite filter_notin by exact N2.
  split; [reflexivity|]. split; [|reflexivity]. split.
  - constructor; [|exact N3]. intros I. apply N1. cbn. auto.
  - intros x [<-|Hx]; apply B; cbn; auto.
Qed.

(** ** Creation *)
(** The blocks of a new converter: three fresh blocks on top of the old heap. *)
Definition new_blocks (h : heap) (c : converter) (h' : heap) : Prop :=
  blocks c = [hp_next h + 2; hp_next h + 1; hp_next h] /\ hp_live h' = blocks c ++ hp_live h /\ hp_next h' = hp_next h + 3.

Lemma hold_reset_blank vt ch : 0 < ch ->
  exists st, hold_reset (blank_state vt ch (P_hold (mkHold false 0 0 0 0 (repeat fzero (Z.to_nat ch))))) = Ok st /\
    st = blank_state vt ch (P_hold (mkHold false 0 0 0 0 (repeat fzero (Z.to_nat ch)))).
Proof.
  intros H. unfold hold_reset. cbn [st_priv blank_state h_last_value st_channels].
  rewrite blit_ok by (rewrite ?zlen_repeat by lia; lia). cbn [bind]. eexists. split; [reflexivity|].
  cbn [Z.to_nat firstn app Nat.add]. rewrite skipn_all, app_nil_r. reflexivity.
Qed.


(** One allocation attempt. *)
Ltac al :=
  match goal with |- context [alloc ?o ?h] =>
    let E := fresh "E" in let b := fresh "b" in let h1 := fresh "h" in let N := fresh "N" in let K := fresh "K" in
    let R := fresh "R" in let O := fresh "O" in let L := fresh "L" in
    destruct (alloc o h) as [[b|] h1] eqn:E; apply alloc_spec in E; [|assumption| |assumption]; destruct E as (N & K & R);
    [destruct R as (-> & O & L)|destruct R as (O & L)]
  end.

(** Everything about one creation at once: three fresh blocks, or none and an honest error. *)
Definition creation (orc : Z -> bool) (h : heap) (r : outcome (Z * option converter * heap)) (good : converter -> Prop) : Prop :=
  exists h', heap_ok h' /\ hp_next h <= hp_next h' /\
  ((r = Ok (SRC_ERR_MALLOC_FAILED, None, h') /\ hp_live h' = hp_live h /\ some_failed orc h h') \/
   (exists c, r = Ok (0, Some c, h') /\ new_blocks h c h' /\ ~ some_failed orc h h' /\ good c)).

Lemma free_1 h b l A (k : heap -> outcome A) : heap_ok h -> hp_live h = b :: l ->
  exists h', heap_ok h' /\ hp_live h' = l /\ hp_next h' = hp_next h /\ (do h1 <- free h b ; k h1) = k h'.
Proof. intros H L. destruct (free_head h b H l L) as (h' & E & ? & ? & ?). exists h'. rewrite E. cbn. auto. Qed.
Lemma free_2 h a b l A (k : heap -> outcome A) : heap_ok h -> hp_live h = a :: b :: l ->
  exists h', heap_ok h' /\ hp_live h' = a :: l /\ hp_next h' = hp_next h /\ (do h1 <- free h b ; k h1) = k h'.
Proof. intros H L. destruct (free_second h a b H l L) as (h' & E & ? & ? & ?). exists h'. rewrite E. cbn. auto. Qed.

Lemma three_ok (orc : Z -> bool) n h h' : hp_next h = n -> hp_next h' = n + 3 ->
  orc n = true -> orc (n + 1) = true -> orc (n + 2) = true -> ~ some_failed orc h h'.
Proof.
  intros A B H0 H1 H2 (k & K & F). rewrite A, B in K.
  assert (k = n \/ k = n + 1 \/ k = n + 2) as [->|[->| ->]] by lia; congruence.
Qed.

Lemma hold_new_spec orc vt ch h : heap_ok h -> 0 < ch ->
  creation orc h (hold_state_new orc vt ch h)
    (fun c => c_state c = blank_state vt ch (P_hold (mkHold false 0 0 0 0 (repeat fzero (Z.to_nat ch))))).
Proof.
  intros H Hc. unfold hold_state_new. replace (ch <=? 0) with false by lia.
  al.
  2: { exists h0. split; [assumption|]. split; [lia|]. left. repeat split; auto. exists (hp_next h). split; [lia|assumption]. }
  al.
  2: { destruct (free_1 h1 (hp_next h) (hp_live h) _ (fun h3 => Ok (SRC_ERR_MALLOC_FAILED, @None converter, h3)) K0) as (h' & K' & L' & N' & E);
         [congruence|]. cbv beta in E. rewrite E.
       exists h'. split; [assumption|]. split; [lia|]. left. repeat split; auto. exists (hp_next h0). split; [lia|assumption]. }
  al.
  - destruct (hold_reset_blank vt ch Hc) as (st & Es & ->). rewrite Es. cbn [bind].
    exists h2. split; [assumption|]. split; [lia|]. right. eexists. split; [reflexivity|]. split; [|split; [|reflexivity]].
    + unfold new_blocks, blocks. cbn [c_blk_buf c_blk_priv c_blk_state]. rewrite N0, N, N1, N0, N.
      replace (hp_next h + 1 + 1) with (hp_next h + 2) by lia. split; [reflexivity|]. split; [|lia].
      rewrite L1, L0, L. cbn. repeat f_equal; lia.
    + apply (three_ok orc (hp_next h)); [lia..|assumption|rewrite <- N; assumption|].
      replace (hp_next h + 2) with (hp_next h1) by lia. assumption.
  - rewrite <- L1 in L0. rewrite L in L0.
    edestruct (free_1 h2 _ _ _ (fun h4 => do h5 <- free h4 (hp_next h) ; Ok (SRC_ERR_MALLOC_FAILED, @None converter, h5)) K1 L0) as (h' & K' & L' & N' & E).
    cbv beta in E. rewrite E.
    edestruct (free_1 h' _ _ _ (fun h5 => Ok (SRC_ERR_MALLOC_FAILED, @None converter, h5)) K' L') as (h'' & K'' & L'' & N'' & E'').
    cbv beta in E''. rewrite E''.
    exists h''. split; [assumption|]. split; [lia|]. left. repeat split; auto. exists (hp_next h1). split; [lia|assumption].
Qed.

(** ** The sinc buffer length *)
Lemma b_len_facts inc co ch : table_ok (inc, co) -> 1 <= ch <= MAX_CHANNELS ->
  exists L, sinc_b_len (zlen co - 2) inc ch = Ok (Z.max (3 * L) 4096 * ch + 1) /\
    (Rabs (IZR L - (256 * IZR (zlen co) / IZR inc + 1)) <= 1)%R /\ 1 <= L <= 256002.
Proof.
  intros (Hi & Hl & Hu & Hr) Hc. unfold MAX_CHANNELS in Hc.
  assert (Ri : (1 <= IZR inc <= 16384)%R) by (split; apply IZR_le; lia).
  assert (Rl : (3 <= IZR (zlen co) <= 500000)%R) by (split; apply IZR_le; lia).
  assert (Rr : (IZR (zlen co) <= 1000 * IZR inc)%R) by (rewrite <- mult_IZR; apply IZR_le; lia).
  destruct (d_of_Z_val (zlen co - 2)) as [V1 F1]; [lia|].
  destruct (d_of_Z_val 2) as [V2 F2]; [lia|].
  destruct (d_of_Z_val inc) as [V3 F3]; [lia|].
  destruct (d_of_Z_val SRC_MAX_RATIO) as [V4 F4]; [unfold SRC_MAX_RATIO; lia|].
  destruct done_val as [V5 F5].
  set (q := (IZR (zlen co) / IZR inc)%R).
  assert (Hq : (0 < q <= 1000)%R).
  { unfold q. split; [apply Rdiv_lt_0_compat; lra|]. apply (Rmult_le_reg_r (IZR inc)); [lra|]. unfold Rdiv. rewrite Rmult_assoc, Rinv_l by lra. lra. }
  assert (Vs : (val (d_of_Z (zlen co - 2)) + val (d_of_Z 2))%R = IZR (zlen co)) by (rewrite V1, V2, <- plus_IZR; f_equal; lia).
  destruct (dadd_val (d_of_Z (zlen co - 2)) (d_of_Z 2) F1 F2) as [Va Fa].
  { rewrite Vs. apply small_1000, Rabs_le; lra. }
  rewrite Vs, rnd64_id in Va by (apply fmt64_Z; lia).
  destruct (ddiv_val (dadd (d_of_Z (zlen co - 2)) (d_of_Z 2)) (d_of_Z inc) Fa) as [Vd Fd].
  { rewrite V3. lra. }
  { rewrite Va, V3. fold q. apply small_1000, Rabs_le; lra. }
  rewrite Va, V3 in Vd. fold q in Vd.
  assert (B : forall x, (Rabs x <= 1048576)%R -> (Rabs (rnd64 x - x) <= / 1048576)%R).
  { intros x Hx. eapply Rle_trans; [apply (rnd64_err x 20); [lia|exact Hx]|].
    change (/ 1048576)%R with (bpow radix2 (-20)). apply bpow_le. lia. }
  assert (Eq : (Rabs (rnd64 q - q) <= / 1048576)%R) by (apply B, Rabs_le; lra).
  apply Rabs_le_inv in Eq.
  set (x1 := ddiv _ _) in *.
  destruct (dmul_val x1 (d_of_Z SRC_MAX_RATIO) Fd F4) as [Vm Fm].
  { rewrite Vd, V4. unfold SRC_MAX_RATIO. apply small_1000, Rabs_le. lra. }
  set (x2 := dmul _ _) in *.
  rewrite Vd, V4 in Vm. unfold SRC_MAX_RATIO in Vm.
  assert (Em : (Rabs (rnd64 (rnd64 q * 256) - (rnd64 q * 256)) <= / 1048576)%R) by (apply B, Rabs_le; lra).
  apply Rabs_le_inv in Em. rewrite <- Vm in Em.
  destruct (dadd_val x2 done_ Fm F5) as [Vt Ft].
  { rewrite V5. apply small_1000, Rabs_le. lra. }
  rewrite V5 in Vt.
  assert (Et : (Rabs (rnd64 (val x2 + 1) - (val x2 + 1)) <= / 1048576)%R) by (apply B, Rabs_le; lra).
  apply Rabs_le_inv in Et. rewrite <- Vt in Et.
  unfold sinc_b_len. fold x1 x2. set (x3 := dadd x2 done_) in *.
  pose proof (ZnearestE_bounds (val x3)) as Zb.
  assert (Rng : 1 <= ZnearestE (val x3) <= 256002).
  { split.
    - apply le_IZR. assert (0 < IZR (ZnearestE (val x3)))%R by lra. apply IZR_le. apply lt_IZR in H. lia.
    - apply le_IZR. assert (IZR (ZnearestE (val x3)) < 256003)%R by lra. apply IZR_le. apply lt_IZR in H. lia. }
  exists (ZnearestE (val x3)).
  rewrite psf_lrint_val by (try exact Ft; lia).
  rewrite (int_ok (3 * _)) by lia. cbn [bind]. rewrite int_ok by nia. cbn [bind]. rewrite int_ok by nia.
  split; [reflexivity|]. split; [|exact Rng].
  replace (256 * IZR (zlen co) / IZR inc)%R with (256 * q)%R by (unfold q; field; lra). apply Rabs_le. lra.
Qed.


(** ** Fresh states *)
Definition fresh_hold (vt : vtable) (ch : Z) : SRC_STATE :=
  blank_state vt ch (P_hold (mkHold false 0 0 0 0 (repeat fzero (Z.to_nat ch)))).
Definition fresh_sinc (t : Z * list f32) (ch b_len : Z) : SRC_STATE :=
  blank_state (sinc_vt ch) ch (P_sinc (mkSinc 0 0 0 0 (zlen (snd t) - 2) (fst t) dzero dzero (snd t) 0 0 (-1) b_len
    (repeat fzero (Z.to_nat b_len) ++ repeat guard_value (Z.to_nat ch)))).

Lemma sinc_reset_buffer s ch : 0 <= s_b_len s -> 0 <= ch -> zlen (s_buffer s) = s_b_len s + ch ->
  sinc_reset_priv s ch = Ok (mkSinc (s_in_count s) (s_in_used s) (s_out_count s) (s_out_gen s) (s_coeff_half_len s) (s_index_inc s)
             dzero dzero (s_coeffs s) 0 0 (-1) (s_b_len s)
             (repeat fzero (Z.to_nat (s_b_len s)) ++ repeat guard_value (Z.to_nat ch))).
Proof.
  intros Hb Hc L. unfold sinc_reset_priv. unfold zlen in L.
  rewrite blit_ok by (rewrite ?zlen_repeat by lia; unfold zlen; lia). cbn [bind Z.to_nat firstn app Nat.add].
  rewrite repeat_length.
  rewrite blit_ok.
  2: lia.
  2: { rewrite zlen_repeat by lia. unfold zlen. rewrite app_length, repeat_length, skipn_length. lia. }
  cbn [bind]. do 2 f_equal.
  rewrite firstn_app, repeat_length, Nat.sub_diag, firstn_all2, firstn_O, app_nil_r by (rewrite repeat_length; lia).
  rewrite skipn_all2, app_nil_r; [reflexivity|].
  rewrite app_length, skipn_length, !repeat_length. lia.
Qed.

Lemma sinc_new_spec orc t ch h : heap_ok h -> table_ok t -> 1 <= ch <= MAX_CHANNELS ->
  exists b_len, sinc_b_len (zlen (snd t) - 2) (fst t) ch = Ok b_len /\ 4096 * ch + 1 <= b_len /\
  creation orc h (sinc_state_new orc t ch h) (fun c => c_state c = fresh_sinc t ch b_len).
Proof.
  intros H Ht Hc. destruct t as [inc co]. destruct (b_len_facts inc co ch Ht Hc) as (L0 & Eb & _ & HL).
  cbn [fst snd]. rewrite Eb. eexists. split; [reflexivity|]. split; [nia|].
  set (bl := Z.max (3 * L0) 4096 * ch + 1) in *. unfold MAX_CHANNELS in Hc.
  assert (Bl : 0 <= bl <= 98000000 * 128) by (unfold bl; nia).
  assert (Bl' : bl + ch <= 2 ^ 31 - 1) by (unfold bl; nia).
  unfold sinc_state_new. replace (ch <=? 0) with false by lia. unfold MAX_CHANNELS.
  replace (128 <? ch) with false by lia.
  al.
  2: { exists h0. split; [assumption|]. split; [lia|]. left. repeat split; auto. exists (hp_next h). split; [lia|assumption]. }
  al.
  2: { destruct (free_1 h1 (hp_next h) (hp_live h) _ (fun h3 => Ok (SRC_ERR_MALLOC_FAILED, @None converter, h3)) K0) as (h' & K' & L' & N' & E);
         [congruence|]. cbv beta in E. rewrite E.
       exists h'. split; [assumption|]. split; [lia|]. left. repeat split; auto. exists (hp_next h0). split; [lia|assumption]. }
  rewrite Eb. cbn [bind]. rewrite int_ok by lia. cbn [bind].
  al.
  - unfold sinc_reset, blank_state at 1. cbn [st_priv st_channels blank_state].
    rewrite sinc_reset_buffer; cbn [s_b_len s_buffer]; [|lia|lia|apply zlen_repeat; lia]. cbn [bind s_in_count s_in_used s_out_count s_out_gen s_coeff_half_len s_index_inc s_coeffs s_b_len].
    exists h2. split; [assumption|]. split; [lia|]. right. eexists. split; [reflexivity|]. split; [|split; [|reflexivity]].
    + unfold new_blocks, blocks. cbn [c_blk_buf c_blk_priv c_blk_state]. rewrite N0, N, N1, N0, N.
      replace (hp_next h + 1 + 1) with (hp_next h + 2) by lia. split; [reflexivity|]. split; [|lia].
      rewrite L2, L1, L. cbn. repeat f_equal; lia.
    + apply (three_ok orc (hp_next h)); [lia..|assumption|rewrite <- N; assumption|].
      replace (hp_next h + 2) with (hp_next h1) by lia. assumption.
  - rewrite <- L2 in L1. rewrite L in L1.
    edestruct (free_1 h2 _ _ _ (fun h4 => do h5 <- free h4 (hp_next h) ; Ok (SRC_ERR_MALLOC_FAILED, @None converter, h5)) K1 L1) as (h' & K' & L' & N' & E).
    cbv beta in E. rewrite E.
    edestruct (free_1 h' _ _ _ (fun h5 => Ok (SRC_ERR_MALLOC_FAILED, @None converter, h5)) K' L') as (h'' & K'' & L'' & N'' & E'').
    cbv beta in E''. rewrite E''.
    exists h''. split; [assumption|]. split; [lia|]. left. repeat split; auto. exists (hp_next h1). split; [lia|assumption].
Qed.
