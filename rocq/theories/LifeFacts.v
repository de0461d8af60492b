(** Creating, cloning, deleting (C12, C13, C14, C37). *)
From Coq Require Import ZArith List Bool Reals Lia Permutation.
From Flocq Require Import Core IEEE754.BinarySingleNaN.
From Verif Require Import Base Types Common Sinc Api Heap Callback HoldSpec HoldCore ApiHist ProcFacts ApiSpec ApiFacts ApiThms LifeSpec HeapFacts.
Import ListNotations.
Local Open Scope Z_scope.

(** ** src_new *)
Inductive fresh (bld : build) (ty ch : Z) (st : SRC_STATE) : Prop :=
| F_sinc t b_len : sinc_table bld ty = Some t -> sinc_b_len (zlen (snd t) - 2) (fst t) ch = Ok b_len ->
    0 <= b_len -> b_len + ch <= 2 ^ 31 - 1 -> st = fresh_sinc t ch b_len -> fresh bld ty ch st
| F_zoh : sinc_table bld ty = None -> ty = SRC_ZERO_ORDER_HOLD -> st = fresh_hold VT_zoh ch -> fresh bld ty ch st
| F_linear : sinc_table bld ty = None -> ty = SRC_LINEAR -> st = fresh_hold VT_linear ch -> fresh bld ty ch st.

Lemma hold_not_sinc bld ty : ty = SRC_ZERO_ORDER_HOLD \/ ty = SRC_LINEAR -> sinc_table bld ty = None.
Proof. intros [->| ->]; reflexivity. Qed.

Lemma creation_mono orc h r (P Q : converter -> Prop) : (forall c, P c -> Q c) -> creation orc h r P -> creation orc h r Q.
Proof.
  intros H (h' & A & B & [C|(c & D & E & F & G)]); exists h'; (split; [exact A|]); (split; [exact B|]); [left; exact C|].
  right. exists c. auto.
Qed.

Lemma new_thm bld orc ty ch h : heap_ok h -> build_ok bld -> known bld ty -> 1 <= ch -> (is_sinc bld ty -> ch <= MAX_CHANNELS) ->
  creation orc h (src_new bld orc ty ch h) (fun c => fresh bld ty ch (c_state c)).
Proof.
  intros H B K Hc Hs. unfold src_new. destruct (sinc_table bld ty) as [t|] eqn:T.
  - assert (ch <= MAX_CHANNELS) by (apply Hs; unfold is_sinc; congruence).
    destruct (sinc_new_spec orc t ch h H (B _ _ T)) as (bl & Eb & Hb & C); [lia|].
    eapply creation_mono; [|exact C]. intros c Ec.
    eapply (F_sinc _ _ _ _ t bl); auto; [lia|].
    destruct t as [inc co]. destruct (b_len_facts inc co ch (B _ _ T)) as (L & E' & _ & R); [lia|].
    unfold MAX_CHANNELS in *. cbn [fst snd] in *. rewrite Eb in E'. assert (bl = Z.max (3 * L) 4096 * ch + 1) as -> by congruence. assert (Z.max (3 * L) 4096 <= 768006) by lia. assert (Z.max (3 * L) 4096 * ch <= 768006 * 128) by (apply Z.mul_le_mono_nonneg; lia). lia.
  - destruct K as [K|[->| ->]]; [unfold is_sinc in K; congruence|..]; cbn [Z.eqb].
    + eapply creation_mono; [|apply hold_new_spec; [exact H|lia]]. intros c Ec. apply F_zoh; auto.
    + eapply creation_mono; [|apply hold_new_spec; [exact H|lia]]. intros c Ec. apply F_linear; auto.
Qed.

Lemma new_unknown bld orc ty ch h : ~ known bld ty -> src_new bld orc ty ch h = Ok (SRC_ERR_BAD_CONVERTER, None, h).
Proof.
  intros K. unfold src_new. unfold known, is_sinc in K. destruct (sinc_table bld ty); [exfalso; apply K; left; discriminate|].
  destruct (Z.eqb_spec ty SRC_ZERO_ORDER_HOLD); [tauto|]. destruct (Z.eqb_spec ty SRC_LINEAR); [tauto|]. reflexivity.
Qed.
Lemma new_many bld orc ty ch h : is_sinc bld ty -> MAX_CHANNELS < ch ->
  src_new bld orc ty ch h = Ok (SRC_ERR_BAD_CHANNEL_COUNT, None, h).
Proof.
  intros K C. unfold src_new. unfold is_sinc in K. destruct (sinc_table bld ty); [|congruence]. unfold sinc_state_new.
  unfold MAX_CHANNELS in *. replace (ch <=? 0) with false by lia. replace (128 <? ch) with true by lia. reflexivity.
Qed.
Lemma new_none bld orc ty ch h : known bld ty -> ch <= 0 -> src_new bld orc ty ch h = Fault F_assert.
Proof.
  intros K C. unfold src_new. destruct (sinc_table bld ty) eqn:T.
  - unfold sinc_state_new. replace (ch <=? 0) with true by lia. reflexivity.
  - destruct K as [K|[->| ->]]; [unfold is_sinc in K; congruence|..]; cbn [Z.eqb];
      unfold hold_state_new; replace (ch <=? 0) with true by lia; reflexivity.
Qed.

(** Whatever src_new hands out is fresh, whatever the tables and the heap are. *)
Lemma new_fresh bld orc ty ch h e c h' : src_new bld orc ty ch h = Ok (e, Some c, h') -> fresh bld ty ch (c_state c) /\ 1 <= ch.
Proof.
  unfold src_new. destruct (sinc_table bld ty) as [t|] eqn:T.
  - unfold sinc_state_new. intros H. ok_step H; [discriminate H|]. ok_step H; [discriminate H|].
    destruct (alloc orc h) as [[b1|] h1]; [|discriminate H].
    destruct (alloc orc h1) as [[b2|] h2]; [|ok_step H; discriminate H].
    destruct t as [inc co]. ok_step H. ok_step H.
    destruct (alloc orc h2) as [[b3|] h3]; [|ok_step H; ok_step H; discriminate H].
    ok_step H. injection H as <- <- <-. cbn [c_state].
    rename Heqb into Hc, Heqb0 into Hm, E into Eb, E0 into Es, E1 into Er. unfold MAX_CHANNELS in Hm.
    assert (1 <= ch <= 128) by lia. split; [|lia].
    assert (Hb : v0 = v + ch /\ v0 <= 2 ^ 31 - 1).
    { unfold int_op in Es. destruct (in_int (v + ch)) eqn:I; [|discriminate Es]. injection Es as <-.
      apply FloatFacts.in_int_true in I. lia. }
    destruct Hb as [-> Hu].
    assert (Hv : 0 <= v).
    { unfold sinc_b_len in Eb. ok_step Eb. ok_step Eb. unfold int_op in Eb. destruct (in_int _); [|discriminate Eb].
      injection Eb as <-. unfold int_op in E0. destruct (in_int (Z.max _ _ * ch)); [|discriminate E0]. injection E0 as <-. nia. }
    apply (F_sinc _ _ _ _ (inc, co) v); auto.
    unfold sinc_reset in Er. cbn [st_priv blank_state st_channels] in Er.
    rewrite sinc_reset_buffer in Er; cbn [s_b_len s_buffer]; [|lia|lia|apply zlen_repeat; lia]. cbn [bind] in Er. injection Er as <-.
    reflexivity.
  - assert (Hold : forall vt, hold_state_new orc vt ch h = Ok (e, Some c, h') -> 1 <= ch /\ c_state c = fresh_hold vt ch).
    { intros vt H. unfold hold_state_new in H. ok_step H; [discriminate H|].
      destruct (alloc orc h) as [[b1|] h1]; [|discriminate H].
      destruct (alloc orc h1) as [[b2|] h2]; [|ok_step H; discriminate H].
      destruct (alloc orc h2) as [[b3|] h3]; [|ok_step H; ok_step H; discriminate H].
      ok_step H. injection H as <- <- <-. cbn [c_state]. split; [lia|].
      destruct (hold_reset_blank vt ch) as (st & Es & ->); [lia|]. rewrite Es in E. injection E as <-. reflexivity. }
    destruct (Z.eqb_spec ty SRC_ZERO_ORDER_HOLD) as [->|N1].
    + intros H. apply Hold in H. destruct H. split; [|assumption]. now apply F_zoh.
    + destruct (Z.eqb_spec ty SRC_LINEAR) as [->|N2]; [|discriminate].
      intros H. apply Hold in H. destruct H. split; [|assumption]. now apply F_linear.
Qed.

(** ** States with buffers of the right size *)
Definition sized (st : SRC_STATE) : Prop :=
  1 <= st_channels st /\
  match st_vt st, st_priv st with
  | (VT_zoh | VT_linear), P_hold x => zlen (h_last_value x) = st_channels st
  | (VT_sinc_mono | VT_sinc_stereo | VT_sinc_quad | VT_sinc_hex | VT_sinc_multi) as vt, P_sinc s =>
      vt = sinc_vt (st_channels st) /\
      0 <= s_b_len s /\ s_b_len s + st_channels st <= 2 ^ 31 - 1 /\ zlen (s_buffer s) = s_b_len s + st_channels st
  | _, _ => False
  end.

Lemma fresh_sized bld ty ch st : 1 <= ch -> fresh bld ty ch st -> sized st.
Proof.
  intros Hc [t bl T Eb H0 H1 ->|_ _ ->|_ _ ->]; (split; [exact Hc|]); cbn [st_vt st_priv fresh_sinc fresh_hold blank_state st_channels].
  - assert (Z.to_nat bl + Z.to_nat ch = Z.to_nat (bl + ch))%nat as L by lia.
    unfold sinc_vt. destruct (ch =? 1), (ch =? 2), (ch =? 4), (ch =? 6); cbn [s_b_len s_buffer];
      (split; [reflexivity|]); (split; [lia|]); (split; [lia|]); unfold zlen; rewrite app_length, !repeat_length, L; lia.
  - cbn [h_last_value]. apply zlen_repeat. lia.
  - cbn [h_last_value]. apply zlen_repeat. lia.
Qed.

Lemma kept_sized st st' : kept' st st' -> sized st -> sized st'.
Proof.
  intros [A B _ _ _ C] [H1 H2]. unfold sized. rewrite <- A, <- B. split; [exact H1|].
  destruct (st_vt st), (st_priv st) as [|x|x], (st_priv st') as [|y|y]; cbn [same_shape] in C; try contradiction; try exact H2.
  1,2: unfold zlen in *; rewrite <- C; exact H2.
  all: destruct C as (_ & _ & _ & C1 & C2); unfold zlen in *; rewrite <- C1, <- C2; exact H2.
Qed.

Lemma slice_all {A} (l : list A) n : zlen l = n -> slice l 0 n = Ok l.
Proof.
  intros <-. unfold slice. assert (0 <= zlen l) by (unfold zlen; lia).
  replace ((0 <? 0) || (zlen l <? 0) || (zlen l <? 0 + zlen l)) with false by lia. unfold zlen. cbn [Z.to_nat skipn].
  rewrite Nat2Z.id, firstn_all. reflexivity.
Qed.

Lemma sized_copy st : sized st -> copy_buffer (st_priv st) (st_channels st) = Ok (st_priv st) /\ st_priv st <> P_null.
Proof.
  intros [H1 H2]. destruct (st_vt st), (st_priv st) as [|x|x]; try contradiction; (split; [|discriminate]); cbn [copy_buffer].
  1,2: rewrite (slice_all _ _ H2); destruct x; reflexivity.
  all: destruct H2 as (_ & B0 & B1 & B2); rewrite int_ok by lia; cbn [bind]; rewrite (slice_all _ _ B2); destruct x; reflexivity.
Qed.

Lemma set_priv_same st : set_priv st (st_priv st) = st.
Proof. destruct st; reflexivity. Qed.

(** ** src_clone *)
Lemma body_spec orc st p h : heap_ok h -> copy_buffer p (st_channels st) = Ok p ->
  let body := match alloc orc h with
      | (None, h1) => Ok (None, h1)
      | (Some b1, h1) =>
          match alloc orc h1 with
          | (None, h2) => do h3 <- free h2 b1 ; Ok (None, h3)
          | (Some b2, h2) =>
              match alloc orc h2 with
              | (None, h3) => do h4 <- free h3 b1 ; do h5 <- free h4 b2 ; Ok (None, h5)
              | (Some b3, h3) =>
                  do p' <- copy_buffer p (st_channels st) ;
                  Ok (Some (mkConv b1 b2 b3 (set_priv st p')), h3)
              end
          end
      end in
  exists h', heap_ok h' /\ hp_next h <= hp_next h' /\
  ((body = Ok (None, h') /\ hp_live h' = hp_live h /\ some_failed orc h h') \/
   (exists c, body = Ok (Some c, h') /\ new_blocks h c h' /\ ~ some_failed orc h h' /\ c_state c = set_priv st p)).
Proof.
  intros H Ec body. unfold body. clear body. rewrite Ec. cbn [bind].
  al.
  2: { exists h0. split; [assumption|]. split; [lia|]. left. repeat split; auto. exists (hp_next h). split; [lia|assumption]. }
  al.
  2: { destruct (free_1 h1 (hp_next h) (hp_live h) _ (fun h3 => Ok (@None converter, h3)) K0) as (h' & K' & L' & N' & E);
         [congruence|]. cbv beta in E. rewrite E.
       exists h'. split; [assumption|]. split; [lia|]. left. repeat split; auto. exists (hp_next h0). split; [lia|assumption]. }
  al.
  - exists h2. split; [assumption|]. split; [lia|]. right. eexists. split; [reflexivity|]. split; [|split; [|reflexivity]].
    + unfold new_blocks, blocks. cbn [c_blk_buf c_blk_priv c_blk_state]. rewrite N0, N, N1, N0, N.
      replace (hp_next h + 1 + 1) with (hp_next h + 2) by lia. split; [reflexivity|]. split; [|lia].
      rewrite L1, L0, L. cbn. repeat f_equal; lia.
    + apply (three_ok orc (hp_next h)); [lia..|assumption|rewrite <- N; assumption|].
      replace (hp_next h + 2) with (hp_next h1) by lia. assumption.
  - rewrite <- L1 in L0. rewrite L in L0.
    edestruct (free_2 h2 _ _ _ _ (fun h4 => do h5 <- free h4 (hp_next h0) ; Ok (@None converter, h5)) K1 L0) as (h' & K' & L' & N' & E).
    cbv beta in E. rewrite E.
    edestruct (free_1 h' _ _ _ (fun h5 => Ok (@None converter, h5)) K' L') as (h'' & K'' & L'' & N'' & E'').
    cbv beta in E''. rewrite E''.
    exists h''. split; [assumption|]. split; [lia|]. left. repeat split; auto. exists (hp_next h1). split; [lia|assumption].
Qed.

Lemma clone_thm orc c h : heap_ok h -> sized (c_state c) ->
  creation orc h (src_clone orc (Some c) h) (fun c' => c_state c' = c_state c).
Proof.
  intros H S. destruct (sized_copy _ S) as [Ec Nn].
  pose proof (set_priv_same (c_state c)) as Sp.
  unfold creation, src_clone, vt_copy. destruct (st_priv (c_state c)) as [|x|x]; [congruence|..];
    destruct (body_spec orc (c_state c) _ h H Ec) as (h' & A & B & [(C & D & E)|(c' & C & D & E & F)]);
    exists h'; (split; [exact A|]); (split; [exact B|]); rewrite C; cbn [bind].
  1,3: left; auto.
  1,2: right; exists c'; split; [reflexivity|]; split; [assumption|]; split; [assumption|]; congruence.
Qed.
Lemma clone_null orc h : src_clone orc None h = Ok (SRC_ERR_BAD_STATE, None, h).
Proof. reflexivity. Qed.
Lemma clone_state orc c h e c' h' : sized (c_state c) -> src_clone orc (Some c) h = Ok (e, Some c', h') -> c_state c' = c_state c.
Proof.
  intros S H. apply clone_shape in H. destruct H as (_ & p & Ep & ->). destruct (sized_copy _ S) as [Ec _].
  rewrite Ec in Ep. injection Ep as <-. apply set_priv_same.
Qed.

(** ** src_callback_new *)
Lemma reset_fresh bld ty ch st : 1 <= ch -> fresh bld ty ch st -> src_reset (Some st) = Ok (SRC_ERR_NO_ERROR, Some st).
Proof.
  intros Hc F. assert (R : vt_reset st = Ok st).
  { destruct F as [t bl T Eb H0 H1 ->|_ _ ->|_ _ ->].
    - unfold vt_reset. assert (E : sinc_reset (fresh_sinc t ch bl) = Ok (fresh_sinc t ch bl)).
      { unfold sinc_reset, fresh_sinc. cbn [st_priv st_channels blank_state].
        rewrite sinc_reset_buffer; cbn [s_b_len s_buffer]; [reflexivity|lia|lia|].
        unfold zlen. rewrite app_length, !repeat_length. lia. }
      cbn [st_vt fresh_sinc blank_state]. unfold sinc_vt at 1.
      destruct (ch =? 1), (ch =? 2), (ch =? 4), (ch =? 6); exact E.
    - destruct (hold_reset_blank VT_zoh ch) as (st & Es & ->); [lia|]. exact Es.
    - destruct (hold_reset_blank VT_linear ch) as (st & Es & ->); [lia|]. exact Es. }
  unfold src_reset. rewrite R. cbn [bind].
  assert (D : st_last_ratio st = dzero /\ st_last_position st = dzero /\ st_saved_frames st = 0 /\ st_saved_data st = 0 /\ st_error st = 0)
    by (destruct F as [? ? ? ? ? ? ->|_ _ ->|_ _ ->]; cbn; auto).
  destruct D as (D1 & D2 & D3 & D4 & D5). destruct st. cbn in D1, D2, D3, D4, D5. subst. reflexivity.
Qed.

Lemma callback_new_ok bld orc func ty ch ud h : func <> 0 ->
  src_callback_new bld orc func ty ch ud h =
  match src_new bld orc ty ch h with
  | Ok (e, Some c, h1) => Ok (e, Some (mkConv (c_blk_state c) (c_blk_priv c) (c_blk_buf c)
                                  (set_callback (set_mode (c_state c) MODE_CALLBACK) func ud)), h1)
  | r => r
  end.
Proof.
  intros Hf. unfold src_callback_new. replace (func =? 0) with false by lia.
  destruct (src_new bld orc ty ch h) as [[[e [c|]] h1]|f] eqn:E; cbn [bind]; try reflexivity.
  apply new_fresh in E. destruct E as [F Hc]. rewrite (reset_fresh _ _ _ _ Hc F). reflexivity.
Qed.

Lemma callback_new_thm bld orc func ty ch ud h : func <> 0 ->
  heap_ok h -> build_ok bld -> known bld ty -> 1 <= ch -> (is_sinc bld ty -> ch <= MAX_CHANNELS) ->
  creation orc h (src_callback_new bld orc func ty ch ud h)
    (fun c => exists st, fresh bld ty ch st /\ c_state c = set_callback (set_mode st MODE_CALLBACK) func ud).
Proof.
  intros Hf H B K Hc Hs. rewrite callback_new_ok by exact Hf.
  destruct (new_thm bld orc ty ch h H B K Hc Hs) as (h' & A & M & [(E & L & F)|(c & E & L & F & G)]); rewrite E;
    exists h'; (split; [exact A|]); (split; [exact M|]); [left; auto|].
  right. eexists. split; [reflexivity|]. split; [exact L|]. split; [exact F|]. cbn [c_state]. eauto.
Qed.

(** ** All reachable states are sized *)
Lemma life_sized md st : life md st -> sized st.
Proof.
  induction 1 as [bld orc ty ch h e c h' H|bld orc func ty ch ud h e c h' H|md CS cb dummy st c r st' L IH H|md orc c h e c' h' L IH H].
  - apply new_fresh in H. destruct H. eapply fresh_sized; eassumption.
  - destruct (Z.eq_dec func 0) as [->|Nf]; [discriminate H|].
    rewrite callback_new_ok in H by exact Nf. destruct (src_new bld orc ty ch h) as [[[e1 [c1|]] h1]|f] eqn:E; try discriminate H.
    injection H as <- <- <-. apply new_fresh in E. destruct E as [F Hc]. apply (fresh_sized _ _ _ _ Hc) in F. exact F.
  - apply step_kept in H. destruct H as [K _]. eapply kept_sized; eassumption.
  - apply clone_state in H; [|exact IH]. now rewrite H.
Qed.

(** ** src_delete *)
Lemma delete_spec c h : heap_ok h -> sized (c_state c) -> NoDup (blocks c) -> (forall b, In b (blocks c) -> In b (hp_live h)) ->
  exists h', src_delete (Some c) h = Ok h' /\ heap_ok h' /\ hp_next h' = hp_next h /\ Permutation (hp_live h) (blocks c ++ hp_live h').
Proof.
  intros H S N I. destruct (sized_copy _ S) as [_ Nn].
  assert (E : src_delete (Some c) h = (do h1 <- free h (c_blk_buf c) ; do h2 <- free h1 (c_blk_priv c) ; free h2 (c_blk_state c)))
    by (cbn [src_delete]; destruct (st_priv (c_state c)); [congruence|reflexivity..]).
  rewrite E. unfold blocks in *.
  apply NoDup_cons_iff in N as [N1 N]. apply NoDup_cons_iff in N as [N2 _].
  destruct (free_spec h (c_blk_buf c) H) as (h1 & E1 & M1 & K1 & P1); [apply I; cbn; auto|]. rewrite E1. cbn [bind].
  assert (I1 : forall b, b = c_blk_priv c \/ b = c_blk_state c -> In b (hp_live h1)).
  { intros b Hb. assert (In b (hp_live h)) as Q by (apply I; cbn; intuition). apply (Permutation_in _ P1) in Q.
    destruct Q as [Q|Q]; [|exact Q]. exfalso. apply N1. rewrite Q. cbn. intuition. }
  destruct (free_spec h1 (c_blk_priv c) K1) as (h2 & E2 & M2 & K2 & P2); [apply I1; auto|]. rewrite E2. cbn [bind].
  destruct (free_spec h2 (c_blk_state c) K2) as (h3 & E3 & M3 & K3 & P3).
  { assert (In (c_blk_state c) (hp_live h1)) as Q by auto. apply (Permutation_in _ P2) in Q.
    destruct Q as [Q|Q]; [|exact Q]. exfalso. apply N2. cbn. auto. }
  exists h3. split; [exact E3|]. split; [exact K3|]. split; [congruence|].
  cbn [app]. rewrite P1. constructor. rewrite P2. constructor. exact P3.
Qed.

(** Deleting a converter right after creating it restores the heap exactly. *)
Lemma delete_new h c h1 st : heap_ok h1 -> new_blocks h c h1 -> sized st ->
  exists h2, src_delete (Some (mkConv (c_blk_state c) (c_blk_priv c) (c_blk_buf c) st)) h1 = Ok h2 /\ heap_ok h2 /\
    hp_live h2 = hp_live h /\ hp_next h2 = hp_next h1.
Proof.
  intros H (B & L & _) S. destruct (sized_copy _ S) as [_ Nn]. unfold blocks in L. cbn [app] in L. clear B.
  cbn [src_delete c_state c_blk_state c_blk_priv c_blk_buf].
  destruct (free_1 h1 _ _ _ (fun x => do h2 <- free x (c_blk_priv c) ; free h2 (c_blk_state c)) H L) as (ha & Ka & La & Ma & Ea).
  destruct (free_1 ha _ _ _ (fun x => free x (c_blk_state c)) Ka La) as (hb & Kb & Lb & Mb & Eb).
  destruct (free_head hb _ Kb _ Lb) as (hc & Ec & Mc & Kc & Lc).
  cbv beta in Ea, Eb. rewrite Ec in Eb. rewrite Eb in Ea.
  exists hc. destruct (st_priv st); [congruence|..]; (split; [exact Ea|]); repeat split; try apply Kc; try assumption; congruence.
Qed.
