(** Proofs of C12-C15, C36, C37. *)
From Coq Require Import ZArith List Bool Reals Lia Permutation.
From Flocq Require Import Core IEEE754.BinarySingleNaN.
From Verif Require Import Base SincCopies SincCopiesEq Types Common Zoh Linear Sinc Api Heap Callback HoldSpec HoldCore ApiHist ProcFacts ApiSpec ApiFacts ApiThms
  LifeSpec HeapFacts LifeFacts LocalFacts.
Import ListNotations.
Local Open Scope Z_scope.

(** ** One creation, whatever the arguments *)
Definition made (orc : Z -> bool) (h : heap) (e : Z) (c : option converter) (h' : heap) : Prop :=
  heap_ok h' /\ hp_next h <= hp_next h' /\
  match c with
  | Some c => e = 0 /\ new_blocks h c h' /\ sized (c_state c)
  | None => hp_live h' = hp_live h /\ (e = SRC_ERR_MALLOC_FAILED <-> some_failed orc h h')
  end.

Lemma creation_created orc h r good e c h' : creation orc h r good -> (forall c, good c -> sized (c_state c)) ->
  r = Ok (e, c, h') -> made orc h e c h'.
Proof.
  intros (h1 & A & B & [(C & D & E)|(c1 & C & D & E & F)]) G ->; injection C as -> -> ->; (split; [exact A|]); (split; [exact B|]); cbn.
  - split; [exact D|]. tauto.
  - auto.
Qed.
Lemma not_failed orc h : ~ some_failed orc h h.
Proof. intros (n & N & _). lia. Qed.

Lemma new_any bld orc ty ch h e c h' : heap_ok h -> build_ok bld -> src_new bld orc ty ch h = Ok (e, c, h') -> made orc h e c h'.
Proof.
  intros H B E.
  assert (Dec : known bld ty \/ ~ known bld ty).
  { unfold known, is_sinc. destruct (sinc_table bld ty); [left; left; discriminate|].
    destruct (Z.eq_dec ty SRC_ZERO_ORDER_HOLD); [auto|]. destruct (Z.eq_dec ty SRC_LINEAR); [auto|]. right. tauto. }
  destruct Dec as [K|K].
  2: { rewrite new_unknown in E by exact K. injection E as <- <- <-. split; [exact H|]. split; [lia|]. split; [reflexivity|].
       split; [discriminate|intros F; destruct (not_failed _ _ F)]. }
  destruct (Z.le_gt_cases ch 0) as [C|C]; [rewrite new_none in E by assumption; discriminate E|].
  assert (Dec : (is_sinc bld ty -> ch <= MAX_CHANNELS) \/ (is_sinc bld ty /\ MAX_CHANNELS < ch)).
  { destruct (Z.le_gt_cases ch MAX_CHANNELS); [auto|]. unfold is_sinc. destruct (sinc_table bld ty); [right; split; [discriminate|assumption]|left; congruence]. }
  destruct Dec as [S|[S1 S2]].
  - eapply creation_created; [apply (new_thm bld orc ty ch h); auto; lia| |exact E]. intros x. apply fresh_sized. lia.
  - rewrite new_many in E by assumption. injection E as <- <- <-. split; [exact H|]. split; [lia|]. split; [reflexivity|].
    split; [discriminate|intros F; destruct (not_failed _ _ F)].
Qed.

Lemma callback_new_any bld orc func ty ch ud h e c h' : heap_ok h -> build_ok bld ->
  src_callback_new bld orc func ty ch ud h = Ok (e, c, h') -> made orc h e c h'.
Proof.
  intros H B E. destruct (Z.eq_dec func 0) as [->|N].
  - cbn in E. injection E as <- <- <-. split; [exact H|]. split; [lia|]. split; [reflexivity|].
    split; [discriminate|intros F; destruct (not_failed _ _ F)].
  - rewrite callback_new_ok in E by exact N. destruct (src_new bld orc ty ch h) as [[[e1 [c1|]] h1]|f] eqn:En; try discriminate E;
      injection E as <- <- <-; apply new_any in En; try assumption.
Qed.

Lemma clone_any orc c0 h e c h' : heap_ok h -> sized (c_state c0) -> src_clone orc (Some c0) h = Ok (e, c, h') -> made orc h e c h'.
Proof.
  intros H S E. eapply creation_created; [apply (clone_thm orc c0 h H S)| |exact E]. intros x ->. exact S.
Qed.

(** ** src_simple *)
Lemma process_sized st d m e so dop m' : sized st -> src_process (Some st) d m = Ok (e, so, dop, m') ->
  exists st', so = Some st' /\ sized st'.
Proof.
  intros S E. destruct d as [d|].
  - apply process_shape in E. destruct E as (s & d1 & -> & _ & K & _). exists s. split; [reflexivity|].
    eapply kept_sized; [apply kept_kept', K|exact S].
  - unfold src_process in E. destruct (st_mode st); injection E as _ <- _ _; eauto.
Qed.

Lemma simple_any bld orc data ty ch h m e d h' m' : heap_ok h -> build_ok bld -> src_simple bld orc data ty ch h m = Ok (e, d, h', m') ->
  heap_ok h' /\ hp_live h' = hp_live h /\ hp_next h <= hp_next h' /\ (some_failed orc h h' -> e = SRC_ERR_MALLOC_FAILED).
Proof.
  intros H B. unfold src_simple. intros E. ok_step E. destruct v as [[e1 c] h1].
  pose proof (new_any _ _ _ _ _ _ _ _ H B E0) as (A1 & A2 & A3).
  destruct c as [c|].
  - destruct data as [dd|]; [|discriminate E]. ok_step E. destruct v as [[[e2 so] d'] m2].
    destruct A3 as (-> & Nb & S). destruct (process_sized _ _ _ _ _ _ _ S E1) as (st' & -> & S').
    destruct (delete_new h c h1 st' A1 Nb S') as (h2 & Ed & K & L & M). rewrite Ed in E. cbn [bind] in E. injection E as <- <- <- <-.
    split; [exact K|]. split; [exact L|]. split; [congruence|]. intros (n & Hn & F). exfalso.
    assert (NF : ~ some_failed orc h h1).
    { unfold src_new in E0. clear - E0 H B. intros (n & Hn & F).
      assert (X : creation orc h (src_new bld orc ty ch h) (fun _ => True)).
      { pose proof (new_fresh bld orc ty ch h) as Fr. unfold src_new in Fr. specialize (Fr _ _ _ E0). destruct Fr as [_ Hc].
        assert (K : known bld ty).
        { unfold known, is_sinc. destruct (sinc_table bld ty); [left; discriminate|]. destruct (Z.eqb_spec ty SRC_ZERO_ORDER_HOLD); [auto|].
          destruct (Z.eqb_spec ty SRC_LINEAR); [auto|discriminate E0]. }
        assert (Hs : is_sinc bld ty -> ch <= MAX_CHANNELS).
        { unfold is_sinc. destruct (sinc_table bld ty); [|congruence]. intros _. unfold sinc_state_new in E0.
          destruct (ch <=? 0); [discriminate E0|]. destruct (MAX_CHANNELS <? ch) eqn:L; [discriminate E0|]. lia. }
        eapply creation_mono; [|apply (new_thm bld orc ty ch h H B K); [lia|exact Hs]]. auto. }
      destruct X as (hh & _ & _ & [(X & _)|(cc & X & _ & X2 & _)]); unfold src_new in X; rewrite E0 in X; [discriminate X|].
      injection X as _ ->. apply X2. exists n. auto. }
    apply NF. exists n. split; [congruence|exact F].
  - injection E as <- <- <- <-. destruct A3 as [L F]. tauto.
Qed.

Lemma simple_thm bld orc d ty ch h m : heap_ok h -> build_ok bld ->
  (forall e h1, src_new bld orc ty ch h = Ok (e, None, h1) -> src_simple bld orc (Some d) ty ch h m = Ok (e, Some d, h1, m)) /\
  (forall c h1, src_new bld orc ty ch h = Ok (0, Some c, h1) ->
     (forall e so d' m', src_process (Some (c_state c)) (Some (set_eoi d 1)) m = Ok (e, so, d', m') ->
        exists c' h2, so = Some (c_state c') /\ blocks c' = blocks c /\ src_delete (Some c') h1 = Ok h2 /\ hp_live h2 = hp_live h /\
          src_simple bld orc (Some d) ty ch h m = Ok (e, d', h2, m')) /\
     (forall f, src_process (Some (c_state c)) (Some (set_eoi d 1)) m = Fault f -> src_simple bld orc (Some d) ty ch h m = Fault f)).
Proof.
  intros H B. split.
  - intros e h1 E. unfold src_simple. rewrite E. reflexivity.
  - intros c h1 E. pose proof (new_any _ _ _ _ _ _ _ _ H B E) as (A1 & A2 & _ & Nb & S). split.
    + intros e so d' m' P. destruct (process_sized _ _ _ _ _ _ _ S P) as (st' & -> & S').
      destruct (delete_new h c h1 st' A1 Nb S') as (h2 & Ed & K & L & M).
      exists (mkConv (c_blk_state c) (c_blk_priv c) (c_blk_buf c) st'), h2. cbn [c_state].
      split; [reflexivity|]. split; [reflexivity|]. split; [exact Ed|]. split; [exact L|].
      unfold src_simple. rewrite E. cbn [bind]. rewrite P. cbn [bind]. rewrite Ed. reflexivity.
    + intros f P. unfold src_simple. rewrite E. cbn [bind]. rewrite P. reflexivity.
Qed.

(** ** C13: every history *)
Lemma nodup_app_l {A} (l l' : list A) : NoDup (l ++ l') -> NoDup l.
Proof.
  induction l as [|x l IH]; cbn; intros H; [constructor|]. apply NoDup_cons_iff in H as [H1 H2]. constructor; [|auto].
  intros I. apply H1, in_or_app. auto.
Qed.
Lemma reach_inv orc h0 h cs : heap_ok h0 -> reach orc h0 h cs ->
  heap_ok h /\ Permutation (hp_live h) (concat (map blocks cs) ++ hp_live h0) /\ (forall c, In c cs -> sized (c_state c)).
Proof.
  intros H0. induction 1 as [|h cs bld ty ch e c h' R IH B E|h cs bld func ty ch ud e c h' R IH B E
    |h cs1 c0 cs2 e c h' R IH E|h cs1 c0 cs2 h' R IH E|h cs1 c0 cs2 CS cb dummy c r st' R IH E|h cs bld data ty ch m e d h' m' R IH B E].
  - split; [exact H0|]. split; [reflexivity|]. intros c [].
  - destruct IH as (Hh & P & S). destruct (new_any _ _ _ _ _ _ _ _ Hh B E) as (A1 & _ & A3). split; [exact A1|].
    destruct c as [c|]; [destruct A3 as (_ & (_ & L & _) & Sc)|destruct A3 as [L _]]; rewrite L.
    + cbn [map concat]. rewrite <- app_assoc. split; [now apply Permutation_app_head|]. intros x [<-|I]; auto.
    + auto.
  - destruct IH as (Hh & P & S). destruct (callback_new_any _ _ _ _ _ _ _ _ _ _ Hh B E) as (A1 & _ & A3). split; [exact A1|].
    destruct c as [c|]; [destruct A3 as (_ & (_ & L & _) & Sc)|destruct A3 as [L _]]; rewrite L.
    + cbn [map concat]. rewrite <- app_assoc. split; [now apply Permutation_app_head|]. intros x [<-|I]; auto.
    + auto.
  - destruct IH as (Hh & P & S). assert (S0 : sized (c_state c0)) by (apply S, in_elt).
    destruct (clone_any _ _ _ _ _ _ Hh S0 E) as (A1 & _ & A3). split; [exact A1|].
    destruct c as [c|]; [destruct A3 as (_ & (_ & L & _) & Sc)|destruct A3 as [L _]]; rewrite L.
    + cbn [map concat]. rewrite <- app_assoc. split; [now apply Permutation_app_head|]. intros x [<-|I]; auto.
    + auto.
  - destruct IH as (Hh & P & S). assert (S0 : sized (c_state c0)) by (apply S, in_elt).
    assert (P' : Permutation (hp_live h) (blocks c0 ++ concat (map blocks (cs1 ++ cs2)) ++ hp_live h0)).
    { rewrite P. rewrite !map_app, !concat_app. cbn [map concat]. rewrite <- !app_assoc.
      rewrite Permutation_app_swap_app. reflexivity. }
    destruct (delete_spec c0 h Hh S0) as (h2 & Ed & K & _ & P2).
    { assert (N : NoDup (blocks c0 ++ concat (map blocks (cs1 ++ cs2)) ++ hp_live h0)) by (eapply Permutation_NoDup; [exact P'|apply Hh]).
      exact (nodup_app_l _ _ N). }
    { intros b Hb. apply (Permutation_in _ (Permutation_sym P')). apply in_or_app. auto. }
    rewrite Ed in E. injection E as <-. split; [exact K|]. split.
    + rewrite P' in P2. apply Permutation_app_inv_l in P2. symmetry. exact P2.
    + intros x I. apply S. apply in_app_or in I. apply in_or_app. cbn. tauto.
  - destruct IH as (Hh & P & S). split; [exact Hh|]. split; [rewrite map_app in *; exact P|].
    intros x I. apply in_app_or in I. destruct I as [I|[<-|I]].
    + apply S, in_or_app; auto.
    + cbn [c_state]. apply step_kept in E. destruct E as [K _]. eapply kept_sized; [exact K|]. apply S, in_elt.
    + apply S, in_or_app. cbn. auto.
  - destruct IH as (Hh & P & S). destruct (simple_any _ _ _ _ _ _ _ _ _ _ _ Hh B E) as (K & L & _). rewrite L. auto.
Qed.

(** Nothing faults: deleting and cloning what the program holds always works. *)
Lemma reach_delete orc h0 h cs c : heap_ok h0 -> reach orc h0 h cs -> In c cs -> exists h', src_delete (Some c) h = Ok h' /\
  Permutation (hp_live h) (blocks c ++ hp_live h').
Proof.
  intros H0 R I. destruct (reach_inv _ _ _ _ H0 R) as (Hh & P & S). destruct (in_split _ _ I) as (cs1 & cs2 & ->).
  assert (P' : Permutation (hp_live h) (blocks c ++ concat (map blocks (cs1 ++ cs2)) ++ hp_live h0)).
  { rewrite P. rewrite !map_app, !concat_app. cbn [map concat]. rewrite <- !app_assoc.
    rewrite Permutation_app_swap_app. reflexivity. }
  destruct (delete_spec c h Hh (S _ I)) as (h2 & Ed & K & _ & P2).
  { assert (N : NoDup (blocks c ++ concat (map blocks (cs1 ++ cs2)) ++ hp_live h0)) by (eapply Permutation_NoDup; [exact P'|apply Hh]).
    exact (nodup_app_l _ _ N). }
  { intros b Hb. apply (Permutation_in _ (Permutation_sym P')). apply in_or_app. auto. }
  eauto.
Qed.
Lemma reach_clone orc h0 h cs c : heap_ok h0 -> reach orc h0 h cs -> In c cs -> exists e c' h', src_clone orc (Some c) h = Ok (e, c', h').
Proof.
  intros H0 R I. destruct (reach_inv _ _ _ _ H0 R) as (Hh & P & S).
  destruct (clone_thm orc c h Hh (S _ I)) as (h' & _ & _ & [(E & _)|(c' & E & _)]); eauto.
Qed.

(** The history in which every converter has been deleted leaves the heap as it was. *)
Lemma reach_empty orc h0 h : heap_ok h0 -> reach orc h0 h [] -> Permutation (hp_live h) (hp_live h0).
Proof. intros H0 R. destruct (reach_inv _ _ _ _ H0 R) as (_ & P & _). exact P. Qed.

(** ** C15 *)
(** The counters kept in the private data between calls carry no information: every call sets them before reading them. *)
Definition norm_priv (p : priv_ptr) : priv_ptr :=
  match p with
  | P_null => P_null
  | P_hold x => P_hold (mkHold (h_dirty x) 0 0 0 0 (h_last_value x))
  | P_sinc s => P_sinc (s_set_counts s 0 0 0 0)
  end.
Definition norm (st : SRC_STATE) : SRC_STATE := set_priv st (norm_priv (st_priv st)).
Definition alike (a b : SRC_STATE) : Prop := norm a = norm b.

Inductive sim {A} (R : A -> A -> Prop) : outcome A -> outcome A -> Prop :=
| sim_ok a b : R a b -> sim R (Ok a) (Ok b)
| sim_fault f : sim R (Fault f) (Fault f).
Definition proc_alike (a b : proc_result) : Prop :=
  let '(e, st, d, m) := a in let '(e', st', d', m') := b in e = e' /\ alike st st' /\ d = d' /\ m = m'.

Lemma sim_refl {A} (R : A -> A -> Prop) x y : (forall a, R a a) -> x = y -> sim R x y.
Proof. intros H ->. destruct y; constructor; auto. Qed.
Lemma alike_refl a : alike a a.
Proof. reflexivity. Qed.
Lemma proc_refl a : proc_alike a a.
Proof. destruct a as [[[e st] d] m]. cbn. auto using alike_refl. Qed.

Lemma alike_cases a b : alike a b ->
  st_vt a = st_vt b /\ st_last_ratio a = st_last_ratio b /\ st_last_position a = st_last_position b /\ st_error a = st_error b /\
  st_channels a = st_channels b /\ st_mode a = st_mode b /\ st_callback a = st_callback b /\ st_user_data a = st_user_data b /\
  st_saved_frames a = st_saved_frames b /\ st_saved_data a = st_saved_data b /\ norm_priv (st_priv a) = norm_priv (st_priv b).
Proof. unfold alike, norm, set_priv. intros H. injection H. intros. repeat split; assumption. Qed.

Ltac alike_open :=
  match goal with H : alike ?a ?b |- _ =>
    apply alike_cases in H; destruct a, b; cbn -[norm_priv] in H; destruct H as (? & ? & ? & ? & ? & ? & ? & ? & ? & ? & ?); subst end.

Lemma alike_priv a b : alike a b -> exists p q, norm_priv p = norm_priv q /\ a = set_priv a p /\ b = set_priv a q.
Proof. intros H. alike_open. eexists _, _. split; [eassumption|]. split; reflexivity. Qed.

Lemma zoh_alike a b d m : alike a b -> sim proc_alike (zoh_vari_process a d m) (zoh_vari_process b d m).
Proof.
  intros H. destruct (alike_priv _ _ H) as (p & q & N & Ea & Eb). rewrite Ea, Eb. clear Ea Eb H b.
  unfold zoh_vari_process. destruct (input_frames d <=? 0).
  - constructor. cbn. repeat split; auto. unfold alike, norm. cbn. now rewrite N.
  - cbn [set_priv st_priv]. destruct p as [|p|p], q as [|q|q]; try discriminate N.
    + constructor. cbn. auto using alike_refl.
    + cbn in N. injection N as N1 N2. cbn [st_channels st_last_ratio st_last_position]. rewrite <- N1, <- N2.
      apply sim_refl; [apply proc_refl|]. reflexivity.
    + constructor.
Qed.
Lemma linear_alike a b d m : alike a b -> sim proc_alike (linear_vari_process a d m) (linear_vari_process b d m).
Proof.
  intros H. destruct (alike_priv _ _ H) as (p & q & N & Ea & Eb). rewrite Ea, Eb. clear Ea Eb H b.
  unfold linear_vari_process. destruct (input_frames d <=? 0).
  - constructor. cbn. repeat split; auto. unfold alike, norm. cbn. now rewrite N.
  - cbn [set_priv st_priv]. destruct p as [|p|p], q as [|q|q]; try discriminate N.
    + constructor. cbn. auto using alike_refl.
    + cbn in N. injection N as N1 N2. cbn [st_channels st_last_ratio st_last_position]. rewrite <- N1, <- N2.
      apply sim_refl; [apply proc_refl|]. reflexivity.
    + constructor.
Qed.
Lemma sinc_alike mono nch a b d m : alike a b -> sim proc_alike (sinc_process mono nch a d m) (sinc_process mono nch b d m).
Proof.
  intros H. destruct (alike_priv _ _ H) as (p & q & N & Ea & Eb). rewrite Ea, Eb. clear Ea Eb H b.
  unfold sinc_process. cbn [set_priv st_priv]. destruct p as [|p|p], q as [|q|q]; try discriminate N.
  - constructor. cbn. auto using alike_refl.
  - constructor.
  - cbn [st_channels st_last_ratio st_last_position st_error].
    assert (S : forall x y z w, s_set_counts p x y z w = s_set_counts q x y z w).
    { cbn in N. unfold s_set_counts in *. injection N. intros. congruence. }
    apply sim_refl; [apply proc_refl|].
    destruct (long_op (input_frames d * _)); cbn [bind]; [|reflexivity].
    destruct (long_op (output_frames d * _)); cbn [bind]; [|reflexivity].
    rewrite S. reflexivity.
Qed.
Lemma vt_alike a b d m : alike a b -> sim proc_alike (vt_process a d m) (vt_process b d m).
Proof.
  intros H. pose proof (alike_cases _ _ H) as (Hv & _ & _ & _ & Hc & _). unfold vt_process. rewrite <- Hv.
  destruct (st_vt a); [exact (zoh_alike _ _ d m H)|exact (linear_alike _ _ d m H)|rewrite !mono_copy|rewrite !stereo_copy|rewrite !quad_copy|rewrite !hex_copy
    |rewrite !multichan_copy, <- Hc]; exact (sinc_alike _ _ _ _ d m H).
Qed.

Inductive o_alike : option SRC_STATE -> option SRC_STATE -> Prop :=
| oa_some a b : alike a b -> o_alike (Some a) (Some b)
| oa_none : o_alike None None.
Definition process_sim (x y : Z * option SRC_STATE * option SRC_DATA * mem) : Prop :=
  let '(e, so, d, m) := x in let '(e', so', d', m') := y in e = e' /\ o_alike so so' /\ d = d' /\ m = m'.

Lemma alike_set_ratio a b r : alike a b -> alike (set_ratio a r) (set_ratio b r).
Proof. intros H. alike_open. unfold alike, norm, set_priv, set_ratio, set_mode, set_error, set_saved, set_position. cbn -[norm_priv]. congruence. Qed.
Lemma alike_set_mode a b r : alike a b -> alike (set_mode a r) (set_mode b r).
Proof. intros H. alike_open. unfold alike, norm, set_priv, set_ratio, set_mode, set_error, set_saved, set_position. cbn -[norm_priv]. congruence. Qed.
Lemma alike_set_error a b r : alike a b -> alike (set_error a r) (set_error b r).
Proof. intros H. alike_open. unfold alike, norm, set_priv, set_ratio, set_mode, set_error, set_saved, set_position. cbn -[norm_priv]. congruence. Qed.
Lemma alike_set_saved a b r s : alike a b -> alike (set_saved a r s) (set_saved b r s).
Proof. intros H. alike_open. unfold alike, norm, set_priv, set_ratio, set_mode, set_error, set_saved, set_position. cbn -[norm_priv]. congruence. Qed.

Lemma process_alike a b d m : alike a b -> sim process_sim (src_process (Some a) d m) (src_process (Some b) d m).
Proof.
  intros H. pose proof (alike_cases _ _ H) as (_ & Hr & _ & _ & Hc & Hm & _).
  assert (OA : o_alike (Some a) (Some b)) by (constructor; exact H).
  unfold src_process. rewrite <- Hm, <- Hr, <- Hc.
  destruct (negb _); [constructor; cbn; auto|]. destruct d as [d|]; [|constructor; cbn; auto].
  destruct (_ || _); [constructor; cbn; auto|]. destruct (is_bad_src_ratio _); [constructor; cbn; auto|].
  destruct (overlap_test _ _) as [v|f]; cbn [bind]; [|constructor]. destruct v; [constructor; cbn; auto|].
  set (d2 := set_counts _ 0 0). set (a' := if dlt (st_last_ratio a) _ then set_ratio a _ else a).
  set (b' := if dlt (st_last_ratio a) _ then set_ratio b _ else b).
  assert (A' : alike a' b') by (unfold a', b'; destruct (dlt _ _); [now apply alike_set_ratio|exact H]).
  assert (V : sim proc_alike (if dlt (dabs (dsub (st_last_ratio a') (src_ratio d2))) (lit_1em 15) then vt_process a' d2 m else vt_process a' d2 m)
                             (if dlt (dabs (dsub (st_last_ratio b') (src_ratio d2))) (lit_1em 15) then vt_process b' d2 m else vt_process b' d2 m)).
  { pose proof (vt_alike a' b' d2 m A') as V. clearbody a' b'.
    destruct (dlt (dabs (dsub (st_last_ratio a') _)) _), (dlt (dabs (dsub (st_last_ratio b') _)) _); exact V. }
  destruct V as [[[[e st] d3] m3] [[[e' st'] d3'] m3'] (-> & S & -> & ->)|f]; cbn [bind]; constructor.
  cbn. auto using oa_some.
Qed.

Section Read.
  Variable CS : Type.
  Variable cb : callback_t CS.
  Variable dummy : Z.
  Definition loop_sim (x y : loop_result CS) : Prop :=
    let '(e, st, d, g, cs, m) := x in let '(e', st', d', g', cs', m') := y in
    e = e' /\ alike st st' /\ d = d' /\ g = g' /\ cs = cs' /\ m = m'.
  Lemma loop_alike : forall fuel frames a b d gen cs m, alike a b ->
    sim loop_sim (cb_loop CS cb dummy fuel frames a d gen cs m) (cb_loop CS cb dummy fuel frames b d gen cs m).
  Proof.
    induction fuel as [|fuel IH]; intros frames a b d gen cs m H; cbn [cb_loop]; [constructor|].
    destruct (gen <? frames); [|constructor; cbn; auto 10].
    pose proof (alike_cases _ _ H) as (_ & _ & _ & _ & Hc & _ & Hcb & Hud & _).
    assert (F : cb_fetch CS cb dummy b d cs m = cb_fetch CS cb dummy a d cs m) by (unfold cb_fetch; now rewrite Hcb, Hud).
    rewrite F. destruct (cb_fetch CS cb dummy a d cs m) as [[d1 cs1] m1].
    destruct (process_alike _ _ (Some d1) m1 (alike_set_mode _ _ MODE_PROCESS H))
      as [[[[e so] dop] m2] [[[e' so'] dop'] m2'] (<- & S & <- & <-)|f]; cbn [bind]; [|constructor].
    destruct S as [s s' S|]; [|constructor]. destruct dop as [d2|]; [|constructor].
    apply (alike_set_mode _ _ MODE_CALLBACK) in S. pose proof (alike_cases _ _ S) as (_ & _ & _ & _ & Hc' & _).
    destruct (negb _); [constructor; cbn; auto 10|]. rewrite <- Hc'.
    destruct (long_op (input_frames_used d2 * _)); cbn [bind]; [|constructor].
    destruct (long_op (output_frames_gen d2 * _)); cbn [bind]; [|constructor].
    destruct (long_op (input_frames d2 - _)); cbn [bind]; [|constructor].
    destruct (long_op (output_frames d2 - _)); cbn [bind]; [|constructor].
    destruct (long_op (gen + _)); cbn [bind]; [|constructor].
    destruct (_ && _); [constructor; cbn; auto 10|]. apply IH. exact S.
  Qed.
  Definition read_sim (x y : Z * option SRC_STATE * CS * mem) : Prop :=
    let '(n, so, cs, m) := x in let '(n', so', cs', m') := y in n = n' /\ o_alike so so' /\ cs = cs' /\ m = m'.
  Lemma read_alike fuel ratio frames data cs m a b : alike a b ->
    sim read_sim (src_callback_read CS cb dummy fuel (Some a) ratio frames data cs m)
                 (src_callback_read CS cb dummy fuel (Some b) ratio frames data cs m).
  Proof.
    intros H. pose proof (alike_cases _ _ H) as (_ & _ & _ & _ & _ & Hm & Hcb & _ & Hsf & Hsd & _).
    unfold src_callback_read. rewrite <- Hm, <- Hcb, <- Hsf, <- Hsd.
    destruct (frames <=? 0); [constructor; cbn; auto using oa_some|].
    destruct (st_mode a); [constructor; cbn; auto using oa_some, alike_set_error|].
    destruct (st_callback a =? 0); [constructor; cbn; auto using oa_some, alike_set_error|].
    destruct (is_bad_src_ratio _); [constructor; cbn; auto using oa_some, alike_set_error|].
    destruct (loop_alike fuel frames a b (mkData (st_saved_data a) data (st_saved_frames a) frames 0 0 0 ratio) 0 cs m H)
      as [[[[[[e st] d1] g] cs1] m1] [[[[[e' st'] d1'] g'] cs1'] m1'] (<- & S & <- & <- & <- & <-)|f]; cbn [bind]; [|constructor].
    destruct (negb _); constructor; (split; [reflexivity|]); (split; [|auto]); constructor; auto using alike_set_error, alike_set_saved.
  Qed.
  Definition step_sim (x y : api_result CS * SRC_STATE) : Prop := fst x = fst y /\ alike (snd x) (snd y).
  Lemma hold_reset_alike a b : alike a b -> sim alike (hold_reset a) (hold_reset b).
  Proof.
    intros H. destruct (alike_priv _ _ H) as (p & q & N & Ea & Eb). rewrite Ea, Eb. clear Ea Eb H b.
    unfold hold_reset. cbn [set_priv st_priv st_channels]. destruct p as [|p|p], q as [|q|q]; try discriminate N; try constructor.
    - reflexivity.
    - cbn in N. injection N as N1 N2. rewrite N2. destruct (blit _ _ _); cbn [bind]; constructor. reflexivity.
  Qed.
  Lemma sinc_reset_alike a b : alike a b -> sim alike (sinc_reset a) (sinc_reset b).
  Proof.
    intros H. destruct (alike_priv _ _ H) as (p & q & N & Ea & Eb). rewrite Ea, Eb. clear Ea Eb H b.
    unfold sinc_reset. cbn [set_priv st_priv st_channels]. destruct p as [|p|p], q as [|q|q]; try discriminate N; try constructor.
    - reflexivity.
    - cbn in N. unfold s_set_counts in N. injection N. intros. unfold sinc_reset_priv.
      replace (s_buffer q) with (s_buffer p) by congruence. replace (s_b_len q) with (s_b_len p) by congruence.
      destruct (blit (s_buffer p) _ _) as [b1|]; cbn [bind]; [|constructor]. destruct (blit b1 _ _); cbn [bind]; constructor.
      unfold alike, norm, set_priv. cbn. unfold s_set_counts. cbn. congruence.
  Qed.
  Lemma reset_alike a b : alike a b -> sim alike (vt_reset a) (vt_reset b).
  Proof.
    intros H. pose proof (alike_cases _ _ H) as (Hv & _). unfold vt_reset. rewrite <- Hv.
    destruct (st_vt a); [exact (hold_reset_alike _ _ H)|exact (hold_reset_alike _ _ H)|exact (sinc_reset_alike _ _ H)..].
  Qed.

  Lemma step_alike a b c : alike a b -> sim step_sim (api_step CS cb dummy a c) (api_step CS cb dummy b c).
  Proof.
    intros H. pose proof (alike_cases _ _ H) as (_ & _ & _ & He & Hc & _).
    destruct c as [d m|fuel ratio frames data cs m|ra| | |]; cbn [api_step].
    - destruct (process_alike _ _ d m H) as [[[[e so] dop] m2] [[[e' so'] dop'] m2'] (<- & S & <- & <-)|f]; cbn [bind]; constructor.
      split; [reflexivity|]. destruct S; cbn; auto.
    - destruct (read_alike fuel ratio frames data cs m _ _ H) as [[[[e so] dop] m2] [[[e' so'] dop'] m2'] (<- & S & <- & <-)|f]; cbn [bind]; constructor.
      split; [reflexivity|]. destruct S; cbn; auto.
    - unfold src_set_ratio. destruct (is_bad_src_ratio ra); constructor; (split; [reflexivity|]); cbn; auto using alike_set_ratio.
    - unfold src_reset. destruct (reset_alike _ _ H) as [s s' S|]; cbn [bind]; constructor. split; [reflexivity|]. cbn [keep].
      apply alike_set_error, alike_set_saved, alike_set_ratio. clear H. alike_open. unfold alike, norm, set_priv, set_ratio, set_mode, set_error, set_saved, set_position. cbn -[norm_priv]. congruence.
    - constructor. split; [|exact H]. cbn. now rewrite Hc.
    - constructor. split; [|exact H]. cbn. now rewrite He.
  Qed.
  Lemma run_alike : forall cs a b, alike a b ->
    sim (fun x y => fst x = fst y /\ alike (snd x) (snd y)) (api_run CS cb dummy a cs) (api_run CS cb dummy b cs).
  Proof.
    induction cs as [|c cs IH]; intros a b H; cbn [api_run]; [constructor; auto|].
    destruct (step_alike a b c H) as [[r s] [r' s'] [E S]|f]; cbn [bind fst snd] in *; [|constructor]. subst r'.
    destruct (IH s s' S) as [[rs t] [rs' t'] [E' S']|f]; cbn [bind fst snd] in *; constructor. cbn. split; congruence.
  Qed.
End Read.

Lemma fresh_det bld ty ch a b : fresh bld ty ch a -> fresh bld ty ch b -> a = b.
Proof.
  intros [t bl T E _ _ ->|T E ->|T E ->] [t' bl' T' E' _ _ ->|T' E' ->|T' E' ->]; try congruence; try (subst; discriminate).
Qed.

Lemma descends_kept f st : sized f -> descends f st -> kept' f st /\ sized st.
Proof.
  intros S. induction 1 as [|CS cb dummy st c r st' D IH E|orc c h e c' h' D IH E].
  - auto using kept'_refl.
  - destruct IH as [K Z]. apply step_kept in E. destruct E as [K' _]. split; [eauto using kept'_trans|]. eauto using kept_sized.
  - destruct IH as [K Z]. rewrite (clone_state _ _ _ _ _ _ Z E). auto.
Qed.

(** Resetting any descendant of a fresh state. *)
Lemma reset_alike_fresh bld ty ch g f st : 1 <= ch -> fresh bld ty ch g ->
  (f = g \/ exists func ud, f = set_callback (set_mode g MODE_CALLBACK) func ud) -> kept' f st ->
  exists st', src_reset (Some st) = Ok (0, Some st') /\ alike st' f.
Proof.
  intros Hc F Hf K.
  assert (V : st_vt f = st_vt g /\ st_channels f = st_channels g /\ st_priv f = st_priv g /\ st_last_ratio f = dzero /\
    st_last_position f = dzero /\ st_error f = 0 /\ st_saved_frames f = 0 /\ st_saved_data f = 0).
  { assert (G : st_last_ratio g = dzero /\ st_last_position g = dzero /\ st_error g = 0 /\ st_saved_frames g = 0 /\ st_saved_data g = 0)
      by (destruct F as [? ? ? ? ? ? ->|_ _ ->|_ _ ->]; cbn; auto).
    destruct Hf as [->|(func & ud & ->)]; cbn; tauto. }
  destruct V as (V1 & V2 & V3 & V4 & V5 & V6 & V7 & V8). destruct K as [K1 K2 K3 K4 K5 K6].
  assert (R : exists st1, vt_reset st = Ok st1 /\ norm_priv (st_priv st1) = norm_priv (st_priv f) /\
     st_vt st1 = st_vt st /\ st_channels st1 = st_channels st /\ st_mode st1 = st_mode st /\ st_callback st1 = st_callback st /\
     st_user_data st1 = st_user_data st).
  { assert (Sinc : forall t bl, g = fresh_sinc t ch bl -> 0 <= bl -> exists st1, sinc_reset st = Ok st1 /\
       norm_priv (st_priv st1) = norm_priv (st_priv f) /\
       st_vt st1 = st_vt st /\ st_channels st1 = st_channels st /\ st_mode st1 = st_mode st /\ st_callback st1 = st_callback st /\
       st_user_data st1 = st_user_data st).
    { intros t bl Eg Hb. rewrite V3 in K6. rewrite V2 in K2. rewrite V3. rewrite Eg in *. cbn [st_priv fresh_sinc blank_state st_channels] in *.
      unfold sinc_reset. destruct (st_priv st) as [|x|x]; try contradiction K6. cbn [same_shape s_coeff_half_len s_index_inc s_coeffs s_b_len s_buffer] in K6.
      destruct K6 as (C1 & C2 & C3 & C4 & C5). rewrite app_length, !repeat_length in C5.
      rewrite <- K2. rewrite sinc_reset_buffer; [|lia|lia|unfold zlen; lia]. cbn [bind].
      eexists. split; [reflexivity|]. cbn [st_priv set_priv]. split; [|cbn; auto].
      cbn [norm_priv]. unfold s_set_counts. cbn. rewrite <- C1, <- C2, <- C3, <- C4. reflexivity. }
    assert (Hold : forall vt, g = fresh_hold vt ch -> exists st1, hold_reset st = Ok st1 /\
       norm_priv (st_priv st1) = norm_priv (st_priv f) /\
       st_vt st1 = st_vt st /\ st_channels st1 = st_channels st /\ st_mode st1 = st_mode st /\ st_callback st1 = st_callback st /\
       st_user_data st1 = st_user_data st).
    { intros vt Eg. rewrite V3 in K6. rewrite V2 in K2. rewrite V3. rewrite Eg in *. cbn [st_priv fresh_hold blank_state st_channels] in *.
      unfold hold_reset. destruct (st_priv st) as [|x|x]; try contradiction K6. cbn [same_shape h_last_value] in K6.
      rewrite repeat_length in K6. rewrite <- K2.
      rewrite blit_ok by (rewrite ?zlen_repeat by lia; unfold zlen; lia). cbn [bind].
      eexists. split; [reflexivity|]. cbn [st_priv set_priv]. split; [|cbn; auto].
      cbn [norm_priv h_dirty h_last_value Z.to_nat firstn app Nat.add]. rewrite skipn_all2, app_nil_r by (rewrite repeat_length; lia). reflexivity. }
    assert (Vst : st_vt st = st_vt g) by congruence.
    destruct F as [t bl T Eb H0 H1 Eg|_ _ Eg|_ _ Eg].
    - replace (vt_reset st) with (sinc_reset st); [exact (Sinc t bl Eg H0)|]. unfold vt_reset. rewrite Vst, Eg. cbn [st_vt fresh_sinc blank_state].
      unfold sinc_vt. destruct (ch =? 1), (ch =? 2), (ch =? 4), (ch =? 6); reflexivity.
    - replace (vt_reset st) with (hold_reset st); [exact (Hold _ Eg)|]. unfold vt_reset. rewrite Vst, Eg. reflexivity.
    - replace (vt_reset st) with (hold_reset st); [exact (Hold _ Eg)|]. unfold vt_reset. rewrite Vst, Eg. reflexivity. }
  destruct R as (st1 & E1 & R1 & R2 & R3 & R4 & R5 & R6). unfold src_reset. rewrite E1. cbn [bind]. eexists. split; [reflexivity|].
  unfold alike, norm, set_priv, set_error, set_saved, set_ratio, set_position.
  cbn [st_vt st_last_ratio st_last_position st_error st_channels st_mode st_callback st_user_data st_saved_frames st_saved_data st_priv].
  rewrite R1, R2, R3, R4, R5, R6, V4, V5, V6, V7, V8, <- K1, <- K2, <- K3, <- K4, <- K5. reflexivity.
Qed.

Lemma sim_visible {CS} (x y : outcome (list (api_result CS) * SRC_STATE)) :
  sim (fun x y => fst x = fst y /\ alike (snd x) (snd y)) x y -> visible x = visible y.
Proof. intros [[a s] [b t] [E _]|f]; cbn in *; congruence. Qed.

Lemma reset_thm bld orc orc2 ty ch h h2 e e2 c c2 h' h2' st :
  src_new bld orc ty ch h = Ok (e, Some c, h') -> descends (c_state c) st ->
  src_new bld orc2 ty ch h2 = Ok (e2, Some c2, h2') ->
  exists st', src_reset (Some st) = Ok (0, Some st') /\
    forall CS (cb : callback_t CS) dummy cs,
      visible (api_run CS cb dummy st' cs) = visible (api_run CS cb dummy (c_state c2) cs).
Proof.
  intros E D E2. apply new_fresh in E, E2. destruct E as [F Hc], E2 as [F2 _].
  rewrite (fresh_det _ _ _ _ _ F2 F).
  destruct (descends_kept _ _ (fresh_sized _ _ _ _ Hc F) D) as [K _].
  destruct (reset_alike_fresh _ _ _ _ _ _ Hc F (or_introl eq_refl) K) as (st' & R & A). exists st'. split; [exact R|].
  intros. apply sim_visible, run_alike, A.
Qed.
Lemma reset_callback_thm bld orc orc2 func ty ch ud h h2 e e2 c c2 h' h2' st :
  src_callback_new bld orc func ty ch ud h = Ok (e, Some c, h') -> descends (c_state c) st ->
  src_callback_new bld orc2 func ty ch ud h2 = Ok (e2, Some c2, h2') ->
  exists st', src_reset (Some st) = Ok (0, Some st') /\
    forall CS (cb : callback_t CS) dummy cs,
      visible (api_run CS cb dummy st' cs) = visible (api_run CS cb dummy (c_state c2) cs).
Proof.
  intros E D E2. destruct (Z.eq_dec func 0) as [->|N]; [discriminate E|]. rewrite callback_new_ok in E, E2 by exact N.
  destruct (src_new bld orc ty ch h) as [[[e1 [c1|]] h1]|] eqn:Ea; try discriminate E. injection E as <- <- <-.
  destruct (src_new bld orc2 ty ch h2) as [[[e3 [c3|]] h3]|] eqn:Eb; try discriminate E2. injection E2 as <- <- <-.
  cbn [c_state] in *. apply new_fresh in Ea, Eb. destruct Ea as [F Hc], Eb as [F2 _]. rewrite (fresh_det _ _ _ _ _ F2 F).
  destruct (descends_kept (set_callback (set_mode (c_state c1) MODE_CALLBACK) func ud) st) as [K _]; [apply (fresh_sized _ _ _ _ Hc F)|exact D|].
  destruct (reset_alike_fresh _ _ _ _ _ st Hc F (or_intror (ex_intro _ func (ex_intro _ ud eq_refl))) K) as (st' & R & A).
  exists st'. split; [exact R|]. intros. apply sim_visible, run_alike, A.
Qed.
