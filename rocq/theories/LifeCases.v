(** Corollaries and example cases for Properties_Life.v. *)
From Coq Require Import ZArith List Bool Lia Permutation.
From Flocq Require Import IEEE754.BinarySingleNaN.
From Verif Require Import Base Types Sinc Api Heap Callback HoldSpec ApiHist HoldCore HoldRamp HoldProcess HoldStream HoldValue HoldMain
  ApiSpec ApiFacts ApiThms LifeSpec HeapFacts LifeFacts LifeThms LocalFacts ApiCases.
Import ListNotations.
Local Open Scope Z_scope.

(** ** C13 *)
Definition not_handed (orc : Z -> bool) (h : heap) (e : Z) (h' : heap) : Prop :=
  hp_live h' = hp_live h /\ (e = SRC_ERR_MALLOC_FAILED <-> some_failed orc h h').

Lemma c13_failed orc h : heap_ok h ->
  (forall bld ty ch e h', build_ok bld -> src_new bld orc ty ch h = Ok (e, None, h') ->
     hp_live h' = hp_live h /\ (e = SRC_ERR_MALLOC_FAILED <-> some_failed orc h h')) /\
  (forall bld func ty ch ud e h', build_ok bld -> src_callback_new bld orc func ty ch ud h = Ok (e, None, h') ->
     hp_live h' = hp_live h /\ (e = SRC_ERR_MALLOC_FAILED <-> some_failed orc h h')) /\
  (forall md c e h', life md (c_state c) -> src_clone orc (Some c) h = Ok (e, None, h') ->
     hp_live h' = hp_live h /\ e = SRC_ERR_MALLOC_FAILED /\ some_failed orc h h') /\
  (forall bld d ty ch m e d' h' m', build_ok bld -> src_simple bld orc d ty ch h m = Ok (e, d', h', m') ->
     hp_live h' = hp_live h /\ (some_failed orc h h' -> e = SRC_ERR_MALLOC_FAILED)).
Proof.
  intros H. split; [|split; [|split]].
  - intros bld ty ch e h' B E. exact (proj2 (proj2 (new_any _ _ _ _ _ _ _ _ H B E))).
  - intros bld func ty ch ud e h' B E. exact (proj2 (proj2 (callback_new_any _ _ _ _ _ _ _ _ _ _ H B E))).
  - intros md c e h' L E. destruct (clone_thm orc c h H (life_sized _ _ L)) as (h1 & _ & _ & [(C & D & F)|(c1 & C & _)]);
      rewrite C in E; injection E; intros; subst; [auto|discriminate].
  - intros bld d ty ch m e d' h' m' B E. destruct (simple_any _ _ _ _ _ _ _ _ _ _ _ H B E) as (_ & L & _ & F). auto.
Qed.

Lemma c13_delete orc h0 h cs c : heap_ok h0 -> reach orc h0 h cs -> In c cs ->
  exists h', src_delete (Some c) h = Ok h' /\ Permutation (hp_live h) (blocks c ++ hp_live h') /\ NoDup (hp_live h).
Proof.
  intros H R I. destruct (reach_delete _ _ _ _ _ H R I) as (h' & E & P). exists h'. split; [exact E|]. split; [exact P|].
  destruct (reach_inv _ _ _ _ H R) as [[N _] _]. exact N.
Qed.

Lemma c13_owned orc h0 h cs : heap_ok h0 -> reach orc h0 h cs -> Permutation (hp_live h) (concat (map blocks cs) ++ hp_live h0).
Proof. intros H R. exact (proj1 (proj2 (reach_inv _ _ _ _ H R))). Qed.

Lemma c13_allocated orc h : heap_ok h ->
  (forall bld ty ch e c h', build_ok bld -> src_new bld orc ty ch h = Ok (e, Some c, h') ->
     hp_live h' = blocks c ++ hp_live h /\ forall b, In b (blocks c) -> ~ In b (hp_live h)) /\
  (forall md c0 e c h', life md (c_state c0) -> src_clone orc (Some c0) h = Ok (e, Some c, h') ->
     hp_live h' = blocks c ++ hp_live h /\ forall b, In b (blocks c) -> ~ In b (hp_live h)).
Proof.
  intros H.
  assert (G : forall e c h', made orc h e (Some c) h' -> hp_live h' = blocks c ++ hp_live h /\ forall b, In b (blocks c) -> ~ In b (hp_live h)).
  { intros e c h' (K & _ & _ & (_ & L & _) & _). split; [exact L|]. intros b Ib Jb. destruct K as [N _]. rewrite L in N.
    apply in_split in Ib. destruct Ib as (l1 & l2 & Eb). rewrite Eb in N. rewrite <- app_assoc in N. cbn in N.
    apply NoDup_remove_2 in N. apply N. rewrite !in_app_iff. auto. }
  split.
  - intros bld ty ch e c h' B E. exact (G _ _ _ (new_any _ _ _ _ _ _ _ _ H B E)).
  - intros md c0 e c h' L E. exact (G _ _ _ (clone_any _ _ _ _ _ _ H (life_sized _ _ L) E)).
Qed.

(** A history: two converters, one cloned, the first deleted. *)
Definition hx : heap := mkHeap 5 [2; 4].
Lemma hx_ok : heap_ok hx. Proof. exact (proj1 c12_case). Qed.
Lemma no_build_ok : build_ok (mkBuild None None None).
Proof. intros ty t. unfold sinc_table. cbn. destruct (ty =? _); [|destruct (ty =? _); [|destruct (ty =? _)]]; discriminate. Qed.
Lemma c13_case : exists h c, reach (fun n => negb (n =? 9)) hx h [c] /\ heap_ok hx /\ length (hp_live h) = 5%nat.
Proof.
  assert (R1 : exists h c, reach (fun n => negb (n =? 9)) hx h [c] /\ c_state c = ex_conv Zoh 2 /\ hp_live h = [7; 6; 5; 2; 4] /\ hp_next h = 8).
  { eexists _, _. split; [|split; [|split]].
    - eapply (R_new _ _ hx [] (mkBuild None None None) SRC_ZERO_ORDER_HOLD 2 0 (Some _)); [constructor|exact no_build_ok|reflexivity].
    - reflexivity.
    - reflexivity.
    - reflexivity. }
  destruct R1 as (h & c & R & Es & L & N).
  (* cloning fails at the second allocation, and leaves the heap as it was *)
  destruct (src_clone (fun n => negb (n =? 9)) (Some c) h) as [[[e oc] h2]|] eqn:E.
  2: { destruct c as [b1 b2 b3 s]. cbn in Es. subst s. destruct h. cbn in L, N. subst. vm_compute in E. discriminate E. }
  assert (oc = None /\ hp_live h2 = hp_live h) as [-> L2].
  { destruct c as [b1 b2 b3 s]. cbn in Es. subst s. destruct h. cbn in L, N. subst.
    vm_compute in E. injection E as _ <- <-. split; reflexivity. }
  exists h2, c. split; [|split; [exact hx_ok|rewrite L2, L; reflexivity]].
  exact (R_clone _ _ h [] c [] e None h2 R E).
Qed.

(** ** C14 *)
Lemma c14_same orc md c h e c' h' : life md (c_state c) -> src_clone orc (Some c) h = Ok (e, Some c', h') ->
  forall CS (cb : callback_t CS) dummy cs, api_run CS cb dummy (c_state c') cs = api_run CS cb dummy (c_state c) cs.
Proof. intros L E CS cb dummy cs. now rewrite (clone_state _ _ _ _ _ _ (life_sized _ _ L) E). Qed.
Lemma c14_made orc md c h : heap_ok h -> life md (c_state c) ->
  exists h', (src_clone orc (Some c) h = Ok (SRC_ERR_MALLOC_FAILED, None, h') /\ some_failed orc h h') \/
    (exists c', src_clone orc (Some c) h = Ok (0, Some c', h') /\ ~ some_failed orc h h').
Proof.
  intros H L. destruct (clone_thm orc c h H (life_sized _ _ L)) as (h1 & _ & _ & [(C & D & F)|(c1 & C & D & F & G)]); exists h1; [auto|].
  right. exists c1. auto.
Qed.

Definition two_states (a b : SRC_STATE) {CS} (x y : CS) : Z -> SRC_STATE * CS := fun i => if i =? 0 then (a, x) else (b, y).
Lemma c14_independent orc md c h e c' h' : life md (c_state c) -> src_clone orc (Some c) h = Ok (e, Some c', h') ->
  forall CS (cb : Z -> callback_t CS) dummy (x y : CS) sched own M rs s' m',
    (forall g i, local_cb g (cb i)) ->
    (forall i j a, i <> j -> own i a <> None -> own j a = None) ->
    (forall i a v, own i a = Some v -> M a = Some v) ->
    (* what each of them does alone; the clone is replaced by the original *)
    (forall i, alone CS cb dummy i (two_states (c_state c) (c_state c) x y i) (calls_of i sched) (own i) = Ok (rs i, s' i, m' i)) ->
    exists out S' M', together CS cb dummy (two_states (c_state c) (c_state c') x y) sched M = Ok (out, S', M') /\
      (forall i, results_of i out = rs i /\ (forall a v, m' i a = Some v -> M' a = Some v)) /\
      (forall a, (forall i, own i a = None) -> M' a = M a).
Proof.
  intros L E CS cb dummy x y sched own M rs s' m' Lc Dis Sub Al. rewrite (clone_state _ _ _ _ _ _ (life_sized _ _ L) E).
  destruct (together_thm CS cb dummy Lc sched _ own M rs s' m' Dis Sub Al) as (out & S' & M' & A & B & C).
  exists out, S', M'. split; [exact A|]. split; [|exact C]. intros i. destruct (B i) as (B1 & _ & B3). auto.
Qed.

Definition ex_c : converter := mkConv 5 6 7 (ex_conv Lin 2).
Lemma ex_c_life : life MODE_PROCESS (c_state ex_c).
Proof. destruct (ex_created Lin) as (bld & orc & h & c & h' & E & Es). cbn [ex_c c_state]. rewrite Es. exact (L_new _ _ _ _ _ _ _ _ E). Qed.
Lemma c14_case : life MODE_PROCESS (c_state ex_c) /\ exists c' h', src_clone (fun _ => true) (Some ex_c) hx = Ok (0, Some c', h').
Proof. split; [exact ex_c_life|]. eexists _, _. reflexivity. Qed.

(** ** C15 *)
Lemma c15_case : exists bld orc h c h' st, src_new bld orc SRC_LINEAR 1 h = Ok (0, Some c, h') /\ descends (c_state c) st /\ st <> c_state c.
Proof.
  exists (mkBuild None None None), (fun _ => true), hx. eexists _, _, _. split; [reflexivity|]. split.
  - eapply (D_step _ unit (fun _ _ cs m => (cs, m, None, 0)) 0 _ (A_set_ratio (d_of_Z 2)) (R_code 0)); [apply D_self|reflexivity].
  - cbn [c_state]. intros X. apply (f_equal (fun s => dlt dzero (st_last_ratio s))) in X. vm_compute in X. discriminate X.
Qed.

(** ** C36 *)
Lemma c36_new bld orc ty ch h e c h' orc2 h2 e2 c2 h2' :
  src_new bld orc ty ch h = Ok (e, Some c, h') -> src_new bld orc2 ty ch h2 = Ok (e2, Some c2, h2') -> c_state c = c_state c2.
Proof. intros E E2. apply new_fresh in E, E2. destruct E as [F _], E2 as [F2 _]. exact (fresh_det _ _ _ _ _ F F2). Qed.

(** Two zero-order-hold converters, two channels, one call each, on separate memories. *)
Definition mem36 (i : Z) : mem := fun a => if (i =? 0) then (if (100 <=? a) && (a <? 116) then Some (f_of_Z a) else None)
                                          else if i =? 1 then (if (200 <=? a) && (a <? 216) then Some (f_of_Z a) else None) else None.
Definition data36 (b : Z) : SRC_DATA := mkData b (b + 8) 4 4 0 0 0 (d_of_Z 2).
Definition sched36 : list (Z * wcall) := [(0, W_process (Some (data36 100))); (1, W_process (Some (data36 200))); (0, W_reset)].
Definition no_cb : Z -> callback_t unit := fun _ _ _ cs m => (cs, m, None, 0).
Lemma c36_case : (forall i j a, i <> j -> mem36 i a <> None -> mem36 j a = None) /\
  (forall g (i : Z), local_cb g (no_cb i)) /\
  (forall i, exists rs s' m', alone unit no_cb (fun _ => 0) i
      (two_states (ex_conv Zoh 2) (ex_conv Zoh 2) tt tt i) (calls_of i sched36) (mem36 i) = Ok (rs, s', m')).
Proof.
  split; [|split].
  - intros i j a N. unfold mem36. destruct (Z.eqb_spec i 0), (Z.eqb_spec j 0), (Z.eqb_spec i 1), (Z.eqb_spec j 1); try lia; try congruence.
    + destruct ((100 <=? a) && (a <? 116)) eqn:E; [|congruence]. intros _. replace ((200 <=? a) && (a <? 216)) with false by lia. reflexivity.
    + destruct ((200 <=? a) && (a <? 216)) eqn:E; [|congruence]. intros _. replace ((100 <=? a) && (a <? 116)) with false by lia. reflexivity.
  - intros g i f u cs m. split; [reflexivity|]. intros a. tauto.
  - assert (G : forall r : outcome (list wres * (SRC_STATE * unit) * mem), match r with Ok _ => true | Fault _ => false end = true ->
      exists rs s' m', r = Ok (rs, s', m')) by (intros [[[a b] c]|f] H; [eauto|discriminate]).
    intros i. apply G. destruct (Z.eq_dec i 0) as [->|N0]; [vm_compute; reflexivity|]. destruct (Z.eq_dec i 1) as [->|N1]; [vm_compute; reflexivity|].
    assert (calls_of i sched36 = []) as ->.
    { unfold sched36, calls_of. replace (0 =? i) with false by lia. replace (1 =? i) with false by lia. reflexivity. }
    reflexivity.
Qed.

(** ** C37 *)
Lemma c37_null bld orc ty ch h m c h1 : src_new bld orc ty ch h = Ok (0, Some c, h1) -> src_simple bld orc None ty ch h m = Fault F_null.
Proof. intros E. unfold src_simple. rewrite E. reflexivity. Qed.
Lemma c37_case : heap_ok hx /\ build_ok (mkBuild None None None) /\
  exists c h1, src_new (mkBuild None None None) (fun _ => true) SRC_LINEAR 2 hx = Ok (0, Some c, h1).
Proof. split; [exact hx_ok|]. split; [exact no_build_ok|]. eexists _, _. reflexivity. Qed.
