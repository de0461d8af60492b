(** C29, reads that fail: a callback that once returns NULL with a positive count. *)
From Coq Require Import ZArith Reals List Bool Lia.
From Flocq Require Import Core IEEE754.BinarySingleNaN.
From Verif Require Import Base Types Common Api Heap Callback ApiHist HoldSpec LifeSpec SincApi SincTables SincCases CbSpec CbReadSpec CbFailSpec CbCases.
Import ListNotations.
Local Open Scope Z_scope.

Section Later.
  Variables (CS : Type) (cb : callback_t CS) (dummy : Z).
  Local Notation later := (later CS cb dummy).
  Definition stuck (st : SRC_STATE) : Prop := st_saved_data st = 0 /\ 0 < st_saved_frames st.
  Lemma stuck_read fuel st r frames data cs m k st' cs' m' : stuck st ->
    src_callback_read CS cb dummy fuel (Some st) r frames data cs m = Ok (k, Some st', cs', m') -> k = 0 /\ cs' = cs /\ stuck st'.
  Proof.
    intros [D F]. unfold src_callback_read. destruct (frames <=? 0) eqn:Ef; [intros [= <- <- <- <-]; repeat split; assumption|].
    destruct (st_mode st) eqn:Em; [intros [= <- <- <- <-]; repeat split; assumption|].
    destruct (st_callback st =? 0); [intros [= <- <- <- <-]; repeat split; assumption|].
    destruct (is_bad_src_ratio r); [intros [= <- <- <- <-]; repeat split; assumption|].
    destruct fuel as [|fuel]; [discriminate|]. cbn [cb_loop]. apply Z.leb_gt in Ef. rewrite (proj2 (Z.ltb_lt 0 frames) Ef).
    unfold cb_fetch. cbn [input_frames]. rewrite (proj2 (Z.eqb_neq (st_saved_frames st) 0)) by lia. cbv beta iota.
    unfold src_process. cbn [st_mode set_mode is_process negb data_in input_frames]. rewrite D, (proj2 (Z.ltb_lt _ _) F). cbn [Z.eqb andb orb bind].
    replace (negb (SRC_ERR_BAD_DATA_PTR =? 0)) with true by reflexivity. cbn [bind].
    replace (negb (SRC_ERR_BAD_DATA_PTR =? 0)) with true by reflexivity. intros [= <- <- <- <-]. repeat split. exact F.
  Qed.
  Lemma stuck_later st cs n st' cs' : later st cs n st' cs' -> stuck st -> n = 0 /\ cs' = cs /\ stuck st'.
  Proof.
    induction 1 as [|st0 cs0 n st cs fuel r frames data m k st' cs' m' _ IH E|st0 cs0 n st cs r e st' _ IH E]; intros S; [auto| |].
    - destruct (IH S) as (-> & -> & S1). destruct (stuck_read _ _ _ _ _ _ _ _ _ _ _ S1 E) as (-> & -> & S2). auto.
    - destruct (IH S) as (-> & -> & S1). split; [reflexivity|]. split; [reflexivity|]. unfold src_set_ratio in E.
      destruct (is_bad_src_ratio r); injection E as <- <-; exact S1.
  Qed.
End Later.

(** A block of 20 frames, then NULL with a count of 5, then blocks of 20 frames again. *)
Definition hiccup : callback_t nat := fun _ _ k m =>
  match k with O => (1%nat, m, Some 100, 20) | S O => (2%nat, m, Some 0, 5) | _ => (k, m, Some 100, 20) end.
Definition rec_hiccup := recorded nat hiccup 0 1.
Definition thirty (st : SRC_STATE) := src_callback_read _ rec_hiccup 0 50 (Some st) done_ 30 (2 ^ 40) (0%nat, []) ones.
Definition thirty_facts (o : outcome (Z * option SRC_STATE * (nat * list (list f32)) * mem)) : Z * Z * Z * Z * nat * nat :=
  match o with Ok (n, Some st, (k, rec), _) => (n, src_error (Some st), st_saved_frames st, st_saved_data st, k, length (concat rec)) | _ => (-1, 0, 0, 0, O, O) end.
Lemma hiccup_proper : proper nat hiccup 0 store 1.
Proof. intros f ud k m _. destruct k as [|[|k]]; cbn; (split; [auto|]); [apply store_block; lia|split; [lia|auto]|apply store_block; lia]. Qed.
Lemma hiccup_nonnegative : nonnegative nat hiccup.
Proof. intros f ud k m. destruct k as [|[|k]]; cbn; lia. Qed.
Lemma thirty_zoh : thirty_facts (thirty (hold_cb SRC_ZERO_ORDER_HOLD)) = (0, SRC_ERR_BAD_DATA_PTR, 5, 0, 2%nat, 20%nat).
Proof. vm_compute. reflexivity. Qed.

Lemma null_gen o : src_callback_read _ (recorded nat hiccup 0 1) 0 50 (Some (hold_cb SRC_ZERO_ORDER_HOLD)) done_ 30 (2 ^ 40) (0%nat, []) ones = o ->
  thirty_facts o = (0, SRC_ERR_BAD_DATA_PTR, 5, 0, 2%nat, 20%nat) ->
  exists st rec m, src_callback_read _ (recorded nat hiccup 0 1) 0 50 (Some (hold_cb SRC_ZERO_ORDER_HOLD)) done_ 30 (2 ^ 40) (0%nat, []) ones = Ok (0, Some st, (2%nat, rec), m) /\
    zlen (concat rec) = 20 /\ src_error (Some st) = SRC_ERR_BAD_DATA_PTR /\
    forall n st' cs', later _ (recorded nat hiccup 0 1) 0 st (2%nat, rec) n st' cs' -> n = 0 /\ cs' = (2%nat, rec).
Proof.
  intros E H. destruct o as [[[[n [st|]] [k rec]] m]|f]; cbn [thirty_facts] in H; [|discriminate H..]. injection H as -> He Hf Hd -> Hl.
  exists st, rec, m. split; [exact E|]. split; [unfold zlen; rewrite Hl; reflexivity|]. split; [exact He|].
  intros n st' cs' L. destruct (stuck_later _ _ _ _ _ _ _ _ L) as (-> & -> & _); [split; [exact Hd|rewrite Hf; lia]|auto].
Qed.
Lemma null_block :
  proper nat hiccup 0 store 1 /\ nonnegative nat hiccup /\ cb_created SRC_ZERO_ORDER_HOLD 1 (hold_cb SRC_ZERO_ORDER_HOLD) /\ legal_read store 1 done_ 30 (2 ^ 40) ones /\
  exists st rec m, src_callback_read _ (recorded nat hiccup 0 1) 0 50 (Some (hold_cb SRC_ZERO_ORDER_HOLD)) done_ 30 (2 ^ 40) (0%nat, []) ones = Ok (0, Some st, (2%nat, rec), m) /\
    zlen (concat rec) = 20 /\ src_error (Some st) = SRC_ERR_BAD_DATA_PTR /\
    forall n st' cs', later _ (recorded nat hiccup 0 1) 0 st (2%nat, rec) n st' cs' -> n = 0 /\ cs' = (2%nat, rec).
Proof. exact (conj hiccup_proper (conj hiccup_nonnegative (conj zoh_cb (conj (ones_legal 30 ltac:(lia)) (null_gen (thirty (hold_cb SRC_ZERO_ORDER_HOLD)) eq_refl thirty_zoh))))). Qed.
