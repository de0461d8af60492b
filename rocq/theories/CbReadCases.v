(** Example cases for C29: one read of ten frames from a block of twenty. *)
From Coq Require Import ZArith Reals List Bool Lia.
From Flocq Require Import Core IEEE754.BinarySingleNaN.
From Verif Require Import Base FloatFacts Types Api Heap Callback ApiHist HoldSpec LifeSpec SincApi SincTables SincCases CbSpec CbReadSpec CbCases.
Import ListNotations.
Local Open Scope Z_scope.

Definition rec_once := recorded nat once 0 1.
Definition ten (st : SRC_STATE) := src_callback_read _ rec_once 0 50 (Some st) done_ 10 (2 ^ 40) (0%nat, []) ones.
Definition ten_facts (o : outcome (Z * option SRC_STATE * (nat * list (list f32)) * mem)) : Z * Z * Z * nat * nat :=
  match o with
  | Ok (n, Some st, (_, rec), m) =>
      (n, src_error (Some st), st_saved_frames st, length (concat rec), match mread_n m (2 ^ 40) (Z.to_nat (n * 1)) with Ok l => length l | Fault _ => O end)
  | _ => (-1, 0, 0, O, O)
  end.

Lemma once_alone a : leaves_alone nat once a.
Proof. intros f ud k m. destruct k; reflexivity. Qed.
Lemma once_big : big_blocks once.
Proof. intros f ud k m. destruct k; cbn; lia. Qed.
Lemma rec_once_alone a : leaves_alone _ rec_once a.
Proof. intros f ud [k rec] m. destruct k; reflexivity. Qed.
Lemma ten_reads st before sv o : ten st = o -> ten_facts o = (10, 0, sv, 20%nat, 10%nat) -> 0 <= before <= 1 -> st_saved_data st = 0 -> st_saved_frames st = 0 ->
  exists out st' k rec m, reads _ rec_once 0 store 1 (eq done_) before st (0%nat, []) ones [inl (done_, 10)] out st' (k, rec) m /\
    zlen out = 10 /\ zlen (concat rec) = 20 /\ st_saved_frames st' = sv.
Proof.
  intros E F B Sd Sf. destruct o as [[[[n [st'|]] [k rec]] m]|f]; cbn [ten_facts] in F; try discriminate F. injection F as -> Er Es Er2 Ec.
  change (Z.pow_pos 2 40) with (2 ^ 40) in Ec.
  destruct (mread_n m (2 ^ 40) (Z.to_nat (10 * 1))) as [chunk|] eqn:Em; [|discriminate Ec].
  exists ([] ++ chunk), st', k, rec, m. split.
  - eapply (R_read _ rec_once 0 store 1 (eq done_) before st (0%nat, []) ones [] [] st (0%nat, []) ones ones 50 done_ 10 (2 ^ 40) 10 st' (k, rec) m chunk);
      [constructor|reflexivity|reflexivity| |apply ones_legal; lia|intros; apply rec_once_alone|exact E|exact Er|exact Em].
    intros Bl i Hi. rewrite Sd. split; [reflexivity|lia].
  - cbn [app]. unfold zlen. rewrite Ec, Er2. auto.
Qed.
Lemma ten_zoh : ten_facts (ten (hold_cb SRC_ZERO_ORDER_HOLD)) = (10, 0, 10, 20%nat, 10%nat).
Proof. vm_compute. reflexivity. Qed.
Lemma ten_linear : ten_facts (ten (hold_cb SRC_LINEAR)) = (10, 0, 10, 20%nat, 10%nat).
Proof. vm_compute. reflexivity. Qed.
Lemma ten_sinc : ten_facts (ten (fast_cb 1)) = (10, 0, 0, 20%nat, 10%nat).
Proof. vm_compute. reflexivity. Qed.

Definition ten_ok before st sv := exists out st' k rec m, reads _ rec_once 0 store 1 (eq done_) before st (0%nat, []) ones [inl (done_, 10)] out st' (k, rec) m /\
    zlen out = 10 /\ zlen (concat rec) = 20 /\ st_saved_frames st' = sv.
Lemma fresh_hold ty : ty = SRC_ZERO_ORDER_HOLD \/ ty = SRC_LINEAR -> st_saved_data (hold_cb ty) = 0 /\ st_saved_frames (hold_cb ty) = 0.
Proof. intros [->| ->]; vm_compute; auto. Qed.
Lemma fresh_fast : st_saved_data (fast_cb 1) = 0 /\ st_saved_frames (fast_cb 1) = 0.
Proof. vm_compute; auto. Qed.
Lemma zoh_ten : ten_ok 0 (hold_cb SRC_ZERO_ORDER_HOLD) 10.
Proof. exact (ten_reads _ 0 10 _ eq_refl ten_zoh ltac:(lia) (proj1 (fresh_hold _ (or_introl eq_refl))) (proj2 (fresh_hold _ (or_introl eq_refl)))). Qed.
Lemma linear_ten : ten_ok 1 (hold_cb SRC_LINEAR) 10.
Proof. exact (ten_reads _ 1 10 _ eq_refl ten_linear ltac:(lia) (proj1 (fresh_hold _ (or_intror eq_refl))) (proj2 (fresh_hold _ (or_intror eq_refl)))). Qed.
Lemma sinc_ten : ten_ok 0 (fast_cb 1) 0.
Proof. exact (ten_reads _ 0 0 _ eq_refl ten_sinc ltac:(lia) (proj1 fresh_fast) (proj2 fresh_fast)). Qed.
