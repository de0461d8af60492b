(** Example cases for C56: a callback that hands out the same twenty frames again and again, and one that alternates. *)
From Coq Require Import ZArith Reals List Bool Lia.
From Flocq Require Import Core IEEE754.BinarySingleNaN.
From Verif Require Import Base FloatFacts Types Api Heap Callback ApiHist HoldSpec LifeSpec SincApi SincTables SincCases CbSpec CbFeedSpec HoldMain CbCases.
Import ListNotations.
Local Open Scope Z_scope.

(** Twenty frames, then three, then twenty, ...; from count 1000 on it would report an end, but it never gets there. *)
Definition steady : callback_t Z := fun _ _ k m => if k =? 0 then (1, m, Some 100, 20) else if k =? 1 then (0, m, Some 105, 3) else (k, m, Some 100, 0).
Definition in_use (k : Z) : Prop := 0 <= k <= 1.

Lemma steady_proper : proper Z steady 0 store 1.
Proof.
  intros f ud k m _. unfold steady. destruct (k =? 0); [|destruct (k =? 1)]; (split; [auto|]); split; try lia;
    (try (left; lia)); right; right; (split; [lia|]); (split; [lia|]); unfold store; intros; lia.
Qed.
Lemma steady_feeds least : least <= 3 -> always_feeds Z steady 0 store 1 least in_use.
Proof.
  intros Hl f ud k m _ H. unfold in_use, steady in *. destruct (Z.eqb_spec k 0); [lia|]. destruct (Z.eqb_spec k 1); lia.
Qed.
Lemma steady_read n : 0 <= n <= 1000 -> fine_read store 1 done_ n (2 ^ 40) ones.
Proof.
  intros H. destruct (ones_legal n H) as [L|(_ & L1 & L2 & L3 & L4 & L5)].
  - split; [exact one_range|lia].
  - split; [exact one_range|]. intros P. split; [exact L1|]. split; [lia|]. split; [exact L3|].
    split; [destruct L4 as [L4|L4]; [discriminate L4|exact L4]|]. split; [exact L5|]. unfold store. intros a A. lia.
Qed.
Lemma use_0 : in_use 0.
Proof. unfold in_use. lia. Qed.
