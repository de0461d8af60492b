(** Example cases for Properties_Data.v. *)
From Coq Require Import ZArith List Bool Lia.
From Flocq Require Import IEEE754.BinarySingleNaN.
From Verif Require Import Base Types Api Heap Callback HoldSpec ApiHist ApiSpec LifeSpec SincSpec SincApi SincTables SincCases ApiCases DataSpec.
Import ListNotations.
Local Open Scope Z_scope.

(** A NaN or an infinity at every address from 1 on. *)
Definition wild : mem := fun a => if 1 <=? a then Some (if Z.odd a then B754_nan else B754_infinity true) else None.
Lemma wild_places : same_places ones wild.
Proof. intros a. unfold ones, wild. destruct (1 <=? a); split; intros H; discriminate H || reflexivity. Qed.

Definition tame_history : list (api_call unit) := [A_process (Some (request (part 4) 7 10 1)) ones; A_set_ratio done_; A_reset].
Definition wild_history : list (api_call unit) := [A_process (Some (request (part 4) 7 10 1)) wild; A_set_ratio done_; A_reset].
Lemma histories_match : Forall2 same_request tame_history wild_history.
Proof.
  constructor; [split; [reflexivity|exact wild_places]|]. constructor; [reflexivity|]. constructor; [reflexivity|constructor].
Qed.
Lemma fast_life : life MODE_PROCESS (fast_new 2).
Proof. destruct new2 as (bld & orc & ty & h & c & h' & T & E & ->). exact (L_new _ _ _ _ _ _ _ _ E). Qed.
Lemma wild_runs : run 2 tame_history = inl [(0, 7, 2); (0, 0, 0); (0, 0, 0)] /\ run 2 wild_history = inl [(0, 7, 2); (0, 0, 0); (0, 0, 0)].
Proof. split; vm_compute; reflexivity. Qed.

(** Callbacks that write one sample at address 500 and hand out one frame. *)
Definition gives (x : f32) : callback_t unit := fun _ _ _ m => (tt, (fun a => if a =? 500 then Some x else m a), Some 500, 1).
Lemma gives_match x y : same_supply (gives x) (gives y).
Proof. intros fp ud cs m m' M. cbn. split; [reflexivity|]. intros a. destruct (a =? 500); [split; discriminate|apply M]. Qed.
