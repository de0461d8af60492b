(** A constant signal through a fastest sinc converter: example and overflow for Properties_Gain.v. *)
From Coq Require Import ZArith Reals List Bool Lia Lra.
From Flocq Require Import Core IEEE754.BinarySingleNaN.
From Verif Require Import Base FloatFacts PosFacts Types Common Sinc Api Heap Callback ApiHist HoldSpec HoldCore HoldRamp HoldMain LifeSpec SincSpec SincApi
  SincTables SincCases GainMain.
Import ListNotations.
Local Open Scope Z_scope.

(** 60 frames of the value v: in memory and as a stream. *)
Definition every (v : f32) : mem := fun a => if 1 <=? a then Some v else None.
Definition plateau (v : f32) : stream := fun i _ => if (0 <=? i) && (i <? 60) then v else fzero.
Lemma plateau_zero v i k : i < 0 -> plateau v i k = fzero.
Proof. intros H. unfold plateau. destruct (Z.leb_spec 0 i); [lia|reflexivity]. Qed.
Lemma plateau_at v i k : 0 <= i < 60 -> plateau v i k = v.
Proof. intros H. unfold plateau. destruct (Z.leb_spec 0 i); [|lia]. destruct (Z.ltb_spec i 60); [reflexivity|lia]. Qed.
Lemma plateau_within v i k : is_finite v = true -> is_finite (plateau v i k) = true /\ (Rabs (B2R (plateau v i k)) <= Rabs (B2R v))%R.
Proof.
  intros F. unfold plateau. destruct (_ && _); [split; [exact F|apply Rle_refl]|]. split; [reflexivity|]. cbn [B2R fzero]. rewrite Rabs_R0. apply Rabs_pos.
Qed.
Lemma every_valid v : valid_call 1 (request done_ 60 60 1) (every v).
Proof.
  assert (K : forall a j, 1 <= a -> 0 <= j -> every v (a + j) <> None).
  { intros a j Ha J. unfold every. destruct (Z.leb_spec 1 (a + j)); [discriminate|lia]. }
  unfold valid_call, request. cbn [data_in data_out input_frames output_frames src_ratio].
  repeat (split; [first [lia|exact one_range|nia]|]). split; [intros j Hj; apply K; lia|]. split; [intros j Hj; apply K; lia|]. left. nia.
Qed.
Lemma plateau_holds v : holds (every v) 100 1 60 (plateau v) 0.
Proof.
  intros i c Hi Hc. rewrite Z.add_0_l, plateau_at by lia. unfold every. destruct (Z.leb_spec 1 (100 + (i * 1 + c))); [reflexivity|nia].
Qed.
Definition judge (test : list f32 -> bool) (o : outcome (Z * option SRC_STATE * option SRC_DATA * mem)) : bool :=
  match o with
  | Ok (e, Some _, Some d1, m1) =>
      (e =? 0) && (input_frames_used d1 =? 60) && (output_frames_gen d1 =? 60) &&
      match mread_n m1 (2 ^ 40) (Z.to_nat (60 * 1)) with Ok l => test l | _ => false end
  | _ => false
  end.
Definition passes (st : SRC_STATE) (v : f32) (test : list f32 -> bool) : bool := judge test (src_process (Some st) (Some (request done_ 60 60 1)) (every v)).
Lemma plateau_stream st v test : passes st v test = true -> exists log out st' o',
  sinc_streaming 1 (plateau v) (eq done_) st 0 log out st' o' /\ total_gen log = 60 /\ test out = true.
Proof.
  unfold passes. destruct (src_process (Some st) (Some (request done_ 60 60 1)) (every v)) as [[[[e [st1|]] [d1|]] m1]|f] eqn:E; try discriminate. unfold judge.
  intros W. apply andb_prop in W as [W W4]. apply andb_prop in W as [W W3]. apply andb_prop in W as [W1 W2]. apply Z.eqb_eq in W1, W2, W3. subst e.
  destruct (mread_n m1 (2 ^ 40) (Z.to_nat (60 * 1))) as [chunk|f] eqn:R; [|discriminate].
  exists [Ev_call (request done_ 60 60 1) d1], (chunk ++ []), st1, (0 + input_frames_used d1). split; [|split; [cbn [total_gen]; rewrite W3; reflexivity|rewrite app_nil_r; exact W4]].
  eapply SS_call; [exact (every_valid v)|apply plateau_holds|reflexivity| |exact E|rewrite W3; exact R|apply SS_done].
  intros _ i c Hi. unfold plateau. cbn in Hi. destruct (Z.ltb_spec i 60); [lia|]. now rewrite andb_false_r.
Qed.
Lemma ones_pass : passes (fast_new 1) (f_of_Z 1) (fun _ => true) = true. Proof. vm_compute. reflexivity. Qed.
Lemma max_passes : passes (fast_new 1) flt_max (fun l => match nth_error l 1 with Some y => negb (is_finite y) | _ => false end) = true. Proof. vm_compute. reflexivity. Qed.

Lemma in_range_eq ch X st o log out st' o' : sinc_streaming ch X (eq done_) st o log out st' o' -> sinc_streaming ch X in_range st o log out st' o'.
Proof. intros S. induction S; econstructor; eauto; match goal with H : done_ = _ |- in_range _ => rewrite <- H; exact one_range end. Qed.

Definition one : f32 := f_of_Z 1.
Lemma one_val : B2R one = 1%R.
Proof. unfold one. vm_compute. lra. Qed.

Lemma plateau_case : sinc_start fastest_table 1 (fast_new 1) /\ (forall i k, i < 0 -> plateau one i k = fzero) /\
  (exists log out st' o', sinc_streaming 1 (plateau one) (eq done_) (fast_new 1) 0 log out st' o' /\ total_gen log = 60) /\
  fst (pos_at (0, dzero) (fun _ => done_) 30) = 30 /\
  (forall i, (IZR (Z.abs (i - 30)) <= IZR 2464 / (IZR 128 * Rmin 1 (B2R done_)) + 4)%R -> plateau one i 0 = one).
Proof.
  split; [left; exact new1|]. split; [apply plateau_zero|].
  split. { destruct (plateau_stream _ _ _ ones_pass) as (log & out & st' & o' & S & G & _). exists log, out, st', o'. auto. }
  split; [vm_compute; reflexivity|]. intros i Hi. apply plateau_at. destruct done_val as [V _]. rewrite V, Rmin_left in Hi by lra.
  destruct (Z_le_gt_dec (Z.abs (i - 30)) 24) as [L|L]; [lia|]. exfalso. assert (Q : (25 <= IZR (Z.abs (i - 30)))%R) by (apply IZR_le; lia). lra.
Qed.

Lemma plateau_overflows : sinc_start fastest_table 1 (fast_new 1) /\ (forall i k, i < 0 -> plateau flt_max i k = fzero) /\
  (forall i k, is_finite (plateau flt_max i k) = true /\ (Rabs (B2R (plateau flt_max i k)) <= Rabs (B2R flt_max))%R) /\
  exists log out st' o' y, sinc_streaming 1 (plateau flt_max) in_range (fast_new 1) 0 log out st' o' /\ sample 1 out 1 0 = Some y /\ is_finite y = false.
Proof.
  split; [left; exact new1|]. split; [apply plateau_zero|]. split; [intros; now apply plateau_within|].
  destruct (plateau_stream _ _ _ max_passes) as (log & out & st' & o' & S & _ & T). unfold sample. change (Z.to_nat (1 * 1 + 0)) with 1%nat.
  destruct (nth_error out 1) as [y|] eqn:E; [|discriminate T]. exists log, out, st', o', y. split; [now apply in_range_eq|]. split; [exact E|].
  now apply negb_true_iff.
Qed.

Lemma skewed_bounded : sinc_start fastest_table 2 (fast_new 2) /\ (forall i k, i < 0 -> skewed i k = fzero) /\
  (forall i c, is_finite (skewed i c) = true /\ (Rabs (B2R (skewed i c)) <= Rabs (B2R (f_of_Z 2)))%R) /\
  (6 * Rabs (B2R (f_of_Z 2)) < IZR (2 ^ 128))%R /\
  exists log out st' o', sinc_streaming 2 skewed in_range (fast_new 2) 0 log out st' o' /\ total_gen log = 2.
Proof.
  assert (V1 : B2R (f_of_Z 1) = 1%R) by exact one_val. assert (V2 : B2R (f_of_Z 2) = 2%R) by (vm_compute; lra).
  split; [left; exact new2|]. split; [|split; [|split]].
  - intros i k H. unfold skewed. destruct (Z.leb_spec 0 i); [lia|reflexivity].
  - intros i c. unfold skewed. destruct (_ && _); [|split; [reflexivity|rewrite V2; cbn [B2R fzero]; rewrite Rabs_R0; apply Rabs_pos]].
    destruct (Z.odd c); (split; [vm_compute; reflexivity|]); [apply Rle_refl|]. rewrite V1, V2, !Rabs_pos_eq; lra.
  - rewrite V2, Rabs_pos_eq by lra. assert (16 < IZR (2 ^ 128))%R by (apply IZR_lt; reflexivity). lra.
  - destruct (stereo_stream skew skewed skew_valid skew_holds) as (d' & log' & out' & st1' & o1' & S' & E' & G').
    + intros i c Hi. unfold skewed. destruct (Z.ltb_spec i 7); [lia|]. now rewrite andb_false_r.
    + exact stereo_skew.
    + exists log', out', st1', o1'. auto.
Qed.

Definition two_thirds : f64 := ddiv (d_of_Z 2) (d_of_Z 3).
Lemma step_case : in_range done_ /\ is_finite two_thirds = true /\ Bsign two_thirds = false /\ (0 <= B2R two_thirds < 1)%R /\
  forall i, (IZR (Z.abs (i - 40)) <= IZR 2464 / (IZR 128 * Rmin 1 (B2R done_)) + 4)%R -> (if i <? 100 then one else fzero) = one.
Proof.
  split; [exact one_range|]. split; [vm_compute; reflexivity|]. split; [vm_compute; reflexivity|]. split; [vm_compute; lra|].
  intros i Hi. destruct done_val as [V _]. rewrite V, Rmin_left in Hi by lra. destruct (Z.ltb_spec i 100) as [L|L]; [reflexivity|].
  exfalso. assert (Q : (60 <= IZR (Z.abs (i - 40)))%R) by (apply IZR_le; lia). lra.
Qed.
