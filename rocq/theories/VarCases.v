(** Concrete cases for C52: the ratio is set, then a request names another. *)
From Coq Require Import ZArith Reals List Bool Lia Lra.
From Flocq Require Import Core IEEE754.BinarySingleNaN.
From Verif Require Import Base FloatFacts PosFacts Types Common Sinc Api Heap Callback ApiHist HoldSpec HoldCore HoldRamp HoldMain HoldCases LifeSpec SincSpec SincApi
  SincTables SincCases GainMain GainCases AccSpec AccCases LocCases VarSpec.
Import ListNotations.
Local Open Scope Z_scope.

(** From 1 towards 2 (zero-order hold and linear). *)
Definition swept (kd : kind) (n : Z) : bool :=
  match src_process (Some (set_ratio (ex_conv kd 2) done_)) (Some (ex_data (d_of_Z 2))) (mem_of (whole zig)) with
  | Ok (e, Some _, Some d1, m1) => (output_frames_gen d1 =? n) && match mread_n m1 200 (Z.to_nat (n * 2)) with Ok _ => true | _ => false end
  | _ => false
  end.
Lemma swept_ok kd : swept kd 5 = true.
Proof. destruct kd; vm_compute; reflexivity. Qed.
Lemma set_ok (st : SRC_STATE) r : is_bad_src_ratio r = false -> src_set_ratio (Some st) r = (0, Some (set_ratio st r)).
Proof. intros H. unfold src_set_ratio. now rewrite H. Qed.

Lemma hold_swept kd : within 2 (whole zig) (f_of_Z 100) /\ exists log out st1 o1,
  streaming 2 (whole zig) in_range (lin_legal kd 2 (whole zig)) (ex_conv kd 2) 0 log out st1 o1 /\
  requests log = [inr done_; inl (ex_data (d_of_Z 2))] /\ total_gen log = 5.
Proof.
  split; [apply whole_within, zig_small|]. assert (W := swept_ok kd). unfold swept in W.
  destruct (src_process (Some (set_ratio (ex_conv kd 2) done_)) (Some (ex_data (d_of_Z 2))) (mem_of (whole zig))) as [[[[e [st1|]] [d1|]] m1]|f] eqn:E; try discriminate W.
  apply andb_prop in W as [W1 W2]. apply Z.eqb_eq in W1. set (n := 5) in *.
  destruct (mread_n m1 200 (Z.to_nat (n * 2))) as [chunk|f] eqn:R; [|discriminate W2].
  exists [Ev_ratio done_; Ev_call (ex_data (d_of_Z 2)) d1], (chunk ++ []), st1, (0 + input_frames_used d1).
  split; [|split; [reflexivity|cbn [total_gen]; rewrite W1; apply Z.add_0_r]].
  eapply S_ratio; [exact one_range|exact one_range|apply set_ok; vm_compute; reflexivity|].
  eapply S_call; [apply mem_of_valid, two_range|apply mem_of_holds|exact two_range| |exact E|cbn [data_out ex_data]; rewrite W1; exact R|apply S_done].
  destruct kd; cbn; [exact I|right; left; lia].
Qed.

(** From 2 towards 1 (sinc): 30 frames, of which frames 3 to 8 are 1. *)
Definition eased (st : SRC_STATE) (X : stream) : bool :=
  match src_process (Some (set_ratio st (d_of_Z 2))) (Some (request done_ 30 3 1)) (spread X) with
  | Ok (e, Some _, Some d1, m1) => (e =? 0) && (output_frames_gen d1 =? 3) && match mread_n m1 (2 ^ 40) (Z.to_nat (3 * 1)) with Ok _ => true | _ => false end
  | _ => false
  end.
Lemma eased_ok : eased (fast_new 1) (blip 3 9 fzero) = true. Proof. vm_compute. reflexivity. Qed.
Lemma eased_stream st X (allowed : f64 -> Prop) : (forall i c, X i c = X i 0) -> (forall i c, 30 <= i -> X i c = fzero) -> allowed done_ -> allowed (d_of_Z 2) -> eased st X = true ->
  exists log out st' o', sinc_streaming 1 X allowed st 0 log out st' o' /\ requests log = [inr (d_of_Z 2); inl (request done_ 30 3 1)] /\ total_gen log = 3.
Proof.
  intros Hc Hz A1 A2. unfold eased. destruct (src_process (Some (set_ratio st (d_of_Z 2))) (Some (request done_ 30 3 1)) (spread X)) as [[[[e [st1|]] [d1|]] m1]|f] eqn:E; try discriminate.
  intros W. apply andb_prop in W as [W W3]. apply andb_prop in W as [W1 W2]. apply Z.eqb_eq in W1, W2. subst e.
  destruct (mread_n m1 (2 ^ 40) (Z.to_nat (3 * 1))) as [chunk|f] eqn:R; [|discriminate].
  exists [Ev_ratio (d_of_Z 2); Ev_call (request done_ 30 3 1) d1], (chunk ++ []), st1, (0 + input_frames_used d1).
  split; [|split; [reflexivity|cbn [total_gen]; rewrite W2; reflexivity]].
  eapply SS_ratio; [exact two_range|exact A2|apply set_ok; vm_compute; reflexivity|].
  eapply SS_call; [exact (spread_valid X)|apply spread_holds, Hc|exact A1| |exact E|rewrite W2; exact R|apply SS_done].
  intros _ i c Hi. apply Hz. cbn in Hi. lia.
Qed.
Lemma sinc_eased : within 1 (blip 3 9 fzero) one /\ (6 * Rabs (B2R one) < IZR (2 ^ 128))%R /\
  exists log out st1 o1, sinc_streaming 1 (blip 3 9 fzero) (fun r => (1 <= B2R r <= B2R (d_of_Z 2))%R) (fast_new 1) 0 log out st1 o1 /\
    requests log = [inr (d_of_Z 2); inl (request done_ 30 3 1)] /\ total_gen log = 3.
Proof.
  split; [|split].
  - intros i c _. unfold blip. destruct (_ && _); [split; [reflexivity|lra]|]. destruct (i =? 29); (split; [reflexivity|]); change (B2R fzero) with 0%R; rewrite Rabs_R0; apply Rabs_pos.
  - rewrite one_val, Rabs_R1. apply Rlt_trans with (IZR 7); [lra|apply IZR_lt; reflexivity].
  - destruct done_val as [V _]. destruct (d_of_Z_val 2) as [V2 _]; [lia|].
    apply eased_stream; [reflexivity| |rewrite V, V2; lra|rewrite V2; lra|exact eased_ok].
    intros i c Hi. unfold blip. destruct (Z.ltb_spec i 9); [lia|]. rewrite andb_false_r. destruct (Z.eqb_spec i 29); [lia|reflexivity].
Qed.

(** C53: the hold case above, and two frames through a sinc converter. *)
Lemma hold_duration_case kd : exists st1 st2 d2 m2,
  streaming 2 (whole zig) in_range (lin_legal kd 2 (whole zig)) (ex_conv kd 2) 0 [Ev_ratio done_] [] st1 0 /\
  valid_call 2 (ex_data (d_of_Z 2)) (mem_of (whole zig)) /\ holds (mem_of (whole zig)) 100 2 4 (whole zig) 0 /\ lin_legal kd 2 (whole zig) 0 (ex_data (d_of_Z 2)) (mem_of (whole zig)) /\
  (exists e, src_process (Some st1) (Some (ex_data (d_of_Z 2))) (mem_of (whole zig)) = Ok (e, Some st2, Some d2, m2)) /\ output_frames_gen d2 = 5.
Proof.
  assert (W := swept_ok kd). unfold swept in W.
  destruct (src_process (Some (set_ratio (ex_conv kd 2) done_)) (Some (ex_data (d_of_Z 2))) (mem_of (whole zig))) as [[[[e [st1|]] [d1|]] m1]|f] eqn:E; try discriminate W.
  apply andb_prop in W as [W1 _]. apply Z.eqb_eq in W1. exists (set_ratio (ex_conv kd 2) done_), st1, d1, m1.
  split; [eapply S_ratio; [exact one_range|exact one_range|apply set_ok; vm_compute; reflexivity|apply S_done]|].
  split; [apply mem_of_valid, two_range|]. split; [apply mem_of_holds|]. split; [destruct kd; cbn; [exact I|right; left; lia]|].
  split; [eexists; exact E|exact W1].
Qed.

Definition short (st : SRC_STATE) : bool :=
  match src_process (Some (set_ratio st (d_of_Z 2))) (Some (request done_ 2 9 1)) (spread (blip 0 2 fzero)) with
  | Ok (e, Some _, Some d1, m1) => (e =? 0) && (output_frames_gen d1 =? 3)
  | _ => false
  end.
Lemma short_ok : short (fast_new 1) = true. Proof. vm_compute. reflexivity. Qed.
Lemma two_frames i c : 2 <= i -> blip 0 2 fzero i c = fzero.
Proof. intros Hi. unfold blip. destruct (Z.ltb_spec i 2); [lia|]. rewrite andb_false_r. destruct (Z.eqb_spec i 29); reflexivity. Qed.
Lemma short_run st : short st = true -> exists st1 st2 d2 m2,
  sinc_streaming 1 (blip 0 2 fzero) (fun r => (1 <= B2R r <= 256)%R) st 0 [Ev_ratio (d_of_Z 2)] [] st1 0 /\
  valid_call 1 (request done_ 2 9 1) (spread (blip 0 2 fzero)) /\ holds (spread (blip 0 2 fzero)) 100 1 2 (blip 0 2 fzero) 0 /\ (1 <= B2R done_)%R /\
  (forall i c, 2 <= i -> blip 0 2 fzero i c = fzero) /\
  src_process (Some st1) (Some (request done_ 2 9 1)) (spread (blip 0 2 fzero)) = Ok (0, Some st2, Some d2, m2) /\ output_frames_gen d2 = 3.
Proof.
  unfold short. generalize two_frames. assert (Hc : forall i c, blip 0 2 fzero i c = blip 0 2 fzero i 0) by reflexivity. revert Hc. generalize (blip 0 2 fzero). intros X Hc Hz.
  destruct (src_process (Some (set_ratio st (d_of_Z 2))) (Some (request done_ 2 9 1)) (spread X)) as [[[[e [st1|]] [d1|]] m1]|f] eqn:E; try discriminate.
  intros W. apply andb_prop in W as [W1 W2]. apply Z.eqb_eq in W1, W2. subst e. exists (set_ratio st (d_of_Z 2)), st1, d1, m1.
  destruct done_val as [V _]. destruct (d_of_Z_val 2) as [V2 _]; [lia|].
  split; [eapply SS_ratio; [exact two_range|cbv beta; rewrite V2; lra|apply set_ok; vm_compute; reflexivity|apply SS_done]|]. split.
  { assert (K : forall a j, 1 <= a -> 0 <= j -> spread X (a + j) <> None).
    { intros a j Ha J. unfold spread. destruct (Z.leb_spec 1 (a + j)); [discriminate|lia]. }
    unfold valid_call, request. cbn [data_in data_out input_frames output_frames src_ratio].
    repeat (split; [first [lia|exact one_range|nia]|]). split; [intros j Hj; apply K; lia|]. split; [intros j Hj; apply K; lia|]. left. nia. }
  split; [intros i c Hi Hcc; apply (spread_holds X); [exact Hc|lia|exact Hcc]|]. split; [rewrite V; lra|]. split; [exact Hz|]. split; [exact E|exact W2].
Qed.
Lemma sinc_duration_case : exists st1 st2 d2 m2,
  sinc_streaming 1 (blip 0 2 fzero) (fun r => (1 <= B2R r <= 256)%R) (fast_new 1) 0 [Ev_ratio (d_of_Z 2)] [] st1 0 /\
  valid_call 1 (request done_ 2 9 1) (spread (blip 0 2 fzero)) /\ holds (spread (blip 0 2 fzero)) 100 1 2 (blip 0 2 fzero) 0 /\ (1 <= B2R done_)%R /\
  (forall i c, 2 <= i -> blip 0 2 fzero i c = fzero) /\
  src_process (Some st1) (Some (request done_ 2 9 1)) (spread (blip 0 2 fzero)) = Ok (0, Some st2, Some d2, m2) /\ output_frames_gen d2 = 3.
Proof. exact (short_run _ short_ok). Qed.
