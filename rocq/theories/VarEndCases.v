(** A case for C53 with a ratio below 1. *)
From Coq Require Import ZArith Reals List Bool Lia Lra.
From Flocq Require Import Core IEEE754.BinarySingleNaN.
From Verif Require Import Base FloatFacts PosFacts Types Common Sinc Api Heap Callback ApiHist HoldSpec HoldCore HoldRamp HoldMain HoldCases LifeSpec SincSpec SincApi
  SincTables SincCases GainMain GainCases AccSpec AccCases LocCases VarSpec VarCases VarEndSpec.
Import ListNotations.
Local Open Scope Z_scope.

Definition slowing (st : SRC_STATE) : Z * Z * Z :=
  match src_process (Some (set_ratio st done_)) (Some (request (part 2) 8 20 1)) (spread (blip 0 8 fzero)) with
  | Ok (e, Some _, Some d1, m1) => (e, input_frames_used d1, output_frames_gen d1)
  | _ => (-1, 0, 0)
  end.
Lemma slowing_ok : slowing (fast_new 1) = (0, 8, 7). Proof. vm_compute. reflexivity. Qed.
Lemma eight_frames i c : 8 <= i -> blip 0 8 fzero i c = fzero.
Proof. intros Hi. unfold blip. destruct (Z.ltb_spec i 8); [lia|]. rewrite andb_false_r. destruct (Z.eqb_spec i 29); reflexivity. Qed.
Lemma part2_val : B2R (part 2) = (/ 2)%R.
Proof. vm_compute. lra. Qed.
Lemma slowing_run st : slowing st = (0, 8, 7) -> exists st1 st2 d2 m2,
  sinc_streaming 1 (blip 0 8 fzero) (fun x => (/ 2 <= B2R x)%R) st 0 [Ev_ratio done_] [] st1 0 /\ settles (part 2) [Ev_ratio done_] /\ ends_at 8 0 [Ev_ratio done_] /\
  valid_call 1 (request (part 2) 8 20 1) (spread (blip 0 8 fzero)) /\ holds (spread (blip 0 8 fzero)) 100 1 8 (blip 0 8 fzero) 0 /\ (/ 2 <= B2R (part 2))%R /\
  (forall i c, 8 <= i -> blip 0 8 fzero i c = fzero) /\
  src_process (Some st1) (Some (request (part 2) 8 20 1)) (spread (blip 0 8 fzero)) = Ok (0, Some st2, Some d2, m2) /\ output_frames_gen d2 = 7 /\ input_frames_used d2 = 8.
Proof.
  unfold slowing. generalize eight_frames. assert (Hc : forall i c, blip 0 8 fzero i c = blip 0 8 fzero i 0) by reflexivity. revert Hc. generalize (blip 0 8 fzero). intros X Hc Hz.
  destruct (src_process (Some (set_ratio st done_)) (Some (request (part 2) 8 20 1)) (spread X)) as [[[[e [st1|]] [d1|]] m1]|f] eqn:E; try discriminate.
  intros [= -> W2 W3]. exists (set_ratio st done_), st1, d1, m1. assert (P2 := part2_val). assert (R2 := part_range 2 ltac:(lia)).
  destruct done_val as [V _].
  split; [eapply SS_ratio; [exact one_range|cbv beta; rewrite V; lra|apply set_ok; vm_compute; reflexivity|apply SS_done]|]. split; [exact I|]. split; [exact I|]. split.
  { assert (K : forall a j, 1 <= a -> 0 <= j -> spread X (a + j) <> None).
    { intros a j Ha J. unfold spread. destruct (Z.leb_spec 1 (a + j)); [discriminate|lia]. }
    unfold valid_call, request. cbn [data_in data_out input_frames output_frames src_ratio].
    repeat (split; [first [lia|exact R2|nia]|]). split; [intros j Hj; apply K; lia|]. split; [intros j Hj; apply K; lia|]. left. nia. }
  split; [intros i c Hi Hcc; apply (spread_holds X); [exact Hc|lia|exact Hcc]|]. split; [rewrite P2; lra|]. split; [exact Hz|]. split; [exact E|]. split; assumption.
Qed.
Lemma slowing_case : exists st1 st2 d2 m2,
  sinc_streaming 1 (blip 0 8 fzero) (fun x => (/ 2 <= B2R x)%R) (fast_new 1) 0 [Ev_ratio done_] [] st1 0 /\ settles (part 2) [Ev_ratio done_] /\ ends_at 8 0 [Ev_ratio done_] /\
  valid_call 1 (request (part 2) 8 20 1) (spread (blip 0 8 fzero)) /\ holds (spread (blip 0 8 fzero)) 100 1 8 (blip 0 8 fzero) 0 /\ (/ 2 <= B2R (part 2))%R /\
  (forall i c, 8 <= i -> blip 0 8 fzero i c = fzero) /\
  src_process (Some st1) (Some (request (part 2) 8 20 1)) (spread (blip 0 8 fzero)) = Ok (0, Some st2, Some d2, m2) /\ output_frames_gen d2 = 7 /\ input_frames_used d2 = 8.
Proof. exact (slowing_run _ slowing_ok). Qed.
