(** A concrete call of a hold converter on any two-channel, four-frame stream: examples for C25 and C46. *)
From Coq Require Import ZArith Reals List Bool Lia Lra.
From Flocq Require Import Core IEEE754.BinarySingleNaN.
From Verif Require Import Base FloatFacts Types Api ApiHist HoldSpec HoldCore HoldProcess HoldStream HoldRamp HoldMain HoldThms.
Import ListNotations.
Local Open Scope Z_scope.

(** The four frames of [X] at address 100, room for sixteen frames at 200. *)
Definition mem_of (X : stream) : mem := fun a =>
  if (100 <=? a) && (a <? 108) then Some (X ((a - 100) / 2) ((a - 100) mod 2))
  else if (200 <=? a) && (a <? 232) then Some fzero else None.
Lemma mem_of_valid X r : in_range r -> valid_call 2 (ex_data r) (mem_of X).
Proof.
  intros R. unfold valid_call, ex_data; cbn [data_in data_out input_frames output_frames src_ratio]. repeat (split; [first [lia|exact R|discriminate]|]).
  split; [|split].
  - intros j Hj. unfold mem_of. replace ((100 <=? 100 + j) && (100 + j <? 108)) with true; [discriminate|].
    symmetry. apply andb_true_intro. split; [apply Z.leb_le|apply Z.ltb_lt]; lia.
  - intros j Hj. unfold mem_of. destruct ((100 <=? 200 + j) && (200 + j <? 108)); [discriminate|].
    replace ((200 <=? 200 + j) && (200 + j <? 232)) with true; [discriminate|].
    symmetry. apply andb_true_intro. split; [apply Z.leb_le|apply Z.ltb_lt]; lia.
  - left. lia.
Qed.
Lemma mem_of_holds X : holds (mem_of X) 100 2 4 X 0.
Proof.
  intros i c Hi Hc. unfold mem_of.
  replace ((100 <=? 100 + (i * 2 + c)) && (100 + (i * 2 + c) <? 108)) with true.
  2: { symmetry. apply andb_true_intro. split; [apply Z.leb_le|apply Z.ltb_lt]; lia. }
  f_equal. replace (100 + (i * 2 + c) - 100) with (c + i * 2) by lia.
  rewrite Z.div_add, Z.mod_add, Z.div_small, Z.mod_small by lia. f_equal.
Qed.
Lemma any_run kd X : exists d' out st' o',
  streaming 2 X in_range (lin_legal kd 2 X) (ex_conv kd 2) 0 [Ev_call (ex_data (d_of_Z 2)) d'] out st' o' /\
  output_frames_gen d' = gen_of (src_process (Some (ex_conv kd 2)) (Some (ex_data (d_of_Z 2))) (mem_of X)).
Proof.
  assert (F2 : channels_fit 2) by (unfold channels_fit; lia).
  destruct (created_fresh kd 2 (ex_conv kd 2) (ex_created kd) F2) as [K Kc Km Kp Kr Kh].
  destruct (process_honest kd (ex_conv kd 2) (ex_data (d_of_Z 2)) (mem_of X) K Km) as (st' & d' & m' & E & _).
  { apply mem_of_valid, two_range. }
  { destruct kd; cbn; lia. }
  destruct (fresh_stream kd 2 X (ex_conv kd 2)) as (O & P & B); [split; auto|].
  assert (Bd : band 2 2 (d_of_Z 2)).
  { split; [exact two_range|]. destruct (d_of_Z_val 2) as [V _]; [simpl; lia|]. rewrite V. lra. }
  assert (L : lin_legal kd 2 X 0 (ex_data (d_of_Z 2)) (mem_of X)) by (destruct kd; cbn; [exact I|right; left; lia]).
  destruct (stream_call kd X (ex_conv kd 2) 0 (ex_data (d_of_Z 2)) (mem_of X) 0 st' d' m' 2 2 O (B _ _) (mem_of_valid X _ two_range) (mem_of_holds X)
     Bd L E) as (_ & _ & _ & _ & _ & _ & _ & _ & _ & Wr & _).
  assert (Ck : exists chunk, mread_n m' (data_out (ex_data (d_of_Z 2))) (Z.to_nat (output_frames_gen d' * 2)) = Ok chunk).
  { apply mread_n_ok. intros j Hj.
    destruct Wr as [W1 _]. assert (M := Z.mod_pos_bound j 2 ltac:(lia)). assert (Q := Z.div_mod j 2 ltac:(lia)).
    assert (0 <= j / 2) by (apply Z.div_pos; lia).
    assert (j / 2 < output_frames_gen d') by (apply Z.div_lt_upper_bound; lia).
    replace j with (j / 2 * 2 + j mod 2) by lia. change (st_channels (ex_conv kd 2)) with 2 in W1. rewrite W1 by lia. discriminate. }
  destruct Ck as [chunk Ck].
  exists d', (chunk ++ []), st', (0 + input_frames_used d').
  split; [|unfold gen_of; rewrite E; reflexivity].
  eapply S_call with (d := ex_data (d_of_Z 2)) (m := mem_of X).
  - apply mem_of_valid, two_range.
  - apply mem_of_holds.
  - exact two_range.
  - exact L.
  - exact E.
  - exact Ck.
  - constructor.
Qed.

(** Two streams: if the first gives frames, the pair is a case of C25 and C46. *)
Lemma any_pair kd X X' : gen_of (src_process (Some (ex_conv kd 2)) (Some (ex_data (d_of_Z 2))) (mem_of X)) = match kd with Zoh => 9 | Lin => 8 end ->
  exists log out st1 o1 log' out' st1' o1',
  streaming 2 X in_range (lin_legal kd 2 X) (ex_conv kd 2) 0 log out st1 o1 /\
  streaming 2 X' in_range (lin_legal kd 2 X') (ex_conv kd 2) 0 log' out' st1' o1' /\
  requests log = requests log' /\ 0 < total_gen log.
Proof.
  intros G. destruct (any_run kd X) as (d & out & st1 & o1 & S & E). destruct (any_run kd X') as (d' & out' & st1' & o1' & S' & E').
  do 8 eexists. split; [exact S|]. split; [exact S'|]. split; [reflexivity|]. cbn [total_gen]. rewrite E, G. destruct kd; reflexivity.
Qed.
(** 1, 2; 11, 12; ... against 1, 1; 2, 11; ...: channel 0 of the first is channel 1 of the second. *)
Definition ex_moved : stream := fun i c => if c =? 1 then ex_stream i 0 else f_of_Z i.
Definition ex_minus : stream := fun i c => Bopp (ex_stream i c).
Lemma ex_gen kd : gen_of (src_process (Some (ex_conv kd 2)) (Some (ex_data (d_of_Z 2))) (mem_of ex_stream)) = match kd with Zoh => 9 | Lin => 8 end.
Proof. destruct kd; vm_compute; reflexivity. Qed.
Lemma moved_case kd : (exists log out st1 o1 log' out' st1' o1',
  streaming 2 ex_stream in_range (lin_legal kd 2 ex_stream) (ex_conv kd 2) 0 log out st1 o1 /\
  streaming 2 ex_moved in_range (lin_legal kd 2 ex_moved) (ex_conv kd 2) 0 log' out' st1' o1' /\
  requests log = requests log' /\ 0 < total_gen log) /\ (forall i, ex_stream i 0 = ex_moved i 1) /\ ex_stream 0 1 <> ex_moved 0 0.
Proof.
  split; [apply any_pair, ex_gen|]. split; [reflexivity|]. intros H. apply (f_equal (@B2SF 24 128)) in H. vm_compute in H. discriminate.
Qed.
Lemma minus_case kd : (exists log out st1 o1 log' out' st1' o1',
  streaming 2 ex_stream in_range (lin_legal kd 2 ex_stream) (ex_conv kd 2) 0 log out st1 o1 /\
  streaming 2 ex_minus in_range (lin_legal kd 2 ex_minus) (ex_conv kd 2) 0 log' out' st1' o1' /\
  requests log = requests log' /\ 0 < total_gen log) /\ (forall i c, ex_minus i c = Bopp (ex_stream i c)).
Proof. split; [apply any_pair, ex_gen|reflexivity]. Qed.
Lemma threes_gen : gen_of (src_process (Some (ex_conv Lin 2)) (Some (ex_data (d_of_Z 2))) (mem_of (fun _ _ => f_of_Z 3))) = 8.
Proof. vm_compute. reflexivity. Qed.
Lemma threes_run : exists log out st' o',
  streaming 2 (fun _ _ => f_of_Z 3) in_range (lin_legal Lin 2 (fun _ _ => f_of_Z 3)) (ex_conv Lin 2) 0 log out st' o' /\ total_gen log = 8.
Proof.
  destruct (any_run Lin (fun _ _ => f_of_Z 3)) as (d & out & st' & o' & S & E). do 4 eexists. split; [exact S|].
  cbn [total_gen]. rewrite E, threes_gen. reflexivity.
Qed.
