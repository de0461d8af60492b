(** A quarter of the sampling rate through a fastest sinc converter: 1, 0, -1, 0, 1, .. *)
From Coq Require Import ZArith Reals List Bool Lia Lra.
From Flocq Require Import Core IEEE754.BinarySingleNaN.
From Verif Require Import Base FloatFacts PosFacts Types Common Sinc Api Heap Callback ApiHist HoldSpec HoldCore HoldRamp HoldMain LifeSpec SincSpec SincApi
  SincTables SincCases GainMain GainCases AccSpec ToneSpec.
Import ListNotations.
Local Open Scope Z_scope.

Definition quarter (i : Z) : f32 := match i mod 4 with 0 => f_of_Z 1 | 2 => f_of_Z (-1) | _ => fzero end.
Definition quarters_mem : mem := fun a => if 1 <=? a then Some (quarter (a - 100)) else None.
Definition quarters : stream := fun i _ => if (0 <=? i) && (i <? 60) then quarter i else fzero.
Lemma quarters_zero i k : i < 0 -> quarters i k = fzero.
Proof. intros H. unfold quarters. destruct (Z.leb_spec 0 i); [lia|reflexivity]. Qed.
Lemma quarters_at i k : 0 <= i < 60 -> quarters i k = quarter i.
Proof. intros H. unfold quarters. destruct (Z.leb_spec 0 i); [|lia]. destruct (Z.ltb_spec i 60); [reflexivity|lia]. Qed.
Lemma quarter_vals i : B2R (quarter i) = match i mod 4 with 0 => 1 | 2 => -1 | _ => 0 end%R /\ is_finite (quarter i) = true.
Proof.
  unfold quarter. destruct (f_of_Z_val 1 ltac:(lia)) as [V1 F1]. destruct (f_of_Z_val (-1) ltac:(lia)) as [V2 F2].
  destruct (i mod 4) as [|[p|[p|p|]|]|p]; auto.
Qed.
Lemma quarters_within : within 1 quarters one.
Proof.
  intros i c _. rewrite one_val, Rabs_R1. unfold quarters. destruct (_ && _); [|split; [reflexivity|cbn; rewrite Rabs_R0; lra]].
  destruct (quarter_vals i) as [V F]. split; [exact F|]. rewrite V. destruct (i mod 4) as [|[p|[p|p|]|]|p]; unfold Rabs; destruct (Rcase_abs _); lra.
Qed.
Lemma quarters_valid : valid_call 1 (request done_ 60 60 1) quarters_mem.
Proof.
  assert (K : forall a j, 1 <= a -> 0 <= j -> quarters_mem (a + j) <> None).
  { intros a j Ha J. unfold quarters_mem. destruct (Z.leb_spec 1 (a + j)); [discriminate|lia]. }
  unfold valid_call, request. cbn [data_in data_out input_frames output_frames src_ratio].
  repeat (split; [first [lia|exact one_range|nia]|]). split; [intros j Hj; apply K; lia|]. split; [intros j Hj; apply K; lia|]. left. nia.
Qed.
Lemma quarters_holds : holds quarters_mem 100 1 60 quarters 0.
Proof.
  intros i c Hi Hc. rewrite Z.add_0_l, quarters_at by lia. unfold quarters_mem. destruct (Z.leb_spec 1 (100 + (i * 1 + c))); [do 2 f_equal; lia|nia].
Qed.
Definition quarters_judged (st : SRC_STATE) : bool := judge (fun _ => true) (src_process (Some st) (Some (request done_ 60 60 1)) quarters_mem).
Lemma quarters_run st : quarters_judged st = true -> exists log out st' o', sinc_streaming 1 quarters (eq done_) st 0 log out st' o' /\ total_gen log = 60.
Proof.
  unfold quarters_judged. destruct (src_process (Some st) (Some (request done_ 60 60 1)) quarters_mem) as [[[[e [st1|]] [d1|]] m1]|f] eqn:E; try discriminate. unfold judge.
  intros W. apply andb_prop in W as [W W4]. apply andb_prop in W as [W W3]. apply andb_prop in W as [W1 W2]. apply Z.eqb_eq in W1, W2, W3. subst e.
  destruct (mread_n m1 (2 ^ 40) (Z.to_nat (60 * 1))) as [chunk|f] eqn:R; [|discriminate].
  exists [Ev_call (request done_ 60 60 1) d1], (chunk ++ []), st1, (0 + input_frames_used d1). split; [|cbn [total_gen]; rewrite W3; reflexivity].
  eapply SS_call; [exact quarters_valid|apply quarters_holds|reflexivity| |exact E|rewrite W3; exact R|apply SS_done].
  intros _ i c Hi. unfold quarters. cbn in Hi. destruct (Z.ltb_spec i 60); [lia|]. now rewrite andb_false_r.
Qed.
Lemma quarters_pass : quarters_judged (fast_new 1) = true. Proof. vm_compute. reflexivity. Qed.
Lemma quarters_stream : exists log out st' o', sinc_streaming 1 quarters (eq done_) (fast_new 1) 0 log out st' o' /\ total_gen log = 60.
Proof. exact (quarters_run _ quarters_pass). Qed.
Lemma quarter_tone i : 0 <= i -> B2R (quarter i) = tones [(1, PI / 2, 0)%R] (IZR i).
Proof.
  intros H. destruct (quarter_vals i) as [V _]. rewrite V. cbn [tones]. assert (D := Z.div_mod i 4 ltac:(lia)). assert (M := Z.mod_pos_bound i 4 ltac:(lia)).
  assert (E : (PI / 2 * IZR i + 0 = IZR (i mod 4) * (PI / 2) + 2 * INR (Z.to_nat (i / 4)) * PI)%R).
  { rewrite INR_IZR_INZ, Z2Nat.id by (apply Z.div_pos; lia). rewrite D at 1. rewrite plus_IZR, mult_IZR. field. }
  rewrite E, cos_period. assert (C : i mod 4 = 0 \/ i mod 4 = 1 \/ i mod 4 = 2 \/ i mod 4 = 3) by lia.
  destruct C as [->|[->|[->| ->]]]; cbv iota.
  - rewrite Rmult_0_l, cos_0. ring.
  - replace (1 * (PI / 2))%R with (PI / 2)%R by ring. rewrite cos_PI2. ring.
  - replace (2 * (PI / 2))%R with PI by field. rewrite cos_PI. ring.
  - rewrite cos_3PI2. ring.
Qed.
Lemma quarter_case : sinc_start fastest_table 1 (fast_new 1) /\ (1 <= B2R done_)%R /\ within 1 quarters one /\ (6 * Rabs (B2R one) < IZR (2 ^ 128))%R /\ (forall i j, i < 0 -> quarters i j = fzero) /\
  (exists log out st' o', sinc_streaming 1 quarters (eq done_) (fast_new 1) 0 log out st' o' /\ total_gen log = 60) /\
  up_to 2 [(1, PI / 2, 0)%R] /\ loudness [(1, PI / 2, 0)%R] = 1%R /\ forall i, 0 <= i < 60 -> (Rabs (B2R (quarters i 0%Z) - tones [(1, PI / 2, 0)%R] (IZR i)) <= 0)%R.
Proof.
  split; [left; exact new1|]. split; [destruct done_val as [V _]; rewrite V; lra|]. split; [exact quarters_within|].
  split; [rewrite one_val, Rabs_R1; change (2 ^ 128) with 340282366920938463463374607431768211456; lra|]. split; [exact quarters_zero|]. split; [exact quarters_stream|].
  split; [constructor; [|constructor]; pose proof PI_4; pose proof PI_RGT_0; rewrite Rabs_pos_eq; lra|]. split; [cbn [loudness]; rewrite Rabs_R1; ring|].
  intros i Hi. rewrite quarters_at, quarter_tone by lia. rewrite Rminus_diag_eq, Rabs_R0 by reflexivity. lra.
Qed.
