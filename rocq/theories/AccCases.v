(** Examples for Properties_Acc.v. *)
From Coq Require Import ZArith Reals List Bool Lia Lra.
From Flocq Require Import Core IEEE754.BinarySingleNaN.
From Verif Require Import Base FloatFacts PosFacts Types Common Sinc Api Heap Callback ApiHist HoldSpec HoldCore HoldRamp HoldMain HoldCases LifeSpec SincSpec SincApi
  SincStream SincTables SincCases AccSpec GainCases.
Import ListNotations.
Local Open Scope Z_scope.

(** Streams of small whole numbers. *)
Definition whole (g : Z -> Z -> Z) : stream := fun i c => f_of_Z (g i c).
Lemma whole_val g i c : Z.abs (g i c) <= 100 -> B2R (whole g i c) = IZR (g i c) /\ is_finite (whole g i c) = true.
Proof. intros H. apply f_of_Z_val. lia. Qed.
Lemma whole_within ch g : (forall i c, Z.abs (g i c) <= 100) -> within ch (whole g) (f_of_Z 100).
Proof.
  intros H i c _. destruct (whole_val g i c (H i c)) as [V F]. split; [exact F|]. rewrite V. destruct (f_of_Z_val 100) as [V1 _]; [lia|]. rewrite V1.
  rewrite <- !abs_IZR. apply IZR_le. specialize (H i c). lia.
Qed.
Lemma whole_mixed a b g h f : (forall i c, Z.abs (g i c) <= 100) -> (forall i c, Z.abs (h i c) <= 100) -> (forall i c, Z.abs (f i c) <= 100) ->
  (forall i c, f i c = a * g i c + b * h i c) -> mixed (IZR a) (IZR b) (whole g) (whole h) (whole f).
Proof.
  intros G H F E i c. destruct (whole_val g i c (G i c)) as [Vg _]. destruct (whole_val h i c (H i c)) as [Vh _]. destruct (whole_val f i c (F i c)) as [Vf _].
  rewrite Vg, Vh, Vf, E, plus_IZR, !mult_IZR. reflexivity.
Qed.

(** x: 3, 1, 3, 1, ...; y: 5 and 2 on the two channels; z = 2 x - 3 y. *)
Definition zig (i c : Z) : Z := if Z.odd i then 1 else 3.
Definition pan (i c : Z) : Z := if Z.odd c then 2 else 5.
Definition both (i c : Z) : Z := 2 * zig i c + -3 * pan i c.
Lemma zig_small i c : Z.abs (zig i c) <= 100. Proof. unfold zig. destruct (Z.odd i); lia. Qed.
Lemma pan_small i c : Z.abs (pan i c) <= 100. Proof. unfold pan. destruct (Z.odd c); lia. Qed.
Lemma both_small i c : Z.abs (both i c) <= 100. Proof. unfold both, zig, pan. destruct (Z.odd i), (Z.odd c); lia. Qed.

Lemma zig_gen kd : gen_of (src_process (Some (ex_conv kd 2)) (Some (ex_data (d_of_Z 2))) (mem_of (whole zig))) = match kd with Zoh => 9 | Lin => 8 end.
Proof. destruct kd; vm_compute; reflexivity. Qed.
Lemma mixed_case kd : mixed 2 (-3) (whole zig) (whole pan) (whole both) /\
  within 2 (whole zig) (f_of_Z 100) /\ within 2 (whole pan) (f_of_Z 100) /\ within 2 (whole both) (f_of_Z 100) /\
  exists log out st1 o1 log' out' st1' o1' log'' out'' st1'' o1'',
  streaming 2 (whole zig) in_range (lin_legal kd 2 (whole zig)) (ex_conv kd 2) 0 log out st1 o1 /\
  streaming 2 (whole pan) in_range (lin_legal kd 2 (whole pan)) (ex_conv kd 2) 0 log' out' st1' o1' /\
  streaming 2 (whole both) in_range (lin_legal kd 2 (whole both)) (ex_conv kd 2) 0 log'' out'' st1'' o1'' /\
  requests log = requests log' /\ requests log = requests log'' /\ 0 < total_gen log.
Proof.
  split; [apply (whole_mixed 2 (-3)); auto using zig_small, pan_small, both_small|].
  split; [apply whole_within, zig_small|]. split; [apply whole_within, pan_small|]. split; [apply whole_within, both_small|].
  destruct (any_run kd (whole zig)) as (d & out & st1 & o1 & S & E). destruct (any_run kd (whole pan)) as (d' & out' & st1' & o1' & S' & _).
  destruct (any_run kd (whole both)) as (d'' & out'' & st1'' & o1'' & S'' & _).
  do 12 eexists. split; [exact S|]. split; [exact S'|]. split; [exact S''|]. split; [reflexivity|]. split; [reflexivity|].
  cbn [total_gen]. rewrite E, zig_gen. destruct kd; reflexivity.
Qed.
Definition ratio_of (e : event) : f64 := match e with Ev_call d _ => src_ratio d | Ev_ratio r => r end.
Lemma same_ratio ch X (P : f64 -> Prop) legal r st o log out st' o' : streaming ch X P legal st o log out st' o' -> Forall (fun e => ratio_of e = r) log ->
  streaming ch X (eq r) legal st o log out st' o'.
Proof.
  intros S. induction S; intros F; [constructor| |]; inversion F as [|? ? F1 F2]; subst; [eapply S_call|eapply S_ratio]; eauto.
Qed.
Lemma placed_case kd : within 2 (whole zig) (f_of_Z 100) /\ exists log out st1 o1,
  streaming 2 (whole zig) (eq (d_of_Z 2)) (lin_legal kd 2 (whole zig)) (ex_conv kd 2) 0 log out st1 o1 /\ total_gen log = match kd with Zoh => 9 | Lin => 8 end.
Proof.
  split; [apply whole_within, zig_small|]. destruct (any_run kd (whole zig)) as (d & out & st1 & o1 & S & E).
  exists [Ev_call (ex_data (d_of_Z 2)) d]. do 3 eexists. split; [|cbn [total_gen]; rewrite E, zig_gen; destruct kd; reflexivity].
  refine (same_ratio _ _ _ _ _ _ _ _ _ _ _ S _). repeat constructor.
Qed.

(** Sinc: 1, 1 and 1, 2 on the two channels, for seven frames; twice the first and three times the second give 5, 8. *)
Definition brew : mem := fun a => if 1 <=? a then Some (f_of_Z (if Z.odd a then 8 else 5)) else None.
Definition brewed : stream := fun i c => if (0 <=? i) && (i <? 7) then f_of_Z (if Z.odd c then 8 else 5) else fzero.
Lemma brew_stereo : stereo brew = true. Proof. vm_compute. reflexivity. Qed.
Lemma brew_valid : valid_call 2 (request (part 4) 7 10 1) brew.
Proof.
  assert (K : forall a j, 1 <= a -> 0 <= j -> brew (a + j) <> None).
  { intros a j Ha J. unfold brew. destruct (Z.leb_spec 1 (a + j)); [discriminate|lia]. }
  assert (R := part_range 4 ltac:(lia)). unfold valid_call, request. cbn [data_in data_out input_frames output_frames src_ratio].
  repeat (split; [first [lia|exact R|nia]|]). split; [intros j Hj; apply K; lia|]. split; [intros j Hj; apply K; lia|]. left. nia.
Qed.
Lemma brew_holds : holds brew 100 2 7 brewed 0.
Proof.
  intros i c Hi Hc. unfold brew, brewed. rewrite Z.add_0_l. destruct (Z.leb_spec 1 (100 + (i * 2 + c))); [|nia].
  destruct (Z.leb_spec 0 i); [|lia]. destruct (Z.ltb_spec i 7); [|lia]. cbn [andb].
  replace (100 + (i * 2 + c)) with (c + 2 * (50 + i)) by ring. now rewrite Z.odd_add_mul_2.
Qed.
Lemma small_val n : Z.abs n <= 100 -> B2R (f_of_Z n) = IZR n /\ is_finite (f_of_Z n) = true.
Proof. intros H. apply f_of_Z_val. lia. Qed.
Lemma few_within (X : stream) : (forall i c, X i c = fzero \/ exists n, X i c = f_of_Z n /\ Z.abs n <= 100) -> within 2 X (f_of_Z 100).
Proof.
  intros H i c _. destruct (small_val 100) as [V1 _]; [lia|]. rewrite V1. destruct (H i c) as [->|(n & -> & L)].
  - split; [reflexivity|]. cbn [B2R fzero]. rewrite Rabs_R0. apply Rabs_pos.
  - destruct (small_val n L) as [V F]. split; [exact F|]. rewrite V, <- !abs_IZR. apply IZR_le. lia.
Qed.
Lemma brewed_case : mixed 2 3 seven skewed brewed /\ within 2 seven (f_of_Z 100) /\ within 2 skewed (f_of_Z 100) /\ within 2 brewed (f_of_Z 100) /\
  (6 * Rabs (B2R (f_of_Z 100)) < IZR (2 ^ 128))%R /\
  exists log out st1 o1 log' out' st1' o1' log'' out'' st1'' o1'',
  sinc_streaming 2 seven in_range (fast_new 2) 0 log out st1 o1 /\ sinc_streaming 2 skewed in_range (fast_new 2) 0 log' out' st1' o1' /\
  sinc_streaming 2 brewed in_range (fast_new 2) 0 log'' out'' st1'' o1'' /\
  requests log = requests log' /\ requests log = requests log'' /\ total_gen log = 2.
Proof.
  split.
  { intros i c. unfold seven, skewed, brewed. destruct (_ && _); [|cbn [B2R fzero]; lra]. destruct (small_val 1) as [-> _]; [lia|].
    destruct (Z.odd c); [destruct (small_val 8) as [-> _]; [lia|]; destruct (small_val 2) as [-> _]; [lia|]|destruct (small_val 5) as [-> _]; [lia|]; destruct (small_val 1) as [-> _]; [lia|]]; lra. }
  split. { apply few_within. intros i c. unfold seven. destruct (_ && _); [right|now left]. eexists. split; [reflexivity|lia]. }
  split. { apply few_within. intros i c. unfold skewed. destruct (_ && _); [right|now left]. destruct (Z.odd c); eexists; (split; [reflexivity|lia]). }
  split. { apply few_within. intros i c. unfold brewed. destruct (_ && _); [right|now left]. destruct (Z.odd c); eexists; (split; [reflexivity|lia]). }
  split. { destruct (small_val 100) as [-> _]; [lia|]. rewrite <- abs_IZR, <- mult_IZR. apply IZR_lt. reflexivity. }
  destruct (stereo_stream ones seven (seven_valid 2 ltac:(lia)) (seven_holds 2) seven_end stereo_ones) as (d & log & out & st1 & o1 & S & E & G).
  destruct (stereo_stream skew skewed skew_valid skew_holds) as (d' & log' & out' & st1' & o1' & S' & E' & G').
  { intros i c Hi. unfold skewed. destruct (Z.ltb_spec i 7); [lia|]. now rewrite andb_false_r. }
  { exact stereo_skew. }
  destruct (stereo_stream brew brewed brew_valid brew_holds) as (d2 & log2 & out2 & st2 & o2 & S2 & E2 & G2).
  { intros i c Hi. unfold brewed. destruct (Z.ltb_spec i 7); [lia|]. now rewrite andb_false_r. }
  { exact brew_stereo. }
  exists log, out, st1, o1, log', out', st1', o1', log2, out2, st2, o2. split; [exact S|]. split; [exact S'|]. split; [exact S2|].
  split; [rewrite E, E'; reflexivity|]. split; [rewrite E, E2; reflexivity|exact G].
Qed.
Lemma plateau_placed : within 1 (plateau one) one /\ (6 * Rabs (B2R one) < IZR (2 ^ 128))%R /\
  exists log out st' o', sinc_streaming 1 (plateau one) (eq done_) (fast_new 1) 0 log out st' o' /\ total_gen log = 60.
Proof.
  split; [intros i c _; apply plateau_within; reflexivity|].
  split. { rewrite one_val, Rabs_R1, Rmult_1_r. apply IZR_lt. reflexivity. }
  apply plateau_case.
Qed.
