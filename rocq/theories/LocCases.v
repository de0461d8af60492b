(** Concrete cases for C50 and C51. *)
From Coq Require Import ZArith Reals List Bool Lia Lra.
From Flocq Require Import Core IEEE754.BinarySingleNaN.
From Verif Require Import Base FloatFacts PosFacts Types Common Sinc Api Heap Callback ApiHist HoldSpec HoldCore HoldRamp HoldMain HoldCases LifeSpec SincSpec SincApi
  SincTables SincCases GainMain GainCases AccSpec AccCases LocSpec.
Import ListNotations.
Local Open Scope Z_scope.

(** 30 frames of a mono stream in memory, and a call that makes three frames from them at ratio 1. *)
Definition spread (X : stream) : mem := fun a => if 1 <=? a then Some (if (100 <=? a) && (a <? 130) then X (a - 100) 0 else fzero) else None.
Lemma spread_valid X : valid_call 1 (request done_ 30 3 1) (spread X).
Proof.
  assert (K : forall a j, 1 <= a -> 0 <= j -> spread X (a + j) <> None).
  { intros a j Ha J. unfold spread. destruct (Z.leb_spec 1 (a + j)); [discriminate|lia]. }
  unfold valid_call, request. cbn [data_in data_out input_frames output_frames src_ratio].
  repeat (split; [first [lia|exact one_range|nia]|]). split; [intros j Hj; apply K; lia|]. split; [intros j Hj; apply K; lia|]. left. nia.
Qed.
Lemma spread_holds X : (forall i c, X i c = X i 0) -> holds (spread X) 100 1 30 X 0.
Proof.
  intros E i c Hi Hc. unfold spread. destruct (Z.leb_spec 1 (100 + (i * 1 + c))); [|nia]. destruct (Z.leb_spec 100 (100 + (i * 1 + c))); [|lia].
  destruct (Z.ltb_spec (100 + (i * 1 + c)) 130); [|lia]. cbn [andb]. rewrite (E (0 + i)). do 2 f_equal. lia.
Qed.
Definition three (st : SRC_STATE) (X : stream) : bool :=
  match src_process (Some st) (Some (request done_ 30 3 1)) (spread X) with
  | Ok (e, Some _, Some d1, m1) => (e =? 0) && (output_frames_gen d1 =? 3) && match mread_n m1 (2 ^ 40) (Z.to_nat (3 * 1)) with Ok _ => true | _ => false end
  | _ => false
  end.
Lemma three_stream st X : (forall i c, X i c = X i 0) -> (forall i c, 30 <= i -> X i c = fzero) -> three st X = true -> exists log out st' o',
  sinc_streaming 1 X (eq done_) st 0 log out st' o' /\ total_gen log = 3.
Proof.
  intros Hc Hz. unfold three. destruct (src_process (Some st) (Some (request done_ 30 3 1)) (spread X)) as [[[[e [st1|]] [d1|]] m1]|f] eqn:E; try discriminate.
  intros W. apply andb_prop in W as [W W3]. apply andb_prop in W as [W1 W2]. apply Z.eqb_eq in W1, W2. subst e.
  destruct (mread_n m1 (2 ^ 40) (Z.to_nat (3 * 1))) as [chunk|f] eqn:R; [|discriminate].
  exists [Ev_call (request done_ 30 3 1) d1], (chunk ++ []), st1, (0 + input_frames_used d1). split; [|cbn [total_gen]; rewrite W2; reflexivity].
  eapply SS_call; [exact (spread_valid X)|apply spread_holds, Hc|reflexivity| |exact E|rewrite W2; exact R|apply SS_done].
  intros _ i c Hi. apply Hz. cbn in Hi. lia.
Qed.

(** Frames [from .. upto) are 1, frame 29 is v. *)
Definition blip (from upto : Z) (v : f32) : stream := fun i _ => if (from <=? i) && (i <? upto) then one else if i =? 29 then v else fzero.
Lemma blip_zero from upto v : 0 <= from -> forall i j, i < 0 -> blip from upto v i j = fzero.
Proof. intros H i j Hi. unfold blip. destruct (Z.leb_spec from i); [lia|]. destruct (Z.eqb_spec i 29); [lia|reflexivity]. Qed.
Lemma blip_stream from upto v : upto <= 30 -> three (fast_new 1) (blip from upto v) = true -> exists log out st' o',
  sinc_streaming 1 (blip from upto v) (eq done_) (fast_new 1) 0 log out st' o' /\ total_gen log = 3.
Proof.
  intros H. apply three_stream; [reflexivity|]. intros i c Hi. unfold blip. destruct (Z.ltb_spec i upto); [lia|]. rewrite andb_false_r. destruct (Z.eqb_spec i 29); [lia|reflexivity].
Qed.
Lemma blip1 : three (fast_new 1) (blip 3 9 fzero) = true. Proof. vm_compute. reflexivity. Qed.
Lemma blip2 : three (fast_new 1) (blip 3 9 one) = true. Proof. vm_compute. reflexivity. Qed.
Lemma blip3 : three (fast_new 1) (blip 4 10 fzero) = true. Proof. vm_compute. reflexivity. Qed.

Lemma local_case : alike_near (blip 3 9 fzero) (blip 3 9 one) 0 0 (IZR 1 / B2R done_) (IZR (zlen (snd fastest_table)) / (IZR (fst fastest_table) * Rmin 1 (B2R done_)) + 4 + slack done_ 1) /\
  blip 3 9 fzero 29 0 <> blip 3 9 one 29 0 /\
  (exists log out st1 o1, sinc_streaming 1 (blip 3 9 fzero) (eq done_) (fast_new 1) 0 log out st1 o1 /\ total_gen log = 3) /\
  (exists log out st1 o1, sinc_streaming 1 (blip 3 9 one) (eq done_) (fast_new 1) 0 log out st1 o1 /\ total_gen log = 3).
Proof.
  split; [|split; [|split; [apply blip_stream; [lia|exact blip1]|apply blip_stream; [lia|exact blip2]]]].
  - destruct done_val as [V _]. intros i. unfold slack. rewrite V, Rmin_left, fastest_length by lra. change (fst fastest_table) with 128. change (2 ^ 52) with 4503599627370496.
    intros Hi. apply Rabs_le_inv in Hi. unfold blip. destruct (_ && _); [reflexivity|]. destruct (Z.eqb_spec i 29) as [->|]; [exfalso; lra|reflexivity].
  - intros H. apply (f_equal B2R) in H. change (0 = B2R one)%R in H. rewrite one_val in H. lra.
Qed.
Lemma delay_case : delayed 1 (blip 3 9 fzero) (blip 4 10 fzero) /\ dyadic done_ 1 0 /\ (IZR 1 = IZR 1 / B2R done_)%R /\
  (exists log out st1 o1, sinc_streaming 1 (blip 3 9 fzero) (eq done_) (fast_new 1) 0 log out st1 o1 /\ total_gen log = 3) /\
  (exists log out st1 o1, sinc_streaming 1 (blip 4 10 fzero) (eq done_) (fast_new 1) 0 log out st1 o1 /\ total_gen log = 3).
Proof.
  destruct done_val as [V _]. split; [|split; [|split; [rewrite V; lra|split; apply blip_stream; [lia|exact blip1|lia|exact blip3]]]].
  - intros i c. unfold blip. destruct (Z.leb_spec 4 (i + 1)), (Z.leb_spec 3 i); try lia; destruct (Z.ltb_spec (i + 1) 10), (Z.ltb_spec i 9); try lia; cbn [andb]; try reflexivity;
    destruct (i + 1 =? 29), (i =? 29); reflexivity.
  - split; [lia|]. rewrite V. cbn. lra.
Qed.

(** Hold converters at ratio 2: four frames 3, 1, 3, 1, and the same one frame later. *)
Definition zag (i c : Z) : Z := zig (i - 1) c.
Lemma zag_gen kd : gen_of (src_process (Some (ex_conv kd 2)) (Some (ex_data (d_of_Z 2))) (mem_of (whole zag))) = match kd with Zoh => 9 | Lin => 8 end.
Proof. destruct kd; vm_compute; reflexivity. Qed.
Lemma hold_run kd g : exists log out st1 o1, streaming 2 (whole g) (eq (d_of_Z 2)) (lin_legal kd 2 (whole g)) (ex_conv kd 2) 0 log out st1 o1 /\
  total_gen log = gen_of (src_process (Some (ex_conv kd 2)) (Some (ex_data (d_of_Z 2))) (mem_of (whole g))).
Proof.
  destruct (any_run kd (whole g)) as (d & out & st1 & o1 & S & E). exists [Ev_call (ex_data (d_of_Z 2)) d]. do 3 eexists. split; [|cbn [total_gen]; rewrite E; apply Z.add_0_r].
  refine (same_ratio _ _ _ _ _ _ _ _ _ _ _ S _). repeat constructor.
Qed.
Lemma hold_delay_case kd : delayed 1 (whole zig) (whole zag) /\ dyadic (d_of_Z 2) 1 1 /\ (IZR 1 = IZR 2 / B2R (d_of_Z 2))%R /\ (B2R (d_of_Z 2) <= IZR 3)%R /\
  (exists log out st1 o1, streaming 2 (whole zig) (eq (d_of_Z 2)) (lin_legal kd 2 (whole zig)) (ex_conv kd 2) 0 log out st1 o1 /\ total_gen log = match kd with Zoh => 9 | Lin => 8 end) /\
  (exists log out st1 o1, streaming 2 (whole zag) (eq (d_of_Z 2)) (lin_legal kd 2 (whole zag)) (ex_conv kd 2) 0 log out st1 o1 /\ total_gen log = match kd with Zoh => 9 | Lin => 8 end).
Proof.
  destruct (d_of_Z_val 2) as [V _]; [lia|]. split; [|split; [|split; [rewrite V; lra|split; [rewrite V; lra|split]]]].
  - intros i c. unfold whole, zag. do 2 f_equal. ring.
  - split; [lia|]. rewrite V. change (2 ^ 1) with 2. lra.
  - rewrite <- zig_gen. apply hold_run.
  - rewrite <- zag_gen. apply hold_run.
Qed.
(** 3, 1, 3, 1 and 3, 1, 3, 7: alike near output frame 1. *)
Definition zog (i c : Z) : Z := if i =? 3 then 7 else zig i c.
Lemma zog_gen kd : gen_of (src_process (Some (ex_conv kd 2)) (Some (ex_data (d_of_Z 2))) (mem_of (whole zog))) = match kd with Zoh => 9 | Lin => 8 end.
Proof. destruct kd; vm_compute; reflexivity. Qed.
Lemma hold_local_case kd : alike_near (whole zig) (whole zog) 0 0 (IZR 1 / B2R (d_of_Z 2)) (2 + slack (d_of_Z 2) 1) /\
  (exists log out st1 o1, streaming 2 (whole zig) (eq (d_of_Z 2)) (lin_legal kd 2 (whole zig)) (ex_conv kd 2) 0 log out st1 o1 /\ total_gen log = match kd with Zoh => 9 | Lin => 8 end) /\
  (exists log out st1 o1, streaming 2 (whole zog) (eq (d_of_Z 2)) (lin_legal kd 2 (whole zog)) (ex_conv kd 2) 0 log out st1 o1 /\ total_gen log = match kd with Zoh => 9 | Lin => 8 end).
Proof.
  destruct (d_of_Z_val 2) as [V _]; [lia|]. split; [|split].
  - intros i. unfold slack. rewrite V. change (2 ^ 52) with 4503599627370496. intros Hi. apply Rabs_le_inv in Hi. unfold whole, zog. destruct (Z.eqb_spec i 3) as [->|]; [exfalso; lra|reflexivity].
  - rewrite <- zig_gen. apply hold_run.
  - rewrite <- zog_gen. apply hold_run.
Qed.
