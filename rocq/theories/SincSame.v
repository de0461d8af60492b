(** The unrolled copies of the sinc routine against the one for any number of channels (C45). *)
From Coq Require Import ZArith List Bool Lia.
From Verif Require Import Base FloatFacts Types Common Sinc SincCopies SincCopiesEq HoldSpec SincSpec SincTables SincCases.
Import ListNotations.
Local Open Scope Z_scope.

Lemma stereo_same st data m : st_channels st = 2 -> sinc_stereo_vari_process st data m = sinc_multichan_vari_process st data m.
Proof. intros C. now rewrite stereo_copy, multichan_copy, C. Qed.
Lemma quad_same st data m : st_channels st = 4 -> sinc_quad_vari_process st data m = sinc_multichan_vari_process st data m.
Proof. intros C. now rewrite quad_copy, multichan_copy, C. Qed.
Lemma hex_same st data m : st_channels st = 6 -> sinc_hex_vari_process st data m = sinc_multichan_vari_process st data m.
Proof. intros C. now rewrite hex_copy, multichan_copy, C. Qed.

(** ** Mono: the same as long as the end of the input is not announced *)
(** Two outcomes agree: unless one is a fault they are the same. *)
Definition agree {A} (o o' : outcome A) : Prop := forall x y, o = Ok x -> o' = Ok y -> x = y.
Lemma agree_refl {A} (o : outcome A) : agree o o.
Proof. intros x y H H'. rewrite H in H'. now injection H'. Qed.
Lemma agree_bind {A B} (o o' : outcome A) (k k' : A -> outcome B) :
  agree o o' -> (forall a, o = Ok a -> agree (k a) (k' a)) -> agree (bind o k) (bind o' k').
Proof.
  intros O K x y H H'. destruct o as [a|]; [|discriminate H]. destruct o' as [a'|]; [|discriminate H'].
  cbn [bind] in *. assert (a = a') as <- by (now apply O). exact (K a eq_refl x y H H').
Qed.
Lemma agree_fault {A} f (o : outcome A) : agree (Fault f) o.
Proof. intros x y H. discriminate H. Qed.
Lemma agree_fault' {A} f (o : outcome A) : agree o (Fault f).
Proof. intros x y H H'. discriminate H'. Qed.

Ltac step := apply agree_bind; [apply agree_refl|intros ? _].

Lemma right_same s nch inc : forall fuel fi di acc,
  agree (right_loop fuel true s nch inc fi di acc) (right_loop fuel false s nch inc fi di acc).
Proof.
  induction fuel as [|f IH]; intros fi di acc; cbn [right_loop]; [apply agree_refl|].
  destruct (coeff_asserts true s (fp_to_int fi)); [|apply agree_fault].
  destruct (coeff_asserts false s (fp_to_int fi)); [|apply agree_fault'].
  step. destruct (data_asserts s nch di); [|apply agree_fault]. step. step. step.
  destruct (0 <? _); [apply IH|apply agree_refl].
Qed.

Lemma int_op_val z a : int_op z = Ok a -> a = z.
Proof. unfold int_op. destruct (in_int z); [intros H; now injection H|discriminate]. Qed.

Lemma calc_same s inc start scale : agree (calc_output true s 1 1 inc start scale) (calc_output false s 1 1 inc start scale).
Proof.
  unfold calc_output. step. apply agree_bind; [|intros; apply agree_refl].
  unfold calc_right. step. step. step. step. step. step. apply agree_bind.
  - intros x y H H'. destruct (int_op (s_b_current s + 1)) as [b|] eqn:E1; [|discriminate H]. cbn [bind] in H.
    apply int_op_val in E1, H. destruct (int_op (1 + _)) as [c1|] eqn:E2; [|discriminate H']. cbn [bind] in H'.
    destruct (int_op (1 * c1)) as [cc|] eqn:E3; [|discriminate H']. cbn [bind] in H'. apply int_op_val in E2, E3, H'. lia.
  - intros di _. change (in_scratch 1) with true. cbn match. apply right_same.
Qed.

(** The end of the input stays unannounced. *)
Lemma set_buf_end s u c e re b : s_b_real_end (s_set_buf s u c e re b) = re.
Proof. reflexivity. Qed.
Lemma move_open s half s' : move_down s half = Ok s' -> s_b_real_end s' = s_b_real_end s.
Proof.
  unfold move_down. destruct (int_op _); cbn [bind]; [|discriminate]. destruct (int_op _); cbn [bind]; [|discriminate].
  destruct (slice _ _ _); cbn [bind]; [|discriminate]. destruct (blit _ _ _); cbn [bind]; [|discriminate].
  intros H. injection H as <-. reflexivity.
Qed.
Lemma room_open s ch half s' l : prepare_room s ch half = Ok (s', l) -> s_b_real_end s' = s_b_real_end s.
Proof.
  unfold prepare_room. destruct (_ =? 0).
  - destruct (int_op _); cbn [bind]; [|discriminate]. destruct (int_op _); cbn [bind]; [|discriminate].
    intros H. injection H as <- _. reflexivity.
  - destruct (int_op _); cbn [bind]; [|discriminate]. destruct (int_op _); cbn [bind]; [|discriminate]. destruct (_ <? _).
    + destruct (int_op _); cbn [bind]; [|discriminate]. intros H. injection H as <- _. reflexivity.
    + destruct (move_down s half) as [s1|] eqn:E; cbn [bind]; [|discriminate]. destruct (int_op _); cbn [bind]; [|discriminate].
      intros H. injection H as <- _. exact (move_open _ _ _ E).
Qed.
Lemma prepare_open s ch d half m e s' : end_of_input d = 0 -> prepare_data s ch d half m = Ok (e, s') -> s_b_real_end s' = s_b_real_end s.
Proof.
  intros L. unfold prepare_data. destruct (0 <=? _); [intros H; now injection H as _ <-|].
  destruct (data_in d =? 0); [intros H; now injection H as _ <-|].
  destruct (prepare_room s ch half) as [[s1 room]|] eqn:R; cbn [bind]; [|discriminate]. apply room_open in R.
  destruct (long_op _); cbn [bind]; [|discriminate]. destruct (c_rem _ _); cbn [bind]; [|discriminate].
  destruct (int_op _); cbn [bind]; [|discriminate]. destruct (_ || _); [intros H; injection H as _ <-; exact R|].
  destruct (mread_n _ _ _); cbn [bind]; [|discriminate]. destruct (blit _ _ _); cbn [bind]; [|discriminate].
  destruct (int_op _); cbn [bind]; [|discriminate]. destruct (int_op _); cbn [bind]; [|discriminate].
  rewrite L, andb_false_r. intros H. injection H as _ <-. exact R.
Qed.
Lemma advance_open s ch x s' i : sinc_advance s ch x = Ok (s', i) -> s_b_real_end s' = s_b_real_end s.
Proof.
  unfold sinc_advance. destruct (int_op _); cbn [bind]; [|discriminate]. destruct (int_op _); cbn [bind]; [|discriminate].
  destruct (c_rem _ _); cbn [bind]; [|discriminate]. intros H. injection H as <- _. reflexivity.
Qed.

Lemma loop_same d half last term : end_of_input d = 0 -> forall fuel s err idx r m, s_b_real_end s < 0 ->
  agree (sinc_loop fuel true 1 1 half d last term s err idx r m) (sinc_loop fuel false 1 1 half d last term s err idx r m).
Proof.
  intros L. induction fuel as [|f IH]; intros s err idx r m N; cbn [sinc_loop]; [apply agree_refl|].
  destruct (_ <? _); [|apply agree_refl]. step. apply agree_bind; [apply agree_refl|]. intros [[s1 err1] stop] E.
  assert (N1 : s_b_real_end s1 < 0).
  { destruct (_ <=? _); [|injection E as <- _ _; exact N].
    destruct (prepare_data s 1 d half m) as [[e s']|] eqn:P; cbn [bind] in E; [|discriminate E].
    apply prepare_open in P; [|exact L]. destruct (negb _); [injection E as <- _ _; lia|].
    destruct (samples_in_hand s'); cbn [bind] in E; [|discriminate E]. injection E as <- _ _. lia. }
  destruct stop; [apply agree_refl|]. unfold at_end. replace (0 <=? s_b_real_end s1) with false by (symmetry; apply Z.leb_gt; lia).
  cbn [andb]. apply agree_bind; [apply calc_same|intros out _]. step. step.
  apply agree_bind; [apply agree_refl|]. intros [s2 idx2] A. apply IH. apply advance_open in A. rewrite A. exact N1.
Qed.

Lemma mono_same st d m f : st_channels st = 1 -> st_priv st = P_sinc f -> s_b_real_end f < 0 -> end_of_input d = 0 ->
  agree (sinc_mono_vari_process st d m) (sinc_multichan_vari_process st d m).
Proof.
  intros C P N L. rewrite mono_copy, multichan_copy, C. unfold sinc_process. rewrite P, C. step. step.
  destruct (is_bad_src_ratio _); [apply agree_refl|]. step. apply agree_bind; [apply agree_refl|]. intros [s1 idx] A.
  apply advance_open in A. apply agree_bind; [apply loop_same; [exact L|rewrite A; exact N]|]. intros; apply agree_refl.
Qed.

(** At the end they differ: three frames at ratio 1. *)
Definition generated (o : outcome proc_result) : option (Z * Z * Z) :=
  match o with Ok (e, _, d, _) => Some (e, input_frames_used d, output_frames_gen d) | _ => None end.
Definition ready (ch : Z) : SRC_STATE := set_ratio (fast_new ch) done_.
Lemma mono_differs :
  generated (sinc_mono_vari_process (ready 1) (request done_ 3 10 1) ones) = Some (0, 3, 3) /\
  generated (sinc_multichan_vari_process (ready 1) (request done_ 3 10 1) ones) = Some (0, 3, 2).
Proof. split; vm_compute; reflexivity. Qed.

Definition open_filter (p : priv_ptr) : bool := match p with P_sinc f => s_b_real_end f <? 0 | _ => false end.
Lemma ready_channels : st_channels (ready 1) = 1 /\ st_channels (ready 2) = 2 /\ st_channels (ready 4) = 4 /\ st_channels (ready 6) = 6.
Proof. split; [|split; [|split]]; vm_compute; reflexivity. Qed.
Lemma same_cases :
  generated (sinc_stereo_vari_process (ready 2) (request done_ 3 10 1) ones) = Some (0, 3, 3) /\
  generated (sinc_quad_vari_process (ready 4) (request done_ 3 10 1) ones) = Some (0, 3, 3) /\
  generated (sinc_hex_vari_process (ready 6) (request done_ 3 10 1) ones) = Some (0, 3, 3).
Proof. split; [|split]; vm_compute; reflexivity. Qed.
Lemma mono_case : open_filter (st_priv (ready 1)) = true /\
  generated (sinc_mono_vari_process (ready 1) (request done_ 22 10 0) ones) = Some (0, 22, 2) /\
  generated (sinc_multichan_vari_process (ready 1) (request done_ 22 10 0) ones) = Some (0, 22, 2).
Proof. split; [|split]; vm_compute; reflexivity. Qed.
