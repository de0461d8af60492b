(** Cases for C57 and C58. *)
From Coq Require Import ZArith Reals List Bool Lia Lra.
From Flocq Require Import Core IEEE754.BinarySingleNaN.
From Verif Require Import Base FloatFacts Types Api Heap Callback HoldSpec SincSpec SincApi SincTables SincCases GainCases CbSpec Timewarp WarpCases Varispeed VariSpec.
Import ListNotations.
Local Open Scope Z_scope.

(** A good sin: rounded to a multiple of 2^-52. *)
Definition rounded_sin (x : f64) : f64 := ddiv (d_of_Z (ZnearestE (sin (B2R x) * IZR (2 ^ 52)))) (d_of_Z (2 ^ 52)).
Lemma rounded_sin_ok : sine_ok rounded_sin.
Proof.
  intros x _. unfold rounded_sin. set (s := sin (B2R x)). destruct (SIN_bound (B2R x)) as [L H]. fold s in L, H.
  assert (B : (Rabs (IZR (ZnearestE (s * IZR (2 ^ 52))) - s * IZR (2 ^ 52)) <= / 2)%R) by (rewrite Rabs_minus_sym; apply (Znearest_half (fun z => negb (Z.even z)))).
  set (z := ZnearestE (s * IZR (2 ^ 52))) in *.
  assert (Z1 : - 2 ^ 52 <= z <= 2 ^ 52).
  { apply Rabs_le_inv in B. split.
    - apply Z.lt_succ_r. apply lt_IZR. rewrite succ_IZR, opp_IZR. nra.
    - apply Z.lt_succ_r. apply lt_IZR. rewrite succ_IZR. nra. }
  destruct (d_of_Z_val z ltac:(lia)) as [A1 A2]. destruct (d_of_Z_val (2 ^ 52) ltac:(lia)) as [B1 B2].
  assert (Zr : (- IZR (2 ^ 52) <= IZR z <= IZR (2 ^ 52))%R) by (rewrite <- opp_IZR; split; apply IZR_le; lia).
  assert (U : (Rabs (IZR z / IZR (2 ^ 52)) <= 1)%R). { apply Rabs_le. lra. }
  destruct (ddiv_val (d_of_Z z) (d_of_Z (2 ^ 52)) A2) as [V F].
  { rewrite B1. lra. } { rewrite A1, B1. apply Rle_trans with (bpow radix2 0); [exact U|apply bpow_le; lia]. }
  assert (E : B2R (ddiv (d_of_Z z) (d_of_Z (2 ^ 52))) = (IZR z / IZR (2 ^ 52))%R).
  { rewrite V, A1, B1. apply rnd64_id. replace (IZR z / IZR (2 ^ 52))%R with (IZR z * bpow radix2 (-52))%R by (simpl; lra). apply fmt64_dyadic; lia. }
  split; [exact F|]. rewrite E. split; [exact U|]. fold s. apply Rabs_le_inv in B. apply Rabs_le. lra.
Qed.

Definition vs_room (a : Z) : option f32 := if (1000 <=? a) && (a <? 5096) || (5096 <=? a) && (a <? 7144) then Some fzero else None.
Lemma vs_room_ok : vs_arrays vs_room 1000 5096.
Proof.
  unfold vs_arrays, vs_room. repeat split; try lia; intros j Hj;
    [replace (1000 <=? 1000 + j) with true by lia; replace (1000 + j <? 5096) with true by lia|
     replace (5096 <=? 5096 + j) with true by lia; replace (5096 + j <? 7144) with true by lia; rewrite orb_true_r]; discriminate.
Qed.

(** 64 channels: 64 frames are written where there is room for 32. *)
Definition wide_state : outcome (Z * option converter * heap) := src_callback_new two_tables (fun _ => true) 7 SRC_ZERO_ORDER_HOLD 64 8 (mkHeap 5 []).
Definition wide_ok (cb : callback_t Z) (o : outcome (Z * option converter * heap)) : bool :=
  match o with
  | Ok (0, Some c, _) => match src_callback_read Z cb 0 200 (Some (c_state c)) done_ 64 5096 0 vs_room with Fault F_oob => true | _ => false end
  | _ => false
  end.
Definition wide_file := vs_callback (fun _ _ => fzero) 10 64 1000.
Lemma wide_faults : wide_ok wide_file wide_state = true.
Proof. vm_compute. reflexivity. Qed.

Lemma faults_gen cb o : wide_ok cb o = true ->
  exists c h1, o = Ok (0, Some c, h1) /\ src_callback_read Z cb 0 200 (Some (c_state c)) done_ 64 5096 0 vs_room = Fault F_oob.
Proof.
  intros H. destruct o as [[[e [c|]] h1]|f]; cbn [wide_ok] in H; destruct e || idtac; try discriminate H. exists c, h1. split; [reflexivity|].
  destruct (src_callback_read _ _ _ _ _ _ _ _ _ _) as [x|f]; [discriminate H|]. destruct f; try discriminate H. reflexivity.
Qed.
Lemma too_wide sine calls : sine dzero = dzero ->
  varispeed_play sine two_tables (fun _ => true) (fun _ _ => fzero) 10 7 8 SRC_ZERO_ORDER_HOLD 64 1000 5096 0 200 (S calls) (mkHeap 5 []) vs_room = Fault F_oob.
Proof.
  intros Hz. destruct (faults_gen _ _ wide_faults) as (c & h1 & E & Er). unfold wide_state in E.
  unfold varispeed_play. rewrite E. cbn [bind vs_run]. change (c_div AUDIO_BUFFER_LEN 64) with (Ok 32). cbn [bind].
  unfold varispeed_get_data. change (Z.to_nat 32) with 32%nat. cbn [vs_blocks vs_state vs_point vs_at vs_mem]. change (0 <? 32) with true. cbn iota.
  assert (R : vs_ratio sine 0 = Ok done_).
  { unfold vs_ratio. change (int_op (0 * 2)) with (Ok 0). cbn [bind]. replace (ddiv (dmul (d_of_Z 0) M_PI) (d_of_Z 20000)) with dzero by (apply B2SF_inj; vm_compute; reflexivity).
    rewrite Hz. apply f_equal. apply B2SF_inj. vm_compute. reflexivity. }
  rewrite R. cbn [bind]. change (int_op (0 + 1)) with (Ok 1). change (int_op (0 * 64)) with (Ok 0). cbn [bind]. change (5096 + 0) with 5096. unfold VARISPEED_BLOCK_LEN. unfold wide_file in Er. rewrite Er. reflexivity.
Qed.

Definition made_it (o : outcome (Z * option converter * heap)) : bool := match o with Ok (0, Some _, _) => true | _ => false end.
Lemma made_gen o : made_it o = true -> exists c h1, o = Ok (0, Some c, h1).
Proof. intros H. destruct o as [[[e [c|]] h1]|f]; cbn [made_it] in H; destruct e || idtac; try discriminate H. exists c, h1. reflexivity. Qed.

(** Two channels, all kinds of converter. *)
Lemma vari_case : sine_ok rounded_sin /\ (2 | 32) /\ vs_arrays vs_room 1000 5096 /\ sinc_table two_tables SRC_SINC_MEDIUM_QUALITY = Some mid_qual_table /\
  forall ty, In ty [SRC_SINC_MEDIUM_QUALITY; SRC_ZERO_ORDER_HOLD; SRC_LINEAR] -> a_converter two_tables ty /\
  exists c h1, src_callback_new two_tables (fun _ => true) 7 ty 2 8 (mkHeap 5 [2; 4]) = Ok (0, Some c, h1).
Proof.
  split; [exact rounded_sin_ok|]. split; [exists 16; reflexivity|]. split; [exact vs_room_ok|]. split; [reflexivity|].
  intros ty H. split.
  - unfold a_converter. destruct H as [<-|[<-|[<-|[]]]]; [left; exists mid_qual_table; split; [reflexivity|exact mid_qual_fit]|auto|auto].
  - apply made_gen. destruct H as [<-|[<-|[<-|[]]]]; vm_compute; reflexivity.
Qed.
