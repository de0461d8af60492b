(** Zero-order hold with 2^23 channels: an int multiplication overflows. *)
From Coq Require Import ZArith Reals List Bool Lia Lra.
From Flocq Require Import Core IEEE754.BinarySingleNaN.
From Verif Require Import Base FloatFacts PosFacts Types Common Zoh Api Heap ApiHist HoldSpec HoldFacts HoldCore ZohProofs HoldCall HoldProcess HoldMain.
Import ListNotations.
Local Open Scope Z_scope.

Definition huge : Z := 8388608.
Definition slow : f64 := ddiv done_ (d_of_Z 256).
Definition huge_data : SRC_DATA := mkData 1 16777216 1 1 0 0 0 slow.
Definition huge_mem : mem := fun a => if a <=? 0 then None else Some fzero.

Lemma slow_range : in_range slow.
Proof. destruct ratio_lo as [V F]. split; [exact F|]. change (B2R slow) with (val (ddiv done_ (d_of_Z SRC_MAX_RATIO))). rewrite V. lra. Qed.

Lemma huge_created : created SRC_ZERO_ORDER_HOLD huge (ex_conv Zoh huge).
Proof.
  exists ex_build, (fun _ => true), (mkHeap 0 []). unfold src_new, hold_state_new, ex_conv.
  change (sinc_table ex_build SRC_ZERO_ORDER_HOLD) with (@None (Z * list f32)).
  change (SRC_ZERO_ORDER_HOLD =? SRC_ZERO_ORDER_HOLD) with true. change (huge <=? 0) with false.
  assert (H : 0 < huge) by reflexivity. generalize dependent huge. intros hu Hu. cbn [alloc hp_next hp_live].
  unfold hold_reset. cbn [st_priv blank_state h_last_value st_channels]. unfold blit.
  assert (Lr : zlen (repeat fzero (Z.to_nat hu)) = hu) by (unfold zlen; rewrite repeat_length; lia).
  rewrite Lr. replace ((0 <? 0) || (hu <? 0 + hu)) with false.
  2: { symmetry. apply orb_false_intro; [reflexivity|]. apply Z.ltb_ge. lia. }
  cbn [bind]. eexists; eexists; split; [reflexivity|]. cbn.
  rewrite skipn_all, app_nil_r. reflexivity.
Qed.

Lemma huge_valid : valid_call huge huge_data huge_mem.
Proof.
  unfold valid_call, huge_data; cbn [data_in data_out input_frames output_frames src_ratio]. unfold huge.
  repeat (split; [first [lia|exact slow_range|discriminate]|]).
  split; [|split].
  - intros j Hj. unfold huge_mem. replace (1 + j <=? 0) with false by (symmetry; apply Z.leb_gt; lia). discriminate.
  - intros j Hj. unfold huge_mem. replace (16777216 + j <=? 0) with false by (symmetry; apply Z.leb_gt; lia). discriminate.
  - left. lia.
Qed.

Lemma to_nat_S z : 0 < z -> exists f, Z.to_nat z = S f.
Proof. intros H. exists (Z.to_nat (z - 1)). lia. Qed.

Lemma huge_overflow : src_process (Some (ex_conv Zoh huge)) (Some huge_data) huge_mem = Fault F_overflow.
Proof.
  rewrite process_reduce; [|reflexivity|reflexivity|exact huge_valid].
  assert (Ep : primed (ex_conv Zoh huge) (src_ratio huge_data) = set_ratio (ex_conv Zoh huge) slow) by reflexivity.
  rewrite Ep. unfold vt_process. cbn [st_vt set_ratio ex_conv blank_state vt_of]. unfold zoh_vari_process.
  change (input_frames (set_counts huge_data 0 0) <=? 0) with false.
  cbn [st_priv set_ratio ex_conv blank_state h_dirty h_last_value st_channels].
  destruct (load_frame_all huge_mem (data_in (set_counts huge_data 0 0)) huge (fun _ => fzero) (repeat fzero (Z.to_nat huge)))
    as (lv & El & Lv1 & Lv2).
  { reflexivity. }
  { unfold zlen. rewrite repeat_length. rewrite Z2Nat.id; [reflexivity|discriminate]. }
  { intros j Hj. unfold huge_mem. cbn [data_in set_counts huge_data].
    replace (1 + j <=? 0) with false by (symmetry; apply Z.leb_gt; lia). reflexivity. }
  rewrite El. cbn [bind].
  change (long_op (input_frames (set_counts huge_data 0 0) * huge)) with (Ok huge). cbn [bind].
  change (long_op (output_frames (set_counts huge_data 0 0) * huge)) with (Ok huge). cbn [bind].
  cbn [st_last_ratio set_ratio].
  replace (is_bad_src_ratio slow) with false by (symmetry; vm_compute; reflexivity).
  cbn [zoh_loop1].
  assert (C1 : dlt dzero done_ && (0 <? huge) = true) by (vm_compute; reflexivity).
  cbn [st_last_position set_ratio ex_conv blank_state]. rewrite C1.
  assert (C2 : dge (dadd (d_of_Z 0) (dmul (d_of_Z huge) dzero)) (d_of_Z huge) = false) by (vm_compute; reflexivity).
  rewrite C2.
  assert (C3 : ramp_ratio (lit_1em 20) slow (src_ratio (set_counts huge_data 0 0)) 0 huge slow = slow).
  { unfold ramp_ratio. cbn [src_ratio set_counts huge_data].
    replace ((0 <? huge) && dgt (dabs (dsub slow slow)) (lit_1em 20)) with false by (symmetry; vm_compute; reflexivity).
    reflexivity. }
  rewrite C3.
  destruct (zoh_emit_last_ok lv (data_out (set_counts huge_data 0 0)) huge (fun _ => fzero) (Z.to_nat huge) 0 huge_mem 0)
    as (m' & Em & _).
  { discriminate. }
  { rewrite Z2Nat.id by discriminate. reflexivity. }
  { split; assumption. }
  { discriminate. }
  { rewrite Z2Nat.id by discriminate. discriminate. }
  { intros j Hj. unfold huge_mem. cbn [data_out set_counts huge_data].
    replace (16777216 + 0 - 0 + j <=? 0) with false by (symmetry; apply Z.leb_gt; lia). discriminate. }
  rewrite Em. cbn [bind]. rewrite Z2Nat.id by discriminate.
  destruct (to_nat_S huge eq_refl) as [f ->].
  cbn [zoh_loop1].
  replace (dlt (next_index dzero slow) done_ && (0 + huge <? huge)) with false by (symmetry; vm_compute; reflexivity).
  cbn [bind]. unfold advance.
  replace (int_op (huge * psf_lrint (dsub (next_index dzero slow) (fmod_one (next_index dzero slow))))) with (Fault (A := Z) F_overflow)
    by (symmetry; vm_compute; reflexivity).
  reflexivity.
Qed.
