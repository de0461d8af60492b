(** Example cases for C60 and C61: the first ratio of the test, 0.3. *)
From Coq Require Import ZArith Reals List Bool Lia Lra.
From Flocq Require Import Core IEEE754.BinarySingleNaN.
From Verif Require Import Base FloatFacts Types Common Sinc Api Heap ApiHist HoldSpec HoldMain LifeSpec ApiCases SincSpec SincApi SincTables SincCases WarpCases
  StreamTest StreamTestSpec StreamTestThms StreamFunc.
Import ListNotations.
Local Open Scope Z_scope.

Definition three_tenths : f64 := ddiv (d_of_Z 3) (d_of_Z 10).
Definition all_ones : mem := fun _ => Some (f_of_Z 1).
Lemma tenths : in_range three_tenths /\ (3 / 10 - / 1000000 <= B2R three_tenths <= 3 / 10 + / 1000000)%R.
Proof.
  unfold three_tenths. destruct (d_of_Z_val 3) as [V1 F1]; [lia|]. destruct (d_of_Z_val 10) as [V2 F2]; [lia|].
  destruct (ddiv_val (d_of_Z 3) (d_of_Z 10)) as [V F]; [exact F1|rewrite V2; lra|rewrite V1, V2; apply small_pow; rewrite Rabs_pos_eq; lra|].
  rewrite V1, V2 in V. assert (E := err15 (3 / 10) ltac:(rewrite Rabs_pos_eq; lra)). apply Rabs_le_inv in E. rewrite <- V in E.
  split; [split; [exact F|]|]; lra.
Qed.
Lemma tenths_lengths : test_lengths three_tenths = Ok (32758, 9830).
Proof. vm_compute. reflexivity. Qed.
Lemma conv1 kd : at_start kd 1 (ex_conv kd 1).
Proof. left. exists (mkBuild None None None), (fun _ => true), (mkHeap 1 []). destruct kd; eexists _, _; split; reflexivity. Qed.
Lemma stream_case : in_range three_tenths /\ (/ 191 <= B2R three_tenths)%R /\ block_fits 100 32758 9830 /\ room_for three_tenths 32758 9830 /\
  two_arrays all_ones (fun i _ => if (0 <=? i) && (i <? 32758) then f_of_Z 1 else fzero) 32758 9830 1000 40000.
Proof.
  destruct tenths as [H1 H2]. split; [exact H1|]. split; [lra|]. split; [unfold block_fits; lia|]. split; [unfold room_for; simpl (2 ^ 20); lra|].
  split; [lia|]. split; [lia|]. split; [lia|]. split; [|intros; discriminate]. intros i Hi. unfold all_ones. destruct (Z.leb_spec 0 i), (Z.ltb_spec i 32758); try lia. reflexivity.
Qed.
Lemma test_case ty : ty = SRC_SINC_FASTEST \/ ty = SRC_LINEAR \/ ty = SRC_ZERO_ORDER_HOLD ->
  exists c h1, heap_ok (mkHeap 5 [2; 4]) /\ build_ok two_tables /\ (forall t, sinc_table two_tables ty = Some t -> table_fit t) /\
  src_new two_tables (fun _ => true) ty 1 (mkHeap 5 [2; 4]) = Ok (0, Some c, h1) /\ in_range three_tenths /\ (/ 4 <= B2R three_tenths)%R /\
  disjoint_ranges 1000 TEST_BUFFER_LEN 40000 TEST_BUFFER_LEN /\ (forall i, 0 <= i < TEST_BUFFER_LEN -> all_ones (1000 + i) <> None /\ all_ones (40000 + i) <> None).
Proof.
  intros T. assert (Hh : heap_ok (mkHeap 5 [2; 4])) by apply c12_case.
  destruct (c12_created two_tables (fun _ => true) ty 1 _ Hh two_tables_ok) as (h1 & [[_ Q]|(c & E & _)]).
  - destruct T as [->|[->| ->]]; [left; discriminate|right; right; reflexivity|right; left; reflexivity].
  - lia.
  - intros _. unfold MAX_CHANNELS. lia.
  - exfalso. destruct Q as (n & _ & Q). discriminate Q.
  - exists c, h1. destruct tenths as [H1 H2]. split; [exact Hh|]. split; [exact two_tables_ok|]. split.
    { destruct T as [->|[->| ->]]; intros t Q; [injection Q as <-; exact fastest_fit|discriminate Q|discriminate Q]. }
    split; [exact E|]. split; [exact H1|]. split; [lra|]. split; [unfold disjoint_ranges, TEST_BUFFER_LEN; lia|]. intros i _. split; discriminate.
Qed.
