(** Example cases for C62: ratio 0.3. *)
From Coq Require Import ZArith Reals List Bool Lia Lra.
From Flocq Require Import Core IEEE754.BinarySingleNaN.
From Verif Require Import Base FloatFacts Types Common Sinc Api Heap ApiHist HoldSpec HoldMain LifeSpec SincSpec SincApi SincTables SincCases WarpCases
  StreamTest StreamTestSpec StreamTestThms StreamFunc StreamTestCases TermTest.
Import ListNotations.
Local Open Scope Z_scope.

Lemma term_tenths : term_lengths three_tenths = Ok (65496, 19654) /\ term_slack three_tenths = Ok 5.
Proof. split; vm_compute; reflexivity. Qed.
Lemma term_case : in_range three_tenths /\ (/ 191 <= B2R three_tenths)%R /\ term_sizes three_tenths 65496 19654 5 LONG_BUFFER_LEN /\
  two_arrays all_ones (fun i _ => if (0 <=? i) && (i <? 65496) then f_of_Z 1 else fzero) 65496 LONG_BUFFER_LEN 1000 100000.
Proof.
  destruct tenths as [H1 H2]. split; [exact H1|]. split; [lra|]. split.
  - unfold term_sizes, room_for, LONG_BUFFER_LEN. simpl (2 ^ 20). simpl (2 ^ 16 - 20). simpl (19654 + 1). split; [lia|]. split; [lia|]. split; [lia|]. split; lra.
  - split; [lia|]. split; [lia|]. split; [lia|]. split; [|intros; discriminate]. intros i Hi. unfold all_ones. destruct (Z.leb_spec 0 i), (Z.ltb_spec i 65496); try lia. reflexivity.
Qed.
Lemma term_test_case ty : ty = SRC_SINC_FASTEST \/ ty = SRC_LINEAR \/ ty = SRC_ZERO_ORDER_HOLD ->
  exists c h1, heap_ok (mkHeap 5 [2; 4]) /\ build_ok two_tables /\ (forall t, sinc_table two_tables ty = Some t -> table_fit t) /\
  src_new two_tables (fun _ => true) ty 1 (mkHeap 5 [2; 4]) = Ok (0, Some c, h1) /\ in_range three_tenths /\ (/ 16 <= B2R three_tenths)%R /\
  disjoint_ranges 1000 LONG_BUFFER_LEN 100000 LONG_BUFFER_LEN /\ (forall i, 0 <= i < LONG_BUFFER_LEN -> all_ones (1000 + i) <> None /\ all_ones (100000 + i) <> None).
Proof.
  intros T. destruct (test_case ty T) as (c & h1 & A & B & C & D & E & F & _). exists c, h1.
  split; [exact A|]. split; [exact B|]. split; [exact C|]. split; [exact D|]. split; [exact E|]. split; [lra|].
  split; [unfold disjoint_ranges, LONG_BUFFER_LEN; lia|]. intros i _. split; discriminate.
Qed.
