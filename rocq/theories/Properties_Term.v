(** Property C62: stream_test of the test program termination_test.  Nothing but statements.

    The program: TermTest.v.  [two_arrays], [term_sizes], [converted_to]: StreamTestSpec.v.  [sl_in], [sl_out], [sl_mem]: current_in,
    current_out and the memory at the end.  [n], [u], [g]: the three fields of SRC_DATA the program does not initialise.  [idx]: where
    in its list of block lengths the program is when the function starts. *)
From Coq Require Import ZArith Reals List Bool.
From Flocq Require Import Core IEEE754.BinarySingleNaN.
From Verif Require Import Base Types Common Sinc Api Heap ApiHist HoldSpec HoldMain LifeSpec SincSpec SincApi SincTables SincCases WarpCases
  StreamTest StreamTestSpec StreamTestThms StreamTestCases TermTest TermTestThms TermFunc TermTestCases.
Import ListNotations.
Local Open Scope Z_scope.

(** ** C62: the loop, with blocks of changing lengths, ends after at most N + L + 1 passes with none of its checks failing. *)
Theorem C62_hold_loop :
  forall kd r N K T L input output X st0, in_range r -> term_sizes r N K T L -> at_start kd 1 st0 ->
  forall n u g idx m0 fuel, two_arrays m0 X N L input output -> 0 <= idx <= 8 -> N + L < Z.of_nat fuel ->
  exists t, tt_loop N K T L fuel (tt_init L input output r n u g idx st0 m0) = Ok (Some t) /\
    sl_in (tt_sl t) = N /\ 0 <= sl_out (tt_sl t) < L /\ sl_out (tt_sl t) <= K /\
    (Rabs (IZR (sl_out (tt_sl t)) - B2R r * IZR N) <= 1 + (B2R r + 1) * / IZR (2 ^ 19))%R /\
    converted_to m0 (sl_mem (tt_sl t)) output (sl_out (tt_sl t)) (fun k => value kd (from0 X) (pos_at (0, dzero) (fun _ => r) (Z.to_nat k)) 0).
Proof. exact hold_term_test. Qed.
Example C62_hold_case : forall kd, in_range three_tenths /\ term_sizes three_tenths 65496 19654 5 LONG_BUFFER_LEN /\ at_start kd 1 (ex_conv kd 1) /\
  two_arrays all_ones (fun i _ => if (0 <=? i) && (i <? 65496) then f_of_Z 1 else fzero) 65496 LONG_BUFFER_LEN 1000 100000.
Proof. intros kd. destruct term_case as (A & _ & B & C). exact (conj A (conj B (conj (conv1 kd) C))). Qed.
Print Assumptions C62_hold_loop.

Theorem C62_sinc_loop :
  forall inc coeffs r N K T L input output X st0, table_fit (inc, coeffs) -> in_range r -> (/ 191 <= B2R r)%R -> term_sizes r N K T L ->
  sinc_new (inc, coeffs) 1 st0 -> (forall i c, i < 0 -> X i c = fzero) -> (forall i c, N <= i -> X i c = fzero) ->
  forall n u g idx m0 fuel, two_arrays m0 X N L input output -> 0 <= idx <= 8 -> N + L < Z.of_nat fuel ->
  exists t, tt_loop N K T L fuel (tt_init L input output r n u g idx st0 m0) = Ok (Some t) /\
    sl_in (tt_sl t) = N /\ 0 <= sl_out (tt_sl t) < L /\ sl_out (tt_sl t) <= K /\
    (Rabs (IZR (sl_out (tt_sl t)) - B2R r * IZR N) <= 1 + (B2R r + 1) * / IZR (2 ^ 19))%R /\
    converted_to m0 (sl_mem (tt_sl t)) output (sl_out (tt_sl t)) (fun k => sinc_value inc coeffs (fun i => X i 0) (pos_at (0, dzero) (fun _ => r) (Z.to_nat k)) r).
Proof. exact sinc_term_test. Qed.
Example C62_sinc_case : table_fit fastest_table /\ sinc_new fastest_table 1 (fast_new 1) /\ in_range three_tenths /\ (/ 191 <= B2R three_tenths)%R /\
  term_sizes three_tenths 65496 19654 5 LONG_BUFFER_LEN /\
  two_arrays all_ones (fun i _ => if (0 <=? i) && (i <? 65496) then f_of_Z 1 else fzero) 65496 LONG_BUFFER_LEN 1000 100000.
Proof. exact (conj fastest_fit (conj new1 term_case)). Qed.
Print Assumptions C62_sinc_loop.

(** The function as it stands prints "ok" at every ratio from 1/16 to 256 and frees every block src_new allocated. *)
Theorem C62_stream_test_ok :
  forall bld orc ty r input output n u g idx fuel h m c h1,
  build_ok bld -> heap_ok h -> (forall t, sinc_table bld ty = Some t -> table_fit t) -> src_new bld orc ty 1 h = Ok (0, Some c, h1) ->
  in_range r -> (/ 16 <= B2R r)%R -> 0 < input <= 2 ^ 59 -> 0 < output <= 2 ^ 59 -> disjoint_ranges input LONG_BUFFER_LEN output LONG_BUFFER_LEN ->
  (forall i, 0 <= i < LONG_BUFFER_LEN -> m (input + i) <> None /\ m (output + i) <> None) -> 0 <= idx <= 8 -> 2 * LONG_BUFFER_LEN < Z.of_nat fuel ->
  exists s h2, term_test bld orc ty r input output n u g idx fuel h m = Ok (T_ok s, h2) /\ hp_live h2 = hp_live h.
Proof. exact term_test_passes. Qed.
(** At ratio 0.3: the lengths and the tolerance the program computes, and that everything the theorem asks for is there. *)
Example C62_lengths : term_lengths three_tenths = Ok (65496, 19654) /\ term_slack three_tenths = Ok 5.
Proof. exact term_tenths. Qed.
Example C62_case : forall ty, ty = SRC_SINC_FASTEST \/ ty = SRC_LINEAR \/ ty = SRC_ZERO_ORDER_HOLD ->
  exists c h1, heap_ok (mkHeap 5 [2; 4]) /\ build_ok two_tables /\ (forall t, sinc_table two_tables ty = Some t -> table_fit t) /\
  src_new two_tables (fun _ => true) ty 1 (mkHeap 5 [2; 4]) = Ok (0, Some c, h1) /\ in_range three_tenths /\ (/ 16 <= B2R three_tenths)%R /\
  disjoint_ranges 1000 LONG_BUFFER_LEN 100000 LONG_BUFFER_LEN /\ (forall i, 0 <= i < LONG_BUFFER_LEN -> all_ones (1000 + i) <> None /\ all_ones (100000 + i) <> None).
Proof. exact term_test_case. Qed.
Print Assumptions C62_stream_test_ok.
