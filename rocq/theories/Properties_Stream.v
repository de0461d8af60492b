(** Properties C60 and C61: the test program streaming_test, a client that converts an array block by block.  Nothing but
    statements.

    The program: StreamTest.v.  [two_arrays], [block_fits], [room_for], [converted_to]: StreamTestSpec.v.  [sl_in], [sl_out], [sl_mem]:
    current_in, current_out and the memory at the end.  [u], [g]: the two fields of SRC_DATA the program does not initialise. *)
From Coq Require Import ZArith Reals List Bool.
From Flocq Require Import Core IEEE754.BinarySingleNaN.
From Verif Require Import Base Types Common Sinc Api Heap ApiHist HoldSpec HoldMain LifeSpec SincSpec SincApi SincTables SincCases WarpCases
  StreamTest StreamTestSpec StreamTestThms StreamFunc StreamTestCases.
Import ListNotations.
Local Open Scope Z_scope.

(** ** C60: the loop ends after at most N + L + 1 passes without error; all input has been used, the number of frames is the ratio
    times N as in C38 and C41, and the output array holds exactly those frames, each with the value C23, C24 and C33 give it. *)
Theorem C60_hold_loop :
  forall kd r N L B input output X st0, in_range r -> block_fits B N L -> match kd with Zoh => True | Lin => 3 <= B end ->
  (input + N < output \/ output + L <= input) -> room_for r N L -> at_start kd 1 st0 ->
  forall u g m0 fuel, two_arrays m0 X N L input output -> N + L < Z.of_nat fuel ->
  exists s, sl_loop N L B fuel (sl_init B input output r u g st0 m0) = Ok (Some s) /\ sl_in s = N /\ 0 <= sl_out s < L /\
    (Rabs (IZR (sl_out s) - B2R r * IZR N) <= 1 + (B2R r + 1) * / IZR (2 ^ 19))%R /\
    converted_to m0 (sl_mem s) output (sl_out s) (fun k => value kd (from0 X) (pos_at (0, dzero) (fun _ => r) (Z.to_nat k)) 0).
Proof. exact hold_streaming_test. Qed.
Example C60_hold_case : forall kd, in_range three_tenths /\ block_fits 100 32758 9830 /\ room_for three_tenths 32758 9830 /\ at_start kd 1 (ex_conv kd 1) /\
  two_arrays all_ones (fun i _ => if (0 <=? i) && (i <? 32758) then f_of_Z 1 else fzero) 32758 9830 1000 40000.
Proof. intros kd. destruct stream_case as (A & _ & B & C & D). exact (conj A (conj B (conj C (conj (conv1 kd) D)))). Qed.
Print Assumptions C60_hold_loop.

Theorem C60_sinc_loop :
  forall inc coeffs r N L B input output X st0, table_fit (inc, coeffs) -> in_range r -> (/ 191 <= B2R r)%R -> block_fits B N L ->
  (input + N < output \/ output + L <= input) -> room_for r N L -> sinc_new (inc, coeffs) 1 st0 ->
  (forall i c, i < 0 -> X i c = fzero) -> (forall i c, N <= i -> X i c = fzero) ->
  forall u g m0 fuel, two_arrays m0 X N L input output -> N + L < Z.of_nat fuel ->
  exists s, sl_loop N L B fuel (sl_init B input output r u g st0 m0) = Ok (Some s) /\ sl_in s = N /\ 0 <= sl_out s < L /\
    (Rabs (IZR (sl_out s) - B2R r * IZR N) <= 1 + (B2R r + 1) * / IZR (2 ^ 19))%R /\
    converted_to m0 (sl_mem s) output (sl_out s) (fun k => sinc_value inc coeffs (fun i => X i 0) (pos_at (0, dzero) (fun _ => r) (Z.to_nat k)) r).
Proof. exact sinc_streaming_test. Qed.
Example C60_sinc_case : table_fit fastest_table /\ sinc_new fastest_table 1 (fast_new 1) /\ in_range three_tenths /\ (/ 191 <= B2R three_tenths)%R /\
  block_fits 100 32758 9830 /\ room_for three_tenths 32758 9830 /\
  two_arrays all_ones (fun i _ => if (0 <=? i) && (i <? 32758) then f_of_Z 1 else fzero) 32758 9830 1000 40000.
Proof. exact (conj fastest_fit (conj new1 stream_case)). Qed.
Print Assumptions C60_sinc_loop.

(** ** C61: stream_test as it stands prints "ok" at every ratio from 1/4 to 256, not only at the four it is run with, for every
    converter and whatever the input array holds; every block src_new allocated is freed. *)
Theorem C61_stream_test_ok :
  forall bld orc ty r input output u g fuel h m c h1,
  build_ok bld -> heap_ok h -> (forall t, sinc_table bld ty = Some t -> table_fit t) -> src_new bld orc ty 1 h = Ok (0, Some c, h1) ->
  in_range r -> (/ 4 <= B2R r)%R -> 0 < input <= 2 ^ 59 -> 0 < output <= 2 ^ 59 -> disjoint_ranges input TEST_BUFFER_LEN output TEST_BUFFER_LEN ->
  (forall i, 0 <= i < TEST_BUFFER_LEN -> m (input + i) <> None /\ m (output + i) <> None) -> 2 * TEST_BUFFER_LEN <= Z.of_nat fuel ->
  exists s h2, stream_test bld orc ty r input output u g fuel h m = Ok (T_ok s, h2) /\ hp_live h2 = hp_live h.
Proof. exact stream_test_passes. Qed.
(** The first ratio of the program: the lengths it computes, and that everything the theorem asks for is there. *)
Example C61_lengths : test_lengths three_tenths = Ok (32758, 9830).
Proof. exact tenths_lengths. Qed.
Example C61_case : forall ty, ty = SRC_SINC_FASTEST \/ ty = SRC_LINEAR \/ ty = SRC_ZERO_ORDER_HOLD ->
  exists c h1, heap_ok (mkHeap 5 [2; 4]) /\ build_ok two_tables /\ (forall t, sinc_table two_tables ty = Some t -> table_fit t) /\
  src_new two_tables (fun _ => true) ty 1 (mkHeap 5 [2; 4]) = Ok (0, Some c, h1) /\ in_range three_tenths /\ (/ 4 <= B2R three_tenths)%R /\
  disjoint_ranges 1000 TEST_BUFFER_LEN 40000 TEST_BUFFER_LEN /\ (forall i, 0 <= i < TEST_BUFFER_LEN -> all_ones (1000 + i) <> None /\ all_ones (40000 + i) <> None).
Proof. exact test_case. Qed.
Print Assumptions C61_stream_test_ok.
