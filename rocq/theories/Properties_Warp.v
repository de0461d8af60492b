(** Properties C54 and C55: the example program timewarp-file.  Nothing but statements.

    The program: Timewarp.v.  [padded], [arrays], [warp_ok], [spaced], [wanted], [obeys], [taken], [on_time]: WarpSpec.v.  [follows], [reached], [covers]:
    VarSpec.v.  [ideal_sinc], [within]: AccSpec.v. *)
From Coq Require Import ZArith Reals List.
From Flocq Require Import Core IEEE754.BinarySingleNaN.
From Verif Require Import Base Types Common Sinc Api Heap ApiHist HoldSpec LifeSpec SincSpec SincApi SincTables AccSpec VarSpec Timewarp WarpSpec WarpThms WarpCases.
Import ListNotations.
Local Open Scope Z_scope.

(** ** C54: the loop ends after at most 258 N + 2 passes, for any file of N frames; the whole file has been taken, the converter is
    freed, the value returned is the number of frames written, and those frames are the file, warped. *)
Theorem C54_timewarp :
  forall bld orc inc coeffs F N warp ty ch input output h m c h1 fuel,
  build_ok bld -> heap_ok h -> sinc_table bld ty = Some (inc, coeffs) -> table_fit (inc, coeffs) -> src_new bld orc ty ch h = Ok (0, Some c, h1) ->
  0 <= N <= 2 ^ 50 -> warp_ok warp -> arrays m input output -> 258 * N + 2 <= Z.of_nat fuel ->
  exists t h2, timewarp_convert bld orc F N warp ty ch input output fuel h m = Ok (Some t, h2) /\ hp_live h2 = hp_live h /\
    tw_input_count t = N /\ taken (tw_log t) = N /\ tw_output_count t = total_gen (events (tw_log t)) /\ zlen (tw_written t) = tw_output_count t * ch /\
    exists rho, follows (/ IZR (2 ^ 33)) None (events (tw_log t)) rho /\ covers rho (tw_output_count t) N (1 + / IZR (2 ^ 20)) 0 /\
      (forall A : f32, (inc, coeffs) = fastest_table \/ (inc, coeffs) = mid_qual_table -> within ch (padded F N) A -> (6 * Rabs (B2R A) < IZR (2 ^ 128))%R ->
       forall k c, 0 <= k < tw_output_count t -> 0 <= c < ch -> exists u t0 y, reached rho k u (B2R t0) /\ is_finite t0 = true /\
         sample ch (tw_written t) k c = Some y /\ is_finite y = true /\
         (Rabs (B2R y - ideal_sinc inc coeffs (fun i => B2R (padded F N i c)) (u, t0) (rho (Z.to_nat k))) <= 6 / 10000000 * Rabs (B2R A) + / IZR (2 ^ 149))%R).
Proof. exact timewarp_thm. Qed.
(** The program's own table and converter type, two channels. *)
Example C54_case : exists c h1, heap_ok (mkHeap 5 [2; 4]) /\ build_ok two_tables /\ sinc_table two_tables SRC_SINC_MEDIUM_QUALITY = Some mid_qual_table /\
  table_fit mid_qual_table /\ src_new two_tables (fun _ => true) SRC_SINC_MEDIUM_QUALITY 2 (mkHeap 5 [2; 4]) = Ok (0, Some c, h1) /\
  warp_ok the_warp /\ spaced the_warp /\ 2 <= zlen the_warp /\ arrays two_arrays 5000 6024.
Proof. exact warp_case. Qed.

(** ** C55: the ratio of every request is the one the table names for the input position.  So it is with the last entry of the table
    left out. *)
Theorem C55_table_partial :
  forall bld orc inc coeffs F N warp ty ch input output h m c h1 fuel,
  build_ok bld -> heap_ok h -> sinc_table bld ty = Some (inc, coeffs) -> table_fit (inc, coeffs) -> src_new bld orc ty ch h = Ok (0, Some c, h1) ->
  0 <= N <= 2 ^ 50 -> warp_ok warp -> arrays m input output -> 258 * N + 2 <= Z.of_nat fuel -> 2 <= zlen warp -> spaced warp ->
  exists t h2, timewarp_convert bld orc F N warp ty ch input output fuel h m = Ok (Some t, h2) /\
    obeys (removelast warp) (tw_log t) /\ on_time (tw_log t) /\
    (tw_log t = [] \/ exists l c d d', tw_log t = l ++ [(c, d, d')] /\ N <= c + 8).
Proof. exact table_thm. Qed.

(** With the program's own table, every file longer than 81007 frames: the entry at 81000 is never used, the ratio stays 1.5. *)
Theorem C55_last_entry_refuted :
  forall bld orc inc coeffs F N ty ch input output h m c h1 fuel,
  build_ok bld -> heap_ok h -> sinc_table bld ty = Some (inc, coeffs) -> table_fit (inc, coeffs) -> src_new bld orc ty ch h = Ok (0, Some c, h1) ->
  81008 <= N <= 2 ^ 50 -> arrays m input output -> 258 * N + 2 <= Z.of_nat fuel ->
  exists t h2, timewarp_convert bld orc F N the_warp ty ch input output fuel h m = Ok (Some t, h2) /\ ~ obeys the_warp (tw_log t).
Proof. exact last_thm. Qed.

Print Assumptions C54_timewarp.
Print Assumptions C55_table_partial.
Print Assumptions C55_last_entry_refuted.
