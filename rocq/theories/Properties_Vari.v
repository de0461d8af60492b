(** Properties C57 and C58: the varispeed player (examples/varispeed-play.c).  Nothing but statements.

    [looped], [sine_ok], [speeds_near], [vs_arrays], [at_speeds], [speedy], [top_speed], [a_converter], [converts]: VariSpec.v.  [behind]: CbReadSpec.v.  [follows], [reached],
    [from_on], [table_reach]: VarSpec.v.  [ideal_sinc], [within]: AccSpec.v. *)
From Coq Require Import ZArith Reals List.
From Flocq Require Import Core IEEE754.BinarySingleNaN.
From Verif Require Import Base Types Api Heap Callback ApiHist HoldSpec SincSpec SincApi SincTables AccSpec VarSpec CbSpec CbReadSpec Varispeed VariSpec VariThms WarpCases VariCases.
Import ListNotations.
Local Open Scope Z_scope.

(** ** C57: the player plays on.  So it does with a sinc converter (any proper table), zero-order hold or linear interpolation, a number of channels that divides 32, a file that has frames, and for the first
    2^30 blocks: whatever the file, every call of varispeed_get_data returns all the frames asked for, nothing outside the two arrays is touched, there is
    no exit and no undefined behaviour.  (2^35 bounds the turns of the library's loop in one read.) *)
Theorem C57_plays_partial :
  forall sine bld orc F N func ud ty ch buffer samples dummy turns calls h m c h1,
  sine_ok sine -> a_converter bld ty -> src_callback_new bld orc func ty ch ud h = Ok (0, Some c, h1) ->
  (ch | 32) -> 1 <= N -> 0 <= dummy <= 2 ^ 60 -> 2 ^ 35 <= Z.of_nat turns -> vs_arrays m buffer samples -> Z.of_nat calls * (32 / ch) <= 2 ^ 30 ->
  exists v given, varispeed_play sine bld orc F N func ud ty ch buffer samples dummy turns calls h m = Ok (Some (v, given)) /\
    zlen given = Z.of_nat calls * 2048 /\ src_error (Some (vs_state v)) = 0 /\
    (forall a, ~ (buffer <= a < buffer + 4096) -> ~ (samples <= a < samples + 2048) -> vs_mem v a = m a).
Proof. exact varispeed_plays. Qed.

(** The next call after 2^30 blocks overflows an int. *)
Theorem C57_overflow_refuted :
  forall sine bld orc F N func ud ty ch buffer samples dummy turns calls h m c h1,
  sine_ok sine -> a_converter bld ty -> src_callback_new bld orc func ty ch ud h = Ok (0, Some c, h1) ->
  (ch | 32) -> 1 <= N -> 0 <= dummy <= 2 ^ 60 -> 2 ^ 35 <= Z.of_nat turns -> vs_arrays m buffer samples -> Z.of_nat calls * (32 / ch) = 2 ^ 30 ->
  varispeed_play sine bld orc F N func ud ty ch buffer samples dummy turns (S calls) h m = Fault F_overflow.
Proof. exact varispeed_overflow. Qed.

(** 64 channels, zero-order hold, a silent file of ten frames: the first block is written beyond the end of the array. *)
Theorem C57_channels_refuted :
  forall sine calls, sine dzero = dzero -> vs_arrays vs_room 1000 5096 /\
  varispeed_play sine two_tables (fun _ => true) (fun _ _ => fzero) 10 7 8 SRC_ZERO_ORDER_HOLD 64 1000 5096 0 200 (S calls) (mkHeap 5 []) vs_room = Fault F_oob.
Proof. exact (fun sine calls H => conj vs_room_ok (too_wide sine calls H)). Qed.

(** A file without frames: the loop of the callback never ends. *)
Theorem C57_empty_file_refuted :
  forall F ch buffer n m, 0 < n -> forall fuel, vs_fill F 0 ch buffer fuel n 0 0 m = Fault F_fuel.
Proof. exact empty_file. Qed.

(** ** C58: what is played is the file, over and over, through the converter, at speeds that follow 1 - sin (2 pi k / 20000) / 2 in block k.
    The samples are those src_process calls on that stream would return.  All under the conditions of C57. *)
Theorem C58_content_partial :
  forall sine bld orc F N func ud ty ch buffer samples dummy turns calls h m c h1,
  sine_ok sine -> a_converter bld ty -> src_callback_new bld orc func ty ch ud h = Ok (0, Some c, h1) ->
  (ch | 32) -> 1 <= N -> 0 <= dummy <= 2 ^ 60 -> 2 ^ 35 <= Z.of_nat turns -> vs_arrays m buffer samples -> Z.of_nat calls * (32 / ch) <= 2 ^ 30 ->
  exists v given, varispeed_play sine bld orc F N func ud ty ch buffer samples dummy turns calls h m = Ok (Some (v, given)) /\
    exists speeds log, zlen speeds = Z.of_nat calls * (32 / ch) /\ speeds_near speeds /\ behind (at_speeds speeds) log /\ total_gen log = Z.of_nat calls * (2048 / ch) /\
      converts bld ty ch (looped F N) log given.
Proof. exact varispeed_stream. Qed.

(** With the sinc tables in the source each sample is the windowed sum at the sum of the steps before it (see C52 for the frames before [cut]). *)
Theorem C58_sinc_partial :
  forall sine bld orc inc coeffs F N func ud ty ch buffer samples dummy turns calls h m c h1 (A : f32),
  sinc_table bld ty = Some (inc, coeffs) -> (inc, coeffs) = fastest_table \/ (inc, coeffs) = mid_qual_table -> within ch (looped F N) A -> (6 * Rabs (B2R A) < IZR (2 ^ 128))%R ->
  sine_ok sine -> a_converter bld ty -> src_callback_new bld orc func ty ch ud h = Ok (0, Some c, h1) ->
  (ch | 32) -> 1 <= N -> 0 <= dummy <= 2 ^ 60 -> 2 ^ 35 <= Z.of_nat turns -> vs_arrays m buffer samples -> Z.of_nat calls * (32 / ch) <= 2 ^ 30 ->
  exists v given, varispeed_play sine bld orc F N func ud ty ch buffer samples dummy turns calls h m = Ok (Some (v, given)) /\
    exists speeds log, zlen speeds = Z.of_nat calls * (32 / ch) /\ speeds_near speeds /\ behind (at_speeds speeds) log /\
      exists rho, follows (/ IZR (2 ^ 33)) None log rho /\
      forall k c, 0 <= k < Z.of_nat calls * (2048 / ch) -> 0 <= c < ch -> exists u t y cut, reached rho k u (B2R t) /\ is_finite t = true /\
        sample ch given k c = Some y /\ is_finite y = true /\ cut < u - table_reach inc coeffs top_speed /\
        (Rabs (B2R y - ideal_sinc inc coeffs (from_on cut (fun i => B2R (looped F N i c))) (u, t) (rho (Z.to_nat k))) <= 6 / 10000000 * Rabs (B2R A) + / IZR (2 ^ 149))%R /\
        (table_reach inc coeffs (rho (Z.to_nat k)) <= table_reach inc coeffs top_speed ->
         (Rabs (B2R y - ideal_sinc inc coeffs (fun i => B2R (looped F N i c)) (u, t) (rho (Z.to_nat k))) <= 6 / 10000000 * Rabs (B2R A) + / IZR (2 ^ 149))%R) /\
        (1 / 2 <= B2R (rho (Z.to_nat k)) <= 3 / 2)%R.
Proof. exact varispeed_sinc. Qed.

(** Zero-order hold: each sample is a sample of the file, the last one before that place. *)
Theorem C58_zoh_partial :
  forall sine bld orc F N func ud ch buffer samples dummy turns calls h m c h1,
  sine_ok sine -> src_callback_new bld orc func SRC_ZERO_ORDER_HOLD ch ud h = Ok (0, Some c, h1) ->
  (ch | 32) -> 1 <= N -> 0 <= dummy <= 2 ^ 60 -> 2 ^ 35 <= Z.of_nat turns -> vs_arrays m buffer samples -> Z.of_nat calls * (32 / ch) <= 2 ^ 30 ->
  exists v given, varispeed_play sine bld orc F N func ud SRC_ZERO_ORDER_HOLD ch buffer samples dummy turns calls h m = Ok (Some (v, given)) /\
    exists speeds log, zlen speeds = Z.of_nat calls * (32 / ch) /\ speeds_near speeds /\ behind (at_speeds speeds) log /\
      exists rho, follows (/ IZR (2 ^ 42)) None log rho /\
      forall k c, 0 <= k < Z.of_nat calls * (2048 / ch) -> 0 <= c < ch -> exists u t, reached rho k u t /\ sample ch given k c = Some (looped F N (Z.max 0 (u - 1)) c).
Proof. exact varispeed_zoh. Qed.

(** Linear interpolation: each sample is on the line between its neighbours. *)
Theorem C58_linear_partial :
  forall sine bld orc F N func ud ch buffer samples dummy turns calls h m c h1 (A : f32),
  within ch (looped F N) A ->
  sine_ok sine -> src_callback_new bld orc func SRC_LINEAR ch ud h = Ok (0, Some c, h1) ->
  (ch | 32) -> 1 <= N -> 0 <= dummy <= 2 ^ 60 -> 2 ^ 35 <= Z.of_nat turns -> vs_arrays m buffer samples -> Z.of_nat calls * (32 / ch) <= 2 ^ 30 ->
  exists v given, varispeed_play sine bld orc F N func ud SRC_LINEAR ch buffer samples dummy turns calls h m = Ok (Some (v, given)) /\
    exists speeds log, zlen speeds = Z.of_nat calls * (32 / ch) /\ speeds_near speeds /\ behind (at_speeds speeds) log /\
      exists rho, follows (/ IZR (2 ^ 42)) None log rho /\
      forall k c, 0 <= k < Z.of_nat calls * (2048 / ch) -> 0 <= c < ch -> exists u t y, reached rho k u t /\ sample ch given k c = Some y /\ is_finite y = true /\
        (Rabs (B2R y - on_line (B2R (looped F N (Z.max 0 (u - 1)) c)) (B2R (looped F N (Z.max 0 u) c)) t) <= / 16000000 * Rabs (B2R A) + / IZR (2 ^ 149))%R.
Proof. exact varispeed_linear. Qed.

(** Two channels, all three kinds of converter. *)
Example C57_case : sine_ok rounded_sin /\ (2 | 32) /\ vs_arrays vs_room 1000 5096 /\ sinc_table two_tables SRC_SINC_MEDIUM_QUALITY = Some mid_qual_table /\
  forall ty, In ty [SRC_SINC_MEDIUM_QUALITY; SRC_ZERO_ORDER_HOLD; SRC_LINEAR] -> a_converter two_tables ty /\
  exists c h1, src_callback_new two_tables (fun _ => true) 7 ty 2 8 (mkHeap 5 [2; 4]) = Ok (0, Some c, h1).
Proof. exact vari_case. Qed.

Print Assumptions C57_plays_partial.
Print Assumptions C57_overflow_refuted.
Print Assumptions C57_channels_refuted.
Print Assumptions C57_empty_file_refuted.
Print Assumptions C58_content_partial.
Print Assumptions C58_sinc_partial.
Print Assumptions C58_zoh_partial.
Print Assumptions C58_linear_partial.
