(** Properties C38 and C34, sharper than in Properties_Hold.v and Properties_Sinc.v, for the zero-order-hold and linear converters.
    Nothing but statements.

    After N input frames have been presented at constant ratio r and the last call had output room to spare, the number G of frames
    is at least r*N and at most r*N + 1, up to a rounding term of (r*N + (r+1)*G) / 2^52. *)
From Coq Require Import ZArith Reals List.
From Flocq Require Import Core IEEE754.BinarySingleNaN.
From Verif Require Import Base Types Api Heap HoldSpec ApiHist HoldCore HoldProcess HoldStream HoldMain HoldCases RunCases SincApi SincCases HoldLength.
Import ListNotations.
Local Open Scope Z_scope.

Theorem C38_zoh_length_within_one :
  forall ch X r N st log out st1 o1 d m e st2 d2 m2,
  at_start Zoh ch st -> channels_fit ch -> in_range r ->
  streaming ch X (eq r) (fun _ _ _ => True) st 0 log out st1 o1 ->
  presented 0 log <= N ->
  valid_call ch d m -> holds m (data_in d) ch (input_frames d) X o1 -> src_ratio d = r ->
  o1 + input_frames d = N ->
  src_process (Some st1) (Some d) m = Ok (e, Some st2, Some d2, m2) ->
  output_frames_gen d2 < output_frames d ->
  let G := IZR (total_gen log + output_frames_gen d2) in
  let eps := ((B2R r * IZR N + (B2R r + 1) * G) * / IZR (2 ^ 52))%R in
  (- eps <= G - B2R r * IZR N <= 1 + eps)%R.
Proof. exact zoh_length_sharp. Qed.
Print Assumptions C38_zoh_length_within_one.

Theorem C38_linear_length_within_one_partial :
  forall ch X r N st log out st1 o1 d m e st2 d2 m2,
  at_start Lin ch st -> channels_fit ch -> in_range r ->
  streaming ch X (eq r) (lin_legal Lin ch X) st 0 log out st1 o1 ->
  presented 0 log <= N ->
  valid_call ch d m -> holds m (data_in d) ch (input_frames d) X o1 -> src_ratio d = r -> lin_legal Lin ch X o1 d m ->
  o1 + input_frames d = N ->
  src_process (Some st1) (Some d) m = Ok (e, Some st2, Some d2, m2) ->
  output_frames_gen d2 < output_frames d ->
  let G := IZR (total_gen log + output_frames_gen d2) in
  let eps := ((B2R r * IZR N + (B2R r + 1) * G) * / IZR (2 ^ 52))%R in
  (- eps <= G - B2R r * IZR N <= 1 + eps)%R.
Proof. exact (length_sharp Lin). Qed.
(** Four frames at ratio 2 in one call: nine frames (zero-order hold, 2*4 + 1) and eight (linear, 2*4), so both ends are met. *)
Example C38_within_one_case : forall kd,
  at_start kd 2 (ex_conv kd 2) /\ valid_call 2 (ex_data (d_of_Z 2)) ex_mem /\ holds ex_mem 100 2 4 ex_stream 0 /\
  lin_legal kd 2 ex_stream 0 (ex_data (d_of_Z 2)) ex_mem /\ 0 < input_frames (ex_data (d_of_Z 2)) /\
  (exists st' d' m', src_process (Some (ex_conv kd 2)) (Some (ex_data (d_of_Z 2))) ex_mem = Ok (0, Some st', Some d', m')) /\
  gen_of (src_process (Some (ex_conv kd 2)) (Some (ex_data (d_of_Z 2))) ex_mem) = match kd with Zoh => 9 | Lin => 8 end.
Proof. exact within_one_case. Qed.
Print Assumptions C38_linear_length_within_one_partial.

(** C34: so the numbers of frames for two channel counts differ by one at most (as long as r*N is at most 2^40).  The property asks for
    equal numbers, which the code does not give (C34_hold_refuted). *)
Theorem C34_hold_counts_within_one_partial :
  forall kd ch ch' r N G G', channels_fit ch -> channels_fit ch' -> in_range r -> (B2R r * IZR N <= IZR (2 ^ 40))%R ->
  converted kd ch r N G -> converted kd ch' r N G' -> Z.abs (G - G') <= 1.
Proof. exact hold_counts_close. Qed.
Example C34_within_one_case :
  in_range (quotient 5 2) /\ (B2R (quotient 5 2) * 2 <= IZR (2 ^ 40))%R /\ in_range (quotient 5 9) /\ (B2R (quotient 5 9) * 9 <= IZR (2 ^ 40))%R /\
  (converted Zoh 1 (quotient 5 2) 2 6 /\ converted Zoh 3 (quotient 5 2) 2 5) /\
  (converted Lin 1 (quotient 5 9) 9 5 /\ converted Lin 3 (quotient 5 9) 9 6).
Proof. exact counts_case. Qed.
Print Assumptions C34_hold_counts_within_one_partial.
