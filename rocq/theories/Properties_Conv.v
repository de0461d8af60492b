(** Properties C01-C06, C40: sample format conversion and position arithmetic.  Nothing but statements. *)
From Coq Require Import ZArith Reals List Lia Lra.
From Flocq Require Import Core IEEE754.BinarySingleNaN.
From Verif Require Import Base FloatFacts SampleConv SampleConvSpec SampleConvProofs PosFacts.
Import ListNotations.
Local Open Scope Z_scope.

(** C01: every 16-bit sample becomes a float of value exactly s/32768, which lies in [-1,1). *)
Theorem C01_short_to_float_exact :
  forall (inp : list Z) (out : list f32) (len : Z),
  room inp out len -> Forall (fun s => -32768 <= s <= 32767) inp ->
  exists out', src_short_to_float_array inp out len = Ok out' /\
    array_post (fun s (y : f32) => is_finite y = true /\ B2R y = (IZR s / 32768)%R /\ (-1 <= B2R y < 1)%R)
               inp out len out'.
Proof. exact short_to_float_array_exact. Qed.
Example C01_case : room [ -32768; 17; 32767 ] [fzero; fzero; fzero; fzero] 3 /\
  Forall (fun s => -32768 <= s <= 32767) [ -32768; 17; 32767 ].
Proof. unfold room; simpl; split; [lia|repeat constructor; lia]. Qed.
Print Assumptions C01_short_to_float_exact.

(** C02: shorts -> floats -> shorts is the identity on whole arrays. *)
Theorem C02_short_round_trip :
  forall (inp : list Z) (out1 : list f32) (out2 : list Z),
  Forall (fun s => -32768 <= s <= 32767) inp ->
  length out1 = length inp -> length out2 = length inp ->
  exists mid, src_short_to_float_array inp out1 (Z.of_nat (length inp)) = Ok mid /\
              src_float_to_short_array mid out2 (Z.of_nat (length inp)) = Ok inp.
Proof. exact short_array_round_trip. Qed.
Example C02_case : Forall (fun s => -32768 <= s <= 32767) [ -32768; -1; 12345; 32767 ] /\
  src_float_to_short_array [short_to_float (-32768); short_to_float (-1); short_to_float 12345; short_to_float 32767] [0; 0; 0; 0] 4 = Ok [ -32768; -1; 12345; 32767 ].
Proof. split; [repeat constructor; lia|vm_compute; reflexivity]. Qed.
Print Assumptions C02_short_round_trip.

(** C03: nearest integer to 32768 x, ties to even, clipped; always in range; monotone. *)
Theorem C03_float_to_short_correct :
  forall (inp : list f32) (out : list Z) (len : Z), room inp out len ->
  exists out', src_float_to_short_array inp out len = Ok out' /\
    array_post (fun x n => is_conv_to (-32768) 32767 15 x n /\ -32768 <= n <= 32767) inp out len out'.
Proof. exact float_to_short_array_correct. Qed.
Example C03_array_case : room [f_of_Z 3; short_to_float 5; B754_nan] [7; 7; 7; 7] 3.
Proof. unfold room; simpl; lia. Qed.
Print Assumptions C03_float_to_short_correct.

Theorem C03_float_to_short_monotone :
  forall (x y : f32) (n m : Z),
  src_float_to_short_array [x] [0] 1 = Ok [n] -> src_float_to_short_array [y] [0] 1 = Ok [m] ->
  Bleb x y = true -> n <= m.
Proof. exact float_to_short_array_mono. Qed.
Example C03_case : src_float_to_short_array [short_to_float 5] [0] 1 = Ok [5] /\
  src_float_to_short_array [f_of_Z 3] [0] 1 = Ok [32767] /\ Bleb (short_to_float 5) (f_of_Z 3) = true.
Proof. vm_compute. auto. Qed.
Print Assumptions C03_float_to_short_monotone.

(** C04: the same for 32-bit integers, for every build configuration whose clipping flags are truthful about the CPU. *)
Theorem C04_float_to_int_correct :
  forall clips_pos clips_neg lr, truthful clips_pos clips_neg lr ->
  forall (inp : list f32) (out : list Z) (len : Z), room inp out len ->
  exists out', src_float_to_int_array clips_pos clips_neg lr inp out len = Ok out' /\
    array_post (fun x n => is_conv_to (- 2 ^ 31) (2 ^ 31 - 1) 31 x n) inp out len out'.
Proof. exact float_to_int_array_correct. Qed.
Example C04_case : truthful false false psf_lrint /\ room [f_of_Z 3; int_to_float 5] [7; 7; 7] 2.
Proof. split; [apply x86_truthful|unfold room; simpl; lia]. Qed.
Print Assumptions C04_float_to_int_correct.

Theorem C04_float_to_int_monotone :
  forall clips_pos clips_neg lr, truthful clips_pos clips_neg lr ->
  forall (x y : f32) (n m : Z),
  src_float_to_int_array clips_pos clips_neg lr [x] [0] 1 = Ok [n] ->
  src_float_to_int_array clips_pos clips_neg lr [y] [0] 1 = Ok [m] ->
  Bleb x y = true -> n <= m.
Proof. exact float_to_int_array_mono. Qed.
Example C04_monotone_case : src_float_to_int_array false false psf_lrint [int_to_float 5] [0] 1 = Ok [5] /\
  src_float_to_int_array false false psf_lrint [f_of_Z 3] [0] 1 = Ok [2147483647] /\ Bleb (int_to_float 5) (f_of_Z 3) = true.
Proof. vm_compute. auto. Qed.
Print Assumptions C04_float_to_int_monotone.

(** The x86-64 instruction satisfies the hypothesis for CPU_CLIPS_POSITIVE = 0 and both settings of CPU_CLIPS_NEGATIVE. *)
Theorem C04_x86_flags_truthful : forall clips_neg, truthful false clips_neg psf_lrint.
Proof. exact x86_truthful. Qed.
Print Assumptions C04_x86_flags_truthful.

(** C05: ints survive a round trip up to 64, and exactly when they have at most 24 significant bits. *)
Theorem C05_int_round_trip :
  forall clips_pos clips_neg lr, truthful clips_pos clips_neg lr ->
  forall (inp : list Z) (out1 : list f32) (out2 : list Z),
  Forall (fun n => - 2 ^ 31 <= n <= 2 ^ 31 - 1) inp ->
  length out1 = length inp -> length out2 = length inp ->
  exists mid res,
    src_int_to_float_array inp out1 (Z.of_nat (length inp)) = Ok mid /\
    src_float_to_int_array clips_pos clips_neg lr mid out2 (Z.of_nat (length inp)) = Ok res /\
    Forall2 (fun n n' => Z.abs (n' - n) <= 64 /\
                         ((exists m e, Z.abs m < 2 ^ 24 /\ 0 <= e /\ n = m * 2 ^ e) -> n' = n)) inp res.
Proof. exact int_array_round_trip. Qed.
Example C05_case : truthful false false psf_lrint /\
  Forall (fun n => - 2 ^ 31 <= n <= 2 ^ 31 - 1) [ 2147483647; -2147483648; 16777217; 123456 ] /\
  exists m e, Z.abs m < 2 ^ 24 /\ 0 <= e /\ 2147483520 = m * 2 ^ e.
Proof.
  split; [apply x86_truthful|]. split; [repeat constructor; lia|].
  exists 16777215, 7. lia.
Qed.
(** The bound 64 is attained: 2^30 + 64 becomes 2^30. *)
Example C05_bound_tight : src_float_to_int_array false false psf_lrint [int_to_float (2 ^ 30 + 64)] [0] 1 = Ok [2 ^ 30].
Proof. vm_compute. reflexivity. Qed.
Print Assumptions C05_int_round_trip.

(** C06: exactly [len] elements are written, each from the input element at the same index by a fixed function. *)
Theorem C06_array_frame :
  forall cp cn lr,
  (exists f, forall inp out len, room inp out len ->
     exists out', src_short_to_float_array inp out len = Ok out' /\ array_post (fun x y => y = f x) inp out len out') /\
  (exists f, forall inp out len, room inp out len ->
     exists out', src_float_to_short_array inp out len = Ok out' /\ array_post (fun x y => y = f x) inp out len out') /\
  (exists f, forall inp out len, room inp out len ->
     exists out', src_int_to_float_array inp out len = Ok out' /\ array_post (fun x y => y = f x) inp out len out') /\
  (exists f, forall inp out len, room inp out len ->
     exists out', src_float_to_int_array cp cn lr inp out len = Ok out' /\ array_post (fun x y => y = f x) inp out len out').
Proof. exact array_frame. Qed.
Example C06_case : room [1; 2; 3] [fzero; fzero] 2 /\ room [fzero; fzero; fzero] [1; 2] 2.
Proof. unfold room; simpl; lia. Qed.
Print Assumptions C06_array_frame.

Theorem C06_nothing_for_nonpositive_length :
  forall cp cn lr len, len <= 0 ->
  (forall inp out, src_short_to_float_array inp out len = Ok out) /\
  (forall inp out, src_float_to_short_array inp out len = Ok out) /\
  (forall inp out, src_int_to_float_array inp out len = Ok out) /\
  (forall inp out, src_float_to_int_array cp cn lr inp out len = Ok out).
Proof. exact array_nonpositive. Qed.
Print Assumptions C06_nothing_for_nonpositive_length.

(** C40: splitting a position into whole frames and a fraction is exact, for every position a converter can reach
    (positions between calls are below 2^31; see C16/C17). *)
Theorem C40_position_split_exact :
  forall x : f64, is_finite x = true -> (0 <= B2R x <= 2147483647)%R ->
  let rem := fmod_one x in
  let whole := psf_lrint (dsub x rem) in
  whole = Zfloor (B2R x) /\ is_finite rem = true /\ (0 <= B2R rem < 1)%R /\ (IZR whole + B2R rem = B2R x)%R.
Proof. exact position_split_exact. Qed.
Example C40_case : (0 <= B2R (ddiv (d_of_Z 7) (d_of_Z 3)) <= 2147483647)%R /\
  psf_lrint (dsub (ddiv (d_of_Z 7) (d_of_Z 3)) (fmod_one (ddiv (d_of_Z 7) (d_of_Z 3)))) = 2.
Proof. split; [vm_compute; split; lra|vm_compute; reflexivity]. Qed.
Print Assumptions C40_position_split_exact.
