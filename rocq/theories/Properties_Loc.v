(** Properties C50 and C51: locality and time invariance.  Nothing but statements.

    [alike_near], [slack], [delayed], [dyadic]: LocSpec.v.  [table_fit] (SincSpec.v) holds of both tables in the source. *)
From Coq Require Import ZArith Reals List.
From Flocq Require Import Core IEEE754.BinarySingleNaN.
From Verif Require Import Base Types Api ApiHist HoldSpec HoldCore HoldRamp HoldMain HoldCases SincSpec SincApi SincStream SincTables SincCases LocSpec LocThms GainCases AccCases LocCases.
Local Open Scope Z_scope.

(** ** C50: output frame k depends on the input near k / r only: two streams alike there give the same sample,
    in whatever blocks, with however many channels, in whatever channel. *)
Theorem C50_zoh_local :
  forall ch ch' X Y r st st' log out st1 o1 log' out' st1' o1' k c c',
  at_start Zoh ch st -> channels_fit ch -> at_start Zoh ch' st' -> channels_fit ch' -> in_range r ->
  streaming ch X (eq r) (fun _ _ _ => True) st 0 log out st1 o1 -> streaming ch' Y (eq r) (fun _ _ _ => True) st' 0 log' out' st1' o1' ->
  0 <= k < total_gen log -> k < total_gen log' -> 0 <= c < ch -> 0 <= c' < ch' ->
  alike_near X Y c c' (IZR k / B2R r) (2 + slack r k) -> sample ch out k c = sample ch' out' k c'.
Proof. exact (hold_local Zoh). Qed.

(** Linear.  (Blocks as in C24.) *)
Theorem C50_linear_local_partial :
  forall ch ch' X Y r st st' log out st1 o1 log' out' st1' o1' k c c',
  at_start Lin ch st -> channels_fit ch -> at_start Lin ch' st' -> channels_fit ch' -> in_range r ->
  streaming ch X (eq r) (lin_legal Lin ch X) st 0 log out st1 o1 -> streaming ch' Y (eq r) (lin_legal Lin ch' Y) st' 0 log' out' st1' o1' ->
  0 <= k < total_gen log -> k < total_gen log' -> 0 <= c < ch -> 0 <= c' < ch' ->
  alike_near X Y c c' (IZR k / B2R r) (2 + slack r k) -> sample ch out k c = sample ch' out' k c'.
Proof. exact (hold_local Lin). Qed.
(** Ratio 2, frames 3, 1, 3, 1 and 3, 1, 3, 7, output frame 1. *)
Example C50_hold_case : forall kd, alike_near (whole zig) (whole zog) 0 0 (IZR 1 / B2R (d_of_Z 2)) (2 + slack (d_of_Z 2) 1) /\
  (exists log out st1 o1, streaming 2 (whole zig) (eq (d_of_Z 2)) (lin_legal kd 2 (whole zig)) (ex_conv kd 2) 0 log out st1 o1 /\ total_gen log = match kd with Zoh => 9 | Lin => 8 end) /\
  (exists log out st1 o1, streaming 2 (whole zog) (eq (d_of_Z 2)) (lin_legal kd 2 (whole zog)) (ex_conv kd 2) 0 log out st1 o1 /\ total_gen log = match kd with Zoh => 9 | Lin => 8 end).
Proof. exact hold_local_case. Qed.

(** Sinc: the table's reach on either side, and up to four frames. *)
Theorem C50_sinc_local :
  forall inc coeffs ch ch' X Y r st st' log out st1 o1 log' out' st1' o1' k c c', table_fit (inc, coeffs) ->
  sinc_start (inc, coeffs) ch st -> sinc_start (inc, coeffs) ch' st' -> in_range r -> (forall i j, i < 0 -> X i j = fzero) -> (forall i j, i < 0 -> Y i j = fzero) ->
  sinc_streaming ch X (eq r) st 0 log out st1 o1 -> sinc_streaming ch' Y (eq r) st' 0 log' out' st1' o1' ->
  0 <= k < total_gen log -> k < total_gen log' -> 0 <= c < ch -> 0 <= c' < ch' ->
  alike_near X Y c c' (IZR k / B2R r) (IZR (zlen coeffs) / (IZR inc * Rmin 1 (B2R r)) + 4 + slack r k) -> sample ch out k c = sample ch' out' k c'.
Proof. exact sinc_local. Qed.
(** 30 frames at ratio 1, of which the last is 0 in one stream and 1 in the other; output frame 1. *)
Example C50_sinc_case : alike_near (blip 3 9 fzero) (blip 3 9 one) 0 0 (IZR 1 / B2R done_) (IZR (zlen (snd fastest_table)) / (IZR (fst fastest_table) * Rmin 1 (B2R done_)) + 4 + slack done_ 1) /\
  blip 3 9 fzero 29 0 <> blip 3 9 one 29 0 /\
  (exists log out st1 o1, sinc_streaming 1 (blip 3 9 fzero) (eq done_) (fast_new 1) 0 log out st1 o1 /\ total_gen log = 3) /\
  (exists log out st1 o1, sinc_streaming 1 (blip 3 9 one) (eq done_) (fast_new 1) 0 log out st1 o1 /\ total_gen log = 3).
Proof. exact local_case. Qed.

(** ** C51: when 1 / r is a multiple of 2^-40 and q output frames are exactly D input frames, the input D frames later gives the output q frames later, bit for bit.
    Zero-order hold: from the output frame on that is at or after the first input frame of the undelayed stream. *)
Theorem C51_zoh_delayed :
  forall ch X Y r a e D q st st' log out st1 o1 log' out' st1' o1' k c,
  at_start Zoh ch st -> at_start Zoh ch st' -> channels_fit ch -> in_range r -> dyadic r a e -> delayed D X Y -> 0 <= q -> (IZR D = IZR q / B2R r)%R ->
  streaming ch X (eq r) (fun _ _ _ => True) st 0 log out st1 o1 -> streaming ch Y (eq r) (fun _ _ _ => True) st' 0 log' out' st1' o1' ->
  0 <= k < total_gen log -> (B2R r <= IZR k)%R -> k + q < total_gen log' -> 0 <= c < ch -> sample ch out' (k + q) c = sample ch out k c.
Proof. exact (hold_delayed Zoh). Qed.

(** Linear.  (Blocks as in C24.) *)
Theorem C51_linear_delayed_partial :
  forall ch X Y r a e D q st st' log out st1 o1 log' out' st1' o1' k c,
  at_start Lin ch st -> at_start Lin ch st' -> channels_fit ch -> in_range r -> dyadic r a e -> delayed D X Y -> 0 <= q -> (IZR D = IZR q / B2R r)%R ->
  streaming ch X (eq r) (lin_legal Lin ch X) st 0 log out st1 o1 -> streaming ch Y (eq r) (lin_legal Lin ch Y) st' 0 log' out' st1' o1' ->
  0 <= k < total_gen log -> (B2R r <= IZR k)%R -> k + q < total_gen log' -> 0 <= c < ch -> sample ch out' (k + q) c = sample ch out k c.
Proof. exact (hold_delayed Lin). Qed.
(** Ratio 2: one input frame later is two output frames later. *)
Example C51_hold_case : forall kd, delayed 1 (whole zig) (whole zag) /\ dyadic (d_of_Z 2) 1 1 /\ (IZR 1 = IZR 2 / B2R (d_of_Z 2))%R /\ (B2R (d_of_Z 2) <= IZR 3)%R /\
  (exists log out st1 o1, streaming 2 (whole zig) (eq (d_of_Z 2)) (lin_legal kd 2 (whole zig)) (ex_conv kd 2) 0 log out st1 o1 /\ total_gen log = match kd with Zoh => 9 | Lin => 8 end) /\
  (exists log out st1 o1, streaming 2 (whole zag) (eq (d_of_Z 2)) (lin_legal kd 2 (whole zag)) (ex_conv kd 2) 0 log out st1 o1 /\ total_gen log = match kd with Zoh => 9 | Lin => 8 end).
Proof. exact hold_delay_case. Qed.

(** Sinc: from the first output frame on. *)
Theorem C51_sinc_delayed :
  forall inc coeffs ch X Y r a e D q st st' log out st1 o1 log' out' st1' o1' k c, table_fit (inc, coeffs) ->
  sinc_start (inc, coeffs) ch st -> sinc_start (inc, coeffs) ch st' -> in_range r -> dyadic r a e -> delayed D X Y -> 0 <= q -> (IZR D = IZR q / B2R r)%R ->
  (forall i j, i < 0 -> X i j = fzero) -> (forall i j, i < 0 -> Y i j = fzero) ->
  sinc_streaming ch X (eq r) st 0 log out st1 o1 -> sinc_streaming ch Y (eq r) st' 0 log' out' st1' o1' ->
  0 <= k < total_gen log -> k + q < total_gen log' -> 0 <= c < ch -> sample ch out' (k + q) c = sample ch out k c.
Proof. exact sinc_delayed. Qed.
Example C51_sinc_case : delayed 1 (blip 3 9 fzero) (blip 4 10 fzero) /\ dyadic done_ 1 0 /\ (IZR 1 = IZR 1 / B2R done_)%R /\
  (exists log out st1 o1, sinc_streaming 1 (blip 3 9 fzero) (eq done_) (fast_new 1) 0 log out st1 o1 /\ total_gen log = 3) /\
  (exists log out st1 o1, sinc_streaming 1 (blip 4 10 fzero) (eq done_) (fast_new 1) 0 log out st1 o1 /\ total_gen log = 3).
Proof. exact delay_case. Qed.
Print Assumptions C50_zoh_local.
Print Assumptions C50_linear_local_partial.
Print Assumptions C50_sinc_local.
Print Assumptions C51_zoh_delayed.
Print Assumptions C51_linear_delayed_partial.
Print Assumptions C51_sinc_delayed.
