(** Reads of sinc converters that never fault (C28, C30).  Nothing but statements; vocabulary in SincReadsSpec. *)
From Coq Require Import ZArith Reals List Bool Lia Lra.
From Flocq Require Import Core IEEE754.BinarySingleNaN.
From Verif Require Import Base Types FloatFacts Api Heap Callback ApiHist HoldSpec SincSpec SincApi SincTables SincCases CbSpec CbCases SincReadsSpec SincReads.
Import ListNotations.
Local Open Scope Z_scope.

(** C28, sinc: in a session that uses only [steady] ratios (at least 1/191; with several channels all from 1 upwards, or only one) no read ends
    in undefined behaviour or an abort: it returns as [read_ok] says, or never ends (C30).  Not covered: other ratios (C31 has a read outside the
    buffer and a failing assertion for such). *)
Theorem C28_sinc_safe_partial :
  forall t ch CS (cb : callback_t CS) dummy pool allowed st ratio frames data cs m fuel, table_fit t -> 1 <= ch <= 128 -> proper CS cb dummy pool ch ->
  steady ch allowed -> session_at CS cb dummy allowed (sinc_cb_new t ch) pool ch st cs -> legal_read pool ch ratio frames data m -> (in_range ratio -> allowed ratio) ->
  match src_callback_read CS cb dummy fuel (Some st) ratio frames data cs m with
  | Ok (n, st', cs', m') => exists s, st' = Some s /\ read_ok CS cb ch ratio frames data st m n s cs' m'
  | Fault f => f = F_fuel
  end.
Proof. exact sinc_reads_safe. Qed.
Print Assumptions C28_sinc_safe_partial.

(** C30, sinc: such a read returns if the callback returns no negative count and no block of 2^31 samples, and keeps returning 0 once it has. *)
Theorem C30_sinc_returns_partial :
  forall t ch CS (cb : callback_t CS) dummy pool allowed ended st ratio frames data cs m fuel, table_fit t -> 1 <= ch <= 128 -> proper CS cb dummy pool ch ->
  nonnegative CS cb -> int_blocks CS cb ch -> marks_end CS cb ended -> stays_ended CS cb ended ->
  steady ch allowed -> session_at CS cb dummy allowed (sinc_cb_new t ch) pool ch st cs -> legal_read pool ch ratio frames data m -> (in_range ratio -> allowed ratio) ->
  Z.max 0 frames * (2 ^ 27 + 1) + 2 ^ 27 < Z.of_nat fuel ->
  exists n st' cs' m', src_callback_read CS cb dummy fuel (Some st) ratio frames data cs m = Ok (n, Some st', cs', m').
Proof. exact sinc_reads_return. Qed.
Print Assumptions C30_sinc_returns_partial.
Example C30_sinc_case : proper nat once 0 store 1 /\ nonnegative nat once /\ int_blocks nat once 1 /\ marks_end nat once spent /\ stays_ended nat once spent /\
  steady 1 (fun r => (/ 191 <= B2R r)%R) /\ steady 2 (fun r => (1 <= B2R r)%R) /\ steady 2 (eq done_) /\
  session_at nat once 0 (eq done_) (sinc_cb_new fastest_table 1) store 1 (fast_cb 1) 0%nat /\ legal_read store 1 done_ 10 (2 ^ 40) ones.
Proof.
  split; [exact once_proper|]. split; [exact once_nonnegative|]. split; [exact once_int|]. split; [exact (proj1 once_ends)|]. split; [exact (proj2 once_ends)|].
  split; [split; [auto|left; reflexivity]|].
  split; [split; [intros r Hr; apply Rle_trans with (2 := Hr); lra|right; left; auto]|].
  split; [split; [intros r <-; destruct done_val as [V _]; rewrite V; lra|right; right; congruence]|].
  split; [constructor; exact fast_cb1|exact (ones_legal 10 ltac:(lia))].
Qed.
