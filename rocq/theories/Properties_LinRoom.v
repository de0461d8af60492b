(** Linear interpolation with blocks of one or two frames (C17, C20, C28, C30).  Nothing but statements; vocabulary in LinRoomSpec. *)
From Coq Require Import ZArith Reals List Bool Lia.
From Flocq Require Import Core IEEE754.BinarySingleNaN.
From Verif Require Import Base Types Api Heap Callback ApiHist HoldSpec HoldMain SincCases CbSpec CbCases LinRoomSpec LinRoom.
Import ListNotations.
Local Open Scope Z_scope.

(** C17: the only memory outside the caller's buffers that linear interpolation ever needs is the one frame before a block of one or two frames:
    if that frame is readable (and is not written by the same call), no history of legal calls faults, and every reply is honest.
    Not covered: such blocks with nothing readable before them (C17_linear_one_frame_block_refuted). *)
Theorem C17_linear_frame_before_partial :
  forall ch st, created SRC_LINEAR ch st -> channels_fit ch ->
  forall CS (cb : callback_t CS) dummy cs, Forall (valid_op ch) cs -> Forall (op_before ch) cs ->
  exists rs st', api_run CS cb dummy st cs = Ok (rs, st') /\ Forall2 (honest ch) cs rs.
Proof. exact linear_before. Qed.
Print Assumptions C17_linear_frame_before_partial.
Example C17_before_case : forall junk, created SRC_LINEAR 1 (ex_conv Lin 1) /\ channels_fit 1 /\
  Forall (valid_op (CS := unit) 1) [A_process (Some one_frame) (leak_mem junk)] /\ Forall (op_before (CS := unit) 1) [A_process (Some one_frame) (leak_mem junk)].
Proof.
  intros junk. split; [exact (proj1 lin_reads_before)|]. split; [unfold channels_fit; lia|]. split; (constructor; [|constructor]).
  - exact (proj1 (lin_leaks junk)).
  - cbn. intros _. split; [|left; lia]. intros k Hk. replace k with 0 by lia. discriminate.
Qed.

(** C20: under the same condition a call after any history returns and makes progress. *)
Theorem C20_linear_returns_partial :
  forall ch st d m, after_history Lin ch st -> channels_fit ch -> valid_call ch d m ->
  (0 < input_frames d < 3 -> (forall k, 0 <= k < ch -> m (data_in d - ch + k) <> None) /\
     disjoint_ranges (data_in d - ch) ch (data_out d) (output_frames d * ch)) ->
  exists st' d' m', src_process (Some st) (Some d) m = Ok (0, Some st', Some d', m') /\ honest_reply ch d m 0 d' m' /\
    (0 < input_frames d -> 0 < output_frames d -> 0 < input_frames_used d' \/ 0 < output_frames_gen d').
Proof. exact linear_call_before. Qed.
Print Assumptions C20_linear_returns_partial.

(** C28, linear: with a callback that never hands out a block of one or two frames, and output buffers apart from the callback's memory,
    no read ends in undefined behaviour: it returns as [read_ok] says, or never ends (C30).  (What is left of a block may be one or two
    frames; the frame before them is then one of the same block.)  Not covered: callbacks that hand out one or two frames. *)
Theorem C28_linear_safe_partial :
  forall ch CS (cb : callback_t CS) dummy pool, channels_fit ch -> proper CS cb dummy pool ch -> no_short_blocks CS cb ->
  forall st, cb_after_apart CS cb dummy pool ch (cb_created SRC_LINEAR ch) st ->
  forall fuel ratio frames data cs m, legal_read pool ch ratio frames data m -> out_apart pool ch frames data ->
  match src_callback_read CS cb dummy fuel (Some st) ratio frames data cs m with
  | Ok (n, st', cs', m') => exists s, st' = Some s /\ read_ok CS cb ch ratio frames data st m n s cs' m'
  | Fault f => f = F_fuel
  end.
Proof. exact linear_reads. Qed.
Print Assumptions C28_linear_safe_partial.

(** C30, linear: such a read returns if the callback never returns a negative count. *)
Theorem C30_linear_returns_partial :
  forall ch CS (cb : callback_t CS) dummy pool, channels_fit ch -> proper CS cb dummy pool ch -> no_short_blocks CS cb -> nonnegative CS cb ->
  forall st, cb_after_apart CS cb dummy pool ch (cb_created SRC_LINEAR ch) st ->
  forall fuel ratio frames data cs m, legal_read pool ch ratio frames data m -> out_apart pool ch frames data -> 259 * (Z.max 0 frames + 1) <= Z.of_nat fuel ->
  exists n st' cs' m', src_callback_read CS cb dummy fuel (Some st) ratio frames data cs m = Ok (n, st', cs', m').
Proof. exact linear_returns. Qed.
Print Assumptions C30_linear_returns_partial.
Example C30_linear_case : proper nat once 0 store 1 /\ no_short_blocks nat once /\ nonnegative nat once /\
  cb_after_apart nat once 0 store 1 (cb_created SRC_LINEAR 1) (hold_cb SRC_LINEAR) /\ legal_read store 1 done_ 18 (2 ^ 40) ones /\ out_apart store 1 18 (2 ^ 40).
Proof.
  split; [exact once_proper|]. split; [intros f ud [|k] m; cbn; lia|]. split; [exact once_nonnegative|].
  split; [exists (hold_cb SRC_LINEAR), [], []; split; [exact linear_cb|]; repeat constructor|]. split; [exact (ones_legal 18 ltac:(lia))|].
  intros a Ha. unfold store in Ha. lia.
Qed.
