(** C56: reads from a callback that always has data (vocabulary in CbFeedSpec). *)
From Coq Require Import ZArith Reals List Bool Lia.
From Flocq Require Import Core IEEE754.BinarySingleNaN.
From Verif Require Import Base Types Api Heap Callback ApiHist HoldSpec SincSpec SincApi SincTables SincCases CbSpec CbCases CbFeedSpec CbFeed CbFeedCases.
Import ListNotations.
Local Open Scope Z_scope.

(** C56, zero-order hold: a read of a converter whose callback always has data returns all the frames asked for, without an error
    and within 259 (frames + 1) turns, writing only them. *)
Theorem C56_zoh_delivers :
  forall ch CS (cb : callback_t CS) dummy pool I st cs ratio frames data m fuel, channels_fit ch -> proper CS cb dummy pool ch ->
  always_feeds CS cb dummy pool ch 1 I -> served CS cb dummy pool ch I (cb_created SRC_ZERO_ORDER_HOLD ch) st cs ->
  fine_read pool ch ratio frames data m -> 259 * (Z.max 0 frames + 1) <= Z.of_nat fuel ->
  exists st' cs' m', src_callback_read CS cb dummy fuel (Some st) ratio frames data cs m = Ok (Z.max 0 frames, Some st', cs', m') /\
    src_error (Some st') = 0 /\
    (forall a, leaves_alone CS cb a -> ~ (data <= a < data + Z.max 0 frames * ch) -> m' a = m a).
Proof. exact (hold_feeds Zoh). Qed.
Print Assumptions C56_zoh_delivers.

(** C56, linear: the same, if the callback's blocks have at least three frames.  (With fewer, the first call may read before the block:
    C17_linear_one_frame_block_refuted.  What is left of a block may be shorter.) *)
Theorem C56_linear_delivers :
  forall ch CS (cb : callback_t CS) dummy pool I st cs ratio frames data m fuel, channels_fit ch -> proper CS cb dummy pool ch ->
  always_feeds CS cb dummy pool ch 3 I -> served CS cb dummy pool ch I (cb_created SRC_LINEAR ch) st cs ->
  fine_read pool ch ratio frames data m -> 259 * (Z.max 0 frames + 1) <= Z.of_nat fuel ->
  exists st' cs' m', src_callback_read CS cb dummy fuel (Some st) ratio frames data cs m = Ok (Z.max 0 frames, Some st', cs', m') /\
    src_error (Some st') = 0 /\
    (forall a, leaves_alone CS cb a -> ~ (data <= a < data + Z.max 0 frames * ch) -> m' a = m a).
Proof. exact (hold_feeds Lin). Qed.
Print Assumptions C56_linear_delivers.

(** C56, sinc: the same at every sequence of ratios from 1/256 to 256 (neither the assertion nor the memmove of C31 is reached: both
    need the end of the input). *)
Theorem C56_sinc_delivers :
  forall t ch CS (cb : callback_t CS) dummy pool I st cs ratio frames data m fuel, table_fit t -> proper CS cb dummy pool ch ->
  always_feeds CS cb dummy pool ch 1 I -> served CS cb dummy pool ch I (sinc_cb_new t ch) st cs ->
  fine_read pool ch ratio frames data m -> Z.max 0 frames * (2 ^ 27 + 2) + 2 ^ 27 < Z.of_nat fuel ->
  exists st' cs' m', src_callback_read CS cb dummy fuel (Some st) ratio frames data cs m = Ok (Z.max 0 frames, Some st', cs', m') /\
    src_error (Some st') = 0 /\
    (forall a, leaves_alone CS cb a -> ~ (data <= a < data + Z.max 0 frames * ch) -> m' a = m a).
Proof. exact sinc_feeds. Qed.
Print Assumptions C56_sinc_delivers.
Example C56_case : proper Z steady 0 store 1 /\ always_feeds Z steady 0 store 1 3 in_use /\ always_feeds Z steady 0 store 1 1 in_use /\
  fine_read store 1 done_ 100 (2 ^ 40) ones /\
  served Z steady 0 store 1 in_use (cb_created SRC_ZERO_ORDER_HOLD 1) (hold_cb SRC_ZERO_ORDER_HOLD) 0 /\
  served Z steady 0 store 1 in_use (cb_created SRC_LINEAR 1) (hold_cb SRC_LINEAR) 0 /\
  served Z steady 0 store 1 in_use (sinc_cb_new fastest_table 1) (fast_cb 1) 0.
Proof.
  exact (conj steady_proper (conj (steady_feeds 3 ltac:(lia)) (conj (steady_feeds 1 ltac:(lia)) (conj (steady_read 100 ltac:(lia))
    (conj (V_new _ _ _ _ _ _ _ _ 0 zoh_cb use_0) (conj (V_new _ _ _ _ _ _ _ _ 0 linear_cb use_0) (V_new _ _ _ _ _ _ _ _ 0 fast_cb1 use_0))))))).
Qed.
