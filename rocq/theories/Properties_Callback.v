(** The properties about the callback interface (vocabulary in CbSpec). *)
From Coq Require Import ZArith Reals List Bool Lia.
From Flocq Require Import Core IEEE754.BinarySingleNaN.
From Verif Require Import Base Types Api Heap Callback ApiHist HoldSpec SincSpec SincApi SincTables SincCases CbSpec CbHold CbSinc CbThms CbCases CbReadSpec CbStream CbReadThms CbReadCases.
Import ListNotations.
Local Open Scope Z_scope.

(** C28, zero-order hold: whatever the history, the callback (within its contract: negative counts and NULL are allowed) and the
    request, a read ends without undefined behaviour and does what [read_ok] says, or never ends (C30). *)
Theorem C28_zoh_read :
  forall ch CS (cb : callback_t CS) dummy pool, channels_fit ch -> proper CS cb dummy pool ch ->
  forall st, cb_after CS cb dummy (cb_created SRC_ZERO_ORDER_HOLD ch) pool ch st ->
  forall fuel ratio frames data cs m, legal_read pool ch ratio frames data m ->
  match src_callback_read CS cb dummy fuel (Some st) ratio frames data cs m with
  | Ok (n, st', cs', m') => exists s, st' = Some s /\ read_ok CS cb ch ratio frames data st m n s cs' m'
  | Fault f => f = F_fuel
  end.
Proof. exact zoh_read. Qed.
Print Assumptions C28_zoh_read.

(** C28, linear: every read that ends.  Not covered: reads that end in undefined behaviour (C17: blocks of one or two frames). *)
Theorem C28_linear_read_partial :
  forall ch CS (cb : callback_t CS) dummy pool, channels_fit ch -> proper CS cb dummy pool ch ->
  forall st, cb_after CS cb dummy (cb_created SRC_LINEAR ch) pool ch st ->
  forall fuel ratio frames data cs m n st' cs' m', legal_read pool ch ratio frames data m ->
  src_callback_read CS cb dummy fuel (Some st) ratio frames data cs m = Ok (n, st', cs', m') ->
  exists s, st' = Some s /\ read_ok CS cb ch ratio frames data st m n s cs' m'.
Proof. exact linear_read. Qed.
Print Assumptions C28_linear_read_partial.

(** C28, sinc: the same.  Not covered: reads that end in undefined behaviour (C31: extreme ratios, falling ratios). *)
Theorem C28_sinc_read_partial :
  forall t ch CS (cb : callback_t CS) dummy pool st ratio frames data cs m fuel n st' cs' m', table_fit t -> proper CS cb dummy pool ch ->
  cb_after CS cb dummy (sinc_cb_new t ch) pool ch st -> legal_read pool ch ratio frames data m ->
  src_callback_read CS cb dummy fuel (Some st) ratio frames data cs m = Ok (n, st', cs', m') ->
  exists s, st' = Some s /\ read_ok CS cb ch ratio frames data st m n s cs' m'.
Proof. exact sinc_read. Qed.
Print Assumptions C28_sinc_read_partial.
Example C28_case : proper nat revive 0 store 1 /\ legal_read store 1 done_ 10 (2 ^ 40) ones /\
  cb_after nat revive 0 (sinc_cb_new fastest_table 1) store 1 (fast_cb 1) /\ cb_after nat revive 0 (cb_created SRC_LINEAR 1) store 1 (hold_cb SRC_LINEAR) /\
  cb_after nat revive 0 (cb_created SRC_ZERO_ORDER_HOLD 1) store 1 (hold_cb SRC_ZERO_ORDER_HOLD).
Proof.
  exact (conj revive_proper (conj (ones_legal 10 ltac:(lia)) (conj (after_nothing _ fast_cb1) (conj (after_nothing _ linear_cb) (after_nothing _ zoh_cb))))).
Qed.

(** C30, zero-order hold: with a callback that never returns a negative count every read ends, after at most
    259 * (frames + 1) turns of the loop (each of which asks the callback at most once). *)
Theorem C30_zoh_ends :
  forall ch CS (cb : callback_t CS) dummy pool, channels_fit ch -> proper CS cb dummy pool ch -> nonnegative CS cb ->
  forall st, cb_after CS cb dummy (cb_created SRC_ZERO_ORDER_HOLD ch) pool ch st ->
  forall fuel ratio frames data cs m, legal_read pool ch ratio frames data m -> 259 * (Z.max 0 frames + 1) <= Z.of_nat fuel ->
  exists n st' cs' m', src_callback_read CS cb dummy fuel (Some st) ratio frames data cs m = Ok (n, st', cs', m').
Proof. exact zoh_ends. Qed.
Print Assumptions C30_zoh_ends.

(** C30, linear: the read does not go on for ever.  Not covered: that it returns (it may end in undefined behaviour, C17). *)
Theorem C30_linear_ends_partial :
  forall ch CS (cb : callback_t CS) dummy pool, channels_fit ch -> proper CS cb dummy pool ch -> nonnegative CS cb ->
  forall st, cb_after CS cb dummy (cb_created SRC_LINEAR ch) pool ch st ->
  forall fuel ratio frames data cs m, legal_read pool ch ratio frames data m -> 259 * (Z.max 0 frames + 1) <= Z.of_nat fuel ->
  src_callback_read CS cb dummy fuel (Some st) ratio frames data cs m <> Fault F_fuel.
Proof. exact linear_ends. Qed.
Print Assumptions C30_linear_ends_partial.

(** C30, sinc: the read does not go on for ever if the callback, once it has returned 0, keeps returning 0 until the converter
    is reset, and no block has 2^31 samples.  Not covered: other callbacks (refuted below), and that the read returns (C31). *)
Theorem C30_sinc_ends_partial :
  forall t ch CS (cb : callback_t CS) dummy pool ended st ratio frames data cs m fuel, table_fit t -> 1 <= ch <= 128 -> proper CS cb dummy pool ch ->
  nonnegative CS cb -> int_blocks CS cb ch -> marks_end CS cb ended -> stays_ended CS cb ended ->
  session CS cb dummy (sinc_cb_new t ch) pool ch st cs -> legal_read pool ch ratio frames data m ->
  Z.max 0 frames * (2 ^ 27 + 1) + 2 ^ 27 < Z.of_nat fuel ->
  src_callback_read CS cb dummy fuel (Some st) ratio frames data cs m <> Fault F_fuel.
Proof. exact sinc_read_ends. Qed.
Print Assumptions C30_sinc_ends_partial.
Example C30_case : proper nat once 0 store 1 /\ nonnegative nat once /\ int_blocks nat once 1 /\ marks_end nat once spent /\ stays_ended nat once spent /\
  session nat once 0 (sinc_cb_new fastest_table 1) store 1 (fast_cb 1) 0%nat /\ legal_read store 1 done_ 10 (2 ^ 40) ones /\
  cb_after nat once 0 (cb_created SRC_LINEAR 1) store 1 (hold_cb SRC_LINEAR) /\
  cb_after nat once 0 (cb_created SRC_ZERO_ORDER_HOLD 1) store 1 (hold_cb SRC_ZERO_ORDER_HOLD).
Proof.
  exact (conj once_proper (conj once_nonnegative (conj once_int (conj (proj1 once_ends) (conj (proj2 once_ends)
    (conj (S_new _ _ _ _ _ _ _ _ fast_cb1) (conj (ones_legal 10 ltac:(lia)) (conj (after_nothing _ linear_cb) (after_nothing _ zoh_cb))))))))).
Qed.

(** C29.  [recorded cb] is cb with a record of the blocks it handed out; recording changes nothing. *)
Theorem C29_record :
  forall CS (cb : callback_t CS) dummy ch fuel st ratio frames data cs rec m,
  match src_callback_read CS cb dummy fuel st ratio frames data cs m with
  | Ok (n, st', cs', m') =>
      exists more, src_callback_read _ (recorded CS cb dummy ch) dummy fuel st ratio frames data (cs, rec) m = Ok (n, st', (cs', rec ++ more), m')
  | Fault f => src_callback_read _ (recorded CS cb dummy ch) dummy fuel st ratio frames data (cs, rec) m = Fault f
  end.
Proof. exact read_erased. Qed.
Print Assumptions C29_record.

(** C29, zero-order hold: what any sequence of successful reads returned is what some sequence of src_process calls on a new
    converter returns on the concatenation X of the blocks handed out; those calls consumed all N frames of it but the
    st_saved_frames last ones, all of them in the last block.  The calls behind a read are at the ratio of that read and
    produced exactly what it returned. *)
Theorem C29_zoh_stream :
  forall ch CS (cb : callback_t CS) dummy pool allowed cs0 m0 asked out st0 st cs rec m X N, channels_fit ch -> proper CS cb dummy pool ch ->
  cb_created SRC_ZERO_ORDER_HOLD ch st0 -> reads _ (recorded CS cb dummy ch) dummy pool ch allowed 0 st0 (cs0, []) m0 asked out st (cs, rec) m ->
  begins ch X (concat rec) N ->
  exists T log T' o, created SRC_ZERO_ORDER_HOLD ch T /\ streaming ch X allowed (fun _ _ _ => True) T 0 log out T' o /\ behind asked log /\
    o + st_saved_frames st = N /\ 0 <= st_saved_frames st * ch <= zlen (last rec []).
Proof. exact zoh_stream. Qed.
Print Assumptions C29_zoh_stream.

(** ... and at one ratio it agrees with what any other sequence of src_process calls at that ratio returns on X. *)
Theorem C29_zoh_same :
  forall ch CS (cb : callback_t CS) dummy pool r cs0 m0 asked out st0 st cs rec m X N T log out2 T' o, channels_fit ch -> proper CS cb dummy pool ch ->
  in_range r -> cb_created SRC_ZERO_ORDER_HOLD ch st0 -> reads _ (recorded CS cb dummy ch) dummy pool ch (eq r) 0 st0 (cs0, []) m0 asked out st (cs, rec) m ->
  begins ch X (concat rec) N -> at_start Zoh ch T -> streaming ch X (eq r) (fun _ _ _ => True) T 0 log out2 T' o -> agree out out2.
Proof. exact zoh_same. Qed.
Print Assumptions C29_zoh_same.

(** C29, linear.  Not covered: callbacks handing out blocks of one or two frames (C17, C24), and callers that, when only one
    or two frames of the last block are left, overwrite the frame before them between two reads. *)
Theorem C29_linear_stream_partial :
  forall ch CS (cb : callback_t CS) dummy pool allowed cs0 m0 asked out st0 st cs rec m X N, channels_fit ch -> proper CS cb dummy pool ch ->
  big_blocks cb -> cb_created SRC_LINEAR ch st0 -> reads _ (recorded CS cb dummy ch) dummy pool ch allowed 1 st0 (cs0, []) m0 asked out st (cs, rec) m ->
  begins ch X (concat rec) N ->
  exists T log T' o, created SRC_LINEAR ch T /\ streaming ch X allowed (lin_legal Lin ch X) T 0 log out T' o /\ behind asked log /\
    o + st_saved_frames st = N /\ 0 <= st_saved_frames st * ch <= zlen (last rec []).
Proof. exact linear_stream. Qed.
Print Assumptions C29_linear_stream_partial.

Theorem C29_linear_same_partial :
  forall ch CS (cb : callback_t CS) dummy pool r cs0 m0 asked out st0 st cs rec m X N T log out2 T' o, channels_fit ch -> proper CS cb dummy pool ch ->
  big_blocks cb -> in_range r -> cb_created SRC_LINEAR ch st0 -> reads _ (recorded CS cb dummy ch) dummy pool ch (eq r) 1 st0 (cs0, []) m0 asked out st (cs, rec) m ->
  begins ch X (concat rec) N -> at_start Lin ch T -> streaming ch X (eq r) (lin_legal Lin ch X) T 0 log out2 T' o -> agree out out2.
Proof. exact linear_same. Qed.
Print Assumptions C29_linear_same_partial.

(** C29, sinc.  Not covered: callbacks that hand out data after having returned 0 ([ended] is the callback's own notion of having
    done so; C30_sinc_refuted shows what can happen).  After the end the stream is silence. *)
Theorem C29_sinc_stream_partial :
  forall t ch CS (cb : callback_t CS) dummy pool ended allowed cs0 m0 asked out st0 st cs rec m X N, table_fit t -> proper CS cb dummy pool ch ->
  marks_end CS cb ended -> stays_ended CS cb ended ->
  sinc_cb_new t ch st0 -> reads _ (recorded CS cb dummy ch) dummy pool ch allowed 0 st0 (cs0, []) m0 asked out st (cs, rec) m ->
  begins ch X (concat rec) N -> (ended cs -> forall i c, N <= i -> X i c = fzero) ->
  exists T log T' o, sinc_new t ch T /\ sinc_streaming ch X allowed T 0 log out T' o /\ behind asked log /\
    o + st_saved_frames st = N /\ 0 <= st_saved_frames st * ch <= zlen (last rec []).
Proof. exact sinc_stream. Qed.
Print Assumptions C29_sinc_stream_partial.

Theorem C29_sinc_same_partial :
  forall t ch CS (cb : callback_t CS) dummy pool ended r cs0 m0 asked out st0 st cs rec m X N T log out2 T' o, table_fit t -> proper CS cb dummy pool ch ->
  marks_end CS cb ended -> stays_ended CS cb ended -> in_range r ->
  sinc_cb_new t ch st0 -> reads _ (recorded CS cb dummy ch) dummy pool ch (eq r) 0 st0 (cs0, []) m0 asked out st (cs, rec) m ->
  begins ch X (concat rec) N -> (ended cs -> forall i c, N <= i -> X i c = fzero) -> (forall i c, i < 0 -> X i c = fzero) ->
  sinc_start t ch T -> sinc_streaming ch X (eq r) T 0 log out2 T' o -> agree out out2.
Proof. exact sinc_same. Qed.
Print Assumptions C29_sinc_same_partial.
(** A read of 10 frames from a callback that hands out 20: all three kinds of converter. *)
Example C29_case : proper nat once 0 store 1 /\ big_blocks once /\ marks_end nat once spent /\ stays_ended nat once spent /\
  (exists out st k rec m, reads _ rec_once 0 store 1 (eq done_) 0 (hold_cb SRC_ZERO_ORDER_HOLD) (0%nat, []) ones [inl (done_, 10)] out st (k, rec) m /\
    zlen out = 10 /\ zlen (concat rec) = 20 /\ st_saved_frames st = 10) /\
  (exists out st k rec m, reads _ rec_once 0 store 1 (eq done_) 1 (hold_cb SRC_LINEAR) (0%nat, []) ones [inl (done_, 10)] out st (k, rec) m /\
    zlen out = 10 /\ zlen (concat rec) = 20 /\ st_saved_frames st = 10) /\
  (exists out st k rec m, reads _ rec_once 0 store 1 (eq done_) 0 (fast_cb 1) (0%nat, []) ones [inl (done_, 10)] out st (k, rec) m /\
    zlen out = 10 /\ zlen (concat rec) = 20 /\ st_saved_frames st = 0).
Proof.
  exact (conj once_proper (conj once_big (conj (proj1 once_ends) (conj (proj2 once_ends)
    (conj zoh_ten (conj linear_ten sinc_ten)))))).
Qed.

(** C30 fails: a sinc converter at ratio 1; the callback hands out 20 frames, returns 0 twice (the first read returns the 20
    frames), and on the second read hands out 20 frames again.  The second read never ends. *)
Theorem C30_sinc_refuted :
  proper nat revive 0 store 1 /\ nonnegative nat revive /\ int_blocks nat revive 1 /\
  session nat revive 0 (sinc_cb_new fastest_table 1) store 1 after_first 3%nat /\ legal_read store 1 done_ 10 (2 ^ 40) ones /\
  forall fuel, src_callback_read nat revive 0 fuel (Some after_first) done_ 10 (2 ^ 40) 3%nat ones = Fault F_fuel.
Proof. exact hang. Qed.
Print Assumptions C30_sinc_refuted.

(** C43: a sinc converter that has not been told of the end of its input makes progress, at every ratio. *)
Theorem C43_sinc_progress :
  forall t ch st0 CS (cb : callback_t CS) dummy cs rs st d m, table_fit t -> sinc_start t ch st0 ->
  Forall (valid_op ch) cs -> Forall op_open cs -> api_run CS cb dummy st0 cs = Ok (rs, st) ->
  valid_call ch d m -> input_frames d * ch < 2 ^ 31 -> end_of_input d = 0 ->
  exists st' d' m', src_process (Some st) (Some d) m = Ok (0, Some st', Some d', m') /\
    (0 < input_frames d -> 0 < output_frames d -> 0 < input_frames_used d' \/ 0 < output_frames_gen d').
Proof. exact sinc_progress. Qed.
Example C43_case : sinc_start fastest_table 1 (fast_new 1) /\ valid_call 1 (request (part 256) 1 1 0) ones.
Proof. exact (conj (or_introl new1) (request_valid 1 (part 256) 1 1 0 ltac:(lia) (part_range 256 ltac:(lia)) ltac:(lia) ltac:(lia))). Qed.
Print Assumptions C43_sinc_progress.
