(** C29 for reads that fail.  Nothing but the statement.

    [later]: CbFailSpec.v.  [recorded]: CbReadSpec.v. *)
From Coq Require Import ZArith List.
From Verif Require Import Base Types Api Callback SincSpec SincCases HoldSpec CbSpec CbReadSpec CbFailSpec CbCases CbFail.
Import ListNotations.
Local Open Scope Z_scope.

(** A callback hands out 20 frames, then once NULL with a count of 5, then blocks of 20 frames again.  A read of 30 frames from a new zero-order
    hold converter returns 0 with an error: the 20 frames handed out are consumed but not returned, and no further read will return
    anything or ask the callback again (only src_reset helps): the NULL pointer and the count are kept as data not yet consumed. *)
Theorem C29_null_block_refuted :
  proper nat hiccup 0 store 1 /\ nonnegative nat hiccup /\ cb_created SRC_ZERO_ORDER_HOLD 1 (hold_cb SRC_ZERO_ORDER_HOLD) /\ legal_read store 1 done_ 30 (2 ^ 40) ones /\
  exists st rec m, src_callback_read _ (recorded nat hiccup 0 1) 0 50 (Some (hold_cb SRC_ZERO_ORDER_HOLD)) done_ 30 (2 ^ 40) (0%nat, []) ones = Ok (0, Some st, (2%nat, rec), m) /\
    zlen (concat rec) = 20 /\ src_error (Some st) = SRC_ERR_BAD_DATA_PTR /\
    forall n st' cs', later _ (recorded nat hiccup 0 1) 0 st (2%nat, rec) n st' cs' -> n = 0 /\ cs' = (2%nat, rec).
Proof. exact null_block. Qed.
Print Assumptions C29_null_block_refuted.
