(** The statements of Properties_Callback about zero-order hold and linear. *)
From Coq Require Import ZArith Reals List Bool Lia.
From Flocq Require Import Core IEEE754.BinarySingleNaN.
From Verif Require Import Base Types Api Heap Callback ApiHist HoldSpec HoldMain CbSpec CbHold.
Import ListNotations.
Local Open Scope Z_scope.

Section Thms.
  Variables (ch : Z) (CS : Type) (cb : callback_t CS) (dummy : Z) (pool : Z -> Prop).
  Hypothesis Hfit : channels_fit ch.
  Hypothesis Hcb : proper CS cb dummy pool ch.

  Lemma zoh_read st : cb_after CS cb dummy (cb_created SRC_ZERO_ORDER_HOLD ch) pool ch st ->
    forall fuel ratio frames data cs m, legal_read pool ch ratio frames data m ->
    match src_callback_read CS cb dummy fuel (Some st) ratio frames data cs m with
    | Ok (n, st', cs', m') => exists s, st' = Some s /\ read_ok CS cb ch ratio frames data st m n s cs' m'
    | Fault f => f = F_fuel
    end.
  Proof.
    intros A fuel ratio frames data cs m L. assert (R := hold_read Zoh ch CS cb dummy pool Hfit Hcb st ratio frames data cs m fuel A L).
    destruct (src_callback_read _ _ _ _ _ _ _ _ _ _) as [[[[n st'] cs'] m']|f]; [exact R|]. destruct R as [[]|[R _]]. exact R.
  Qed.
  Lemma linear_read st : cb_after CS cb dummy (cb_created SRC_LINEAR ch) pool ch st ->
    forall fuel ratio frames data cs m n st' cs' m', legal_read pool ch ratio frames data m ->
    src_callback_read CS cb dummy fuel (Some st) ratio frames data cs m = Ok (n, st', cs', m') ->
    exists s, st' = Some s /\ read_ok CS cb ch ratio frames data st m n s cs' m'.
  Proof.
    intros A fuel ratio frames data cs m n st' cs' m' L E. assert (R := hold_read Lin ch CS cb dummy pool Hfit Hcb st ratio frames data cs m fuel A L).
    rewrite E in R. exact R.
  Qed.
  Hypothesis Hnn : nonnegative CS cb.
  Lemma zoh_ends st : cb_after CS cb dummy (cb_created SRC_ZERO_ORDER_HOLD ch) pool ch st ->
    forall fuel ratio frames data cs m, legal_read pool ch ratio frames data m -> 259 * (Z.max 0 frames + 1) <= Z.of_nat fuel ->
    exists n st' cs' m', src_callback_read CS cb dummy fuel (Some st) ratio frames data cs m = Ok (n, st', cs', m').
  Proof.
    intros A fuel ratio frames data cs m L H. assert (R := hold_read Zoh ch CS cb dummy pool Hfit Hcb st ratio frames data cs m fuel A L).
    destruct (src_callback_read _ _ _ _ _ _ _ _ _ _) as [[[[n st'] cs'] m']|f]; [eauto 6|]. destruct R as [[]|[_ R]]. specialize (R Hnn). lia.
  Qed.
  Lemma linear_ends st : cb_after CS cb dummy (cb_created SRC_LINEAR ch) pool ch st ->
    forall fuel ratio frames data cs m, legal_read pool ch ratio frames data m -> 259 * (Z.max 0 frames + 1) <= Z.of_nat fuel ->
    src_callback_read CS cb dummy fuel (Some st) ratio frames data cs m <> Fault F_fuel.
  Proof.
    intros A fuel ratio frames data cs m L H E. assert (R := hold_read Lin ch CS cb dummy pool Hfit Hcb st ratio frames data cs m fuel A L).
    rewrite E in R. destruct R as [R|[_ R]]; [now apply R|]. specialize (R Hnn). lia.
  Qed.
End Thms.
