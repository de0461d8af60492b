(** Property C44: sample values never steer the converter.  Nothing but statements.

    [life md st]: st is any state a converter can be in.  [same_request]: the same call with the same addresses accessible, but
    any memory contents.  [same_outcome]: the same answers (codes, counts, accessible addresses), or the same fault. *)
From Coq Require Import ZArith List.
From Flocq Require Import IEEE754.BinarySingleNaN.
From Verif Require Import Base Types Api Callback ApiHist ApiSpec DataSpec DataFacts SincCases ApiCases DataCases.
Import ListNotations.
Local Open Scope Z_scope.

Theorem C44_samples_do_not_steer :
  forall CS (cb : callback_t CS) dummy st cs cs', life MODE_PROCESS st -> Forall2 same_request cs cs' ->
  same_outcome (api_run CS cb dummy st cs) (api_run CS cb dummy st cs').
Proof. exact samples_do_not_steer. Qed.
Example C44_case : life MODE_PROCESS (fast_new 2) /\ Forall2 same_request tame_history wild_history /\
  run 2 wild_history = inl [(0, 7, 2); (0, 0, 0); (0, 0, 0)].
Proof. exact (conj fast_life (conj histories_match (proj2 wild_runs))). Qed.
Print Assumptions C44_samples_do_not_steer.

(** In either mode, with callbacks that supply blocks of the same sizes at the same places. *)
Theorem C44_supplied_samples_do_not_steer :
  forall CS (cb cb' : callback_t CS) dummy md st cs cs', life md st -> same_supply cb cb' -> Forall2 same_request cs cs' ->
  same_outcome (api_run CS cb dummy st cs) (api_run CS cb' dummy st cs').
Proof. exact supplied_samples_do_not_steer. Qed.
Example C44_callback_case : life MODE_CALLBACK cb_conv /\ same_supply (gives (f_of_Z 1)) (gives B754_nan).
Proof. exact (conj (proj2 c10_case) (gives_match _ _)). Qed.
Print Assumptions C44_supplied_samples_do_not_steer.
