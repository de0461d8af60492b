(** Property C46: a converter treats both signs alike.  Nothing but statements.

    [opposite x y]: y is -x (zeros of either sign count as opposite; a NaN is the opposite of a NaN). *)
From Coq Require Import ZArith Reals List Lia.
From Flocq Require Import Core IEEE754.BinarySingleNaN.
From Verif Require Import Base Types Api ApiHist HoldSpec HoldCore HoldRamp HoldMain HoldCases SincSpec SincApi SincStream NegFacts SincTables SincCases SymThms.
Import ListNotations.
Local Open Scope Z_scope.

(** Zero-order hold: bit for bit. *)
Theorem C46_zoh_negated :
  forall ch X X' st log out st1 o1 log' out' st1' o1',
  at_start Zoh ch st -> channels_fit ch -> (forall i c, X' i c = Bopp (X i c)) ->
  streaming ch X in_range (fun _ _ _ => True) st 0 log out st1 o1 ->
  streaming ch X' in_range (fun _ _ _ => True) st 0 log' out' st1' o1' -> requests log = requests log' ->
  log = log' /\ forall k c, 0 <= k < total_gen log -> 0 <= c < ch -> sample ch out' k c = option_map Bopp (sample ch out k c).
Proof. exact zoh_negated. Qed.
Print Assumptions C46_zoh_negated.

(** Linear (blocks as in C24). *)
Theorem C46_linear_negated_partial :
  forall ch X X' st log out st1 o1 log' out' st1' o1',
  at_start Lin ch st -> channels_fit ch -> (forall i c, opposite (X i c) (X' i c)) ->
  streaming ch X in_range (lin_legal Lin ch X) st 0 log out st1 o1 ->
  streaming ch X' in_range (lin_legal Lin ch X') st 0 log' out' st1' o1' -> requests log = requests log' ->
  log = log' /\ forall k c, 0 <= k < total_gen log -> 0 <= c < ch ->
    exists y y', sample ch out k c = Some y /\ sample ch out' k c = Some y' /\ opposite y y'.
Proof. exact (hold_negated Lin). Qed.
Example C46_hold_case : forall kd, (exists log out st1 o1 log' out' st1' o1',
  streaming 2 ex_stream in_range (lin_legal kd 2 ex_stream) (ex_conv kd 2) 0 log out st1 o1 /\
  streaming 2 ex_minus in_range (lin_legal kd 2 ex_minus) (ex_conv kd 2) 0 log' out' st1' o1' /\
  requests log = requests log' /\ 0 < total_gen log) /\ (forall i c, ex_minus i c = Bopp (ex_stream i c)).
Proof. exact minus_case. Qed.
Print Assumptions C46_linear_negated_partial.

(** Sinc. *)
Theorem C46_sinc_negated :
  forall t ch X X' st log out st1 o1 log' out' st1' o1',
  table_fit t -> sinc_start t ch st -> (forall i c, opposite (X i c) (X' i c)) ->
  (forall i k, i < 0 -> X i k = fzero) -> (forall i k, i < 0 -> X' i k = fzero) ->
  sinc_streaming ch X in_range st 0 log out st1 o1 -> sinc_streaming ch X' in_range st 0 log' out' st1' o1' -> requests log = requests log' ->
  log = log' /\ forall k c, 0 <= k < total_gen log -> 0 <= c < ch ->
    exists y y', sample ch out k c = Some y /\ sample ch out' k c = Some y' /\ opposite y y'.
Proof. exact sinc_negated. Qed.
Example C46_sinc_case : (exists log out st1 o1 log' out' st1' o1',
  sinc_streaming 2 seven in_range (fast_new 2) 0 log out st1 o1 /\ sinc_streaming 2 minus_seven in_range (fast_new 2) 0 log' out' st1' o1' /\
  requests log = requests log' /\ total_gen log = 2) /\ (forall i c, opposite (seven i c) (minus_seven i c)).
Proof. exact (conj negated_case minus_opposite). Qed.
Print Assumptions C46_sinc_negated.
