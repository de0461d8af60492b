(** Vocabulary: reads of sinc converters at ratios for which they never fault (C28, C30). *)
From Coq Require Import ZArith Reals List Bool.
From Flocq Require Import Core IEEE754.BinarySingleNaN.
From Verif Require Import Base Types Api Heap Callback ApiHist HoldSpec SincApi CbSpec.
Local Open Scope Z_scope.

(** Ratios of at least 1/191; with several channels moreover all of them from 1 upwards, or only one. *)
Definition steady (ch : Z) (allowed : f64 -> Prop) : Prop :=
  (forall r, allowed r -> (/ 191 <= B2R r)%R) /\
  (ch = 1 \/ (forall r, allowed r -> (1 <= B2R r)%R) \/ (forall r r', allowed r -> allowed r' -> r = r')).

Section Session.
  Variables (CS : Type) (cb : callback_t CS) (dummy : Z) (allowed : f64 -> Prop).

  (** [session] (CbSpec) in which every valid ratio is an allowed one. *)
  Inductive session_at (made : SRC_STATE -> Prop) (pool : Z -> Prop) (ch : Z) : SRC_STATE -> CS -> Prop :=
  | SA_new st cs : made st -> session_at made pool ch st cs
  | SA_read fuel st ratio frames data cs m n st' cs' m' : session_at made pool ch st cs -> legal_read pool ch ratio frames data m ->
      (in_range ratio -> allowed ratio) ->
      src_callback_read CS cb dummy fuel (Some st) ratio frames data cs m = Ok (n, Some st', cs', m') -> session_at made pool ch st' cs'
  | SA_ratio st cs r e st' : session_at made pool ch st cs -> is_nan r = false -> (in_range r -> allowed r) ->
      src_set_ratio (Some st) r = (e, Some st') -> session_at made pool ch st' cs
  | SA_reset st cs e st' cs' : session_at made pool ch st cs -> src_reset (Some st) = Ok (e, Some st') -> session_at made pool ch st' cs'.
End Session.
