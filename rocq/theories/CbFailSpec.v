(** Vocabulary for C29, reads that fail. *)
From Coq Require Import ZArith.
From Verif Require Import Base Types Api Callback.
Local Open Scope Z_scope.

(** Any further reads and changes of ratio, whatever they return; [n]: the number of frames returned in all. *)
Section Later.
  Variables (CS : Type) (cb : callback_t CS) (dummy : Z).
  Inductive later : SRC_STATE -> CS -> Z -> SRC_STATE -> CS -> Prop :=
  | L_none st cs : later st cs 0 st cs
  | L_read st0 cs0 n st cs fuel r frames data m k st' cs' m' : later st0 cs0 n st cs ->
      src_callback_read CS cb dummy fuel (Some st) r frames data cs m = Ok (k, Some st', cs', m') -> later st0 cs0 (n + k) st' cs'
  | L_set st0 cs0 n st cs r e st' : later st0 cs0 n st cs -> src_set_ratio (Some st) r = (e, Some st') -> later st0 cs0 n st' cs.
End Later.
