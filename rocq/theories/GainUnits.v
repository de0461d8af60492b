(** Coefficients as integers: multiples of 2^-30, rounded towards zero. *)
From Coq Require Import ZArith List Bool.
From Flocq Require Import Core IEEE754.BinarySingleNaN.
From Verif Require Import Base.
Import ListNotations.
Local Open Scope Z_scope.

Definition UNIT_BITS := 30.
Definition units (c : f32) : Z :=
  match c with
  | B754_finite s m e _ => cond_Zopp s (if e + UNIT_BITS <? 0 then Z.shiftr (Zpos m) (- (e + UNIT_BITS)) else Zpos m * 2 ^ (e + UNIT_BITS))
  | _ => 0
  end.

(** Whether l lists the units of the coefficients, all of them finite. *)
Definition is_units (c : f32) (z : Z) : bool := is_finite c && (units c =? z).
Fixpoint same_units (cs : list f32) (l : list Z) : bool :=
  match cs, l with [], [] => true | c :: cs, z :: l => is_units c z && same_units cs l | _, _ => false end.
Lemma same_units_ok cs : forall l, same_units cs l = true -> map units cs = l /\ Forall (fun c : f32 => is_finite c = true) cs.
Proof.
  induction cs as [|c cs IH]; intros [|z l] H; cbn [same_units] in H; try discriminate H; [auto|].
  apply andb_prop in H as [H1 H2]. apply andb_prop in H1 as [H0 H1]. apply Z.eqb_eq in H1. destruct (IH _ H2) as [<- F]. cbn [map]. rewrite H1. auto.
Qed.

(** The sum every pair (step, offset) should have, times the step: one, in units of 2^-30 / 4096. *)
Definition goal_of (inc : Z) : Z := 4096 * inc * (4096 * 2 ^ UNIT_BITS).
