(** Vocabulary for C53 with sinc converters at any speeds. *)
From Coq Require Import ZArith List.
From Verif Require Import Base Types ApiHist.
Import ListNotations.

(** From the first announcement of the end of the input on every request names the ratio r, and none is set. *)
Definition at_ratio (r : f64) (e : event) : Prop := match e with Ev_call d _ => src_ratio d = r | Ev_ratio _ => False end.
Fixpoint settles (r : f64) (log : list event) : Prop :=
  match log with
  | [] => True
  | Ev_call d d' :: rest => (end_of_input d <> 0%Z -> Forall (at_ratio r) (Ev_call d d' :: rest)) /\ settles r rest
  | Ev_ratio _ :: rest => settles r rest
  end.
