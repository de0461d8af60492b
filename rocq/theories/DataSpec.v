(** Histories that differ only in the sample values: the vocabulary of Properties_Data. *)
From Coq Require Import ZArith List Bool.
From Verif Require Import Base Types Api Callback ApiHist.
Import ListNotations.
Local Open Scope Z_scope.

(** The same addresses can be accessed. *)
Definition same_places (m m' : mem) : Prop := forall a, m a = None <-> m' a = None.

(** The same call, except for the contents of the memory. *)
Definition same_request {CS} (c c' : api_call CS) : Prop :=
  match c, c' with
  | A_process d m, A_process d' m' => d = d' /\ same_places m m'
  | A_read fuel ratio frames data cs m, A_read fuel' ratio' frames' data' cs' m' =>
      (fuel, ratio, frames, data, cs) = (fuel', ratio', frames', data', cs') /\ same_places m m'
  | _, _ => c = c'
  end.

(** The same answer, except for the contents of the memory. *)
Definition same_reply {CS} (r r' : api_result CS) : Prop :=
  match r, r' with
  | R_process e d m, R_process e' d' m' => (e, d) = (e', d') /\ same_places m m'
  | R_read n cs m, R_read n' cs' m' => (n, cs) = (n', cs') /\ same_places m m'
  | _, _ => r = r'
  end.

(** Two histories go the same way: the same answers one by one, or the same fault. *)
Definition same_outcome {CS} (x y : outcome (list (api_result CS) * SRC_STATE)) : Prop :=
  match x, y with
  | Ok (rs, _), Ok (rs', _) => Forall2 same_reply rs rs'
  | Fault f, Fault g => f = g
  | _, _ => False
  end.

(** Two callbacks that supply blocks of the same sizes at the same places, but possibly different samples. *)
Definition same_supply {CS} (cb cb' : callback_t CS) : Prop :=
  forall fp ud cs m m', same_places m m' ->
  let '(cs1, m1, p, n) := cb fp ud cs m in let '(cs1', m1', p', n') := cb' fp ud cs m' in
  (cs1, p, n) = (cs1', p', n') /\ same_places m1 m1'.
