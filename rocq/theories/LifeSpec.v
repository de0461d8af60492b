(** Vocabulary for creating, cloning and deleting converters (C12-C15, C37). *)
From Coq Require Import ZArith List Bool Reals.
From Flocq Require Import Core IEEE754.BinarySingleNaN.
From Verif Require Import Base Types Sinc Api Heap Callback HoldSpec ApiHist.
Import ListNotations.
Local Open Scope Z_scope.

(** A usable sinc coefficient table (increment, coefficients): long enough, not longer than 1000 increments, small enough
    for the fixed-point index arithmetic.  The tables of the library satisfy it (see SincTables.v). *)
Definition table_ok (t : Z * list f32) : Prop :=
  let '(increment, coeffs) := t in
  1 <= increment <= 16384 /\ increment <= zlen coeffs - 2 /\ zlen coeffs <= 500000 /\ zlen coeffs <= 1000 * increment.
Definition build_ok (b : build) : Prop := forall ty t, sinc_table b ty = Some t -> table_ok t.

(** Converter types this build knows. *)
Definition is_sinc (b : build) (ty : Z) : Prop := sinc_table b ty <> None.
Definition known (b : build) (ty : Z) : Prop := is_sinc b ty \/ ty = SRC_ZERO_ORDER_HOLD \/ ty = SRC_LINEAR.

(** A heap whose blocks are distinct and numbered below the next allocation. *)
Definition heap_ok (h : heap) : Prop := NoDup (hp_live h) /\ forall b, In b (hp_live h) -> b < hp_next h.

(** The blocks of a converter. *)
Definition blocks (c : converter) : list Z := [c_blk_buf c; c_blk_priv c; c_blk_state c].

(** Some allocation between two heap states failed. *)
Definition some_failed (orc : Z -> bool) (h h' : heap) : Prop :=
  exists n, hp_next h <= n < hp_next h' /\ orc n = false.

(** ** Histories of creation, use and deletion *)
(** [reach orc h0 w]: the heap and the converters the program holds after some history that started with heap [h0] and no
    converter.  Deleted converters are not used any more (their handles are gone); every other use is included. *)
Inductive reach (orc : Z -> bool) (h0 : heap) : heap -> list converter -> Prop :=
| R_start : reach orc h0 h0 []
| R_new h cs bld ty ch e c h' : reach orc h0 h cs -> build_ok bld -> src_new bld orc ty ch h = Ok (e, c, h') ->
    reach orc h0 h' (match c with Some x => x :: cs | None => cs end)
| R_callback_new h cs bld func ty ch ud e c h' : reach orc h0 h cs -> build_ok bld ->
    src_callback_new bld orc func ty ch ud h = Ok (e, c, h') ->
    reach orc h0 h' (match c with Some x => x :: cs | None => cs end)
| R_clone h cs1 c0 cs2 e c h' : reach orc h0 h (cs1 ++ c0 :: cs2) -> src_clone orc (Some c0) h = Ok (e, c, h') ->
    reach orc h0 h' (match c with Some x => x :: cs1 ++ c0 :: cs2 | None => cs1 ++ c0 :: cs2 end)
| R_delete h cs1 c0 cs2 h' : reach orc h0 h (cs1 ++ c0 :: cs2) -> src_delete (Some c0) h = Ok h' ->
    reach orc h0 h' (cs1 ++ cs2)
| R_call h cs1 c0 cs2 CS (cb : callback_t CS) dummy c r st' : reach orc h0 h (cs1 ++ c0 :: cs2) ->
    api_step CS cb dummy (c_state c0) c = Ok (r, st') ->
    reach orc h0 h (cs1 ++ mkConv (c_blk_state c0) (c_blk_priv c0) (c_blk_buf c0) st' :: cs2)
| R_simple h cs bld data ty ch m e d h' m' : reach orc h0 h cs -> build_ok bld ->
    src_simple bld orc data ty ch h m = Ok (e, d, h', m') -> reach orc h0 h' cs.

(** ** Reset (C15) *)
(** States that a converter created in state [f] can get into, including states of its clones. *)
Inductive descends (f : SRC_STATE) : SRC_STATE -> Prop :=
| D_self : descends f f
| D_step CS (cb : callback_t CS) dummy st c r st' : descends f st -> api_step CS cb dummy st c = Ok (r, st') -> descends f st'
| D_clone orc c h e c' h' : descends f (c_state c) -> src_clone orc (Some c) h = Ok (e, Some c', h') -> descends f (c_state c').

(** What a caller sees of a history: the results of the calls, or the fault. *)
Definition visible {CS} (r : outcome (list (api_result CS) * SRC_STATE)) : outcome (list (api_result CS)) :=
  match r with Ok (rs, _) => Ok rs | Fault f => Fault f end.

(** ** Several converters sharing one memory (C36) *)
(** [m] with the slots of [g] added where [m] has none. *)
Definition splice (m g : mem) : mem := fun a => match m a with Some x => Some x | None => g a end.
Definition same_dom (m m' : mem) : Prop := forall a, m a = None <-> m' a = None.
(** A callback that only reads and writes memory it is given: more memory [g] around it changes nothing. *)
Definition local_cb (g : mem) {CS} (cb : callback_t CS) : Prop := forall f u cs m,
  let '(cs', m', p, n) := cb f u cs m in cb f u cs (splice m g) = (cs', splice m' g, p, n) /\ same_dom m m'.

Section World.
  Variable CS : Type.
  (** converter number -> its callback, and the address of the dummy array in its callback_read *)
  Variable cb : Z -> callback_t CS.
  Variable dummy : Z -> Z.

  (** What the owner of one converter does: API calls and stores into buffers. *)
  Inductive wcall :=
  | W_process (d : option SRC_DATA)
  | W_read (fuel : nat) (ratio : f64) (frames data : Z)
  | W_set_ratio (r : f64)
  | W_reset | W_get_channels | W_error
  | W_store (a : Z) (x : f32).
  Inductive wres := WR_process (e : Z) (d : option SRC_DATA) | WR_read (n : Z) | WR_code (e : Z) | WR_stored.

  Definition one (i : Z) (s : SRC_STATE * CS) (c : wcall) (m : mem) : outcome (wres * (SRC_STATE * CS) * mem) :=
    let (st, cs) := s in
    match c with
    | W_process d => do (e, so, d', m') <- src_process (Some st) d m ; Ok (WR_process e d', (keep st so, cs), m')
    | W_read fuel ratio frames data =>
        do (n, so, cs', m') <- src_callback_read CS (cb i) (dummy i) fuel (Some st) ratio frames data cs m ;
        Ok (WR_read n, (keep st so, cs'), m')
    | W_set_ratio r => let (e, so) := src_set_ratio (Some st) r in Ok (WR_code e, (keep st so, cs), m)
    | W_reset => do (e, so) <- src_reset (Some st) ; Ok (WR_code e, (keep st so, cs), m)
    | W_get_channels => Ok (WR_code (src_get_channels (Some st)), s, m)
    | W_error => Ok (WR_code (src_error (Some st)), s, m)
    | W_store a x => do m' <- mwrite m a x ; Ok (WR_stored, s, m')
    end.

  (** One converter alone, on its own memory. *)
  Fixpoint alone (i : Z) (s : SRC_STATE * CS) (cs : list wcall) (m : mem) : outcome (list wres * (SRC_STATE * CS) * mem) :=
    match cs with
    | [] => Ok ([], s, m)
    | c :: rest => do (r, s1, m1) <- one i s c m ; do (rs, s2, m2) <- alone i s1 rest m1 ; Ok (r :: rs, s2, m2)
    end.

  (** All of them, in some order, on one memory. *)
  Fixpoint together (S : Z -> SRC_STATE * CS) (sched : list (Z * wcall)) (M : mem)
      : outcome (list (Z * wres) * (Z -> SRC_STATE * CS) * mem) :=
    match sched with
    | [] => Ok ([], S, M)
    | (i, c) :: rest =>
        do (r, s1, m1) <- one i (S i) c M ;
        do (rs, s2, m2) <- together (fun j => if j =? i then s1 else S j) rest m1 ;
        Ok ((i, r) :: rs, s2, m2)
    end.

  Fixpoint calls_of (i : Z) (sched : list (Z * wcall)) : list wcall :=
    match sched with [] => [] | (j, c) :: rest => if j =? i then c :: calls_of i rest else calls_of i rest end.
  Fixpoint results_of (i : Z) (out : list (Z * wres)) : list wres :=
    match out with [] => [] | (j, c) :: rest => if j =? i then c :: results_of i rest else results_of i rest end.
End World.
