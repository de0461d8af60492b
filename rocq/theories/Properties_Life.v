(** Properties C13-C15, C36, C37: allocation, cloning, resetting, independence, src_simple. *)
From Coq Require Import ZArith List Bool Permutation.
From Verif Require Import Base Types Sinc Api Heap Callback HoldSpec ApiHist HoldMain ApiSpec LifeSpec HeapFacts LifeFacts LifeThms LocalFacts LifeCases.
Import ListNotations.
Local Open Scope Z_scope.

(** C13.  Without a converter handed out, the heap is as before, and MALLOC_FAILED is reported exactly when an allocation failed. *)
Theorem C13_failed : forall orc h, heap_ok h ->
  (forall bld ty ch e h', build_ok bld -> src_new bld orc ty ch h = Ok (e, None, h') ->
     hp_live h' = hp_live h /\ (e = SRC_ERR_MALLOC_FAILED <-> some_failed orc h h')) /\
  (forall bld func ty ch ud e h', build_ok bld -> src_callback_new bld orc func ty ch ud h = Ok (e, None, h') ->
     hp_live h' = hp_live h /\ (e = SRC_ERR_MALLOC_FAILED <-> some_failed orc h h')) /\
  (forall md c e h', life md (c_state c) -> src_clone orc (Some c) h = Ok (e, None, h') ->
     hp_live h' = hp_live h /\ e = SRC_ERR_MALLOC_FAILED /\ some_failed orc h h') /\
  (forall bld d ty ch m e d' h' m', build_ok bld -> src_simple bld orc d ty ch h m = Ok (e, d', h', m') ->
     hp_live h' = hp_live h /\ (some_failed orc h h' -> e = SRC_ERR_MALLOC_FAILED)).
Proof. exact c13_failed. Qed.
Print Assumptions C13_failed.
(** What creating a converter allocates: its three blocks, none of them in use before. *)
Theorem C13_allocated : forall orc h, heap_ok h ->
  (forall bld ty ch e c h', build_ok bld -> src_new bld orc ty ch h = Ok (e, Some c, h') ->
     hp_live h' = blocks c ++ hp_live h /\ forall b, In b (blocks c) -> ~ In b (hp_live h)) /\
  (forall md c0 e c h', life md (c_state c0) -> src_clone orc (Some c0) h = Ok (e, Some c, h') ->
     hp_live h' = blocks c ++ hp_live h /\ forall b, In b (blocks c) -> ~ In b (hp_live h)).
Proof. exact c13_allocated. Qed.
Print Assumptions C13_allocated.
(** In every history the live blocks are those of the converters held and those of the start. *)
Theorem C13_owned : forall orc h0 h cs, heap_ok h0 -> reach orc h0 h cs -> Permutation (hp_live h) (concat (map blocks cs) ++ hp_live h0).
Proof. exact c13_owned. Qed.
Print Assumptions C13_owned.
(** Deleting a converter held works and frees exactly its blocks. *)
Theorem C13_delete : forall orc h0 h cs c, heap_ok h0 -> reach orc h0 h cs -> In c cs ->
  exists h', src_delete (Some c) h = Ok h' /\ Permutation (hp_live h) (blocks c ++ hp_live h') /\ NoDup (hp_live h).
Proof. exact c13_delete. Qed.
Print Assumptions C13_delete.
Example C13_case : exists h c, reach (fun n => negb (n =? 9)) hx h [c] /\ heap_ok hx /\ length (hp_live h) = 5%nat.
Proof. exact c13_case. Qed.

(** C14 *)
Theorem C14_made : forall orc md c h, heap_ok h -> life md (c_state c) ->
  exists h', (src_clone orc (Some c) h = Ok (SRC_ERR_MALLOC_FAILED, None, h') /\ some_failed orc h h') \/
    (exists c', src_clone orc (Some c) h = Ok (0, Some c', h') /\ ~ some_failed orc h h').
Proof. exact c14_made. Qed.
Print Assumptions C14_made.
Theorem C14_same : forall orc md c h e c' h', life md (c_state c) -> src_clone orc (Some c) h = Ok (e, Some c', h') ->
  forall CS (cb : callback_t CS) dummy cs, api_run CS cb dummy (c_state c') cs = api_run CS cb dummy (c_state c) cs.
Proof. exact c14_same. Qed.
Print Assumptions C14_same.
(** Original (number 0) and clone (number 1) in any interleaving, on separate buffers: each gets what the original alone
    would have got. *)
Theorem C14_independent : forall orc md c h e c' h', life md (c_state c) -> src_clone orc (Some c) h = Ok (e, Some c', h') ->
  forall CS (cb : Z -> callback_t CS) dummy (x y : CS) sched own M rs s' m',
    (forall g i, local_cb g (cb i)) ->
    (forall i j a, i <> j -> own i a <> None -> own j a = None) ->
    (forall i a v, own i a = Some v -> M a = Some v) ->
    (forall i, alone CS cb dummy i (two_states (c_state c) (c_state c) x y i) (calls_of i sched) (own i) = Ok (rs i, s' i, m' i)) ->
    exists out S' M', together CS cb dummy (two_states (c_state c) (c_state c') x y) sched M = Ok (out, S', M') /\
      (forall i, results_of i out = rs i /\ (forall a v, m' i a = Some v -> M' a = Some v)) /\
      (forall a, (forall i, own i a = None) -> M' a = M a).
Proof. exact c14_independent. Qed.
Print Assumptions C14_independent.
Example C14_case : life MODE_PROCESS (c_state ex_c) /\ exists c' h', src_clone (fun _ => true) (Some ex_c) hx = Ok (0, Some c', h').
Proof. exact c14_case. Qed.

(** C15 *)
Theorem C15_reset : forall bld orc orc2 ty ch h h2 e e2 c c2 h' h2' st,
  src_new bld orc ty ch h = Ok (e, Some c, h') -> descends (c_state c) st ->
  src_new bld orc2 ty ch h2 = Ok (e2, Some c2, h2') ->
  exists st', src_reset (Some st) = Ok (0, Some st') /\
    forall CS (cb : callback_t CS) dummy cs,
      visible (api_run CS cb dummy st' cs) = visible (api_run CS cb dummy (c_state c2) cs).
Proof. exact reset_thm. Qed.
Print Assumptions C15_reset.
Theorem C15_reset_callback : forall bld orc orc2 func ty ch ud h h2 e e2 c c2 h' h2' st,
  src_callback_new bld orc func ty ch ud h = Ok (e, Some c, h') -> descends (c_state c) st ->
  src_callback_new bld orc2 func ty ch ud h2 = Ok (e2, Some c2, h2') ->
  exists st', src_reset (Some st) = Ok (0, Some st') /\
    forall CS (cb : callback_t CS) dummy cs,
      visible (api_run CS cb dummy st' cs) = visible (api_run CS cb dummy (c_state c2) cs).
Proof. exact reset_callback_thm. Qed.
Print Assumptions C15_reset_callback.
Example C15_case : exists bld orc h c h' st, src_new bld orc SRC_LINEAR 1 h = Ok (0, Some c, h') /\ descends (c_state c) st /\ st <> c_state c.
Proof. exact c15_case. Qed.

(** C36.  [own i]: the memory of converter i; [M]: the memory of the program. *)
Theorem C36_interleaving : forall CS (cb : Z -> callback_t CS) dummy, (forall g i, local_cb g (cb i)) ->
  forall sched S own M rs s' m',
    (forall i j a, i <> j -> own i a <> None -> own j a = None) ->
    (forall i a x, own i a = Some x -> M a = Some x) ->
    (forall i, alone CS cb dummy i (S i) (calls_of i sched) (own i) = Ok (rs i, s' i, m' i)) ->
    exists out S' M', together CS cb dummy S sched M = Ok (out, S', M') /\
      (forall i, results_of i out = rs i /\ S' i = s' i /\ (forall a x, m' i a = Some x -> M' a = Some x)) /\
      (forall a, (forall i, own i a = None) -> M' a = M a).
Proof. exact together_thm. Qed.
Print Assumptions C36_interleaving.
Theorem C36_new : forall bld orc ty ch h e c h' orc2 h2 e2 c2 h2',
  src_new bld orc ty ch h = Ok (e, Some c, h') -> src_new bld orc2 ty ch h2 = Ok (e2, Some c2, h2') -> c_state c = c_state c2.
Proof. exact c36_new. Qed.
Print Assumptions C36_new.
Example C36_case : (forall i j a, i <> j -> mem36 i a <> None -> mem36 j a = None) /\
  (forall g (i : Z), local_cb g (no_cb i)) /\
  (forall i, exists rs s' m', alone unit no_cb (fun _ => 0) i
      (two_states (ex_conv HoldSpec.Zoh 2) (ex_conv HoldSpec.Zoh 2) tt tt i) (calls_of i sched36) (mem36 i) = Ok (rs, s', m')).
Proof. exact c36_case. Qed.

(** C37, for a data pointer that is not NULL. *)
Theorem C37_simple_partial : forall bld orc d ty ch h m, heap_ok h -> build_ok bld ->
  (forall e h1, src_new bld orc ty ch h = Ok (e, None, h1) -> src_simple bld orc (Some d) ty ch h m = Ok (e, Some d, h1, m)) /\
  (forall c h1, src_new bld orc ty ch h = Ok (0, Some c, h1) ->
     (forall e so d' m', src_process (Some (c_state c)) (Some (set_eoi d 1)) m = Ok (e, so, d', m') ->
        exists c' h2, so = Some (c_state c') /\ blocks c' = blocks c /\ src_delete (Some c') h1 = Ok h2 /\ hp_live h2 = hp_live h /\
          src_simple bld orc (Some d) ty ch h m = Ok (e, d', h2, m')) /\
     (forall f, src_process (Some (c_state c)) (Some (set_eoi d 1)) m = Fault f -> src_simple bld orc (Some d) ty ch h m = Fault f)).
Proof. exact simple_thm. Qed.
Print Assumptions C37_simple_partial.
Example C37_case : heap_ok hx /\ build_ok (mkBuild None None None) /\
  exists c h1, src_new (mkBuild None None None) (fun _ => true) SRC_LINEAR 2 hx = Ok (0, Some c, h1).
Proof. exact c37_case. Qed.
(** A NULL data pointer is dereferenced. *)
Theorem C37_null_refuted : forall bld orc ty ch h m c h1,
  src_new bld orc ty ch h = Ok (0, Some c, h1) -> src_simple bld orc None ty ch h m = Fault F_null.
Proof. exact c37_null. Qed.
Print Assumptions C37_null_refuted.
