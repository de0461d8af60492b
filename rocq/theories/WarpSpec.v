(** What is asked of examples/timewarp-file.c (C54, C55). *)
From Coq Require Import ZArith Reals List Bool.
From Flocq Require Import Core IEEE754.BinarySingleNaN.
From Verif Require Import Base Types ApiHist HoldSpec Timewarp.
Import ListNotations.
Local Open Scope Z_scope.

(** The file, with silence around it. *)
Definition padded (F : stream) (N : Z) : stream := fun i c => if (0 <=? i) && (i <? N) then F i c else fzero.

(** The requests of a run. *)
Definition events (log : list (Z * SRC_DATA * SRC_DATA)) : list event := map (fun '(_, d, d') => Ev_call d d') log.

(** The two static arrays: mapped, apart from each other, not at address 0. *)
Definition arrays (m : mem) (input output : Z) : Prop :=
  0 < input <= 2 ^ 59 /\ 0 < output <= 2 ^ 59 /\ (input + 1024 <= output \/ output + 1024 <= input) /\
  forall j, 0 <= j < 1024 -> m (input + j) <> None /\ m (output + j) <> None.

(** A table the program accepts: not empty, every ratio from 1 to 256. *)
Definition warp_ok (warp : warp_table) : Prop :=
  warp <> [] /\ zlen warp < 2 ^ 31 /\ Forall (fun e => in_range (snd e) /\ (1 <= B2R (snd e))%R) warp.

(** The ratio of the last entry at or before input frame c, [r] when there is none. *)
Fixpoint wanted (r : f64) (warp : warp_table) (c : Z) : f64 :=
  match warp with
  | [] => r
  | (i, x) :: rest => if i <=? c then wanted x rest c else r
  end.

(** Frames taken by the calls of a log; a log whose k-th entry carries an input position at most 8 frames beyond what the
    calls before have taken. *)
Fixpoint taken (log : list (Z * SRC_DATA * SRC_DATA)) : Z :=
  match log with
  | [] => 0
  | (_, _, d') :: r => input_frames_used d' + taken r
  end.
Definition on_time (log : list (Z * SRC_DATA * SRC_DATA)) : Prop :=
  forall l c d d' r, log = l ++ (c, d, d') :: r -> taken l <= c <= taken l + 8.

(** The ratios of a log are those of the table. *)
Definition obeys (warp : warp_table) (log : list (Z * SRC_DATA * SRC_DATA)) : Prop :=
  Forall (fun '(c, d, _) => src_ratio d = wanted done_ warp c) log.

(** The first entry at 0 or later, entries at least 8 frames apart (the program reads 8 frames at a time). *)
Definition spaced (warp : warp_table) : Prop :=
  (forall a x, nth_error warp 0 = Some (a, x) -> 0 <= a) /\
  forall k a x b y, nth_error warp k = Some (a, x) -> nth_error warp (S k) = Some (b, y) -> a + 8 <= b.
