(** Vocabulary for C29: what a sequence of reads got from its callback and returned. *)
From Coq Require Import ZArith List Bool.
From Flocq Require Import Core IEEE754.BinarySingleNaN.
From Verif Require Import Base Types Api Heap Callback ApiHist HoldSpec SincApi CbSpec.
Import ListNotations.
Local Open Scope Z_scope.

(** The same callback, keeping a record of the blocks it handed out (their contents at that moment). *)
Section Record.
  Variables (CS : Type) (cb : callback_t CS) (dummy ch : Z).
  Definition block_at (m : mem) (p n : Z) : list f32 :=
    match mread_n m p (Z.to_nat (n * ch)) with Ok l => l | Fault _ => [] end.
  Definition recorded : callback_t (CS * list (list f32)) := fun f ud '(cs, rec) m =>
    let '(cs', m', ptr, n) := cb f ud cs m in
    ((cs', rec ++ [block_at m' (match ptr with Some p => p | None => dummy end) n]), m', ptr, n).
End Record.

(** A sequence of successful reads at ratios that are [allowed], with src_set_ratio in between.  Between reads the caller may
    change the memory, except for the part of the last block that has not been consumed (and, if only one or two frames of it are
    left, the [before] frames before them, which the read must not write to either).  The callback does not write to the caller's output buffer.  [asked]: for each read the ratio and the number of frames returned,
    or the ratio set; [out]: what the reads returned. *)
Section Reads.
  Variables (CS : Type) (cb : callback_t CS) (dummy : Z) (pool : Z -> Prop) (ch : Z) (allowed : f64 -> Prop) (before : Z).
  Inductive reads : SRC_STATE -> CS -> mem -> list (f64 * Z + f64) -> list f32 -> SRC_STATE -> CS -> mem -> Prop :=
  | R_none st cs m : reads st cs m [] [] st cs m
  | R_read st0 cs0 m0 asked out st cs m m1 fuel r frames data n st' cs' m' chunk :
      reads st0 cs0 m0 asked out st cs m -> allowed r ->
      (forall i, 0 <= i < st_saved_frames st * ch -> m1 (st_saved_data st + i) = m (st_saved_data st + i)) ->
      (0 < st_saved_frames st < 3 -> forall i, - before * ch <= i < 0 ->
        m1 (st_saved_data st + i) = m (st_saved_data st + i) /\ ~ (data <= st_saved_data st + i < data + frames * ch)) ->
      legal_read pool ch r frames data m1 ->
      (forall a, data <= a < data + frames * ch -> leaves_alone CS cb a) ->
      src_callback_read CS cb dummy fuel (Some st) r frames data cs m1 = Ok (n, Some st', cs', m') ->
      src_error (Some st') = 0 -> mread_n m' data (Z.to_nat (n * ch)) = Ok chunk ->
      reads st0 cs0 m0 (asked ++ [inl (r, n)]) (out ++ chunk) st' cs' m'
  | R_set st0 cs0 m0 asked out st cs m r st' :
      reads st0 cs0 m0 asked out st cs m -> allowed r -> in_range r -> src_set_ratio (Some st) r = (0, Some st') ->
      reads st0 cs0 m0 (asked ++ [inr r]) out st' cs m.
End Reads.

(** The src_process calls behind a sequence of reads: those of a read carry its ratio and produce what it returned. *)
Inductive behind : list (f64 * Z + f64) -> list event -> Prop :=
| B_none : behind [] []
| B_read asked log r n seg : behind asked log -> Forall (fun e => match e with Ev_call d _ => src_ratio d = r | Ev_ratio _ => False end) seg -> total_gen seg = n ->
    behind (asked ++ [inl (r, n)]) (log ++ seg)
| B_set asked log r : behind asked log -> behind (asked ++ [inr r]) (log ++ [Ev_ratio r]).

(** The list of interleaved samples [l] is the beginning of the stream X. *)
Definition begins (ch : Z) (X : stream) (l : list f32) (n : Z) : Prop := is_frames ch l n X.

(** The callback hands out no block of one or two frames. *)
Definition big_blocks {CS} (cb : callback_t CS) : Prop :=
  forall f ud cs m, let '(_, _, _, n) := cb f ud cs m in n <= 0 \/ 3 <= n.

(** One of the two is the beginning of the other. *)
Definition agree (l1 l2 : list f32) : Prop := exists rest, l2 = l1 ++ rest \/ l1 = l2 ++ rest.
