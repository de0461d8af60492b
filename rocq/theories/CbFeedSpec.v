(** Vocabulary for C56: callbacks that always have data, and clients that ask correctly. *)
From Coq Require Import ZArith List Bool.
From Flocq Require Import Core IEEE754.BinarySingleNaN.
From Verif Require Import Base Types Api Heap Callback ApiHist HoldSpec SincApi CbSpec.
Import ListNotations.
Local Open Scope Z_scope.

Section Feed.
  Variables (CS : Type) (cb : callback_t CS) (dummy : Z) (pool : Z -> Prop) (ch : Z).

  (** In the states [I] the callback hands out a block, never an end, an error or NULL, of at least [least] frames and less than
      2^31 samples, and is in such a state again. *)
  Definition always_feeds (least : Z) (I : CS -> Prop) : Prop := forall f ud cs m, mapped pool m -> I cs -> let '(cs', _, ptr, n) := cb f ud cs m in
    I cs' /\ least <= n /\ n * ch < 2 ^ 31 /\ (match ptr with Some p => p | None => dummy end) <> 0.

  (** A correct request: a valid ratio and a mapped output buffer that is apart from the callback's memory. *)
  Definition fine_read (ratio : f64) (frames data : Z) (m : mem) : Prop :=
    in_range ratio /\
    (0 < frames -> frames * ch <= 2 ^ 50 /\ 0 < data /\ data + frames * ch <= 2 ^ 60 /\ writable m data ch frames /\
       mapped pool m /\ forall a, pool a -> ~ (data <= a < data + frames * ch)).

  (** A converter used by such a client, with the state of its callback. *)
  Inductive served (I : CS -> Prop) (made : SRC_STATE -> Prop) : SRC_STATE -> CS -> Prop :=
  | V_new st cs : made st -> I cs -> served I made st cs
  | V_read fuel st ratio frames data cs m n st' cs' m' : served I made st cs -> fine_read ratio frames data m ->
      src_callback_read CS cb dummy fuel (Some st) ratio frames data cs m = Ok (n, Some st', cs', m') -> served I made st' cs'
  | V_ratio st cs r e st' : served I made st cs -> is_nan r = false -> src_set_ratio (Some st) r = (e, Some st') -> served I made st' cs
  | V_reset st cs e st' cs' : served I made st cs -> src_reset (Some st) = Ok (e, Some st') -> I cs' -> served I made st' cs'.
End Feed.
