(** Vocabulary: when linear interpolation with short blocks is safe (C17, C28, C30). *)
From Coq Require Import ZArith List Bool.
From Flocq Require Import Core IEEE754.BinarySingleNaN.
From Verif Require Import Base Types Api Heap Callback ApiHist HoldSpec SincApi CbSpec.
Import ListNotations.
Local Open Scope Z_scope.

(** A block of one or two frames comes with the frame before it readable and outside the output buffer. *)
Definition op_before {CS} (ch : Z) (c : api_call CS) : Prop :=
  match c with
  | A_process (Some d) m => 0 < input_frames d < 3 ->
      (forall k, 0 <= k < ch -> m (data_in d - ch + k) <> None) /\
      disjoint_ranges (data_in d - ch) ch (data_out d) (output_frames d * ch)
  | _ => True
  end.

Section Blocks.
  Variables (CS : Type) (cb : callback_t CS) (dummy : Z) (pool : Z -> Prop) (ch : Z).
  (** The callback never hands out one or two frames. *)
  Definition no_short_blocks : Prop := forall f ud cs m, let '(_, _, _, n) := cb f ud cs m in n <= 0 \/ 3 <= n.
  (** The output buffer is apart from the callback's memory. *)
  Definition out_apart (frames data : Z) : Prop := forall a, pool a -> ~ (data <= a < data + frames * ch).
  Definition apart_op (c : api_call CS) : Prop := match c with A_read _ _ frames data _ _ => out_apart frames data | _ => True end.
  (** [st] is the state after a legal history with such output buffers. *)
  Definition cb_after_apart (made : SRC_STATE -> Prop) (st : SRC_STATE) : Prop :=
    exists st0 cs rs, made st0 /\ Forall (legal_cb_op CS pool ch) cs /\ Forall apart_op cs /\ api_run CS cb dummy st0 cs = Ok (rs, st).
End Blocks.
