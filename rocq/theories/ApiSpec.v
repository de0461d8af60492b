(** Vocabulary of the properties of the API as a whole (C07-C12): when a request is to be refused, and which converter
    states exist. *)
From Coq Require Import ZArith List Bool Reals.
From Flocq Require Import IEEE754.BinarySingleNaN.
From Verif Require Import Base Types Api Heap Callback HoldSpec ApiHist.
Import ListNotations.
Local Open Scope Z_scope.

(** The reasons to refuse a src_process request, each with its error code.  (A NaN ratio is not refused: see C07.) *)
Definition violated (state : option SRC_STATE) (data : option SRC_DATA) (e : Z) : Prop :=
  (e = SRC_ERR_BAD_STATE /\ state = None) \/
  (e = SRC_ERR_BAD_MODE /\ exists st, state = Some st /\ st_mode st = MODE_CALLBACK) \/
  (e = SRC_ERR_BAD_DATA /\ data = None) \/
  (e = SRC_ERR_BAD_DATA_PTR /\ exists d, data = Some d /\
     ((data_in d = 0 /\ 0 < input_frames d) \/ (data_out d = 0 /\ 0 < output_frames d))) \/
  (e = SRC_ERR_BAD_SRC_RATIO /\ exists d, data = Some d /\ is_nan (src_ratio d) = false /\ ~ in_range (src_ratio d)) \/
  (e = SRC_ERR_DATA_OVERLAP /\ exists st d, state = Some st /\ data = Some d /\
     ~ apart (data_in d) (Z.max 0 (input_frames d) * st_channels st)
             (data_out d) (Z.max 0 (output_frames d) * st_channels st)).

(** The order in which they are reported. *)
Definition refusal_order : list Z :=
  [SRC_ERR_BAD_STATE; SRC_ERR_BAD_MODE; SRC_ERR_BAD_DATA; SRC_ERR_BAD_DATA_PTR; SRC_ERR_BAD_SRC_RATIO; SRC_ERR_DATA_OVERLAP].

Definition first_violated (state : option SRC_STATE) (data : option SRC_DATA) (e : Z) : Prop :=
  exists pre post, refusal_order = pre ++ e :: post /\ violated state data e /\
                   forall x, In x pre -> ~ violated state data x.

(** SRC_DATA that describes buffers inside the address space. *)
Definition addressable (ch : Z) (d : SRC_DATA) : Prop :=
  0 <= data_in d <= 2 ^ 60 /\ 0 <= data_out d <= 2 ^ 60 /\
  - 2 ^ 63 <= input_frames d <= 2 ^ 50 /\ - 2 ^ 63 <= output_frames d <= 2 ^ 50 /\
  Z.max 0 (input_frames d) * ch <= 2 ^ 50 /\ Z.max 0 (output_frames d) * ch <= 2 ^ 50.

(** All that may happen to a refused request: negative counts are replaced by 0. *)
Definition clamped (d : SRC_DATA) : SRC_DATA := set_frames d (Z.max 0 (input_frames d)) (Z.max 0 (output_frames d)).

(** Every converter state that can exist: made by src_new or src_callback_new, then any API calls (legal or not) and
    clones.  The mode is the one it was created for. *)
Inductive life : src_mode -> SRC_STATE -> Prop :=
| L_new bld orc ty ch h e c h' : src_new bld orc ty ch h = Ok (e, Some c, h') -> life MODE_PROCESS (c_state c)
| L_callback bld orc func ty ch ud h e c h' :
    src_callback_new bld orc func ty ch ud h = Ok (e, Some c, h') -> life MODE_CALLBACK (c_state c)
| L_step md CS (cb : callback_t CS) dummy st c r st' :
    life md st -> api_step CS cb dummy st c = Ok (r, st') -> life md st'
| L_clone md orc c h e c' h' : life md (c_state c) -> src_clone orc (Some c) h = Ok (e, Some c', h') -> life md (c_state c').
