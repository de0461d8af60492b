(** Histories of API calls on a sinc converter: the vocabulary of the properties in Properties_Sinc. *)
From Coq Require Import ZArith List Bool Reals.
From Flocq Require Import Core IEEE754.BinarySingleNaN.
From Verif Require Import Base Types Api Heap Callback HoldSpec ApiHist.
Import ListNotations.
Local Open Scope Z_scope.

(** [st] is a sinc converter with coefficient table [t] just handed out by src_new (any heap). *)
Definition sinc_new (t : Z * list f32) (ch : Z) (st : SRC_STATE) : Prop :=
  exists bld orc ty h c h', sinc_table bld ty = Some t /\ src_new bld orc ty ch h = Ok (0, Some c, h') /\ st = c_state c.

(** What a reply of a sinc converter looks like: honest, or the one error a sinc converter can report, on requests of 2^31
    samples and more; then nothing outside the output buffer has changed. *)
Definition truthful_reply (ch : Z) (d : SRC_DATA) (m : mem) (e : Z) (d' : SRC_DATA) (m' : mem) : Prop :=
  honest_reply ch d m e d' m' \/
  (e = SRC_ERR_SINC_PREPARE_DATA_BAD_LEN /\ 2 ^ 31 <= input_frames d * ch /\ d' = set_counts d 0 0 /\
   forall a, ~ (data_out d <= a < data_out d + output_frames d * ch) -> m' a = m a).
Definition truthful {CS} (ch : Z) (c : api_call CS) (r : api_result CS) : Prop :=
  match c, r with
  | A_process (Some d) m, R_process e (Some d') m' => truthful_reply ch d m e d' m'
  | A_process (Some _) _, _ => False
  | A_process None _, R_process e None _ => e <> 0
  | A_process None _, _ => False
  | _, _ => True
  end.

(** Every ratio the caller gives satisfies P (ratios that src_set_ratio rejects do not count). *)
Definition op_ratio {CS} (P : f64 -> Prop) (c : api_call CS) : Prop :=
  match c with
  | A_process (Some d) _ => P (src_ratio d)
  | A_set_ratio r => in_range r -> P r
  | _ => True
  end.

(** The end of the input is never announced. *)
Definition op_open {CS} (c : api_call CS) : Prop :=
  match c with A_process (Some d) _ => end_of_input d = 0 | _ => True end.

(** After a call that announces the end of the input no lower ratio below 1 is used until the converter is reset. *)
Fixpoint no_drop {CS} (floor : R) (cs : list (api_call CS)) : Prop :=
  match cs with
  | [] => True
  | A_process (Some d) _ :: r =>
      (floor <= B2R (src_ratio d))%R /\ no_drop (if end_of_input d =? 0 then floor else Rmin 1 (B2R (src_ratio d))) r
  | A_set_ratio x :: r => (in_range x -> (floor <= B2R x)%R) /\ no_drop floor r
  | A_reset :: r => no_drop 0 r
  | _ :: r => no_drop floor r
  end.

(** Histories that stay inside the buffers: the end of the input is never announced; or all ratios are at least 1/191 and
    (with several channels) none below 1 is lower than before after the end of the input; or there is one channel and only one ratio. *)
Definition tame (ch : Z) {CS} (cs : list (api_call CS)) : Prop :=
  Forall op_open cs \/
  (Forall (op_ratio (fun r => (/ 191 <= B2R r)%R)) cs /\ (ch = 1 \/ no_drop 0 cs)) \/
  (ch = 1 /\ exists r, Forall (op_ratio (fun x => x = r)) cs).

(** At the start of a stream: new, or reset after a legal history. *)
Definition sinc_start (t : Z * list f32) (ch : Z) (st : SRC_STATE) : Prop :=
  sinc_new t ch st \/
  exists (CS : Type) (cb : callback_t CS) dummy st0 cs rs st1, sinc_new t ch st0 /\ Forall (valid_op ch) cs /\
    api_run CS cb dummy st0 cs = Ok (rs, st1) /\ src_reset (Some st1) = Ok (0, Some st).

(** A caller feeding the stream X block by block; all calls succeed.  Like [streaming], but whoever announces the end of the
    input has presented all of X that is not zero. *)
Section Streaming.
  Variables (ch : Z) (X : stream) (allowed : f64 -> Prop).
  Inductive sinc_streaming : SRC_STATE -> Z -> list event -> list f32 -> SRC_STATE -> Z -> Prop :=
  | SS_done st o : sinc_streaming st o [] [] st o
  | SS_call st o d m st1 d1 m1 chunk log out st2 o2 :
      valid_call ch d m -> holds m (data_in d) ch (input_frames d) X o -> allowed (src_ratio d) ->
      (end_of_input d <> 0 -> forall i c, o + input_frames d <= i -> X i c = fzero) ->
      src_process (Some st) (Some d) m = Ok (0, Some st1, Some d1, m1) ->
      mread_n m1 (data_out d) (Z.to_nat (output_frames_gen d1 * ch)) = Ok chunk ->
      sinc_streaming st1 (o + input_frames_used d1) log out st2 o2 ->
      sinc_streaming st o (Ev_call d d1 :: log) (chunk ++ out) st2 o2
  | SS_ratio st o r st1 log out st2 o2 :
      in_range r -> allowed r -> src_set_ratio (Some st) r = (0, Some st1) ->
      sinc_streaming st1 o log out st2 o2 ->
      sinc_streaming st o (Ev_ratio r :: log) out st2 o2.
End Streaming.

(** Where a sinc converter that has consumed o frames stands: that many frames minus those it still holds. *)
Definition sinc_position (st : SRC_STATE) (o : Z) : position :=
  (o - match st_priv st with
       | P_sinc s => ((if s_b_real_end s <? 0 then s_b_end s else s_b_real_end s) - s_b_current s) / st_channels st
       | _ => 0
       end, st_last_position st).

(** No src_process request is answered with the given code. *)
Definition never (code : Z) {CS} (c : api_call CS) (r : api_result CS) : Prop :=
  match c, r with A_process (Some _) _, R_process e _ _ => e <> code | _, _ => True end.

(** A complete conversion of N frames at constant ratio r with zero-order hold or linear: a stream cut in any way, the last
    call having left output room unused; G frames came out. *)
Definition converted (kd : kind) (ch : Z) (r : f64) (N G : Z) : Prop :=
  exists X st log out st1 o1 d m st2 d2 m2, at_start kd ch st /\
    streaming ch X (eq r) (lin_legal kd ch X) st 0 log out st1 o1 /\ presented 0 log <= N /\
    valid_call ch d m /\ holds m (data_in d) ch (input_frames d) X o1 /\ src_ratio d = r /\ lin_legal kd ch X o1 d m /\
    o1 + input_frames d = N /\
    src_process (Some st1) (Some d) m = Ok (0, Some st2, Some d2, m2) /\ output_frames_gen d2 < output_frames d /\
    G = total_gen log + output_frames_gen d2.

(** The end of the input is only announced together with all that is left of N frames (in several calls, if the output room is short). *)
Fixpoint ends_at (N o : Z) (log : list event) : Prop :=
  match log with
  | [] => True
  | Ev_call d d' :: r => (end_of_input d <> 0 -> o + input_frames d = N) /\ ends_at N (o + input_frames_used d') r
  | Ev_ratio _ :: r => ends_at N o r
  end.

(** The same with a sinc converter: the last call announced the end of
    the input and left output room unused. *)
Definition sinc_converted (t : Z * list f32) (ch : Z) (r : f64) (N G : Z) : Prop :=
  exists X st log out st1 o1 d m st2 d2 m2, sinc_start t ch st /\ (forall i k, i < 0 -> X i k = fzero) /\
    sinc_streaming ch X (eq r) st 0 log out st1 o1 /\
    ends_at N 0 log /\
    valid_call ch d m /\ holds m (data_in d) ch (input_frames d) X o1 /\ src_ratio d = r /\ end_of_input d <> 0 /\
    (forall i c, N <= i -> X i c = fzero) /\ data_in d <> 0 /\ input_frames d * ch < 2 ^ 31 /\ o1 + input_frames d = N /\
    src_process (Some st1) (Some d) m = Ok (0, Some st2, Some d2, m2) /\ output_frames_gen d2 < output_frames d /\
    G = total_gen log + output_frames_gen d2.

