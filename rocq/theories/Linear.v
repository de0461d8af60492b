(** Model of the linear converter, /repo/src/src_linear.c. *)
From Coq Require Import ZArith List Bool.
From Verif Require Import Base Types Common.
Import ListNotations.
Local Open Scope Z_scope.

(** (float) (a + input_index * ((double) b - a)) with float a, b: the expression of src_linear.c:95-96 and 122-123. *)
Definition lerp (a b : f32) (input_index : f64) : f32 :=
  f_of_d (dadd (d_of_f a) (dmul input_index (dsub (d_of_f b) (d_of_f a)))).

(** src_linear.c:94-98 *)
Fixpoint lin_emit_last (m : mem) (lv : list f32) (inp out : Z) (idx : f64) (out_gen ch : Z) (n : nat)
    : outcome (mem * Z) :=
  match n with
  | O => Ok (m, out_gen)
  | S k =>
      do a <- zget lv ch ;
      do b <- mread m (inp + ch) ;
      do m' <- mwrite m (out + out_gen) (lerp a b idx) ;
      do og <- long_op (out_gen + 1) ;
      lin_emit_last m' lv inp out idx og (ch + 1) k
  end.

(** src_linear.c:121-125; [off] = in_used - channels. *)
Fixpoint lin_emit_in (m : mem) (inp off in_used out : Z) (idx : f64) (out_gen ch : Z) (n : nat)
    : outcome (mem * Z) :=
  match n with
  | O => Ok (m, out_gen)
  | S k =>
      do a <- mread m (inp + (off + ch)) ;
      do b <- mread m (inp + (in_used + ch)) ;
      do m' <- mwrite m (out + out_gen) (lerp a b idx) ;
      do og <- long_op (out_gen + 1) ;
      lin_emit_in m' inp off in_used out idx og (ch + 1) k
  end.

(** src_linear.c:86-102 *)
Fixpoint lin_loop1 (fuel : nat) (channels inp out : Z) (last_ratio target : f64) (lv : list f32)
    (in_used in_count out_count : Z) (m : mem) (out_gen : Z) (input_index ratio : f64)
    : outcome (mem * Z * f64 * f64) :=
  match fuel with
  | O => Fault F_fuel
  | S f =>
      if dlt input_index done_ && (out_gen <? out_count) then
        if dge (dadd (d_of_Z in_used) (dmul (d_of_Z channels) (dadd done_ input_index))) (d_of_Z in_count)
        then Ok (m, out_gen, input_index, ratio)
        else
          let ratio' := ramp_ratio (lit_1em 20) last_ratio target out_gen out_count ratio in
          do (m', og) <- lin_emit_last m lv inp out input_index out_gen 0 (Z.to_nat channels) ;
          lin_loop1 f channels inp out last_ratio target lv in_used in_count out_count m' og
                    (next_index input_index ratio') ratio'
      else Ok (m, out_gen, input_index, ratio)
  end.

(** src_linear.c:109-133 (SRC_DEBUG is 0, src_linear.c:31) *)
Fixpoint lin_loop2 (fuel : nat) (channels inp out : Z) (last_ratio target : f64)
    (in_count out_count : Z) (m : mem) (in_used out_gen : Z) (input_index ratio : f64)
    : outcome (mem * Z * Z * f64 * f64) :=
  match fuel with
  | O => Fault F_fuel
  | S f =>
      if (out_gen <? out_count)
         && dlt (dadd (d_of_Z in_used) (dmul (d_of_Z channels) input_index)) (d_of_Z in_count)
      then
        let ratio' := ramp_ratio (lit_1em 20) last_ratio target out_gen out_count ratio in
        do off <- long_op (in_used - channels) ;
        do (m', og) <- lin_emit_in m inp off in_used out input_index out_gen 0 (Z.to_nat channels) ;
        do (iu, idx) <- advance channels in_used (next_index input_index ratio') ;
        lin_loop2 f channels inp out last_ratio target in_count out_count m' iu og idx ratio'
      else Ok (m, in_used, out_gen, input_index, ratio)
  end.

(** src_linear.c:53-153 linear_vari_process *)
Definition linear_vari_process (state : SRC_STATE) (data : SRC_DATA) (m : mem) : outcome proc_result :=
  if input_frames data <=? 0 then Ok (SRC_ERR_NO_ERROR, state, data, m) else
  match st_priv state with
  | P_null => Ok (SRC_ERR_NO_PRIVATE, state, data, m)
  | P_sinc _ => Fault F_oob
  | P_hold priv =>
      let channels := st_channels state in
      (* 67-72 *)
      do lv <- (if h_dirty priv then Ok (h_last_value priv)
                else load_frame m (data_in data) (h_last_value priv) 0 (Z.to_nat channels)) ;
      (* 74-76 *)
      do in_count <- long_op (input_frames data * channels) ;
      do out_count <- long_op (output_frames data * channels) ;
      let last_ratio := st_last_ratio state in
      (* 80-81 *)
      if is_bad_src_ratio last_ratio then
        Ok (SRC_ERR_BAD_INTERNAL_STATE,
            set_priv state (P_hold (mkHold true in_count 0 out_count 0 lv)), data, m)
      else
      let fuel := S (Z.to_nat out_count) in
      do (m1, og1, idx1, r1) <- lin_loop1 fuel channels (data_in data) (data_out data) last_ratio (src_ratio data) lv
                                   0 in_count out_count m 0 (st_last_position state) last_ratio ;
      (* 104-106 *)
      do (iu1, idx1') <- advance channels 0 idx1 ;
      do (m2, iu2, og2, idx2, r2) <- lin_loop2 fuel channels (data_in data) (data_out data) last_ratio (src_ratio data)
                                        in_count out_count m1 iu1 og1 idx1' r1 ;
      (* 135-138 *)
      do (iu3, idx3) <- carry_over channels in_count iu2 idx2 ;
      (* 142-144 *)
      do lv' <- (if 0 <? iu3
                 then do off <- long_op (iu3 - channels) ;
                      load_frame m2 (data_in data + off) lv 0 (Z.to_nat channels)
                 else Ok lv) ;
      (* 149-150 *)
      do used <- c_div iu3 channels ;
      do gen <- c_div og2 channels ;
      Ok (SRC_ERR_NO_ERROR,
          set_priv (set_ratio (set_position state idx3) r2)
                   (P_hold (mkHold true in_count iu3 out_count og2 lv')),
          set_counts data used gen, m2)
  end.

(** src_linear.c:158-174 *)
Definition linear_has_name (src_enum : Z) : bool := src_enum =? SRC_LINEAR.
