(** Model of the zero-order-hold converter, /repo/src/src_zoh.c. *)
From Coq Require Import ZArith List Bool.
From Verif Require Import Base Types Common.
Import ListNotations.
Local Open Scope Z_scope.

(** src_zoh.c:92-95: for (ch...) { data_out [out_gen] = last_value [ch] ; out_gen ++ ; } *)
Fixpoint zoh_emit_last (m : mem) (lv : list f32) (out out_gen ch : Z) (n : nat) : outcome (mem * Z) :=
  match n with
  | O => Ok (m, out_gen)
  | S k =>
      do x <- zget lv ch ;
      do m' <- mwrite m (out + out_gen) x ;
      do og <- long_op (out_gen + 1) ;
      zoh_emit_last m' lv out og (ch + 1) k
  end.

(** src_zoh.c:111-114: for (ch...) { data_out [out_gen] = data_in [in_used - channels + ch] ; out_gen ++ ; } *)
Fixpoint zoh_emit_in (m : mem) (inp off out out_gen ch : Z) (n : nat) : outcome (mem * Z) :=
  match n with
  | O => Ok (m, out_gen)
  | S k =>
      do x <- mread m (inp + (off + ch)) ;
      do m' <- mwrite m (out + out_gen) x ;
      do og <- long_op (out_gen + 1) ;
      zoh_emit_in m' inp off out og (ch + 1) k
  end.

(** src_zoh.c:84-99, the loop before the first input sample; in_used is 0 throughout.
    Result: memory, out_gen, input_index, src_ratio. *)
Fixpoint zoh_loop1 (fuel : nat) (channels out : Z) (last_ratio target : f64) (lv : list f32)
    (in_used in_count out_count : Z) (m : mem) (out_gen : Z) (input_index ratio : f64)
    : outcome (mem * Z * f64 * f64) :=
  match fuel with
  | O => Fault F_fuel
  | S f =>
      if dlt input_index done_ && (out_gen <? out_count) then
        if dge (dadd (d_of_Z in_used) (dmul (d_of_Z channels) input_index)) (d_of_Z in_count)
        then Ok (m, out_gen, input_index, ratio)
        else
          let ratio' := ramp_ratio (lit_1em 20) last_ratio target out_gen out_count ratio in
          do (m', og) <- zoh_emit_last m lv out out_gen 0 (Z.to_nat channels) ;
          zoh_loop1 f channels out last_ratio target lv in_used in_count out_count m' og
                    (next_index input_index ratio') ratio'
      else Ok (m, out_gen, input_index, ratio)
  end.

(** src_zoh.c:106-122, the main loop.  Result: memory, in_used, out_gen, input_index, src_ratio. *)
Fixpoint zoh_loop2 (fuel : nat) (channels inp out : Z) (last_ratio target : f64)
    (in_count out_count : Z) (m : mem) (in_used out_gen : Z) (input_index ratio : f64)
    : outcome (mem * Z * Z * f64 * f64) :=
  match fuel with
  | O => Fault F_fuel
  | S f =>
      if (out_gen <? out_count)
         && dle (dadd (d_of_Z in_used) (dmul (d_of_Z channels) input_index)) (d_of_Z in_count)
      then
        let ratio' := ramp_ratio (lit_1em 20) last_ratio target out_gen out_count ratio in
        do off <- long_op (in_used - channels) ;
        do (m', og) <- zoh_emit_in m inp off out out_gen 0 (Z.to_nat channels) ;
        do (iu, idx) <- advance channels in_used (next_index input_index ratio') ;
        zoh_loop2 f channels inp out last_ratio target in_count out_count m' iu og idx ratio'
      else Ok (m, in_used, out_gen, input_index, ratio)
  end.

(** src_zoh.c:51-142 zoh_vari_process.  The fuel S out_count is enough because each iteration emits at least one
    sample (proved; see ZohProofs). *)
Definition zoh_vari_process (state : SRC_STATE) (data : SRC_DATA) (m : mem) : outcome proc_result :=
  if input_frames data <=? 0 then Ok (SRC_ERR_NO_ERROR, state, data, m) else
  match st_priv state with
  | P_null => Ok (SRC_ERR_NO_PRIVATE, state, data, m)
  | P_sinc _ => Fault F_oob  (* type confusion: never happens, the vtable fixes the type *)
  | P_hold priv =>
      let channels := st_channels state in
      (* 65-70 *)
      do lv <- (if h_dirty priv then Ok (h_last_value priv)
                else load_frame m (data_in data) (h_last_value priv) 0 (Z.to_nat channels)) ;
      (* 72-74 *)
      do in_count <- long_op (input_frames data * channels) ;
      do out_count <- long_op (output_frames data * channels) ;
      let last_ratio := st_last_ratio state in
      (* 78-79 *)
      if is_bad_src_ratio last_ratio then
        Ok (SRC_ERR_BAD_INTERNAL_STATE,
            set_priv state (P_hold (mkHold true in_count 0 out_count 0 lv)), data, m)
      else
      let fuel := S (Z.to_nat out_count) in
      do (m1, og1, idx1, r1) <- zoh_loop1 fuel channels (data_out data) last_ratio (src_ratio data) lv
                                   0 in_count out_count m 0 (st_last_position state) last_ratio ;
      (* 101-103 *)
      do (iu1, idx1') <- advance channels 0 idx1 ;
      do (m2, iu2, og2, idx2, r2) <- zoh_loop2 fuel channels (data_in data) (data_out data) last_ratio (src_ratio data)
                                        in_count out_count m1 iu1 og1 idx1' r1 ;
      (* 124-127 *)
      do (iu3, idx3) <- carry_over channels in_count iu2 idx2 ;
      (* 131-133 *)
      do lv' <- (if 0 <? iu3
                 then do off <- long_op (iu3 - channels) ;
                      load_frame m2 (data_in data + off) lv 0 (Z.to_nat channels)
                 else Ok lv) ;
      (* 138-139 *)
      do used <- c_div iu3 channels ;
      do gen <- c_div og2 channels ;
      Ok (SRC_ERR_NO_ERROR,
          set_priv (set_ratio (set_position state idx3) r2)
                   (P_hold (mkHold true in_count iu3 out_count og2 lv')),
          set_counts data used gen, m2)
  end.

(** src_zoh.c:147-163 *)
Definition zoh_has_name (src_enum : Z) : bool := src_enum =? SRC_ZERO_ORDER_HOLD.
