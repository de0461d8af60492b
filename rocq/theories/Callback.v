(** Model of src_callback_read, /repo/src/samplerate.c:145-235. *)
From Coq Require Import ZArith List Bool.
From Verif Require Import Base Types Api.
Import ListNotations.
Local Open Scope Z_scope.

Section Callback.
  (** The user's callback: its own state [CS], may change the caller's memory, optionally sets the data pointer and
      returns a frame count.  Arguments: function pointer, user data, state, memory. *)
  Variable CS : Type.
  Definition callback_t : Type := Z -> Z -> CS -> mem -> CS * mem * option Z * Z.
  Variable cb : callback_t.
  (** Address of the local array [float dummy [1]] (samplerate.c:189). *)
  Variable dummy : Z.

  (** The result of the loop: error code, state, src_data, output_frames_gen, callback state, memory. *)
  Definition loop_result : Type := Z * SRC_STATE * SRC_DATA * Z * CS * mem.

  (** One iteration up to and including the call of src_process, samplerate.c:191-209. *)
  Definition cb_fetch (state : SRC_STATE) (d : SRC_DATA) (cs : CS) (m : mem) : SRC_DATA * CS * mem :=
    if input_frames d =? 0 then
      let '(cs', m', ptr, n) := cb (st_callback state) (st_user_data state) cs m in
      let p := match ptr with Some a => a | None => dummy end in
      (mkData p (data_out d) n (output_frames d) (input_frames_used d) (output_frames_gen d)
              (if n =? 0 then 1 else end_of_input d) (src_ratio d), cs', m')
    else (d, cs, m).

  (** samplerate.c:186-225, the while loop.  [gen] is the local output_frames_gen, [frames] the number requested. *)
  Fixpoint cb_loop (fuel : nat) (frames : Z) (state : SRC_STATE) (d : SRC_DATA) (gen : Z) (cs : CS) (m : mem)
      : outcome loop_result :=
    match fuel with
    | O => Fault F_fuel
    | S f =>
        if gen <? frames then
          let '(d1, cs1, m1) := cb_fetch state d cs m in
          do (error, so, dop, m2) <- src_process (Some (set_mode state MODE_PROCESS)) (Some d1) m1 ;
          match so, dop with
          | Some st2, Some d2 =>
              let st3 := set_mode st2 MODE_CALLBACK in
              if negb (error =? 0) then Ok (error, st3, d2, gen, cs1, m2)
              else
                do iu <- long_op (input_frames_used d2 * st_channels st3) ;
                do ou <- long_op (output_frames_gen d2 * st_channels st3) ;
                do inf <- long_op (input_frames d2 - input_frames_used d2) ;
                do outf <- long_op (output_frames d2 - output_frames_gen d2) ;
                let d3 := mkData (data_in d2 + iu) (data_out d2 + ou) inf outf
                                 (input_frames_used d2) (output_frames_gen d2) (end_of_input d2) (src_ratio d2) in
                do gen' <- long_op (gen + output_frames_gen d2) ;
                if (end_of_input d2 =? 1) && (output_frames_gen d2 =? 0)
                then Ok (0, st3, d3, gen', cs1, m2)
                else cb_loop f frames st3 d3 gen' cs1 m2
          | _, _ => Fault F_null
          end
        else Ok (0, state, d, gen, cs, m)
    end.

  (** samplerate.c:145-235 src_callback_read.  Returns the value returned to the caller, the state, the callback state
      and the memory.  [fuel] bounds the number of loop iterations. *)
  Definition src_callback_read (fuel : nat) (state : option SRC_STATE) (ratio : f64) (frames data : Z) (cs : CS) (m : mem)
      : outcome (Z * option SRC_STATE * CS * mem) :=
    match state with
    | None => Ok (0, None, cs, m)
    | Some st =>
        if frames <=? 0 then Ok (0, state, cs, m) else
        match st_mode st with
        | MODE_PROCESS => Ok (0, Some (set_error st SRC_ERR_BAD_MODE), cs, m)
        | MODE_CALLBACK =>
            if st_callback st =? 0 then Ok (0, Some (set_error st SRC_ERR_NULL_CALLBACK), cs, m) else
            if is_bad_src_ratio ratio then Ok (0, Some (set_error st SRC_ERR_BAD_SRC_RATIO), cs, m) else
            let d0 := mkData (st_saved_data st) data (st_saved_frames st) frames 0 0 0 ratio in
            do (error, st1, d1, gen, cs1, m1) <- cb_loop fuel frames st d0 0 cs m ;
            let st2 := set_saved st1 (input_frames d1) (data_in d1) in
            if negb (error =? 0) then Ok (0, Some (set_error st2 error), cs1, m1)
            else Ok (gen, Some st2, cs1, m1)
        end
    end.
End Callback.
