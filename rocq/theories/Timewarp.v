(** examples/timewarp-file.c: the function timewarp_convert (lines 102-178), a complete client of the library.  Parameters instead
    of the file-level constants: the warp table (lines 90-100) and the converter type.  libsndfile is not modelled: the input
    file is a stream F of N frames read front to back (sf_readf_float returns the frames there are, up to the number asked
    for), the output file is the list of samples written (as float; SFC_SET_CLIPPING concerns integer formats), both are at their
    start.  The result carries, besides the return value and the output file, every src_process request and reply together with
    the value of input_count at the top of the loop. *)
From Coq Require Import ZArith List Bool.
From Flocq Require Import Core IEEE754.BinarySingleNaN.
From Verif Require Import Base Types Common Sinc Api Heap HoldSpec.
Import ListNotations.
Local Open Scope Z_scope.

(** lines 30-31 *)
Definition BUFFER_LEN : Z := 1024.
Definition INPUT_STEP_SIZE : Z := 8.

(** lines 33-36, 90-100 (index, ratio) *)
Definition warp_table := list (Z * f64).
Definition lit_8 (n : Z) : f64 := ddiv (d_of_Z n) (d_of_Z 100000000).
Definition the_warp : warp_table :=
  [ (0, lit_8 100000001); (20000, lit_8 101000000); (20200, lit_8 100000001); (40000, lit_8 120000000); (40300, lit_8 100000001);
    (60000, lit_8 110000000); (60400, lit_8 100000001); (80000, lit_8 150000000); (81000, lit_8 100000001) ].
Definition warp_at (warp : warp_table) (i : Z) : outcome (Z * f64) :=
  match nth_error warp (Z.to_nat i) with
  | Some x => if i <? 0 then Fault F_oob else Ok x
  | None => Fault F_oob
  end.

(** sf_readf_float (infile, ptr, frames): the new memory, the new place in the file, the number of frames read. *)
Definition file_samples (F : stream) (ch at_ n : Z) : list f32 :=
  map (fun j => F (at_ + Z.of_nat j / ch) (Z.of_nat j mod ch)) (seq 0 (Z.to_nat (n * ch))).
Definition sf_readf_float (F : stream) (N ch : Z) (m : mem) (at_ ptr frames : Z) : outcome (mem * Z * Z) :=
  let n := Z.max 0 (Z.min frames (N - at_)) in
  do m' <- mwrite_list m ptr (file_samples F ch at_ n) ;
  Ok (m', at_ + n, n).

(** The local variables of timewarp_convert, and the two files. *)
Record tw := mkTw {
  tw_state : SRC_STATE; tw_data : SRC_DATA; tw_mem : mem;
  tw_warp_index : Z; tw_input_count : Z; tw_output_count : Z;
  tw_at : Z; tw_written : list f32; tw_log : list (Z * SRC_DATA * SRC_DATA) }.

Inductive tw_next := Tw_again (t : tw) | Tw_break (t : tw) | Tw_exit.

Definition put_ratio (d : SRC_DATA) (r : f64) : SRC_DATA :=
  mkData (data_in d) (data_out d) (input_frames d) (output_frames d) (input_frames_used d) (output_frames_gen d) (end_of_input d) r.
Definition put_block (d : SRC_DATA) (a n e : Z) : SRC_DATA :=
  mkData a (data_out d) n (output_frames d) (input_frames_used d) (output_frames_gen d) e (src_ratio d).

Section Convert.
  Variables (F : stream) (N : Z) (warp : warp_table) (channels input output : Z).

  (** lines 138-171, the loop body *)
  Definition tw_pass (t : tw) : outcome tw_next :=
    (* 139-142 *)
    do (d1, wi) <-
      (if tw_warp_index t <? zlen warp - 1
       then do (i, r) <- warp_at warp (tw_warp_index t) ;
            if i <=? tw_input_count t
            then do w <- int_op (tw_warp_index t + 1) ; Ok (put_ratio (tw_data t) r, w)
            else Ok (tw_data t, tw_warp_index t)
       else Ok (tw_data t, tw_warp_index t)) ;
    (* 145-153 *)
    do (d2, m2, at2, ic) <-
      (if input_frames d1 =? 0
       then do (m', at_, n) <- sf_readf_float F N channels (tw_mem t) (tw_at t) input INPUT_STEP_SIZE ;
            do c <- long_op (tw_input_count t + n) ;
            Ok (put_block d1 input n (if n <? INPUT_STEP_SIZE then 1 else end_of_input d1), m', at_, c)
       else Ok (d1, tw_mem t, tw_at t, tw_input_count t)) ;
    (* 156-159 *)
    do (e, st, d, m3) <- src_process (Some (tw_state t)) (Some d2) m2 ;
    match st, d with
    | Some st3, Some d3 =>
        let log := tw_log t ++ [(tw_input_count t, d2, d3)] in
        if negb (e =? 0) then Ok Tw_exit
        (* 162-163 *)
        else if negb (end_of_input d3 =? 0) && (output_frames_gen d3 =? 0)
        then Ok (Tw_break (mkTw st3 d3 m3 wi ic (tw_output_count t) at2 (tw_written t) log))
        else
          (* 166-170 *)
          do chunk <- mread_n m3 output (Z.to_nat (output_frames_gen d3 * channels)) ;
          do oc <- long_op (tw_output_count t + output_frames_gen d3) ;
          let d4 := put_block d3 (data_in d3 + input_frames_used d3 * channels) (input_frames d3 - input_frames_used d3) (end_of_input d3) in
          Ok (Tw_again (mkTw st3 d4 m3 wi ic oc at2 (tw_written t ++ chunk) log))
    | _, _ => Fault F_null
    end.

  Fixpoint tw_loop (fuel : nat) (t : tw) : outcome (option tw) :=
    match fuel with
    | O => Fault F_fuel
    | S k =>
        do n <- tw_pass t ;
        match n with
        | Tw_again t' => tw_loop k t'
        | Tw_break t' => Ok (Some t')
        | Tw_exit => Ok None
        end
    end.

  (** lines 103-135: before the loop *)
  Definition tw_init (st : SRC_STATE) (m : mem) : outcome tw :=
    do (i0, r0) <- warp_at warp 0 ;
    do room <- c_div BUFFER_LEN channels ;
    Ok (mkTw st (mkData input output 0 room 0 0 0 (if 0 <? i0 then done_ else r0)) m (if 0 <? i0 then 0 else 1) 0 0 0 [] []).
End Convert.

(** The whole function.  [None]: the program has left through exit (1). *)
Definition timewarp_convert (bld : build) (orc : Z -> bool) (F : stream) (N : Z) (warp : warp_table) (converter channels input output : Z)
    (fuel : nat) (h : heap) (m : mem) : outcome (option tw * heap) :=
  do (e, c, h1) <- src_new bld orc converter channels h ;
  match c with
  | None => Ok (None, h1)
  | Some cv =>
      do t0 <- tw_init warp channels input output (c_state cv) m ;
      do r <- tw_loop F N warp channels input output fuel t0 ;
      match r with
      | None => Ok (None, h1)
      | Some t =>
          do h2 <- src_delete (Some (mkConv (c_blk_state cv) (c_blk_priv cv) (c_blk_buf cv) (tw_state t))) h1 ;
          Ok (Some t, h2)
      end
  end.
