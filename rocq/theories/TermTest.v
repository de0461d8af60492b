(** tests/termination_test.c, the functions stream_test (lines 181-325) and next_block_length (lines 327-341): a mono client that
    walks through one input array and one output array, with blocks of changing lengths and all of the remaining output room.  In the
    loop (lines 234-302) input_len, output_len, terminate and the length of the output array are parameters.  printf is left out;
    exit (1) after an error is the outcome [Tt_exit], [T_exit]. *)
From Coq Require Import ZArith List Bool.
From Flocq Require Import Core IEEE754.BinarySingleNaN.
From Verif Require Import Base Types Common Sinc Api Heap StreamTest.
Import ListNotations.
Local Open Scope Z_scope.

(** line 22 *)
Definition LONG_BUFFER_LEN : Z := 2 ^ 16 - 20.

(** lines 327-341 with reset = 0.  [idx]: the static variable block_len_index; the length and the new index. *)
Definition block_lengths : list Z := [5; 400; 10; 300; 20; 200; 50; 100; 70].
Definition next_block_length (idx : Z) : outcome (Z * Z) :=
  let i := Z.rem (idx + 1) 9 in
  match nth_error block_lengths (Z.to_nat i) with
  | Some b => if i <? 0 then Fault F_oob else Ok (b, i)
  | None => Fault F_oob
  end.

(** The local variables of the loop are those of tests/streaming_test.c ([sl]); [tt_idx]: block_len_index. *)
Record tt := mkTt { tt_sl : sl; tt_idx : Z }.
Inductive tt_next := Tt_again (t : tt) | Tt_break (t : tt) | Tt_exit.

Section Term.
  Variables (input_len output_len terminate len : Z).

  (** lines 236-301 *)
  Definition tt_pass (t : tt) : outcome tt_next :=
    let s := tt_sl t in
    let d0 := sl_data s in
    do (b, i) <- next_block_length (tt_idx t) ;
    do n <- int_op (input_len - sl_in s) ;
    do k <- int_op (len - sl_out s) ;
    do (e, st, d, m) <- src_process (Some (sl_state s))
      (Some (mkData (data_in d0) (data_out d0) (Z.min b n) k (input_frames_used d0) (output_frames_gen d0)
                    (if input_len <=? sl_in s then 1 else 0) (src_ratio d0))) (sl_mem s) ;
    match st, d with
    | Some st1, Some d1 =>
        let used := input_frames_used d1 in
        let gen := output_frames_gen d1 in
        if negb (e =? 0) then Ok Tt_exit
        (* 251-252 *)
        else if negb (end_of_input d1 =? 0) && (gen =? 0) then Ok (Tt_break (mkTt (mkSl st1 d1 m (sl_in s) (sl_out s)) i))
        (* 254-271 *)
        else if (input_frames d1 <? used) || (used <? 0) || (gen <? 0) then Ok Tt_exit
        else
          (* 273-294 *)
          do ci <- int_op (sl_in s + used) ;
          do co <- int_op (sl_out s + gen) ;
          do lim <- int_op (input_len + terminate) ;
          if (lim <? ci) || (output_len <? co) || (input_len <? used) || (output_len <? gen) then Ok Tt_exit
          (* 296-297 *)
          else if (data_in d1 =? 0) && (gen =? 0) then Ok (Tt_break (mkTt (mkSl st1 d1 m ci co) i))
          (* 300-301 *)
          else Ok (Tt_again (mkTt (mkSl st1 (mkData (data_in d1 + used) (data_out d1 + gen) (input_frames d1) (output_frames d1) used gen
                                                    (end_of_input d1) (src_ratio d1)) m ci co) i))
    | _, _ => Fault F_null
    end.

  (** line 234 *)
  Fixpoint tt_loop (fuel : nat) (t : tt) : outcome (option tt) :=
    match fuel with
    | O => Fault F_fuel
    | S k =>
        do n <- tt_pass t ;
        match n with
        | Tt_again t' => tt_loop k t'
        | Tt_break t' => Ok (Some t')
        | Tt_exit => Ok None
        end
    end.
End Term.

(** lines 215, 223-230; input_frames, input_frames_used and output_frames_gen are not initialised ([n], [u], [g]). *)
Definition tt_init (len input output : Z) (r : f64) (n u g idx : Z) (st : SRC_STATE) (m : mem) : tt :=
  mkTt (mkSl st (mkData input output n (len / 10) u g 0 r) m 0 0) idx.

(** lines 198-208: input_len, output_len *)
Definition term_lengths (r : f64) : outcome (Z * Z) :=
  do (n, k) <-
    (if dge r done_
     then do n <- int_floor (ddiv (d_of_Z LONG_BUFFER_LEN) r) ; Ok (n, LONG_BUFFER_LEN)
     else do k <- int_floor (dmul (d_of_Z LONG_BUFFER_LEN) r) ; Ok (LONG_BUFFER_LEN, k)) ;
  do n' <- int_op (n - 20) ;
  Ok (n', k).

(** line 232 *)
Definition term_slack (r : f64) : outcome Z :=
  do c <- int_ceil (if dge r done_ then r else ddiv done_ r) ;
  int_op (1 + c).

(** lines 306-320 *)
Definition term_checks (r : f64) (input_len terminate current_in current_out : Z) : bool :=
  if dgt (dabs (dsub (d_of_Z current_out) (dmul r (d_of_Z input_len)))) (d_of_Z terminate) then false
  else current_in =? input_len.

(** line 195: input [k] = k * 1.0f, for each k; below 2^24 the conversion of k is exact. *)
Definition ramp_samples (len : Z) : list f32 := map (fun k => f_of_Z (Z.of_nat k)) (seq 0 (Z.to_nat len)).

Definition term_test (bld : build) (orc : Z -> bool) (converter : Z) (r : f64) (input output n u g idx : Z) (fuel : nat) (h : heap) (m : mem) :
    outcome (test_result * heap) :=
  do m1 <- mwrite_list m input (ramp_samples LONG_BUFFER_LEN) ;
  do (input_len, output_len) <- term_lengths r ;
  if output_len >? LONG_BUFFER_LEN then Ok (T_exit, h)
  else
    do (e, c, h1) <- src_new bld orc converter 1 h ;
    match c with
    | None => Ok (T_exit, h1)
    | Some cv =>
        do terminate <- term_slack r ;
        do x <- tt_loop input_len output_len terminate LONG_BUFFER_LEN fuel (tt_init LONG_BUFFER_LEN input output r n u g idx (c_state cv) m1) ;
        match x with
        | None => Ok (T_exit, h1)
        | Some t =>
            let s := tt_sl t in
            do h2 <- src_delete (Some (mkConv (c_blk_state cv) (c_blk_priv cv) (c_blk_buf cv) (sl_state s))) h1 ;
            if term_checks r input_len terminate (sl_in s) (sl_out s) then Ok (T_ok s, h2) else Ok (T_exit, h2)
        end
    end.
