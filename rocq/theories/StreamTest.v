(** tests/streaming_test.c, the function stream_test (lines 52-148): a mono client that walks through one input array and one
    output array in blocks.  In the conversion loop (lines 91-124) BLOCK_LEN (line 23), input_len and output_len are parameters.
    printf is left out; exit (1) after an error is the outcome [Sl_exit], [T_exit]. *)
From Coq Require Import ZArith List Bool.
From Flocq Require Import Core IEEE754.BinarySingleNaN.
From Verif Require Import Base Types Common Sinc Api Heap.
Local Open Scope Z_scope.

(** The local variables of stream_test, and the memory. *)
Record sl := mkSl { sl_state : SRC_STATE; sl_data : SRC_DATA; sl_mem : mem; sl_in : Z; sl_out : Z }.
Inductive sl_next := Sl_again (s : sl) | Sl_break (s : sl) | Sl_exit.

Section Stream.
  Variables (input_len output_len block : Z).

  (** lines 102-123.  current_in and current_out are ints, the frame counts long. *)
  Definition sl_pass (s : sl) : outcome sl_next :=
    do (e, st, d, m) <- src_process (Some (sl_state s)) (Some (sl_data s)) (sl_mem s) ;
    match st, d with
    | Some st1, Some d1 =>
        if negb (e =? 0) then Ok Sl_exit
        else if negb (end_of_input d1 =? 0) && (output_frames_gen d1 =? 0) then Ok (Sl_break (mkSl st1 d1 m (sl_in s) (sl_out s)))
        else
          do ci <- int_op (sl_in s + input_frames_used d1) ;
          do co <- int_op (sl_out s + output_frames_gen d1) ;
          do n <- int_op (input_len - ci) ;
          do k <- int_op (output_len - co) ;
          Ok (Sl_again (mkSl st1 (mkData (data_in d1 + input_frames_used d1) (data_out d1 + output_frames_gen d1) (Z.min block n) (Z.min block k)
                                         (input_frames_used d1) (output_frames_gen d1) (if input_len <=? ci then 1 else 0) (src_ratio d1)) m ci co))
    | _, _ => Fault F_null
    end.

  (** line 101 *)
  Fixpoint sl_loop (fuel : nat) (s : sl) : outcome (option sl) :=
    match fuel with
    | O => Fault F_fuel
    | S k =>
        do n <- sl_pass s ;
        match n with
        | Sl_again s' => sl_loop k s'
        | Sl_break s' => Ok (Some s')
        | Sl_exit => Ok None
        end
    end.
End Stream.

(** lines 83, 91-99; src_data.input_frames_used and output_frames_gen are not initialised ([u], [g]: whatever they hold). *)
Definition sl_init (block input output : Z) (r : f64) (u g : Z) (st : SRC_STATE) (m : mem) : sl :=
  mkSl st (mkData input output block block u g 0 r) m 0 0.

(** lines 21, 23 *)
Definition TEST_BUFFER_LEN : Z := 2 ^ 15.
Definition TEST_BLOCK_LEN : Z := 100.

(** (int) floor (x), (int) ceil (x); undefined if the result is not an int. *)
Definition int_of_round (mode : mode) (x : f64) : outcome Z :=
  if is_finite x then int_op (Btrunc (Bnearbyint mode x)) else Fault F_overflow.
Definition int_floor (x : f64) : outcome Z := int_of_round mode_DN x.
Definition int_ceil (x : f64) : outcome Z := int_of_round mode_UP x.

Inductive test_result := T_ok (s : sl) | T_exit.

(** lines 66-76: input_len, output_len *)
Definition test_lengths (r : f64) : outcome (Z * Z) :=
  do (n, k) <-
    (if dge r done_
     then do n <- int_floor (ddiv (d_of_Z TEST_BUFFER_LEN) r) ; Ok (n, TEST_BUFFER_LEN)
     else do k <- int_floor (dmul (d_of_Z TEST_BUFFER_LEN) r) ; Ok (TEST_BUFFER_LEN, k)) ;
  do n' <- int_op (n - 10) ;
  Ok (n', k).

(** lines 128-143: the two checks at the end *)
Definition test_checks (r : f64) (input_len current_in current_out : Z) : outcome bool :=
  do terminate <- int_ceil (if dge r done_ then r else ddiv done_ r) ;
  do twice <- int_op (2 * terminate) ;
  if dgt (dabs (dsub (d_of_Z current_out) (dmul r (d_of_Z input_len)))) (d_of_Z twice) then Ok false
  else Ok (current_in =? input_len).

Definition stream_test (bld : build) (orc : Z -> bool) (converter : Z) (r : f64) (input output u g : Z) (fuel : nat) (h : heap) (m : mem) :
    outcome (test_result * heap) :=
  do (input_len, output_len) <- test_lengths r ;
  if output_len >? TEST_BUFFER_LEN then Ok (T_exit, h)
  else
    do (e, c, h1) <- src_new bld orc converter 1 h ;
    match c with
    | None => Ok (T_exit, h1)
    | Some cv =>
        do x <- sl_loop input_len output_len TEST_BLOCK_LEN fuel (sl_init TEST_BLOCK_LEN input output r u g (c_state cv) m) ;
        match x with
        | None => Ok (T_exit, h1)
        | Some s =>
            do h2 <- src_delete (Some (mkConv (c_blk_state cv) (c_blk_priv cv) (c_blk_buf cv) (sl_state s))) h1 ;
            do fine <- test_checks r input_len (sl_in s) (sl_out s) ;
            if fine : bool then Ok (T_ok s, h2) else Ok (T_exit, h2)
        end
    end.
