(** examples/varispeed-play.c: src_input_callback (lines 164-191), varispeed_get_data (lines 197-225) and the use varispeed_play
    (lines 119-162) makes of them, driven by the loop of alsa_play (examples/audio_out.c:202-203; the other audio systems have
    the same loop, lines 403-404 and 965-966).

    Not modelled: libsndfile (the file is a stream F of N frames; sf_readf_float returns the frames there are up to the number asked
    for, sf_seek (.., 0, SEEK_CUR) the place in the file, sf_seek (.., 0, SEEK_SET) returns to its start), the audio device (it is
    given the frames the callback reports; the result is the list of all samples given to it), the magic numbers, and libm:
    [sine] stands for sin.  The program plays until it is stopped, so a run is given by the number of calls audio_play has made. *)
From Coq Require Import ZArith List Bool.
From Flocq Require Import Core IEEE754.BinarySingleNaN.
From Verif Require Import Base Types Common Sinc Api Heap Callback HoldSpec Timewarp.
Import ListNotations.
Local Open Scope Z_scope.

(** varispeed-play.c:30-31; audio_out.c:36 *)
Definition VS_BUFFER_LEN : Z := 4096.
Definition VARISPEED_BLOCK_LEN : Z := 64.
Definition AUDIO_BUFFER_LEN : Z := 2048.
(** varispeed-play.c:38-40: the double nearest to 3.14159265358979323846 (0x400921FB54442D18) *)
Definition M_PI : f64 := ddiv (d_of_Z 7074237752028440) (d_of_Z (2 ^ 51)).

Section Input.
  Variables (F : stream) (N channels buffer : Z).

  (** varispeed-play.c:175-184, the loop: [read] is read_frames, [at_] the place in the file. *)
  Fixpoint vs_fill (fuel : nat) (input_frames read at_ : Z) (m : mem) : outcome (Z * mem) :=
    match fuel with
    | O => Fault F_fuel
    | S k =>
        if read <? input_frames then
          do off <- int_op (read * channels) ;
          do (m', at1, n) <- sf_readf_float F N channels m at_ (buffer + off) (input_frames - read) ;
          do read' <- int_op (read + n) ;
          vs_fill k input_frames read' (if (at1 <? 0) || (at1 =? N) then 0 else at1) m'
        else Ok (at_, m)
    end.
  (** varispeed-play.c:164-191.  Every turn reads at least one frame of a file that has any (and of one that has none the
      loop reads for ever: then this is F_fuel, whatever the bound). *)
  Definition src_input_callback (at_ : Z) (m : mem) : outcome (Z * mem * Z) :=
    do n <- c_div VS_BUFFER_LEN channels ;
    do (at', m') <- vs_fill (S (Z.to_nat n)) n 0 at_ m ;
    Ok (at', m', n).
  (** As the library sees it.  A callback has no way to fail here: that the second case does not arise is part of C57. *)
  Definition vs_callback : callback_t Z := fun _ _ at_ m =>
    match src_input_callback at_ m with
    | Ok (at', m', n) => (at', m', Some buffer, n)
    | Fault _ => (at_, m, None, -1)
    end.
End Input.

(** SRC_CB_DATA (lines 51-60), the place in the file, and the memory. *)
Record vs := mkVs { vs_state : SRC_STATE; vs_point : Z; vs_at : Z; vs_mem : mem }.

Section Play.
  Variables (sine : f64 -> f64) (F : stream) (N channels buffer dummy : Z) (turns : nat).

  (** varispeed-play.c:207: 1.0 - 0.5 * sin (data->freq_point * 2 * M_PI / 20000) *)
  Definition vs_ratio (point : Z) : outcome f64 :=
    do p2 <- int_op (point * 2) ;
    Ok (dsub done_ (dmul (ddiv done_ (d_of_Z 2)) (sine (ddiv (dmul (d_of_Z p2) M_PI) (d_of_Z 20000))))).

  (** varispeed-play.c:197-225, the loop from out_frame_count = [count].  [None]: the program has left through exit (1). *)
  Fixpoint vs_blocks (fuel : nat) (samples out_frames count : Z) (v : vs) : outcome (option vs) :=
    match fuel with
    | O => Fault F_fuel
    | S k =>
        if count <? out_frames then
          do ratio <- vs_ratio (vs_point v) ;
          do point <- int_op (vs_point v + 1) ;
          do off <- int_op (count * channels) ;
          do (rc, st, at_, m) <- src_callback_read Z (vs_callback F N channels buffer) dummy turns (Some (vs_state v)) ratio VARISPEED_BLOCK_LEN
                                   (samples + off) (vs_at v) (vs_mem v) ;
          match st with
          | None => Fault F_null
          | Some st' =>
              if rc <? VARISPEED_BLOCK_LEN then Ok None
              else do count' <- int_op (count + VARISPEED_BLOCK_LEN) ;
                   vs_blocks k samples out_frames count' (mkVs st' point at_ m)
          end
        else Ok (Some v)
    end.
  Definition varispeed_get_data (samples out_frames : Z) (v : vs) : outcome (option (Z * vs)) :=
    do r <- vs_blocks (S (Z.to_nat out_frames)) samples out_frames 0 v ;
    Ok (match r with None => None | Some v' => Some (out_frames, v') end).

  (** audio_out.c:202-203: [calls] turns of the loop; [given] is what the device has been given. *)
  Fixpoint vs_run (calls : nat) (samples : Z) (v : vs) (given : list f32) : outcome (option (vs * list f32)) :=
    match calls with
    | O => Ok (Some (v, given))
    | S k =>
        do out_frames <- c_div AUDIO_BUFFER_LEN channels ;
        do r <- varispeed_get_data samples out_frames v ;
        match r with
        | None => Ok None
        | Some (n, v') =>
            if n =? 0 then Ok (Some (v', given))
            else do chunk <- mread_n (vs_mem v') samples (Z.to_nat (n * channels)) ;
                 vs_run k samples v' (given ++ chunk)
        end
    end.
End Play.

(** varispeed-play.c:119-162 up to and including [calls] turns of the loop of audio_play. *)
Definition varispeed_play (sine : f64 -> f64) (bld : build) (orc : Z -> bool) (F : stream) (N : Z) (func data converter channels buffer samples dummy : Z)
    (turns calls : nat) (h : heap) (m : mem) : outcome (option (vs * list f32)) :=
  do (e, c, h1) <- src_callback_new bld orc func converter channels data h ;
  match c with
  | None => Ok None
  | Some cv => vs_run sine F N channels buffer dummy turns calls samples (mkVs (c_state cv) 0 0 m) []
  end.
