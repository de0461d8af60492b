(** Model of creating, copying and deleting converters: samplerate.c:24-82, 410-425, 489-527 and the _new/_copy/_close
    functions of the three converters, against an allocator that may fail at any call. *)
From Coq Require Import ZArith List Bool.
From Verif Require Import Base Types Common Sinc Api.
Import ListNotations.
Local Open Scope Z_scope.

(** The heap: number of the next allocation attempt, and the blocks that are live.  A block is named by the number of
    the allocation that created it, so names are never reused (this makes use-after-free and double free visible). *)
Record heap := mkHeap { hp_next : Z; hp_live : list Z }.

(** calloc/malloc: [orc n] says whether the n-th allocation attempt succeeds. *)
Definition alloc (orc : Z -> bool) (h : heap) : option Z * heap :=
  let n := hp_next h in
  if orc n then (Some n, mkHeap (n + 1) (n :: hp_live h)) else (None, mkHeap (n + 1) (hp_live h)).

Definition is_live (h : heap) (b : Z) : bool := existsb (Z.eqb b) (hp_live h).

(** free: freeing a block that is not live is undefined behaviour. *)
Definition free (h : heap) (b : Z) : outcome heap :=
  if is_live h b then Ok (mkHeap (hp_next h) (filter (fun x => negb (x =? b)) (hp_live h))) else Fault F_oob.

(** A converter in the heap: the three blocks (SRC_STATE, private struct, sample buffer) and the contents. *)
Record converter := mkConv { c_blk_state : Z; c_blk_priv : Z; c_blk_buf : Z; c_state : SRC_STATE }.

(** Build configuration: the sinc tables that are compiled in (ENABLE_SINC_*_CONVERTER), as (increment, coefficients). *)
Record build := mkBuild {
  bld_best : option (Z * list f32);
  bld_medium : option (Z * list f32);
  bld_fast : option (Z * list f32)
}.
Definition sinc_table (b : build) (converter_type : Z) : option (Z * list f32) :=
  if converter_type =? SRC_SINC_FASTEST then bld_fast b
  else if converter_type =? SRC_SINC_MEDIUM_QUALITY then bld_medium b
  else if converter_type =? SRC_SINC_BEST_QUALITY then bld_best b
  else None.

(** A zeroed SRC_STATE (calloc) with channels, mode and vtable filled in. *)
Definition blank_state (vt : vtable) (channels : Z) (p : priv_ptr) : SRC_STATE :=
  mkState vt dzero dzero 0 channels MODE_PROCESS 0 0 0 0 p.

(** src_zoh.c:165-216 (zoh_data_new, zoh_state_new) and src_linear.c:176-227: identical up to the vtable.
    Result: error code, converter or NULL, heap. *)
Definition hold_state_new (orc : Z -> bool) (vt : vtable) (channels : Z) (h : heap)
    : outcome (Z * option converter * heap) :=
  if channels <=? 0 then Fault F_assert else
  match alloc orc h with
  | (None, h1) => Ok (SRC_ERR_MALLOC_FAILED, None, h1)
  | (Some b1, h1) =>
      match alloc orc h1 with
      | (None, h2) => do h3 <- free h2 b1 ; Ok (SRC_ERR_MALLOC_FAILED, None, h3)
      | (Some b2, h2) =>
          match alloc orc h2 with
          | (None, h3) =>
              do h4 <- free h3 b2 ; do h5 <- free h4 b1 ; Ok (SRC_ERR_MALLOC_FAILED, None, h5)
          | (Some b3, h3) =>
              let priv := mkHold false 0 0 0 0 (repeat fzero (Z.to_nat channels)) in
              do st <- hold_reset (blank_state vt channels (P_hold priv)) ;
              Ok (SRC_ERR_NO_ERROR, Some (mkConv b1 b2 b3 st), h3)
          end
      end
  end.

(** src_sinc.c:276-285: which vtable *)
Definition sinc_vt (channels : Z) : vtable :=
  if channels =? 1 then VT_sinc_mono
  else if channels =? 2 then VT_sinc_stereo
  else if channels =? 4 then VT_sinc_quad
  else if channels =? 6 then VT_sinc_hex
  else VT_sinc_multi.

(** src_sinc.c:206-258 sinc_filter_new, 260-309 sinc_state_new *)
Definition sinc_state_new (orc : Z -> bool) (table : Z * list f32) (channels : Z) (h : heap)
    : outcome (Z * option converter * heap) :=
  if channels <=? 0 then Fault F_assert
  else if MAX_CHANNELS <? channels then Ok (SRC_ERR_BAD_CHANNEL_COUNT, None, h)
  else
  match alloc orc h with
  | (None, h1) => Ok (SRC_ERR_MALLOC_FAILED, None, h1)
  | (Some b1, h1) =>
      match alloc orc h1 with
      | (None, h2) => do h3 <- free h2 b1 ; Ok (SRC_ERR_MALLOC_FAILED, None, h3)
      | (Some b2, h2) =>
          let '(increment, coeffs) := table in
          let half_len := zlen coeffs - 2 in
          do b_len <- sinc_b_len half_len increment channels ;
          do size <- int_op (b_len + channels) ;
          match alloc orc h2 with
          | (None, h3) =>
              do h4 <- free h3 b2 ; do h5 <- free h4 b1 ; Ok (SRC_ERR_MALLOC_FAILED, None, h5)
          | (Some b3, h3) =>
              let priv := mkSinc 0 0 0 0 half_len increment dzero dzero coeffs 0 0 0 b_len
                                 (repeat fzero (Z.to_nat size)) in
              do st <- sinc_reset (blank_state (sinc_vt channels) channels (P_sinc priv)) ;
              Ok (SRC_ERR_NO_ERROR, Some (mkConv b1 b2 b3 st), h3)
          end
      end
  end.

(** samplerate.c:489-527 psrc_set_converter and 24-28 src_new (the error pointer, when not NULL, receives the code) *)
Definition src_new (bld : build) (orc : Z -> bool) (converter_type channels : Z) (h : heap)
    : outcome (Z * option converter * heap) :=
  match sinc_table bld converter_type with
  | Some t => sinc_state_new orc t channels h
  | None =>
      if converter_type =? SRC_ZERO_ORDER_HOLD then hold_state_new orc VT_zoh channels h
      else if converter_type =? SRC_LINEAR then hold_state_new orc VT_linear channels h
      else Ok (SRC_ERR_BAD_CONVERTER, None, h)
  end.

(** samplerate.c:50-73 src_callback_new *)
Definition src_callback_new (bld : build) (orc : Z -> bool) (func converter_type channels cb_data : Z) (h : heap)
    : outcome (Z * option converter * heap) :=
  if func =? 0 then Ok (SRC_ERR_BAD_CALLBACK, None, h)
  else
    do (e, c, h1) <- src_new bld orc converter_type channels h ;
    match c with
    | None => Ok (e, None, h1)
    | Some cv =>
        do (_, st) <- src_reset (Some (c_state cv)) ;
        match st with
        | None => Fault F_null
        | Some st1 =>
            Ok (e, Some (mkConv (c_blk_state cv) (c_blk_priv cv) (c_blk_buf cv)
                            (set_callback (set_mode st1 MODE_CALLBACK) func cb_data)), h1)
        end
    end.

(** zoh_copy src_zoh.c:235-269, linear_copy src_linear.c:246-280, sinc_copy src_sinc.c:330-364.
    The failure paths free in the order of the code. *)
Definition copy_buffer (p : priv_ptr) (channels : Z) : outcome priv_ptr :=
  match p with
  | P_null => Ok P_null
  | P_hold x =>
      do lv <- slice (h_last_value x) 0 channels ;
      Ok (P_hold (mkHold (h_dirty x) (h_in_count x) (h_in_used x) (h_out_count x) (h_out_gen x) lv))
  | P_sinc s =>
      do n <- int_op (s_b_len s + channels) ;
      do buf <- slice (s_buffer s) 0 n ;
      Ok (P_sinc (s_set_buf s (s_in_used s) (s_b_current s) (s_b_end s) (s_b_real_end s) buf))
  end.

Definition vt_copy (orc : Z -> bool) (state : SRC_STATE) (h : heap) : outcome (option converter * heap) :=
  match st_priv state with
  | P_null => Ok (None, h)
  | p =>
      match alloc orc h with
      | (None, h1) => Ok (None, h1)
      | (Some b1, h1) =>
          match alloc orc h1 with
          | (None, h2) => do h3 <- free h2 b1 ; Ok (None, h3)
          | (Some b2, h2) =>
              match alloc orc h2 with
              | (None, h3) => do h4 <- free h3 b1 ; do h5 <- free h4 b2 ; Ok (None, h5)
              | (Some b3, h3) =>
                  do p' <- copy_buffer p (st_channels state) ;
                  Ok (Some (mkConv b1 b2 b3 (set_priv state p')), h3)
              end
          end
      end
  end.

(** samplerate.c:30-48 src_clone *)
Definition src_clone (orc : Z -> bool) (orig : option converter) (h : heap)
    : outcome (Z * option converter * heap) :=
  match orig with
  | None => Ok (SRC_ERR_BAD_STATE, None, h)
  | Some c =>
      do (r, h1) <- vt_copy orc (c_state c) h ;
      Ok ((match r with None => SRC_ERR_MALLOC_FAILED | Some _ => SRC_ERR_NO_ERROR end), r, h1)
  end.

(** samplerate.c:75-82 src_delete, with zoh_close src_zoh.c:271-290, linear_close src_linear.c:282-301,
    sinc_close src_sinc.c:1233-1252: free the sample buffer, the private struct, the state. *)
Definition src_delete (c : option converter) (h : heap) : outcome heap :=
  match c with
  | None => Ok h
  | Some cv =>
      match st_priv (c_state cv) with
      | P_null => free h (c_blk_state cv)
      | _ =>
          do h1 <- free h (c_blk_buf cv) ;
          do h2 <- free h1 (c_blk_priv cv) ;
          free h2 (c_blk_state cv)
      end
  end.

(** samplerate.c:410-425 src_simple.  [None] data: the code writes src_data->end_of_input without a NULL check. *)
Definition src_simple (bld : build) (orc : Z -> bool) (data : option SRC_DATA) (converter channels : Z) (h : heap) (m : mem)
    : outcome (Z * option SRC_DATA * heap * mem) :=
  do (error, c, h1) <- src_new bld orc converter channels h ;
  match c with
  | None => Ok (error, data, h1, m)
  | Some cv =>
      match data with
      | None => Fault F_null
      | Some d =>
          do (e, st, d', m') <- src_process (Some (c_state cv)) (Some (set_eoi d 1)) m ;
          match st with
          | None => Fault F_null
          | Some st' =>
              do h2 <- src_delete (Some (mkConv (c_blk_state cv) (c_blk_priv cv) (c_blk_buf cv) st')) h1 ;
              Ok (e, d', h2, m')
          end
      end
  end.
