{
 "claims": [
  {
   "property": "C01",
   "status": "proved",
   "theorems": [
    "C01_short_to_float_exact"
   ],
   "note": "all 16-bit values, array level"
  },
  {
   "property": "C02",
   "status": "proved",
   "theorems": [
    "C02_short_round_trip"
   ],
   "note": "whole-array identity"
  },
  {
   "property": "C03",
   "status": "proved",
   "theorems": [
    "C03_float_to_short_correct",
    "C03_float_to_short_monotone"
   ],
   "note": "correct rounding, clipping, range, monotone; NaN gives an in-range value"
  },
  {
   "property": "C04",
   "status": "proved",
   "theorems": [
    "C04_float_to_int_correct",
    "C04_float_to_int_monotone",
    "C04_x86_flags_truthful"
   ],
   "note": "for every truthful setting of the clip flags; x86 flags shown truthful"
  },
  {
   "property": "C05",
   "status": "proved",
   "theorems": [
    "C05_int_round_trip"
   ],
   "note": "bound 64 and exactness on 24-bit values; bound shown tight"
  },
  {
   "property": "C06",
   "status": "proved",
   "theorems": [
    "C06_array_frame",
    "C06_nothing_for_nonpositive_length"
   ],
   "note": "exactly len elements, pointwise function, nothing for len<=0"
  },
  {
   "property": "C07",
   "status": "partial",
   "theorems": [
    "C07_valid_ratio_partial",
    "C07_set_ratio_partial",
    "C07_process_partial",
    "C07_callback_read_partial",
    "C07_nan_refuted"
   ],
   "note": "Proved for every double that is not a NaN. NaN is accepted by the code (C07_nan_refuted), against the property."
  },
  {
   "property": "C08",
   "status": "proved",
   "theorems": [
    "C08_refused",
    "C08_only_when_violated",
    "C08_no_later_effect"
   ],
   "note": "Regions must be addressable (addresses fit the 64-bit space). On DATA_OVERLAP a negative input_frames/output_frames is replaced by 0 in SRC_DATA; the reported counts input_frames_used/output_frames_gen never change."
  },
  {
   "property": "C09",
   "status": "proved",
   "theorems": [
    "C09_overlap"
   ],
   "note": "Other refusal reasons are excluded by hypothesis (valid mode, ratio and pointers); regions addressable."
  },
  {
   "property": "C10",
   "status": "proved",
   "theorems": [
    "C10_process_mode",
    "C10_no_callback",
    "C10_callback_mode"
   ],
   "note": ""
  },
  {
   "property": "C11",
   "status": "proved",
   "theorems": [
    "C11_names",
    "C11_distinct",
    "C11_every_code"
   ],
   "note": ""
  },
  {
   "property": "C12",
   "status": "partial",
   "theorems": [
    "C12_created",
    "C12_callback_created",
    "C12_refusals_partial",
    "C12_exactly_when_zero",
    "C12_no_channels_refuted"
   ],
   "note": "A channel count below 1 fails an assertion instead of giving BAD_CHANNEL_COUNT (C12_no_channels_refuted); everything else proved."
  },
  {
   "property": "C13",
   "status": "proved",
   "theorems": [
    "C13_failed",
    "C13_allocated",
    "C13_owned",
    "C13_delete"
   ],
   "note": "src_simple includes all of create, process, delete; table sizes as in build_ok (C39/SincTables for the real tables)."
  },
  {
   "property": "C14",
   "status": "proved",
   "theorems": [
    "C14_made",
    "C14_same",
    "C14_independent"
   ],
   "note": "Independence: separate buffers for the two handles."
  },
  {
   "property": "C15",
   "status": "proved",
   "theorems": [
    "C15_reset",
    "C15_reset_callback"
   ],
   "note": ""
  },
  {
   "property": "C16",
   "status": "proved",
   "theorems": [
    "C16_zoh_memory_safe",
    "C16_huge_channel_count_refuted"
   ],
   "note": "up to 8323072 channels (limit recorded in the quantifier); beyond that refuted (int overflow with 2^23 channels)"
  },
  {
   "property": "C17",
   "status": "partial",
   "theorems": [
    "C17_linear_memory_safe_partial",
    "C17_linear_one_frame_block_refuted",
    "C17_linear_frame_before_partial"
   ],
   "note": "the code violates it: a one-frame block reads the frame before data_in (refuted theorem); proved when every block has 0 or at least 3 frames, and for every block if the one frame before a block of 1 or 2 frames is readable and not in the output buffer"
  },
  {
   "property": "C18",
   "status": "proved",
   "theorems": [
    "C18_hold_counts_honest",
    "C18_sinc_counts_honest"
   ],
   "note": "all three converters, all block sizes: whenever a call of a legal history returns, the reply is honest (when it returns is C16, C17, C31)"
  },
  {
   "property": "C19",
   "status": "proved",
   "theorems": [
    "C19_hold_ratio_valid",
    "C19_ramp_valid",
    "C19_sinc_ratio_valid",
    "C19_sinc_ramp_valid"
   ],
   "note": "all three converters, all block sizes"
  },
  {
   "property": "C20",
   "status": "partial",
   "theorems": [
    "C20_zoh_progress",
    "C20_linear_progress_partial",
    "C20_linear_returns_partial",
    "C20_sinc_returns_partial"
   ],
   "note": "zero-order hold in full; linear in full if the frame before a block of 1 or 2 frames is readable; linear and sinc never run for ever and linear makes progress whenever it returns; not covered: calls that fault or abort instead of returning (the code has some, C17 and C31)"
  },
  {
   "property": "C21",
   "status": "proved",
   "theorems": [
    "C21_zoh_verbatim_in_order"
   ],
   "note": "from a new or reset converter, any ratios and any blocks"
  },
  {
   "property": "C22",
   "status": "partial",
   "theorems": [
    "C22_linear_adjacent_frames_partial",
    "C22_no_overshoot",
    "C22_constant_stays_constant_partial"
   ],
   "note": "no overshoot proved for all samples; stream statement excludes one- and two-frame blocks unless the preceding frame is readable (there the code violates it, see C24 refuted)"
  },
  {
   "property": "C23",
   "status": "proved",
   "theorems": [
    "C23_zoh_block_independent",
    "C23_zoh_same_prefix"
   ],
   "note": "closed form of every output frame, and any two cuttings agree"
  },
  {
   "property": "C24",
   "status": "partial",
   "theorems": [
    "C24_linear_block_independent_partial",
    "C24_linear_same_prefix_partial",
    "C24_linear_one_frame_block_refuted"
   ],
   "note": "the code violates it for one-frame blocks (refuted theorem); proved for all other blocks"
  },
  {
   "property": "C25",
   "status": "partial",
   "theorems": [
    "C25_hold_channels_isolated_partial",
    "C25_sinc_channels_isolated"
   ],
   "note": "zero-order hold and sinc in full; linear without the one- and two-frame blocks that make it read outside its input"
  },
  {
   "property": "C26",
   "status": "partial",
   "theorems": [
    "C26_zoh_unity",
    "C26_linear_unity_partial",
    "C26_linear_negative_zero_refuted"
   ],
   "note": "zero-order-hold in full; linear turns -0.0 into +0.0 (refuted theorem), otherwise bit-exact"
  },
  {
   "property": "C27",
   "status": "partial",
   "theorems": [
    "C27_ramp_partial",
    "C27_same_ratio_unchanged_partial",
    "C27_set_ratio",
    "C27_sinc_ramp",
    "C27_sinc_same_ratio"
   ],
   "note": "zero-order hold and sinc in full (calls that succeed); linear without unreadable one- and two-frame blocks"
  },
  {
   "property": "C28",
   "status": "partial",
   "theorems": [
    "C28_zoh_read",
    "C28_linear_read_partial",
    "C28_sinc_read_partial",
    "C28_linear_safe_partial",
    "C28_sinc_safe_partial"
   ],
   "note": "Any history, callback within its contract (negative counts and NULL allowed), any non-NaN ratio and frame count. Zero-order hold: complete. Linear: complete for callbacks that never hand out 1 or 2 frames (output apart from their memory); sinc: complete for ratios of at least 1/191 (with several channels all from 1 upwards, or one ratio); otherwise every read that returns: the others may end in undefined behaviour (C17, C31)."
  },
  {
   "property": "C29",
   "status": "partial",
   "theorems": [
    "C29_record",
    "C29_zoh_stream",
    "C29_zoh_same",
    "C29_linear_stream_partial",
    "C29_linear_same_partial",
    "C29_sinc_stream_partial",
    "C29_sinc_same_partial",
    "C29_null_block_refuted"
   ],
   "note": "Zero-order hold is complete for successful reads: the frames returned by any sequence of reads are those that src_process calls on the concatenation of the supplied blocks return, and every supplied frame is consumed exactly once except the st_saved_frames last ones, which lie in the last block. Linear excludes callbacks with blocks of one or two frames (see C17, C24), and callers that overwrite the frame before the last one or two unconsumed frames between reads. Sinc excludes callbacks that supply data again after returning 0 (see C30_sinc_refuted). Reads that end with an error lose the frames produced earlier in the read, and after a NULL block all later ones fail (C29_null_block_refuted)."
  },
  {
   "property": "C30",
   "status": "partial",
   "theorems": [
    "C30_zoh_ends",
    "C30_linear_ends_partial",
    "C30_sinc_ends_partial",
    "C30_sinc_refuted",
    "C30_linear_returns_partial",
    "C30_sinc_returns_partial"
   ],
   "note": "Zero-order hold: complete, with an explicit bound. Linear: every read returns for callbacks that never hand out 1 or 2 frames (output apart from their memory); for others no endless read (it may end in undefined behaviour, C17). Sinc, for callbacks that keep returning 0 after the end until a reset, with blocks below 2^31 samples: no endless read, and every read returns at ratios of at least 1/191 (with several channels all from 1 upwards, or one ratio); refuted for a callback that supplies data after having returned 0 (C30_sinc_refuted)."
  },
  {
   "property": "C31",
   "status": "partial",
   "theorems": [
    "C31_sinc_memory_safe_partial",
    "C31_buffer_underflow_refuted",
    "C31_assertion_refuted"
   ],
   "note": "the code violates it: moving the buffer can read before its start, and an assertion can fail (two refuted theorems). Proved for histories that never announce the end of input, or keep all ratios >= 1/191 and use no lower ratio below 1 after the end (several channels), or use one ratio and one channel"
  },
  {
   "property": "C32",
   "status": "partial",
   "theorems": [
    "C32_sinc_no_internal_error_partial",
    "C32_huge_request_refuted"
   ],
   "note": "proved for requests of fewer than 2^31 samples; larger ones get SINC_PREPARE_DATA_BAD_LEN (refuted theorem)"
  },
  {
   "property": "C33",
   "status": "proved",
   "theorems": [
    "C33_sinc_convolution",
    "C33_sinc_same_prefix"
   ],
   "note": "closed form of every output sample over the zero-extended stream, and any two cuttings agree; all calls of the stream succeed"
  },
  {
   "property": "C34",
   "status": "partial",
   "theorems": [
    "C34_hold_counts_within_one_partial",
    "C34_sinc_channel_counts_partial",
    "C34_hold_channel_counts_partial",
    "C34_sinc_refuted",
    "C34_hold_refuted"
   ],
   "note": "the code violates it for every converter (refuted theorems for sinc, zero-order hold, linear); proved: the counts differ by about two frames at most (sinc, ratio >= 1/191), by one at most (zero-order hold and linear, r*N <= 2^40)"
  },
  {
   "property": "C35",
   "status": "partial",
   "theorems": [
    "C35_sinc_flush_partial",
    "C35_null_flush_refuted",
    "C35_hold_flush_partial"
   ],
   "note": "with data_in = NULL a sinc converter produces nothing (refuted theorem); with a non-NULL data_in and for zero-order hold and linear with any data_in the rest comes out (constant ratio; sinc: ratio >= 1/191; linear: blocks as in C24)"
  },
  {
   "property": "C36",
   "status": "proved",
   "theorems": [
    "C36_interleaving",
    "C36_new"
   ],
   "note": "Separate buffers; callbacks touch only their own memory (local_cb)."
  },
  {
   "property": "C37",
   "status": "partial",
   "theorems": [
    "C37_simple_partial",
    "C37_null_refuted"
   ],
   "note": "Proved for a non-NULL data pointer; a NULL data pointer is dereferenced (C37_null_refuted)."
  },
  {
   "property": "C38",
   "status": "partial",
   "theorems": [
    "C38_zoh_output_length",
    "C38_linear_output_length_partial",
    "C38_zoh_length_within_one",
    "C38_linear_length_within_one_partial"
   ],
   "note": "zero-order-hold in full; linear without unreadable one- and two-frame blocks; r*N <= G <= r*N + 1 up to rounding (within_one theorems), earlier bound (r+1)(1+G/2^52)"
  },
  {
   "property": "C39",
   "status": "partial",
   "theorems": [
    "C39_bounded_partial",
    "C39_overflow_refuted",
    "C39_unit_gain_partial",
    "C39_every_position_partial"
   ],
   "note": "Proved for both tables in the source: every sample of a stream (ratios changing at will, any channels) is finite and at most 6 times the largest input (C39_bounded_partial); at constant ratio a constant stretch as wide as the filter comes out with relative error at most 1/200 for every ratio and 3/10^6 for ratios >= 1 (C39_unit_gain_partial), at every sub-sample position (C39_every_position_partial). Missing: inputs so large that the float result overflows; there the property fails (C39_overflow_refuted: FLT_MAX in, infinity out)."
  },
  {
   "property": "C40",
   "status": "proved",
   "theorems": [
    "C40_position_split_exact"
   ],
   "note": "floor/fraction split exact on [0, 2^31-1]"
  },
  {
   "property": "C41",
   "status": "proved",
   "theorems": [
    "C41_sinc_output_length"
   ],
   "note": "constant ratio >= 1/191, stated in the property"
  },
  {
   "property": "C42",
   "status": "proved",
   "theorems": [
    "C42_sinc_takes_all_input"
   ],
   "note": "constant ratio >= 1/191, stated in the property"
  },
  {
   "property": "C43",
   "status": "proved",
   "theorems": [
    "C43_sinc_progress"
   ],
   "note": "At every ratio and after every history without end of input since creation or reset; blocks below 2^31 samples."
  },
  {
   "property": "C44",
   "status": "proved",
   "theorems": [
    "C44_samples_do_not_steer",
    "C44_supplied_samples_do_not_steer"
   ],
   "note": "process mode with any callback present; callback mode with callbacks that supply same-size blocks"
  },
  {
   "property": "C45",
   "status": "partial",
   "theorems": [
    "C45_unrolled_same_partial",
    "C45_mono_same_partial",
    "C45_mono_end_refuted"
   ],
   "note": "2, 4 and 6 channels: equal outright. Mono: equal before the end of the input is announced (when neither faults); at the end the mono routine tests > where the others test >=, and the two differ by a frame (refuted at ratio 1)."
  },
  {
   "property": "C46",
   "status": "partial",
   "theorems": [
    "C46_zoh_negated",
    "C46_linear_negated_partial",
    "C46_sinc_negated"
   ],
   "note": "zero-order hold and sinc in full; linear without the one- and two-frame blocks that make it read outside its input"
  },
  {
   "property": "C47",
   "status": "partial",
   "theorems": [
    "C47_zoh_superposition",
    "C47_linear_superposition_partial",
    "C47_sinc_superposition_partial"
   ],
   "note": "zero-order hold in full; linear without the one- and two-frame blocks that make it read outside its input; sinc (both tables in the source) for inputs whose sixfold is a float"
  },
  {
   "property": "C48",
   "status": "partial",
   "theorems": [
    "C48_zoh_accurate",
    "C48_linear_accurate_partial",
    "C48_sinc_accurate_partial"
   ],
   "note": "zero-order hold in full; linear without the one- and two-frame blocks that make it read outside its input; sinc (both tables in the source) for inputs whose sixfold is a float, against a real-valued filter that keeps the library's 12-bit rounding of the table index"
  },
  {
   "property": "C49",
   "status": "partial",
   "theorems": [
    "C49_sinc_kernel_partial"
   ],
   "note": "both tables in the source, for inputs whose sixfold is a float; high_qual_coeffs.h is not in this source tree"
  },
  {
   "property": "C50",
   "status": "partial",
   "theorems": [
    "C50_zoh_local",
    "C50_linear_local_partial",
    "C50_sinc_local"
   ],
   "note": "zero-order hold and sinc in full; linear without the one- and two-frame blocks that make it read outside its input"
  },
  {
   "property": "C51",
   "status": "partial",
   "theorems": [
    "C51_zoh_delayed",
    "C51_linear_delayed_partial",
    "C51_sinc_delayed"
   ],
   "note": "zero-order hold and sinc in full; linear without the one- and two-frame blocks that make it read outside its input"
  },
  {
   "property": "C52",
   "status": "partial",
   "theorems": [
    "C52_zoh_speeds",
    "C52_linear_speeds_partial",
    "C52_sinc_speeds_up_partial",
    "C52_sinc_speeds_partial"
   ],
   "note": "zero-order hold in full; linear without the one- and two-frame blocks that make it read outside its input; sinc (both tables in the source, inputs whose sixfold is a float) in full for ratios from 1 upwards; when a ratio falls below 1 after the buffer was last emptied, the longer filter sees only the frames that the shorter one had kept, and the theorem says which those are at least"
  },
  {
   "property": "C53",
   "status": "partial",
   "theorems": [
    "C53_zoh_duration",
    "C53_linear_duration_partial",
    "C53_sinc_duration_up_partial",
    "C53_sinc_duration_partial",
    "C53_sinc_at_most_partial"
   ],
   "note": "zero-order hold in full; linear without the one- and two-frame blocks that make it read outside its input; sinc in full for ratios from 1 upwards, and for ratios from 1/191 upwards if the ratio no longer changes once the end of the input is announced and all of the input was taken; for sinc at any ratios only that no output frame starts later than what was taken in"
  },
  {
   "property": "C54",
   "status": "proved",
   "theorems": [
    "C54_timewarp"
   ],
   "note": "libsndfile is not modelled: the file is a stream of N frames read front to back; tables with ratios from 1 upwards (as the one in the program)"
  },
  {
   "property": "C55",
   "status": "partial",
   "theorems": [
    "C55_table_partial",
    "C55_last_entry_refuted"
   ],
   "note": "the loop tests warp_index < ARRAY_LEN (warp) - 1, so the last entry of the table is never used; proved for the table without its last entry"
  },
  {
   "property": "C56",
   "status": "proved",
   "theorems": [
    "C56_zoh_delivers",
    "C56_linear_delivers",
    "C56_sinc_delivers"
   ],
   "note": "All three kinds of converter. For linear interpolation the blocks must have at least three frames, as the statement says: with one or two it may read outside the block (C17_linear_one_frame_block_refuted)."
  },
  {
   "property": "C57",
   "status": "partial",
   "theorems": [
    "C57_plays_partial",
    "C57_overflow_refuted",
    "C57_channels_refuted",
    "C57_empty_file_refuted"
   ],
   "note": "True for every converter, channel counts that divide 32, files with at least one frame, and the first 2^30 blocks. The rest fails: other channel counts write beyond the audio buffer (C57_channels_refuted gives one), freq_point * 2 overflows in block 2^30 (C57_overflow_refuted), an empty file makes the callback loop for ever (C57_empty_file_refuted)."
  },
  {
   "property": "C58",
   "status": "partial",
   "theorems": [
    "C58_content_partial",
    "C58_sinc_partial",
    "C58_zoh_partial",
    "C58_linear_partial"
   ],
   "note": "Under the conditions of C57_plays_partial, for every converter. The accuracy of sinc is proved for the two tables in the source snapshot; as in C52, frames may be missing at the far end of a filter that has just become longer, never inside the reach of the filter at speed 3/2."
  },
  {
   "property": "C59",
   "status": "proved",
   "theorems": [
    "C59_tones"
   ],
   "note": "fastest_coeffs.h only, as the property says; the frequency response is checked on a grid by computation in the kernel and carried to all frequencies and places by Taylor and interpolation bounds"
  },
  {
   "property": "C60",
   "status": "proved",
   "theorems": [
    "C60_hold_loop",
    "C60_sinc_loop"
   ],
   "note": "mono, as the program; if the input array lies directly before the output array at least one sample between them is assumed (src_process reports an overlap for an empty block at the address of the output buffer)"
  },
  {
   "property": "C61",
   "status": "proved",
   "theorems": [
    "C61_stream_test_ok"
   ],
   "note": "printf is not modelled; below 1/4 the ten spare frames of the program are no longer enough in general"
  },
  {
   "property": "C62",
   "status": "proved",
   "theorems": [
    "C62_hold_loop",
    "C62_sinc_loop",
    "C62_stream_test_ok"
   ],
   "note": "mono, as the program; printf is not modelled; below 1/16 nothing is claimed (for small ratios the twenty spare input frames come to less than one output frame); init_term_test and simple_test of the same file are not modelled"
  }
 ]
}