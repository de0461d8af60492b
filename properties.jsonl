{"id": "C01", "title": "16-bit to float conversion is exact", "statement": "src_short_to_float_array turns every 16-bit sample s into a float whose value is exactly s/32768, hence always in [-1, 1).", "quantifier": "all 2^16 sample values, all array lengths", "why_tests_cant": "The test converts a few ramps; exactness for every value at every array position is a statement about IEEE rounding.", "anchors": ["src/samplerate.c:src_short_to_float_array"]}
{"id": "C02", "title": "16-bit samples survive a round trip through float", "statement": "src_float_to_short_array applied to the result of src_short_to_float_array returns the original array, for every array.", "quantifier": "all arrays of 16-bit samples of any length", "why_tests_cant": "float_short_test samples a subset of values and tolerates differences; identity for all arrays needs a proof.", "anchors": ["src/samplerate.c:src_short_to_float_array", "src/samplerate.c:src_float_to_short_array"]}
{"id": "C03", "title": "Float to 16-bit conversion rounds correctly and clips", "statement": "For every float x (finite or infinite) src_float_to_short_array yields the integer nearest to 32768*x (ties to even) clipped to [-32768, 32767]; the result never wraps around and is monotone in x. A NaN yields some in-range value.", "quantifier": "all 2^32 float bit patterns", "why_tests_cant": "Only a handful of over-range values are tested; wrap-around bugs sit at isolated boundary values.", "anchors": ["src/samplerate.c:src_float_to_short_array", "src/common.h:psf_lrintf"]}
{"id": "C04", "title": "Float to 32-bit conversion rounds correctly and clips", "statement": "For every float x (finite or infinite) src_float_to_int_array yields the integer nearest to 2^31*x (ties to even) clipped to [-2^31, 2^31-1], monotone in x, whichever way the build-time CPU clipping flags are set as long as they describe the CPU truthfully.", "quantifier": "all float bit patterns, all truthful settings of CPU_CLIPS_POSITIVE / CPU_CLIPS_NEGATIVE", "why_tests_cant": "The tests run on one CPU configuration and sample values; the clipping code is compiled differently per configuration.", "anchors": ["src/samplerate.c:src_float_to_int_array", "src/common.h:psf_lrint", "cmake/ClipMode.cmake"]}
{"id": "C05", "title": "32-bit samples survive a round trip through float to 24-bit precision", "statement": "src_float_to_int_array(src_int_to_float_array(n)) differs from n by at most 64 for every 32-bit n, and equals n whenever n has at most 24 significant bits and n is not the topmost clipped value.", "quantifier": "all 2^32 integers", "why_tests_cant": "Cannot be enumerated in a unit test in reasonable time; worst cases sit at binade boundaries and at the clip level.", "anchors": ["src/samplerate.c:src_int_to_float_array", "src/samplerate.c:src_float_to_int_array"]}
{"id": "C06", "title": "Array converters write exactly len elements", "statement": "Each of the four array converters writes out[i] for 0<=i<len as a function of in[i] only, leaves everything else untouched, and does nothing for len<=0.", "quantifier": "all lengths (including negative), all arrays, all buffer contents", "why_tests_cant": "Tests check values, not absence of effects elsewhere.", "anchors": ["src/samplerate.c:src_short_to_float_array", "src/samplerate.c:src_float_to_short_array", "src/samplerate.c:src_int_to_float_array", "src/samplerate.c:src_float_to_int_array"]}
{"id": "C07", "title": "Only ratios in [1/256, 256] are accepted", "statement": "src_is_valid_ratio, src_set_ratio, src_process and src_callback_read accept a conversion ratio if and only if it is a number in [1/256, 256]; in particular NaN and infinities are rejected.", "quantifier": "all 2^64 double bit patterns", "why_tests_cant": "misc_test tries six ratios.", "anchors": ["src/common.h:is_bad_src_ratio", "src/samplerate.c:src_is_valid_ratio", "src/samplerate.c:src_set_ratio", "src/samplerate.c:src_process", "src/samplerate.c:src_callback_read"]}
{"id": "C08", "title": "A rejected src_process call has no effect", "statement": "When src_process reports a bad state, mode, data pointer, ratio or an overlap, it returns the error code of the first violated condition in a fixed order, and neither the converter state, the audio memory nor the reported frame counts change; a later valid call behaves as if the rejected call had not happened.", "quantifier": "all converter states, all SRC_DATA contents, all histories", "why_tests_cant": "Tests check a few return codes, never the absence of side effects on every later call.", "anchors": ["src/samplerate.c:src_process"]}
{"id": "C09", "title": "Overlapping buffers are always rejected", "statement": "If the input and output regions described by SRC_DATA share an address, src_process returns the overlap error; if both are non-empty and disjoint it does not return that error.", "quantifier": "all addresses, frame counts and channel counts", "why_tests_cant": "The address arithmetic has to be right for every relative position.", "anchors": ["src/samplerate.c:src_process"]}
{"id": "C10", "title": "Process and callback modes never mix", "statement": "A converter made by src_new never invokes a callback and src_callback_read on it returns 0 with src_error = SRC_ERR_BAD_MODE; a converter made by src_callback_new always gets SRC_ERR_BAD_MODE from src_process, at every point of every history (including after errors, resets and clones).", "quantifier": "all histories of API calls", "why_tests_cant": "src_callback_read switches the mode temporarily; the mode must be restored on every path.", "anchors": ["src/samplerate.c:src_process", "src/samplerate.c:src_callback_read", "src/samplerate.c:src_callback_new", "src/samplerate.c:src_reset"]}
{"id": "C11", "title": "Converter names, descriptions and error strings form gap-free tables", "statement": "src_get_name and src_get_description are non-NULL exactly for 0..4, src_strerror is non-NULL exactly for 0..23, every error code that any API function can return has a string, and distinct codes have distinct strings.", "quantifier": "all int arguments", "why_tests_cant": "Tests loop until the first NULL; they cannot check all ints nor all reachable error codes.", "anchors": ["src/samplerate.c:src_get_name", "src/samplerate.c:src_get_description", "src/samplerate.c:src_strerror", "src/src_sinc.c:sinc_get_name", "src/src_zoh.c:zoh_get_name", "src/src_linear.c:linear_get_name"]}
{"id": "C12", "title": "Creating a converter either works or reports why", "statement": "src_new and src_callback_new return a converter exactly when the stored error is 0; a new converter reports the requested channel count; an unknown converter type gives BAD_CONVERTER; a channel count below 1 (or above the sinc limit of 128) gives BAD_CHANNEL_COUNT; a NULL callback gives BAD_CALLBACK.", "quantifier": "all ints for type and channels, all allocation outcomes", "why_tests_cant": "Tests use channels 1..8 and never fail an allocation.", "anchors": ["src/samplerate.c:src_new", "src/samplerate.c:src_callback_new", "src/samplerate.c:psrc_set_converter", "src/src_sinc.c:sinc_state_new", "src/src_zoh.c:zoh_state_new", "src/src_linear.c:linear_state_new", "src/samplerate.c:src_get_channels"]}
{"id": "C13", "title": "No allocation failure leaks or double frees", "statement": "Whatever subset of allocations fails, src_new, src_callback_new, src_clone and src_simple that do not hand out a converter leave the heap exactly as before and report MALLOC_FAILED; src_delete frees exactly the blocks that creating the converter allocated; a whole src_simple call always leaves the heap as it found it.", "quantifier": "all allocation-failure schedules, all converters and channel counts, all histories of create/clone/delete", "why_tests_cant": "Failure injection at every allocation point in every history is not done by any test.", "anchors": ["src/src_zoh.c:zoh_state_new", "src/src_zoh.c:zoh_copy", "src/src_zoh.c:zoh_close", "src/src_linear.c:linear_state_new", "src/src_linear.c:linear_copy", "src/src_sinc.c:sinc_state_new", "src/src_sinc.c:sinc_filter_new", "src/src_sinc.c:sinc_copy", "src/src_sinc.c:sinc_close", "src/samplerate.c:src_simple", "src/samplerate.c:src_clone", "src/samplerate.c:src_delete"]}
{"id": "C14", "title": "A clone behaves identically and independently", "statement": "After src_clone, applying any sequence of API calls to the clone gives exactly the results the same sequence would have given on the original, and calls on one never change the results of the other.", "quantifier": "all converter states, all later call sequences, all interleavings of calls on the two handles", "why_tests_cant": "clone_test does one call after one call.", "anchors": ["src/samplerate.c:src_clone", "src/src_zoh.c:zoh_copy", "src/src_linear.c:linear_copy", "src/src_sinc.c:sinc_copy"]}
{"id": "C15", "title": "Reset is indistinguishable from a new converter", "statement": "After src_reset, any sequence of API calls produces exactly the same results as on a freshly created converter of the same type, channel count and mode, whatever was done before the reset.", "quantifier": "all histories before the reset, all call sequences after it", "why_tests_cant": "reset_test checks that silence stays silent after one block; left-over state could show up arbitrarily later.", "anchors": ["src/samplerate.c:src_reset", "src/src_zoh.c:zoh_reset", "src/src_linear.c:linear_reset", "src/src_sinc.c:sinc_reset"]}
{"id": "C16", "title": "Zero-order-hold never touches memory outside the caller's buffers", "statement": "For every history of calls with valid ratios, src_process with SRC_ZERO_ORDER_HOLD reads only data_in[0 .. input_frames*channels) and writes only data_out[0 .. output_frames*channels), with no arithmetic overflow.", "quantifier": "all histories, ratios (constant or varying), channel counts, block sizes (channel counts up to 8 323 072)", "why_tests_cant": "An out-of-bounds read of one frame is silent in tests and depends on rounding of the position.", "anchors": ["src/src_zoh.c:zoh_vari_process", "src/common.h:fmod_one"]}
{"id": "C17", "title": "Linear never touches memory outside the caller's buffers", "statement": "For every history of calls with valid ratios, src_process with SRC_LINEAR reads only data_in[0 .. input_frames*channels) and writes only data_out[0 .. output_frames*channels), with no arithmetic overflow.", "quantifier": "all histories, ratios (constant or varying), channel counts, block sizes (channel counts up to 8 323 072)", "why_tests_cant": "An out-of-bounds read of one frame is silent in tests; it depends on the block length and on rounding of the position.", "anchors": ["src/src_linear.c:linear_vari_process", "src/common.h:fmod_one"]}
{"id": "C18", "title": "Reported frame counts are honest", "statement": "After every successful src_process, 0 <= input_frames_used <= input_frames, 0 <= output_frames_gen <= output_frames, exactly the first output_frames_gen frames of data_out have been written, and nothing else in the caller's memory has changed.", "quantifier": "all histories, converters, block sizes and ratios", "why_tests_cant": "Tests check the counts on a dozen ratios, never the memory outside.", "anchors": ["src/src_zoh.c:zoh_vari_process", "src/src_linear.c:linear_vari_process", "src/src_sinc.c:sinc_mono_vari_process", "src/src_sinc.c:prepare_data"]}
{"id": "C19", "title": "The internal ratio can never become invalid", "statement": "If every ratio supplied by the caller is in [1/256, 256], the ratio the converter works with stays in [1/256, 256] during and after every call, so SRC_ERR_BAD_INTERNAL_STATE is never returned.", "quantifier": "all histories of ratios and block sizes", "why_tests_cant": "The ramp is computed in floating point; rounding at the ends of the range for some out_gen/out_count could step outside.", "anchors": ["src/src_zoh.c:zoh_vari_process", "src/src_linear.c:linear_vari_process", "src/src_sinc.c:sinc_mono_vari_process", "src/common.h:is_bad_src_ratio"]}
{"id": "C20", "title": "Every src_process call finishes and makes progress", "statement": "src_process always returns; with zero-order-hold or linear, if there is at least one input frame and room for at least one output frame, it consumes an input frame or produces an output frame.", "quantifier": "all histories, ratios, block sizes", "why_tests_cant": "A missed case is a hang in a caller's loop; callback_hang_test tries nine ratio/size pairs.", "anchors": ["src/src_zoh.c:zoh_vari_process", "src/src_linear.c:linear_vari_process", "src/src_sinc.c:sinc_mono_vari_process"]}
{"id": "C21", "title": "Zero-order-hold outputs are verbatim input frames in order", "statement": "Every frame produced by SRC_ZERO_ORDER_HOLD is a bit-exact copy of an input frame of the stream, and the index of the copied frame never decreases along the output stream.", "quantifier": "all histories, ratios, channel counts, block sizes (channel counts up to 8 323 072)", "why_tests_cant": "Needs every block boundary and ratio.", "anchors": ["src/src_zoh.c:zoh_vari_process"]}
{"id": "C22", "title": "Linear interpolates between adjacent frames and never overshoots", "statement": "Every sample produced by SRC_LINEAR is the interpolation of two adjacent frames of the input stream (same channel) and its magnitude never exceeds the larger of the two magnitudes; a constant signal stays constant.", "quantifier": "all finite inputs, histories, ratios, channel counts (channel counts up to 8 323 072)", "why_tests_cant": "Overshoot by an ulp would clip; it depends on rounding of every pair of samples and every position.", "anchors": ["src/src_linear.c:linear_vari_process"]}
{"id": "C23", "title": "Zero-order-hold streaming does not depend on block boundaries", "statement": "At a constant ratio, however a stream is cut into input blocks and whatever output room each call is given, the concatenated output of SRC_ZERO_ORDER_HOLD is a prefix of one fixed output stream determined by the input stream and the ratio.", "quantifier": "all ways to cut a stream, all output sizes, all valid ratios", "why_tests_cant": "streaming_test uses one block size; the position is carried across calls in floating point.", "anchors": ["src/src_zoh.c:zoh_vari_process"]}
{"id": "C24", "title": "Linear streaming does not depend on block boundaries", "statement": "At a constant ratio, however a stream is cut into input blocks and whatever output room each call is given, the concatenated output of SRC_LINEAR is a prefix of one fixed output stream determined by the input stream and the ratio.", "quantifier": "all ways to cut a stream (including one-frame blocks), all output sizes, all valid ratios", "why_tests_cant": "streaming_test uses one block size.", "anchors": ["src/src_linear.c:linear_vari_process"]}
{"id": "C25", "title": "Channels are isolated", "statement": "The output of channel k depends only on the input of channel k: changing the samples of other channels changes neither the frame counts nor any sample of channel k.", "quantifier": "all converters, channel counts, histories and input values (up to 8 323 072 channels)", "why_tests_cant": "multi_channel_test measures SNR on sine waves; a leak below the noise floor or at block edges is invisible.", "anchors": ["src/src_zoh.c:zoh_vari_process", "src/src_linear.c:linear_vari_process", "src/src_sinc.c:calc_output_multi", "src/src_sinc.c:calc_output_stereo", "src/src_sinc.c:prepare_data"]}
{"id": "C26", "title": "At ratio 1 the simple converters pass the signal through", "statement": "From a fresh (or reset) state at ratio exactly 1, SRC_ZERO_ORDER_HOLD and SRC_LINEAR output the input stream delayed by one frame with the first frame repeated, bit-exactly for finite input.", "quantifier": "all finite input streams of any length, any channel count (channel counts up to 8 323 072)", "why_tests_cant": "Finite test signals only.", "anchors": ["src/src_zoh.c:zoh_vari_process", "src/src_linear.c:linear_vari_process"]}
{"id": "C27", "title": "Ratio changes ramp linearly from the previous ratio", "statement": "When src_process is called with a new ratio, the k-th of N requested output frames is spaced according to the value last + k*(new-last)/N; src_set_ratio makes the next call start from the ratio it was given, and a call at the same ratio does not change it.", "quantifier": "all pairs of valid ratios, all block sizes, all histories", "why_tests_cant": "varispeed_test measures SNR only.", "anchors": ["src/src_zoh.c:zoh_vari_process", "src/src_linear.c:linear_vari_process", "src/samplerate.c:src_set_ratio", "src/samplerate.c:src_process"]}
{"id": "C28", "title": "src_callback_read returns what it wrote, or an error", "statement": "src_callback_read returns a value between 0 and frames, writes nothing beyond the frames it was given room for, and whenever it returns 0 because of an error src_error is non-zero.", "quantifier": "all histories, callbacks, ratios and frame counts", "why_tests_cant": "Callback behaviour is adversarial; tests use two well-behaved callbacks.", "anchors": ["src/samplerate.c:src_callback_read", "src/samplerate.c:src_error"]}
{"id": "C29", "title": "The callback API delivers every supplied frame exactly once", "statement": "In callback mode the converter asks the callback for data only when all previously supplied frames have been consumed, and the output stream equals what src_process would have produced on the concatenation of the supplied blocks: no frame is lost or duplicated, across any sequence of src_callback_read calls.", "quantifier": "all callbacks, all sequences of reads of any sizes and ratios with src_set_ratio in between; the comparison with other src_process calls at a constant ratio", "why_tests_cant": "Left-over data is carried between calls in saved_data/saved_frames.", "anchors": ["src/samplerate.c:src_callback_read"]}
{"id": "C30", "title": "src_callback_read always terminates", "statement": "For every callback that returns non-negative counts, src_callback_read returns after finitely many callback invocations.", "quantifier": "all callbacks, histories, ratios", "why_tests_cant": "A hang is only visible on the right history (for example data after end of stream).", "anchors": ["src/samplerate.c:src_callback_read", "src/src_sinc.c:prepare_data"]}
{"id": "C31", "title": "Sinc converters never touch memory outside their buffers", "statement": "For every history of calls with valid ratios, the sinc converters access only data_in[0 .. input_frames*channels), data_out[0 .. output_frames*channels), the internal ring buffer and the coefficient table, and none of the internal assertions fails.", "quantifier": "all histories of ratios (constant or varying), block sizes, channel counts, end_of_input flags", "why_tests_cant": "Index arithmetic mixes rounding, fixed point and buffer compaction; CVE-2017-7697 was an over-read found by fuzzing.", "anchors": ["src/src_sinc.c:prepare_data", "src/src_sinc.c:calc_output_single", "src/src_sinc.c:calc_output_stereo", "src/src_sinc.c:calc_output_multi", "src/src_sinc.c:sinc_mono_vari_process"]}
{"id": "C32", "title": "Sinc converters never report an internal error", "statement": "With valid arguments of any size the sinc converters never return SRC_ERR_SINC_PREPARE_DATA_BAD_LEN or any other internal error code.", "quantifier": "all histories, block sizes including more than 2^31 samples", "why_tests_cant": "Requires multi-gigabyte buffers or extreme ratios to trigger.", "anchors": ["src/src_sinc.c:prepare_data"]}
{"id": "C33", "title": "Sinc streaming is a convolution of the zero-padded stream, independent of block boundaries", "statement": "At a constant ratio every output sample of a sinc converter is the same fixed function of the (zero-extended) input stream around its position, whatever the block sizes of the calls were.", "quantifier": "all ways to cut a stream, all output sizes, all valid constant ratios, all channel counts", "why_tests_cant": "The ring buffer is compacted at data-dependent moments; tests use a few block sizes and tolerate errors.", "anchors": ["src/src_sinc.c:prepare_data", "src/src_sinc.c:calc_output_single", "src/src_sinc.c:sinc_mono_vari_process"]}
{"id": "C34", "title": "The number of output frames does not depend on the channel count", "statement": "Converting the same number of input frames at the same ratio with the same converter gives the same number of output frames for every channel count.", "quantifier": "all channel counts, ratios, input lengths", "why_tests_cant": "Tests compare mono only.", "anchors": ["src/src_sinc.c:sinc_mono_vari_process", "src/src_sinc.c:sinc_stereo_vari_process", "src/src_zoh.c:zoh_vari_process"]}
{"id": "C35", "title": "Ending a stream with an empty block flushes the tail", "statement": "Once all input has been supplied, calling src_process with input_frames = 0 and end_of_input = 1 produces the remaining output, whether or not data_in is NULL.", "quantifier": "all histories, all converters", "why_tests_cant": "nullptr_test only checks that the call does not fail.", "anchors": ["src/src_sinc.c:prepare_data", "src/samplerate.c:src_process"]}
{"id": "C36", "title": "Distinct converters do not interfere", "statement": "Any interleaving of calls on different converters gives each converter the results it would have had alone.", "quantifier": "all interleavings of calls on any number of converters with separate buffers", "why_tests_cant": "Interleavings cannot be enumerated.", "anchors": ["src/samplerate.c:src_process", "src/samplerate.c:src_new", "src/common.h"]}
{"id": "C37", "title": "src_simple is new + process + delete", "statement": "src_simple gives the same output, counts and error code as creating a converter, one src_process call with end_of_input set, and deleting it; it needs no cleanup; a NULL data pointer is reported as an error.", "quantifier": "all converter types, channel counts, SRC_DATA contents, allocation outcomes", "why_tests_cant": "Needs all argument combinations.", "anchors": ["src/samplerate.c:src_simple"]}
{"id": "C38", "title": "Output length matches ratio times input length", "statement": "With enough output room, converting n input frames at constant ratio r with zero-order-hold or linear yields r*n output frames up to a fixed small bound.", "quantifier": "all n, all valid r", "why_tests_cant": "termination_test checks twelve ratios at one length; drift of the accumulated position could grow with n.", "anchors": ["src/src_zoh.c:zoh_vari_process", "src/src_linear.c:linear_vari_process", "src/common.h:fmod_one"]}
{"id": "C39", "title": "Sinc output is bounded and has unit DC gain", "statement": "Each sample of a sinc converter is bounded by a fixed factor times the largest input magnitude; away from the ends of the stream a constant input is reproduced up to a fixed small error at every sub-sample position.", "quantifier": "all input signals; all fractional positions; the coefficient tables in the source", "why_tests_cant": "There are infinitely many sub-sample phases; tests measure a few sine waves.", "anchors": ["src/src_sinc.c:calc_output_single", "src/fastest_coeffs.h", "src/mid_qual_coeffs.h"]}
{"id": "C40", "title": "Position arithmetic is exact", "statement": "Splitting a (double) stream position into whole frames and a fraction loses nothing: the whole part is the floor, the fraction is in [0,1), and their sum is the position, for every position a converter can reach; so no frame is ever skipped or repeated by rounding in the split.", "quantifier": "all doubles in the reachable range", "why_tests_cant": "The split uses round-to-nearest and two subtractions; exactness must hold for every bit pattern.", "anchors": ["src/common.h:fmod_one", "src/common.h:psf_lrint"]}
{"id": "C41", "title": "Sinc conversion gives ratio times input frames", "statement": "Converting N frames at a constant ratio r of at least 1/191 with a sinc converter, in blocks of any sizes, the last call announcing the end of the input with a non-NULL data pointer and output room to spare, gives r*N frames up to one frame and rounding.", "quantifier": "all signals, all ways to cut them, all constant ratios in [1/191, 256], all channel counts, blocks of fewer than 2^31 samples at the end", "why_tests_cant": "The end of the conversion depends on ring-buffer state, position rounding and the place of the last block boundary.", "anchors": ["src/src_sinc.c:sinc_mono_vari_process", "src/src_sinc.c:sinc_multichan_vari_process", "src/src_sinc.c:prepare_data"]}
{"id": "C42", "title": "A sinc call that leaves output room has taken all its input", "statement": "At a constant ratio of at least 1/191, before the end of the input has been announced by an earlier call, a successful src_process call with a sinc converter that generates fewer frames than it had room for has consumed every input frame it was offered.", "quantifier": "all histories at constant ratio in [1/191, 256], all block sizes of fewer than 2^31 samples, all channel counts", "why_tests_cant": "A caller loop that trusts it loses input or hangs when it fails once; it depends on how the ring buffer is refilled for every fill level.", "anchors": ["src/src_sinc.c:sinc_mono_vari_process", "src/src_sinc.c:prepare_data"]}
{"id": "C43", "title": "A sinc converter makes progress until the end of input", "statement": "Until the end of the input is announced, a src_process call on a sinc converter with at least one input frame (fewer than 2^31 samples) and room for at least one output frame consumes an input frame or produces an output frame, and returns without an error.", "quantifier": "all coefficient tables of the source, ratios, ratio changes, histories and block sizes", "why_tests_cant": "A caller's loop hangs when one call makes no progress; at extreme ratios the filter window fills the whole buffer and the room left is a few samples.", "anchors": ["src/src_sinc.c:prepare_data", "src/src_sinc.c:sinc_mono_vari_process"]}
{"id": "C44", "title": "Sample values never steer the converter", "statement": "Return codes, frame counts, error state, the addresses written and any fault depend only on the requests (ratios, block sizes, addresses, end-of-input flags, order of calls), never on the values of the samples: two histories that differ only in memory contents, including NaNs and infinities, give the same answers call by call.", "quantifier": "all converter types and channel counts, all states a converter can be in, all histories of API calls (legal or not), both modes (with callbacks that supply blocks of the same sizes at the same places)", "why_tests_cant": "A single comparison on a sample value (a silence detector, a NaN guard, an early exit on zero coefficients) would break it only for particular data; all pairs of signals cannot be tried.", "anchors": ["src/samplerate.c:src_process", "src/src_zoh.c:zoh_vari_process", "src/src_linear.c:linear_vari_process", "src/src_sinc.c:sinc_multichan_vari_process"]}
{"id": "C45", "title": "The unrolled sinc routines equal the generic one", "statement": "The sinc routines written out for 1, 2, 4 and 6 channels compute, from the same state, request and memory, the same return code, state, counts and output samples as the routine for any number of channels.", "quantifier": "all converter states with that number of channels, all requests, all memories", "why_tests_cant": "Five copies of 90 lines each differ by index arithmetic typed by hand; a slip in one copy shows only for that channel count and only at particular buffer fill levels or at the end of the input.", "anchors": ["src/src_sinc.c:sinc_mono_vari_process", "src/src_sinc.c:sinc_stereo_vari_process", "src/src_sinc.c:sinc_quad_vari_process", "src/src_sinc.c:sinc_hex_vari_process", "src/src_sinc.c:sinc_multichan_vari_process"]}
{"id": "C46", "title": "Inverting the polarity of the input inverts the output", "statement": "Feeding the negated stream with the same requests gives the same counts and the negated samples: bit for bit for zero-order hold, up to the sign of zeros for linear and sinc (where sums that cancel give +0 both times).", "quantifier": "all streams including infinities and NaNs, all block sizes, output rooms, legal ratio sequences and channel counts, all three converter families", "why_tests_cant": "An asymmetric rounding (truncation, a bias added before a conversion, a clamp that is not symmetric) would show for particular sample values and positions only.", "anchors": ["src/src_zoh.c:zoh_vari_process", "src/src_linear.c:linear_vari_process", "src/src_sinc.c:calc_output_single", "src/src_sinc.c:calc_output_stereo", "src/src_sinc.c:calc_output_multi"]}
{"id": "C47", "title": "Converting a mix is mixing the converted signals", "statement": "If stream Z is a X + b Y sample by sample (a, b real), then with the same requests the three conversions consume and produce the same counts, and the output of Z is a times that of X plus b times that of Y: exactly for zero-order hold, up to 1/16000000 of the peak levels for linear and 3/10000000 for sinc (plus the smallest float).", "quantifier": "all streams of finite samples, all real a and b, all block sizes, output rooms, ratio sequences and channel counts, all three converter families", "why_tests_cant": "Superposition is a statement about all triples of signals and all gains; a clamp, a noise gate or a level-dependent shortcut breaks it only for particular signals.", "anchors": ["src/src_zoh.c:zoh_vari_process", "src/src_linear.c:linear_vari_process", "src/src_sinc.c:calc_output_single", "src/src_sinc.c:calc_output_multi"]}
{"id": "C48", "title": "Outputs are the real-valued filter at positions that do not drift", "statement": "At constant ratio r, output frame k is taken at a position within k (1 + 1/r) / 2^52 of k / r. There it is the frame before the position (zero-order hold), the point on the line between the two neighbouring frames up to 1/16000000 of the peak (linear), or the weighted sum with linearly interpolated coefficients in real arithmetic up to 6/10000000 of the peak (sinc), plus the smallest float.", "quantifier": "all streams of finite samples, all legal ratios, block sizes, output rooms and channel counts, every output frame however late, all three converter families", "why_tests_cant": "Rounding errors of a long sum and of millions of position updates depend on the data and on the length of the stream; tests measure a few signals and a few seconds.", "anchors": ["src/src_zoh.c:zoh_vari_process", "src/src_linear.c:linear_vari_process", "src/src_sinc.c:calc_output_single", "src/src_sinc.c:sinc_mono_vari_process"]}
{"id": "C49", "title": "Sinc conversion is convolution with one continuous kernel", "statement": "At constant ratio r, every output sample of a sinc converter is the convolution of the input with the piecewise linear function through the coefficient table, stretched by 1 / min (1, r), at a position within k (1 + 1/r) / 2^52 of k / r. The error, which includes the 12-bit rounding of table index and step, float rounding and the end of the table, is at most (21 + 12 / min (1, r)) parts per million of the input's peak, and 13 for r >= 1, plus the smallest float.", "quantifier": "all streams of finite samples, all legal ratios, block sizes, output rooms and channel counts, every output frame, both tables", "why_tests_cant": "The rounded step accumulates over the taps of a sample (up to sixteen thousand at ratio 1/256); the worst ratio and phase are single points in a continuum.", "anchors": ["src/src_sinc.c:calc_output_single", "src/src_sinc.c:double_to_fp", "src/src_sinc.c:sinc_mono_vari_process", "src/mid_qual_coeffs.h", "src/fastest_coeffs.h"]}
{"id": "C50", "title": "Every output frame depends on a known stretch of the input only", "statement": "At constant ratio r, output frame k is determined by the input frames near k / r: within 2 frames for zero-order hold and linear, within (table length / increment) / min (1, r) + 4 frames for sinc, plus k (1 + 1/r) / 2^52 for rounding. Two streams that agree there give the same sample bit for bit, even if everything else about the runs differs: block sizes, output rooms, number of channels, and which channel it is.", "quantifier": "all pairs of streams, ratios in range, block partitions, channel counts, channels, output frames", "why_tests_cant": "Stale buffer contents, a neighbouring channel or an earlier block leak into the output only for particular block sizes and positions, and an impulse test sees a leak only above its noise threshold.", "anchors": ["src/src_sinc.c:prepare_data", "src/src_sinc.c:calc_output_multi", "src/src_sinc.c:sinc_reset", "src/src_linear.c:linear_vari_process", "src/src_zoh.c:zoh_vari_process"]}
{"id": "C51", "title": "Time invariance at ratios with a dyadic reciprocal", "statement": "If 1/r is a multiple of 2^-e with e <= 40, and q output frames are exactly D input frames, then delaying the input by D frames delays the output by q frames and changes no bit of it: from the first output frame on for sinc; for the hold converters from output frame k >= r on (before, they hold the first input frame).", "quantifier": "all streams, all dyadic 1/r in range, all delays that are a whole number of both input and output frames, all block partitions of either run", "why_tests_cant": "The position is accumulated in floating point and re-reduced by fmod at each step and block border; that this is exact for every block partition and arbitrarily long streams is no finite observation.", "anchors": ["src/common.h:fmod_one", "src/src_sinc.c:sinc_mono_vari_process", "src/src_linear.c:linear_vari_process", "src/src_zoh.c:zoh_vari_process"]}
{"id": "C52", "title": "Varying ratios: every output frame is the filter at the sum of the steps before it", "statement": "In a stream whose ratio changes from request to request and by src_set_ratio in between, there is one ratio for each output frame: it starts at the ratio in force and runs straight to the one named over the frames asked for (within 2^-42 for the hold converters, 2^-33 for sinc), continuing from where the previous request got to. Output frame k is taken at the sum of 1/ratio over frames 0 .. k-1, up to 2^-52 of that sum and of k. There it is the frame before (zero-order hold), the point between the neighbours up to 1/16000000 of the peak (linear), or the real-valued windowed sum at that frame's ratio up to 6/10000000 of the peak (sinc).", "quantifier": "all streams of finite samples, all sequences of requests and ratio settings, all block sizes, output rooms and channel counts, every output frame however late", "why_tests_cant": "The ramp restarts in the middle whenever a request is only partly served, and the position is carried over all of them; what accumulates depends on the whole history of requests.", "anchors": ["src/samplerate.c:src_process", "src/samplerate.c:src_set_ratio", "src/src_zoh.c:zoh_vari_process", "src/src_linear.c:linear_vari_process", "src/src_sinc.c:sinc_mono_vari_process"]}
{"id": "C53", "title": "Varying ratios: the steps of the output add up to the length of the input", "statement": "In a stream whose ratio changes from request to request and by src_set_ratio in between, once all N input frames have been presented and the last request had output room to spare, the sum of 1/ratio over the output frames is N up to about one input frame, plus a rounding error of 2^-52 of that sum and of the number of frames. No output frame starts later than the end of the input, and none is missing.", "quantifier": "all streams, all sequences of requests and ratio settings, all block sizes, output rooms and channel counts", "why_tests_cant": "The number of frames depends on every ratio and on where each partly served request stopped; a test fixes one schedule of ratios, and an error of one frame at a change of ratio hides within the tolerance.", "anchors": ["src/samplerate.c:src_process", "src/src_zoh.c:zoh_vari_process", "src/src_linear.c:linear_vari_process", "src/src_sinc.c:sinc_mono_vari_process", "src/src_sinc.c:prepare_data"]}
{"id": "C54", "title": "The time-warp example terminates, takes the whole file and writes the warped file", "statement": "For every input file of N frames and every warp table of ratios from 1 to 256, timewarp_convert ends after at most 258 N + 2 passes of its loop, without an error, having passed every frame of the file to the converter, and frees what it allocated. The value it returns is the number of frames written. There is one ratio per output frame, following the requests; the steps 1/ratio of the output frames add up to N within about one frame; and (for the two coefficient tables in the source) each output sample is the windowed sum over the file at the sum of the steps before it, up to 6/10000000 of the peak.", "quantifier": "all files (length up to 2^50 frames, any finite samples), all warp tables with ratios from 1 to 256, 1 to 128 channels, every sinc table of fitting size, any place of the two buffers", "why_tests_cant": "Termination depends on the interplay of the 8-frame input blocks, the leftover handling, the end flag and the converter's internal buffering; a test sees particular files and tables.", "anchors": ["examples/timewarp-file.c:timewarp_convert", "src/samplerate.c:src_process", "src/src_sinc.c:prepare_data"]}
{"id": "C55", "title": "The time-warp example follows its table", "statement": "Every request made by timewarp_convert carries the ratio that the warp table names for the input position reached: that of the last entry whose index is at or before it, 1.0 before the first.", "quantifier": "all files, all tables of ratios from 1 to 256 with entries at least 8 frames apart", "why_tests_cant": "The example has no test; the entry that is skipped only shows at a file longer than the table's last index.", "anchors": ["examples/timewarp-file.c:timewarp_convert"]}
{"id": "C56", "title": "A callback that always has data: every read delivers all that was asked for", "statement": "If the callback hands out a non-empty block whenever it is asked, every src_callback_read of a zero-order hold or sinc converter, and of a linear converter whose blocks have at least three frames, returns exactly the number of frames asked for, without an error, in a bounded number of turns of its loop, and writes only these frames; whatever reads, ratio settings and resets came before.", "quantifier": "all callbacks that meet the contract and always return a block (of less than 2^31 samples), all sequences of reads at any valid ratios, src_set_ratio and src_reset, all channel counts and coefficient tables", "why_tests_cant": "A read could stop short, hang or fail only for particular combinations of block sizes, changing ratios and leftover input carried between reads; there are unboundedly many.", "anchors": ["src/samplerate.c:src_callback_read", "src/src_sinc.c:prepare_data", "src/src_zoh.c:zoh_vari_process", "src/src_linear.c:linear_vari_process"]}
{"id": "C57", "title": "The varispeed player plays on", "statement": "varispeed_play, with its callback and the loop of audio_play, runs for any number of calls without undefined behaviour and without leaving through exit: the callback always fills its buffer, every call of varispeed_get_data gets all its blocks of 64 frames from src_callback_read and returns all the frames asked for, and nothing outside the two arrays is written.", "quantifier": "all files, channel counts and converters, any number of calls, any libm whose sin is within 2^-50", "why_tests_cant": "An interactive program that runs until it is stopped has no test at all; its safety depends on the channel count, the length of the file and how long it runs.", "anchors": ["examples/varispeed-play.c:varispeed_get_data", "examples/varispeed-play.c:src_input_callback", "examples/audio_out.c:alsa_play", "src/samplerate.c:src_callback_read"]}
{"id": "C58", "title": "The varispeed player plays the looped file at a sinusoidal speed", "statement": "What the player gives to the audio device is the file, played over and over, resampled at a ratio that in block k of 64 frames is headed for 1 - sin (2 pi k / 20000) / 2 (within 1/1000000, always between 1/2 and 3/2): the same samples as src_process calls on the endless stream return, and each is what the converter is for at the sum of the steps before it: with sinc within 6/10000000 of the peak of the windowed sum, with zero-order hold the sample there, with linear interpolation within 1/16000000 of the peak of the line between the neighbours.", "quantifier": "all files, channel counts and converters, any number of calls, any libm whose sin is within 2^-50", "why_tests_cant": "The output depends on the interplay of file length, buffer length, leftover input between reads and a ratio that changes with every block; the wrap-around of the file may fall anywhere in a buffer.", "anchors": ["examples/varispeed-play.c:varispeed_get_data", "examples/varispeed-play.c:src_input_callback", "src/samplerate.c:src_callback_read"]}
{"id": "C59", "title": "A tone below the passband edge comes out as the same tone", "statement": "SRC_SINC_FASTEST at a constant ratio of at least 1: if the 40 input frames around the place of an output frame are, within d, samples of a sum of tones none of which is above 2 radians per frame (64 % of half the sampling rate), then the output sample is the value of the same sum of tones at that place between the frames, within 3/20000 of the sum of the amplitudes, plus 2 d, plus 13/1000000 of the largest input sample, plus 2^-149. The frames further away may hold anything.", "quantifier": "all streams, all sums of tones (any number, amplitude, phase), all ratios from 1 to 256, any splitting into calls, every output frame and channel", "why_tests_cant": "A test measures a few sine waves at a few ratios and phases; the frequency, the phase and the place between the frames are continuous, and a flaw in a few coefficients shows at particular combinations only.", "anchors": ["src/src_sinc.c:calc_output_single", "src/src_sinc.c:sinc_mono_vari_process", "src/fastest_coeffs.h"]}
{"id": "C60", "title": "Streaming an array through a converter block by block converts all of it", "statement": "The usual client loop (tests/streaming_test.c: present at most BLOCK frames, advance both pointers by the frames used and produced, announce the end when no input is left, stop when nothing more comes out) ends after at most N + L + 1 calls without error or undefined behaviour if the output array (L frames) is longer than the conversion can get; all N input frames have been used, the number of output frames is r*N within one frame and rounding (sinc: r at least 1/191), the output array holds exactly those frames with the value the converter gives them in one go, and nothing else in memory has changed.", "quantifier": "all array lengths, block lengths (at least 3 frames for linear), ratios, contents and positions of the arrays, all converters", "why_tests_cant": "The test program runs four ratios, one block length and one array of zeros per converter; whether a pass without progress, a lost frame or an endless loop can occur depends on where the blocks fall relative to the output positions."}
{"id": "C61", "title": "streaming_test passes at every ratio from 1/4 to 256", "statement": "stream_test of tests/streaming_test.c, including the computation of the lengths in double and int, src_new, the loop, src_delete and the two checks at the end, prints ok for every converter at every ratio from 1/4 to 256, whatever its input array holds, and frees everything it allocated.", "quantifier": "all doubles from 1/4 to 256, all converters, all array contents and addresses", "why_tests_cant": "It is the test: it runs at four ratios; that its tolerance and its array lengths are right at all others is a statement about all doubles."}
{"id": "C62", "title": "stream_test of termination_test passes at every ratio from 1/16 to 256", "statement": "stream_test of tests/termination_test.c (input blocks of changing lengths from 5 to 400 frames, all remaining output room offered each time, every reply checked for plausibility) prints ok for every converter at every ratio from 1/16 to 256, wherever in its list of block lengths it starts and whatever the fields of SRC_DATA it leaves uninitialised hold: no check inside the loop fails, the loop ends, all input is used, the number of frames is r*N within one frame and rounding, the output array holds the frames the converter gives in one go, and everything allocated is freed.", "quantifier": "all doubles from 1/16 to 256, all converters, all nine starting block lengths, all array addresses; the loop for all array lengths and contents", "why_tests_cant": "It is the test: it runs at twelve ratios. That its limits on the counts hold at every other ratio and for every phase of the block lengths is a statement about all doubles and all executions."}
