# Formal model of libsamplerate in Rocq/Coq

The C library in `/repo` (commit pinned by the task; sources `src/samplerate.c`, `src_zoh.c`, `src_linear.c`, `src_sinc.c`,
`common.h`, `fastest_coeffs.h`, `mid_qual_coeffs.h`) is modelled function by function as executable Gallina. The properties of
`properties.jsonl` are theorems about that model, for all inputs, states and histories. `MANIFEST.json` lists the theorems of
every property; they are all in the files `Properties_*.v`, which contain statements, example cases and `Print Assumptions`
and nothing else.

## 1. Trusted base

1. The Coq 8.16.1 kernel, including its bytecode evaluator (`vm_compute`; table checks and counterexamples are computed).
   `vm_cast_no_check` in the `Gain*` and `Tone*` files only skips the duplicate evaluation by the tactic: the kernel does check the
   cast at `Qed`.
2. Axioms. No file declares any. `Print Assumptions` reports, for `C11_names`, `C11_distinct` and `C57_empty_file_refuted`, nothing ("Closed
   under the global context") and for every other theorem these four axioms of the standard library, which enter through the real
   numbers and Flocq:
   `ClassicalDedekindReals.sig_not_dec`, `ClassicalDedekindReals.sig_forall_dec`,
   `FunctionalExtensionality.functional_extensionality_dep`, `Classical_Prop.classic`.
3. Flocq's definition of the IEEE-754 formats and operations (`IEEE754.BinarySingleNaN`): definitions only, no axioms.
4. The reading of the C code. Every definition of the model cites the lines it stands for. Section 3 lists what is modelled
   and section 4 where the model simplifies.
5. The transcription of the two coefficient tables into `SincFastTable.v` and `SincMidTable.v` (generated from the headers by a
   script, every constant as a decimal fraction m/10^k).

## 2. The machine the model assumes

LP64 x86-64 with SSE2 arithmetic, the default of `common.h` there, compiled without `NDEBUG` (the asserts are active):

* `double` and `float` are binary64/binary32; every operation rounds to nearest even in its own format: no x87 extra precision,
  no fused multiply-add, no `-ffast-math`. There is one NaN (payloads are not modelled).
* `psf_lrint`/`psf_lrintf` are `cvtsd2si`/`cvtss2si` on `int`: nearest-even, INT_MIN when out of range.
* `int` has 32 and `long` 64 bits; both are `Z` with a check after every operation. Signed overflow is a fault; `long -> int`
  conversion wraps.
* Undefined behaviour, failed asserts and exhausted fuel are faults, distinct from results (`outcome`: `Ok a | Fault f`, with
  `f` one of overflow, out of bounds, null, division by zero, assert, ...). No function returns a default value in their place.
* The caller's memory is a partial map from addresses (one per float) to samples. An access outside it is a fault, so "reads
  and writes only ..." is stated by mapping nothing else. Aliasing and interior pointers are representable. 0 is NULL.
* Internal arrays (last frame, ring buffer, coefficients) are lists; an index outside is a fault. `memmove`/`memset`/`memcpy` on
  them check both ends.
* Loops are recursions on fuel. That the fuel suffices is part of the theorems (C16, C20, C31), or the theorem is about every
  amount of fuel (C28-C30: `src_callback_read` is given any number of iterations, and C30 shows how many are enough, or that
  no number is).
* The heap is a set of live blocks plus an oracle saying which allocations fail; freeing a block that is not live is a fault.
* A callback is any function of its own state and of memory, returning an optional pointer and a count. Properties that need
  more state it: `proper` (it hands out mapped memory and unmaps nothing), `nonnegative`, `marks_end`/`stays_ended`, `local_cb`.

## 3. What is modelled

| file | code |
|---|---|
| `Base.v` | outcomes, C integers, floats; `common.h`: `psf_lrint`, `psf_lrintf`, `fmod_one`, `is_bad_src_ratio` |
| `SampleConv.v` | the four array converters, `samplerate.c:427-483` |
| `Types.v`, `Common.v` | `SRC_DATA`, `SRC_STATE`, private structs, error codes; fragments shared by the process functions |
| `Zoh.v`, `Linear.v` | `zoh_vari_process`, `linear_vari_process` completely |
| `Sinc.v` | `prepare_data`, the fixed-point helpers, and one common form of the process functions and of `calc_output` |
| `SincCopies.v` | the five `calc_output_*` and the five `sinc_*_vari_process`, each copied separately, unrolled as in the C code |
| `Api.v` | `src_process`, `src_set_ratio`, `src_reset`, `src_get_channels`, `src_is_valid_ratio`, `src_error`, all string tables |
| `Callback.v` | `src_callback_read` |
| `Heap.v` | `src_new`, `src_callback_new`, `src_clone`, `src_delete`, `src_simple` and the constructors, copies and destructors of the converters |
| `SincFastTable.v`, `SincMidTable.v`, `SincTables.v` | the coefficient tables |
| `StreamTest.v` | `stream_test` of `tests/streaming_test.c` (lines 52-148), a client of the library: lengths, loop, checks; `printf` left out |
| `TermTest.v` | `stream_test` and `next_block_length` of `tests/termination_test.c` (lines 181-341), another client; `printf` left out |
| `Timewarp.v` | `timewarp_convert` of `examples/timewarp-file.c`, a client of the library |
| `Varispeed.v` | `src_input_callback`, `varispeed_get_data`, `varispeed_play` of `examples/varispeed-play.c` and the loop of `alsa_play` of `examples/audio_out.c`, a client of the callback interface; `sin` is a parameter |

`ApiHist.v` defines histories of API calls on one converter (`api_run`) and streams (`streaming`); `LifeSpec.v` histories
over several converters.

Not modelled: `src_get_version`; the demo programs other than `timewarp_convert` and the varispeed player (`main`, libsndfile, audio devices), tests other than `stream_test` of `streaming_test.c` and `stream_test` of `termination_test.c`, build system; other compilers' variants of `psf_lrint` (MSVC
inline assembly, `lrint`), except that C04 takes the target's rounding function and clip flags as parameters; denormals-are-zero
or other rounding modes; threads (C36 is about interleaved calls, not concurrent ones). `high_qual_coeffs.h` is missing from this
snapshot: the theorems about sinc converters hold for every table satisfying `table_fit` (sizes only), which a table of the
upstream size would; C39 is about the two tables present.

## 4. Where the model simplifies

* The proofs about sinc work on the common form in `Sinc.v` (channel number and mono as parameters). `SincCopiesEq.v` proves each of
  the five separate copies equal to it, without hypotheses. `const_process` and `vari_process` are the same function in every vtable.
* `left_calc`/`right_calc` are local lists of 128 entries (always written before read); an index outside is a fault. The magic
  markers are omitted (never read).
* `conv_loop`: input and output arrays of the sample converters are distinct objects (they have different types).
* Pointer comparisons and arithmetic are on integers (float slots); an address must stay below 2^62.
* Function pointers and user data are opaque numbers passed on to the model of the callback.
* `src_callback_read`'s local `dummy[1]` is one address given as a parameter.
* Coefficients: decimal literal -> nearest double -> float, as the C compiler does for `coeff_t = float`.

## 5. What the theorems quantify over, and standing hypotheses

* `valid_call`: counts >= 0, at most 2^50 samples per buffer, a ratio in [1/256, 256], both buffers mapped over the announced
  length and disjoint. Histories (`valid_op`) may also contain `src_set_ratio` with any non-NaN, `src_reset`, reads in the wrong mode,
  NULL data, ...
* "New" converters come from the modelled `src_new`/`src_callback_new` under any allocation oracle; streams start at a new converter
  or one reset after any legal history (`at_start`, `sinc_start`).
* Constants: 8323072 channels (C16), 1/191 for sinc length statements (C34, C35, C41, C42; below it the zero padding at the end is
  clipped by the size of the ring buffer).
* Lengths (C38, C34) are stated twice; the statements in `Properties_Length.v` are the sharp ones: r*N frames or at most one more, up to rounding.

## 6. Findings

The code violates several of the properties. Each has a theorem `..._refuted` with a concrete run of the model, and `..._partial`
theorems for what does hold.

| finding | theorem |
|---|---|
| linear: a block of one frame (or two) makes it read the frame before `data_in` | C17, C24 |
| a NaN ratio passes `is_bad_src_ratio` | C07 |
| sinc: `prepare_data` moves memory from before its buffer after a drop of the ratio near 1/256 | C31_buffer_underflow |
| callback read loops forever if the callback supplies data after it returned 0 (sinc) | C30 |
| a callback returning negative counts forever loops forever (C30 excludes negative counts) | - |
| `src_process` with NULL `data_in` and no frames does not flush a sinc converter | C35 |
| the number of output frames depends on the number of channels (all converters) | C34 |
| near 1/256 the end padding is clipped; a call may return early without using its room | C41, C42 exclude it |
| an assertion fails when the ratio drops after the end was announced | C31_assertion |
| 2^31 or more samples in a call: SINC_PREPARE_DATA_BAD_LEN | C32 |
| linear turns -0.0 into +0.0 at ratio 1 | C26 |
| a channel count < 1 fails an assert instead of giving BAD_CHANNEL_COUNT | C12 |
| `src_simple` dereferences a NULL `SRC_DATA` | C37 |
| int overflow with 2^23 channels | C16_huge_channel_count |
| sinc output overflows to infinity for inputs near FLT_MAX | C39_overflow |
| sinc: the mono routine tests `>` at the end of the input, the other four `>=` (a copy of the generic routine for one channel would give a frame less) | C45 |
| a read that fails loses the frames already produced in that read (C29 is otherwise about reads that succeed); after a NULL block with a positive count every read fails until `src_reset` | C29_null_block |
| `timewarp-file.c` never uses the last entry of its table (`warp_index < ARRAY_LEN (warp) - 1`): past frame 81000 the ratio stays 1.5 | C55_last_entry |
| `varispeed-play.c` asks for blocks of 64 frames whatever is left of the audio buffer: with a channel count that does not divide 32 the last block of a call is written beyond it | C57_channels |
| `varispeed-play.c`: `freq_point * 2` overflows in block 2^30 (18 days at 44100 Hz) | C57_overflow |
| `varispeed-play.c`: with a file without frames the input callback loops for ever | C57_empty_file |

## 7. How the proofs go

* Sample converters (C01-C06): rounding lemmas on reals, `SampleConvProofs.v`.
* Hold converters: `HoldSpec.v` describes the output as a function of the stream, positions being (whole frames, fraction) moved by
  1/ratio in double arithmetic; `ZohProofs.v`/`LinearProofs.v` prove the loops refine it; `HoldStream.v` lifts to streams by induction
  on the calls; `HoldValue.v` the values; `LinAny.v` blocks of any size; `LinMapped.v`: whether a linear call returns does not depend on the values in memory, so it returns whenever the frame before its block is mapped; `LinRoom.v` draws the consequences for whole histories and for reads (C17, C20, C28, C30); `SincReads.v` does the same for sinc at steady ratios.
* Histories and heap: `ApiFacts.v`, `LifeFacts.v`, `LocalFacts.v`, `HeapFacts.v`.
* Sinc: `SincSpec.v` (the value as a windowed sum over the zero-extended stream), `SincFacts.v` (index bounds from float
  arithmetic), `SincPrep.v`/`SincCalc.v`/`SincLoop.v` (prepare_data, the sums, the main loop), `SincCall.v`, `SincHist.v` (any history),
  `SincStream.v`/`SincMain.v` (streams), `SincLen.v` (lengths), `SincAlike.v`/`SincPair.v` (two runs side by side; `plan`: the positions of
  the output frames depend on the requests only). `SymThms.v` (C46): the two-runs lemmas with
  "opposite" as the relation between samples. `SincCopies.v` has the five routines as written; `SincCopiesEq.v` proves each equal
  to an instance of `Sinc.v`; `SincSame.v` compares them with each other (C45).
* Superposition and accuracy (C47, C48): `AccSpec.v` has the filters in real arithmetic, `AccFacts.v` the distance of a computed sample
  from them, `AccThms.v` combines several runs through their common plan.
* Convolution (C49): `KernSpec.v` has the kernel as a function of a real variable; `KernFacts.v` its modulus of continuity; `KernMain.v` sums the
  errors of the rounded table index over a wing, the slopes of the table being bounded by decreasing envelopes; `KernTables.v` the two tables.
* Locality and time invariance (C50, C51): `LocSpec.v`, `LocThms.v`: consequences of the per-frame description of the output that C24 and C26 rest on.
* Varying ratios (C52, C53): `VarSpec.v` (the ratio of each output frame), `VarThms.v`: induction over the requests; the filter against its real-valued counterpart as in C48, over the frames the ring buffer still holds; the count of frames from the same invariant at the last call. `VarEndSpec.v`, `VarEnd.v`: the count for sinc below ratio 1, if the ratio stays the same once the end of the input is announced.
* The example program (C54, C55): `Timewarp.v` is examples/timewarp-file.c:102-178, `WarpSpec.v`, `WarpThms.v`: a loop invariant over C31, C53 and C13, a measure for termination.
* Reads from a callback that always has data (C56): `CbFeedSpec.v`, `CbFeed.v`: the loop of `src_callback_read` can only stop short at the end of the input; a measure bounds its turns. For linear the invariant says that what is left of a block has three frames or is preceded by a frame of the block.
* The varispeed player (C57, C58): `Varispeed.v`; `VariIn.v` (the callback fills its buffer with the looped file), `VariSpeed.v` (the ratio against the real sine, with pi from Machin's series), `VariThms.v` (invariant over the blocks, the same for every kind of converter, on C56, C29 and C52), `VariCases.v` (the overrun, by computation).
* The streaming client (C60, C61): `StreamTest.v` is tests/streaming_test.c:52-148. `StreamTestThms.v` has the loop invariant and the measure once, over an abstract converter, and then the two kinds of converter from C20, C24, C33, C35 and C42; `StreamFunc.v` adds the double and int arithmetic around the loop.
* The termination client (C62): `TermTest.v` is tests/termination_test.c:181-341. `TermTestThms.v`: the same scheme for its loop, whose blocks change in length and which checks each reply; `TermFunc.v`: the arithmetic around it.
* Tones (C59): `ToneSpec.v`. By C49 the output is a sum over the kernel as a function of a real variable; with tones as input the error is a trigonometric sum in the place between two frames and the frequency. `ToneCheck.v` has an integer program bounding it and its derivatives in the frequency at a grid of frequencies for every fourth row of the table, with rotations by fixed-point multiplication (`ToneTrig.v`); `ToneSound.v` and `ToneTable.v` prove the program right, `ToneFast.v` runs it, `ToneCells.v` goes from the grid rows to every place by cubic interpolation, `ToneMain.v` and `ToneThms.v` conclude.
* Sample values do not steer (C44): `DataSpec.v`, `DataFacts.v`: a relation between two runs preserved by every function.
* Callbacks: `CbSpec.v`, `CbCore.v`, `CbHold.v`, `CbSinc.v` (single reads), `CbTwin.v`, `CbStream.v`, `CbReadThms.v` (sequences of reads
  against a stream fed to a twin converter in process mode).
* Gain (C39): the coefficients are rounded to integers (`GainUnits.v`); `GainFastInts.v` and `GainMidInts.v` list them and check every
  entry against the float tables. Small steps: the sum is a trapezium rule for the integral of the piecewise linear table, with the
  error bounded by its second differences (`GainQuad.v`). Larger steps: a checker walks a grid of (step, offset) pairs
  (`GainCheck.v`), and between grid points second differences bound the error again (`GainGrid.v`). `GainFast.v` and `GainMid1..4.v` run
  the checker in the kernel. Together they cover every step from 16 to 4096 times the increment and every offset. `GainFloat.v`,
  `GainWeights.v`, `GainBound.v`, `GainMain.v`: floating-point error of the sums; `GainStream.v`: streams.

## 8. Testing the theorems

`seeded/LOG.jsonl`: for each realistic bug put into a scratch copy of the model, which theorems then fail to compile. Theorems that
let a bug pass were strengthened (field `tightened`).
