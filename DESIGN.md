# Formal model of zune-jpeg 0.2.0

The model is a set of total, computable Gallina functions (Rocq/Coq 8.16.1) written
function by function from the Rust source in /repo.  Theorems about it live in
separate files.

## Modelling decisions

* **Integers.** Rust integers are `Z`.  Operators that can leave their type wrap
  explicitly (`u8`, `u16`, `i16`, `i32`, `u32`, `u64` functions of `Base.v`), i.e. the
  *release* profile is modelled.  Where this matters a theorem shows that no wrap takes
  place for legal data (C24).
* **Results.** `res A := Ok a | Err e | Panic p | Fuel`.  `Err` is a `DecodeErrors`
  value, `Panic` is every Rust panic (index out of bounds, failed `unwrap`, slice length
  mismatch, `chunks_exact(0)`, ...), `Fuel` is exhaustion of the recursion bound of a
  `while`/`loop`; C01 shows that `Fuel` never comes out.
* **State.** A decoder method is a function `state -> res A * state`; the state is kept
  on `Err` and `Panic`, since a caller can keep using the decoder after an error.
* **Readers.** `Cursor<Vec<u8>>` is represented by its unread suffix.  All operations used by
  the code (read a byte, read_exact, skip, read past the end) depend on it only.
* **Instruction set.** The kernel choice made at construction time is a parameter
  (`isa`): scalar, SSE4.1 or AVX2.  SIMD intrinsics are modelled lane by lane from Intel's
  description.
* **Threads.** The decode loop hands out jobs owning disjoint output chunks.  The model
  (`Mcu.v`, `McuProg.v`) collects the jobs and runs them in order.  `Pool.v` is a separate
  small-step semantics of the thread pool in which the jobs are arbitrary programs of single
  reads and writes, started and interleaved in any way; C09 proves the same result for
  every schedule.

## Trusted base

* The kernel of Coq 8.16.1, including its virtual machine (`vm_compute` is used for finite
  checks and for the witnesses of `_refuted` theorems).  No kernel check is switched off, there are
  no axioms, `Admitted` proofs, functors, module types or plugins.
* The axioms listed by `Print Assumptions` (last section): only theorems that mention real numbers
  have any, and these are the standard library's.
* The transcription of the Rust code into Gallina, as delimited below.  It was done by
  reading; nothing has been compiled or run.  The behaviour of Rust's standard library (slices,
  iterators, `Cursor`, saturating and wrapping operators), of the x86 intrinsics and of the crate
  `scoped_threadpool` (jobs run exactly once, in any order and interleaving; the scope ends when all are
  done; a panicking job makes the scope panic) is part of this transcription.
* The specifications: `Spec*.v`, `Session.v` (what sequences of API calls are), `Obs.v` and `ObsProg.v` (what
  is observable), and the constructors of small files in `Files.v` used by examples.

## What is modelled

| Rust | Coq | notes |
|---|---|---|
| src/options.rs, src/misc.rs (enums, `UN_ZIGZAG`, readers), src/marker.rs, src/components.rs, `UnsupportedSchemes::from_int` | Types.v, State.v, Headers.v | errors are values; their texts are not |
| src/huffman.rs | Huffman.v | all of it, including the fast AC table |
| src/bitstream.rs | Bitstream.v | all of it |
| src/headers.rs | Headers.v | all but the unused `_parse_app` |
| src/decoder.rs | State.v, Headers.v, Decoder.v | `new`, setters, `decode_buffer`, `read_headers`, `info`, `width`, `height`, header loop, `set_upsampling`, choice of the kernels |
| src/mcu.rs, src/worker.rs | Mcu.v, Worker.v | all of it |
| src/mcu_prog.rs | McuProg.v | all of it |
| src/idct.rs, src/idct/scalar.rs | Idct.v | all of it; `f2f` constants are evaluated by hand |
| src/idct/avx2.rs | Simd.v | all of it |
| src/upsampler.rs, src/upsampler/{scalar,sse,avx2}.rs | Upsample.v, Simd.v, State.v | the routines the decoder can select, and the scalar vertical one |
| src/color_convert.rs, src/color_convert/{scalar,sse,avx}.rs | Color.v, Simd.v, State.v | all routines that can be selected, and the RGBA/RGBX ones that never are |
| `scoped_threadpool` as used in mcu.rs and mcu_prog.rs | Pool.v | see above |

## What is not modelled

* `Decoder::decode_file`: reading the file; what follows is `decode_buffer`.
* Logging macros, `Display`, `Debug` and `From` implementations (texts of errors).
* Allocation failure, capacities and alignment of buffers.  Memory accesses of the SIMD routines are
  checked against the lengths of their slices (C45).
* Overflow checks of debug builds, except in C24.
* Code that is never called: `_parse_app` (src/headers.rs:479-529), `read_u16_into` (src/misc.rs:306-318),
  `SOFMarkers::{is_sequential_dct, is_lossless, is_progressive, from_int}` (src/misc.rs:172-215), the
  operators of src/unsafe_utils.rs as such (their uses in src/idct/avx2.rs are modelled), the tests.
* Architectures other than x86 (they use the scalar routines, which are modelled) and the feature `x86` switched off
  (likewise).

## How to read the theorems

Theorems are named after their property, stand in the files `Thm_*.v` and are proved there by `exact` of a lemma from
another file; `Example`s beside them show cases that meet the hypotheses.  A suffix `_refuted` marks a proof, by a
concrete witness evaluated in the model, that the property as stated does not hold of the code; `_partial` marks a theorem
that covers part of the property, the rest of which is either false or not proved (see the note in `MANIFEST.json`).

## Properties

Status, and how the theorems were obtained.  What is missing from a partial result is in
`MANIFEST.json`; the statements are in `properties.jsonl`.

| id | property | status | model and method | theorems |
|---|---|---|---|---|
| C01 | Decoding always terminates | proved | all loops carry fuel computed from the input; measure arguments over every loop, for all reachable states | `C01_terminates` |
| C02 | No input makes the decoder panic | partial | panics are values; invariant of the header parser; invariant of the baseline scan loop over arbitrary data and the lengths of the worker's slices; witnesses by computation | `C02_headers_partial`, `C02_scan_partial`, `C02_progressive_partial`, `C02_sampled_partial`, `C02_progressive_sampled_partial`, `C02_headers_refuted`, `C02_decode_refuted`, `C02_narrow_refuted`, `C02_gray_refuted`, `C02_scan_refuted`, `C02_frames_refuted`, `C02_tall_refuted` |
| C03 | Pixel buffer has the advertised size | partial | whole decoder; lengths of the output through both scan loops; witnesses | `C03_bound_partial`, `C03_partial`, `C02_scan_partial`, `C02_progressive_partial`, `C02_sampled_partial`, `C02_progressive_sampled_partial`, `C03_refuted` |
| C04 | Dimension limits are enforced | proved | invariant over the marker loop | `C04_limits` |
| C05 | read_headers agrees with decode_buffer | proved | both calls share the header phase | `C05_errors`, `C05_info` |
| C06 | Files without the SOI signature are rejected | proved | case analysis on the first two bytes | `C06_signature` |
| C07 | info() reports the frame header | proved | execution of a serialized header, induction over segments | `C07_info`, `C07_none` |
| C08 | Options only filter | proved | simulation of two runs with different options, for every function of the decoder | `C08_options`, `C08_new` |
| C09 | Thread count and scheduling do not affect the pixels | proved | small-step semantics of the pool, commutation of steps on disjoint chunks | `C09_threads`, `C09_schedules`, `C09_ends` |
| C10 | A decoder can be reused | partial | witnesses by computation; for histories of grayscale baseline files an invariant on what the decoder keeps between calls (no progressive flag, no tables, a known range for the restart counter) and the end-to-end theorem started from any such decoder | `C10_refuted`, `C10_gray_partial` |
| C11 | Header parsing ignores what follows the first scan header | proved | simulation with an extended suffix, for every function of the header parser | `C11_suffix` |
| C12 | Application and comment segments are transparent | proved | segment skipping lemma, simulation | `C12_transparent` |
| C13 | Fill bytes before a marker are ignored | partial | witness; marker search between scans | `C13_refuted`, `C13_scans_partial` |
| C14 | Quantization tables are parsed faithfully | proved | induction over tables, zig-zag specification | `C14_dqt` |
| C15 | Huffman table segments are parsed faithfully | proved | induction over tables | `C15_dht` |
| C16 | Huffman tables are accepted exactly when they define a prefix code | proved | Kraft-sum specification, invariant of the table construction | `C16_accept` |
| C17 | Huffman decoding returns the symbol whose codeword comes next | proved | canonical code specification (T.81 annex C) | `C17_decode` |
| C18 | Signed coefficients follow the standard's EXTEND rule | proved | arithmetic | `C18_extend`, `C18_unique` |
| C19 | The bit reader delivers the unstuffed scan bits in order | proved | refinement to a list of bits | `C19_reader`, `C19_zeros`, `C19_marker`, `C19_stuffing` |
| C20 | The 4-byte fast refill is equivalent to byte-wise refill | proved | arithmetic on bytes | `C20_has_byte`, `C20_fast_refill` |
| C21 | Coefficient blocks decode to what was encoded | partial | encoder specification, execution of the decoder on the encoder's bits; witnesses | `C21_roundtrip_partial`, `C21_fast_refuted`, `C21_dc_refuted` |
| C22 | Corrupt scan data cannot crash block decoding | proved | invariant of the block decoders | `C22_baseline`, `C22_progressive`, `C22_accesses` |
| C23 | Samples are in 0..=255 | partial | interval bounds; witness | `C23_avx2_partial`, `C23_scalar_partial`, `C23_refuted` |
| C24 | The inverse DCT does not overflow on legal images | proved | interval bounds, overflow-checked copy of the kernel | `C24_no_overflow` |
| C25 | The all-AC-zero shortcut agrees with the full inverse DCT | proved | evaluation of the full transform on DC-only blocks | `C25_shortcut` |
| C26 | AVX2 and scalar inverse DCT agree | partial | lane-wise evaluation of the AVX2 kernel; error bound; witness | `C26_refuted`, `C26_near_partial`, `C26_transposed_partial` |
| C27 | Colour conversion is within 2 of libjpeg | proved | finite per-channel checks lifted to all samples | `C27_libjpeg` |
| C28 | SIMD and scalar colour conversion agree | partial | lane-wise equality; witness | `C28_avx2`, `C28_rgbx`, `C28_sse_partial`, `C28_scalar`, `C28_refuted` |
| C29 | Chroma upsampling is the documented triangle filter | partial | closed form by index; witness | `C29_horizontal_partial`, `C29_vertical`, `C29_range`, `C29_refuted` |
| C30 | SSE and scalar upsampling agree | partial | closed form by index; witness | `C30_sse_partial`, `C30_refuted` |
| C31 | RGBA output is opaque | partial | witness; lane-wise evaluation | `C31_refuted`, `C31_routines_partial` |
| C32 | Grayscale and YCbCr output puts every sample at its place | partial | index arithmetic; witness | `C32_ycbcr`, `C32_gray_partial`, `C32_refuted` |
| C33 | RGB output puts every pixel at its place | partial | index arithmetic; witness | `C33_narrow_partial`, `C33_left_partial`, `C33_refuted` |
| C34 | Every block row of the image is decoded | partial | witness; corollaries of the end-to-end theorems | `C34_refuted`, `C43_partial`, `C49_partial`, `C51_luma_partial`, `C52_luma_partial`, `C53_luma_partial` |
| C35 | Restart intervals | partial | refinement of the reader across a restart marker; invariant over the remaining intervals, composed with C43; witnesses | `C35_gray_partial`, `C35_gray_refuted`, `C35_refuted`, `C35_prog_refuted`, `C35_resync_partial` |
| C36 | The end of image marker does not cut off pending blocks | partial | witness; corollaries of the end-to-end theorems | `C36_refuted`, `C51_ycc_partial`, `C51_luma_partial` |
| C37 | Progressive end-of-band runs skip exactly the announced blocks | partial | arithmetic over block positions; witness | `C37_runs_partial`, `C37_restart_refuted` |
| C38 | Successive approximation reconstructs coefficients | partial | encoder specification of all four kinds of scans, scripts of scans, execution of the decoder on the bytes of the file | `C38_file_partial`, `C38_complete_partial`, `C38_sign` |
| C39 | The scan limit is enforced | proved | counter invariant | `C39_limit`, `C39_exact` |
| C40 | set_num_threads rejects only zero | partial | all values; witness | `C40_threads_partial`, `C40_refuted` |
| C41 | Option setters are independent and retrievable | proved | induction over setter sequences | `C41_setters`, `C41_decoder` |
| C42 | Unsupported frame types are reported as Unsupported | partial | witness; invariant of the header parser | `C42_refuted`, `C42_rejected_partial` |
| C43 | Grayscale baseline images decode correctly end to end | partial | composition of C07, C14, C15, C17, C21, C48 and C32 on the bytes of the file | `C43_partial`, `C43_refuted` |
| C44 | Single-component files are decoded as grayscale | proved | case analysis of the frame header | `C44_grayscale` |
| C45 | SIMD kernels stay inside their slices | partial | bounds on checked loads; witness | `C45_sse`, `C45_avx2_partial`, `C45_refuted` |
| C46 | Flat planes stay flat | partial | invariant of the upsamplers; witness | `C46_flat_partial`, `C46_refuted` |
| C47 | Valid progressive files are not rejected | partial | witness; execution on the bytes of the file | `C47_refuted`, `C49_partial`, `C50_ycc_partial` |
| C48 | Samples are close to the inverse DCT of the standard | proved | real-number inverse DCT, bounds on the rounding errors of the integer kernel | `C48_ac`, `C48_dc` |
| C49 | Grayscale progressive images decode correctly end to end | partial | composition of C38, C48 and C32 | `C49_partial`, `C49_known_partial`, `C49_refuted` |
| C50 | Colour progressive images without subsampling decode correctly end to end | partial | composition of C38, C48, C32, C33 and C27 | `C50_ycc_partial`, `C50_luma_partial`, `C50_rgb_partial`, `C50_refuted` |
| C51 | Baseline colour images without subsampling decode correctly end to end | partial | induction over the rows and MCUs of the scan with the blocks still to come as invariant; composition with C48, C32, C33 and C27 | `C51_ycc_partial`, `C51_rgb_partial`, `C51_luma_partial`, `C51_refuted` |
| C52 | Colour images with subsampled chroma decode correctly end to end | partial | as C51, with jobs of several rows of blocks; the interpolation from C29 and C30; the vertical filter row by row for 4:4:0 and 4:2:0; witnesses for the heights and widths that fail and for 4:4:0 and 4:2:0 | `C52_luma_partial`, `C52_ycc_partial`, `C52_rgb_partial`, `C52_440_ycc_partial`, `C52_440_rgb_partial`, `C52_420_ycc_partial`, `C52_420_rgb_partial`, `C52_rows_refuted`, `C52_wide_refuted`, `C52_440_refuted`, `C52_420_refuted` |
| C53 | Progressive colour images with subsampled chroma decode correctly end to end | partial | the coefficients from C38 and C50; the rows of blocks handed to the workers cut from the coefficient planes; from there as C52; the vertical filter row by row for 4:4:0 and 4:2:0; witnesses for the heights and widths that come out black and for 4:4:0 and 4:2:0 | `C53_luma_partial`, `C53_ycc_partial`, `C53_rgb_partial`, `C53_440_ycc_partial`, `C53_440_rgb_partial`, `C53_420_ycc_partial`, `C53_420_rgb_partial`, `C53_rows_refuted`, `C53_wide_refuted`, `C53_440_refuted`, `C53_420_refuted` |
| C54 | Segments between progressive scans do not change the picture | partial | execution on the bytes of the file up to the marker that stops it, composition with C49; witness | `C54_stops_partial`, `C54_ycc_partial`, `C54_luma_partial`, `C54_sampled_partial`, `C49_partial`, `C54_refuted` |
| C55 | Baseline images may have one scan for each component | partial | witness | `C55_refuted`, `C55_list_refuted` |
| C56 | Sampling factors of a single component do not matter | partial | execution of the preparations for a sampled single component, then as C43; witnesses | `C56_partial`, `C56_refuted` |
| C57 | Huffman tables may precede the frame header | partial | simulation: the frame header commutes with any change of the Huffman tables, table definitions with any change of the rest; witness | `C57_partial`, `C57_dc_partial`, `C57_refuted` |
| C58 | Quantization tables may follow the frame header | partial | simulation of executions that differ in the tables received (LateTables.v); witness | `C58_partial`, `C58_refuted` |
| C59 | Component identifiers are arbitrary | partial | execution of the frame header on serialized components; witness | `C59_partial`, `C59_refuted` |
| C60 | Truncated files are reported | partial | every successful run of the header parser reads an exact number of bytes (C11); witness | `C60_partial`, `C60_refuted` |
| C61 | An output format is delivered or refused | partial | invariant of the worker jobs and of the output format (FormatFacts.v); witness | `C61_partial`, `C61_refuted`, `C51_ycc_partial`, `C51_rgb_partial`, `C31_routines_partial` |
| C62 | Grayscale output is the luminance of YCbCr output | partial | exact value of every byte from the coefficients (Exact.v), composition of C50 to C53 without rounding; witness | `C62_partial`, `C62_refuted` |
| C63 | RGB output is the conversion of YCbCr output | partial | as C62, with the placement of C33; witness | `C63_partial`, `C63_refuted` |
| C64 | Pixels depend on the image, not on its coding | partial | both files give the value of Exact.v, which mentions only coefficients and quantizers; witness | `C64_gray_partial`, `C64_luma_partial`, `C64_ycc_partial`, `C64_rgb_partial`, `C64_refuted` |
| C65 | A sample depends only on its block | partial | as C64 | `C65_gray_partial`, `C65_luma_partial`, `C65_colour_partial` |
| C66 | Scan parameters without a meaning in baseline files are ignored | partial | a simulation: executions of baseline decoding whose decoders differ in these fields stay in step (ScanParams.v); witness | `C66_partial`, `C66_refuted` |

## Assumptions of each theorem

`Print Assumptions` stands beneath each theorem in the `Thm_*.v` files.  Its output:

* `ClassicalDedekindReals.sig_forall_dec`, `ClassicalDedekindReals.sig_not_dec`, `FunctionalExtensionality.functional_extensionality_dep` — the axioms of the real numbers and of function extensionality of the standard library — for `C52_420_ycc_partial`, `C52_420_rgb_partial`, `C53_420_ycc_partial`, `C53_420_rgb_partial`, `C52_420_refuted`, `C53_420_refuted`, `C52_440_ycc_partial`, `C52_440_rgb_partial`, `C53_440_ycc_partial`, `C53_440_rgb_partial`, `C52_440_refuted`, `C53_440_refuted`, `C51_ycc_partial`, `C51_rgb_partial`, `C51_luma_partial`, `C51_refuted`, `C43_partial`, `C54_ycc_partial`, `C54_luma_partial`, `C54_sampled_partial`, `C50_ycc_partial`, `C50_luma_partial`, `C50_rgb_partial`, `C49_partial`, `C49_known_partial`, `C48_ac`, `C48_dc`, `C54_stops_partial`, `C56_partial`, `C53_luma_partial`, `C53_ycc_partial`, `C53_rgb_partial`, `C53_rows_refuted`, `C53_wide_refuted`, `C35_gray_partial`, `C63_partial`, `C52_luma_partial`, `C52_ycc_partial`, `C52_rgb_partial`, `C52_rows_refuted`.
* "Closed under the global context" for all others: `C01_terminates`, `C02_headers_partial`, `C02_headers_refuted`, `C02_decode_refuted`, `C02_narrow_refuted`, `C02_gray_refuted`, `C04_limits`, `C05_errors`, `C05_info`, `C06_signature`, `C13_refuted`, `C40_threads_partial`, `C40_refuted`, `C41_setters`, `C41_decoder`, `C42_refuted`, `C44_grayscale`, `C43_refuted`, `C19_reader`, `C19_zeros`, `C19_marker`, `C19_stuffing`, `C20_has_byte`, `C20_fast_refill`, `C21_roundtrip_partial`, `C21_fast_refuted`, `C21_dc_refuted`, `C22_baseline`, `C22_progressive`, `C22_accesses`, `C27_libjpeg`, `C28_avx2`, `C28_rgbx`, `C28_sse_partial`, `C28_scalar`, `C28_refuted`, `C31_refuted`, `C31_routines_partial`, `C32_ycbcr`, `C32_gray_partial`, `C32_refuted`, `C33_narrow_partial`, `C33_left_partial`, `C33_refuted`, `C50_refuted`, `C49_refuted`, `C07_info`, `C07_none`, `C11_suffix`, `C12_transparent`, `C13_scans_partial`, `C42_rejected_partial`, `C23_avx2_partial`, `C23_scalar_partial`, `C23_refuted`, `C24_no_overflow`, `C25_shortcut`, `C26_near_partial`, `C26_transposed_partial`, `C26_refuted`, `C08_options`, `C08_new`, `C09_threads`, `C09_schedules`, `C09_ends`, `C54_refuted`, `C55_refuted`, `C56_refuted`, `C57_partial`, `C57_refuted`, `C58_partial`, `C58_refuted`, `C59_partial`, `C59_refuted`, `C60_partial`, `C60_refuted`, `C61_partial`, `C61_refuted`, `C66_partial`, `C66_refuted`, `C55_list_refuted`, `C57_dc_partial`, `C37_runs_partial`, `C39_limit`, `C39_exact`, `C38_file_partial`, `C38_complete_partial`, `C38_sign`, `C47_refuted`, `C35_prog_refuted`, `C37_restart_refuted`, `C35_gray_refuted`, `C10_gray_partial`, `C02_scan_partial`, `C02_sampled_partial`, `C02_scan_refuted`, `C02_progressive_partial`, `C02_frames_refuted`, `C02_progressive_sampled_partial`, `C02_tall_refuted`, `C62_partial`, `C64_gray_partial`, `C64_luma_partial`, `C64_ycc_partial`, `C64_rgb_partial`, `C65_gray_partial`, `C65_luma_partial`, `C65_colour_partial`, `C62_refuted`, `C63_refuted`, `C64_refuted`, `C52_wide_refuted`, `C34_refuted`, `C36_refuted`, `C35_refuted`, `C35_resync_partial`, `C03_refuted`, `C10_refuted`, `C03_bound_partial`, `C03_partial`, `C14_dqt`, `C15_dht`, `C16_accept`, `C17_decode`, `C18_extend`, `C18_unique`, `C29_horizontal_partial`, `C29_vertical`, `C29_range`, `C29_refuted`, `C30_sse_partial`, `C30_refuted`, `C45_sse`, `C45_avx2_partial`, `C45_refuted`, `C46_flat_partial`, `C46_refuted`.
