{
 "claims": [
  {
   "property": "C01",
   "status": "proved",
   "theorems": [
    "C01_terminates"
   ],
   "note": "any decoder reached by any sequence of API calls, any byte list; the model's fuel is never exhausted"
  },
  {
   "property": "C02",
   "status": "partial",
   "theorems": [
    "C02_headers_partial",
    "C02_scan_partial",
    "C02_progressive_partial",
    "C02_sampled_partial",
    "C02_progressive_sampled_partial",
    "C02_headers_refuted",
    "C02_decode_refuted",
    "C02_narrow_refuted",
    "C02_gray_refuted",
    "C02_scan_refuted",
    "C02_frames_refuted",
    "C02_tall_refuted"
   ],
   "note": "False of the code. Proved for read_headers on a new decoder: the only possible panic needs a frame with four or more components. Proved for decode_buffer on baseline files without subsampling: after accepted headers no scan data whatsoever without a second frame header can make it panic, and the buffer has the right size; for progressive files without subsampling the same holds for all data after the first scan header. The _refuted theorems give files on which read_headers or decode_buffer panics, among them well-formed narrow and 4:2:0 images, a scan with a second frame header and a progressive file with two frame headers. The output format may be any of the seven, with the widths excluded by C02_gray_refuted and C02_narrow_refuted. C02_sampled_partial and C02_progressive_sampled_partial extend this to subsampled files whose first component has the largest sampling factors, and to single components with sampling factors, except for tall progressive ones (C02_tall_refuted). Missing: other orders of components."
  },
  {
   "property": "C03",
   "status": "partial",
   "theorems": [
    "C03_bound_partial",
    "C03_partial",
    "C02_scan_partial",
    "C02_progressive_partial",
    "C02_sampled_partial",
    "C02_progressive_sampled_partial",
    "C03_refuted"
   ],
   "note": "Never more bytes than reported, for all files and histories; exactly as many up to 65527 x 65527 when read_headers and decode_buffer report the same image (always for progressive files; for baseline files without a second frame header in the scan, C02_scan_partial). False of the code otherwise: a second frame header inside a baseline scan changes the reported size, and allocations for heights of 65529 and more wrap."
  },
  {
   "property": "C04",
   "status": "proved",
   "theorems": [
    "C04_limits"
   ],
   "note": ""
  },
  {
   "property": "C05",
   "status": "proved",
   "theorems": [
    "C05_errors",
    "C05_info"
   ],
   "note": ""
  },
  {
   "property": "C06",
   "status": "proved",
   "theorems": [
    "C06_signature"
   ],
   "note": ""
  },
  {
   "property": "C07",
   "status": "proved",
   "theorems": [
    "C07_info",
    "C07_none"
   ],
   "note": ""
  },
  {
   "property": "C08",
   "status": "proved",
   "theorems": [
    "C08_options",
    "C08_new"
   ],
   "note": "For every state of the decoder, reachable or not; the new limits may be any values above the old ones."
  },
  {
   "property": "C09",
   "status": "proved",
   "theorems": [
    "C09_threads",
    "C09_schedules",
    "C09_ends"
   ],
   "note": "The jobs are arbitrary programs of single reads and writes with the effect of post_process; the pool starts and interleaves them in any way. A panic is the same result as another panic."
  },
  {
   "property": "C10",
   "status": "partial",
   "theorems": [
    "C10_refuted",
    "C10_gray_partial"
   ],
   "note": "False of the code in general: sampling factors and the output colour space leak from one image to the next (C10_refuted). Proved for decoders that have only met valid grayscale baseline files (any number of decodes and header reads, interleaved with the setters): the next such file decodes as on a new decoder, as long as fewer than 2^31 - 1 blocks were decoded in all, because the restart counter is decremented for every block and never set back."
  },
  {
   "property": "C11",
   "status": "proved",
   "theorems": [
    "C11_suffix"
   ],
   "note": ""
  },
  {
   "property": "C12",
   "status": "proved",
   "theorems": [
    "C12_transparent"
   ],
   "note": "When the file is rejected, the error may differ if a damaged segment before the insertion point makes the parser read past its end."
  },
  {
   "property": "C13",
   "status": "partial",
   "theorems": [
    "C13_refuted",
    "C13_scans_partial"
   ],
   "note": "False of the code: a fill byte before a marker in the header is taken for a marker of its own. True between the scans of a progressive image."
  },
  {
   "property": "C14",
   "status": "proved",
   "theorems": [
    "C14_dqt"
   ],
   "note": "any list of 8-bit tables, any decoder state with four slots (all reachable ones)"
  },
  {
   "property": "C15",
   "status": "proved",
   "theorems": [
    "C15_dht"
   ],
   "note": "any list of legal tables; slots are characterised by the code they decode"
  },
  {
   "property": "C16",
   "status": "proved",
   "theorems": [
    "C16_accept"
   ],
   "note": "acceptance of a DHT segment with one table, both directions"
  },
  {
   "property": "C17",
   "status": "proved",
   "theorems": [
    "C17_decode"
   ],
   "note": "any accepted table, any 64-bit window"
  },
  {
   "property": "C18",
   "status": "proved",
   "theorems": [
    "C18_extend",
    "C18_unique"
   ],
   "note": ""
  },
  {
   "property": "C19",
   "status": "proved",
   "theorems": [
    "C19_reader",
    "C19_zeros",
    "C19_marker",
    "C19_stuffing"
   ],
   "note": "any legal sequence of refill/get/peek/drop/bit operations from the start of a segment; at most 32 bits between two refills"
  },
  {
   "property": "C20",
   "status": "proved",
   "theorems": [
    "C20_has_byte",
    "C20_fast_refill"
   ],
   "note": ""
  },
  {
   "property": "C21",
   "status": "partial",
   "theorems": [
    "C21_roundtrip_partial",
    "C21_fast_refuted",
    "C21_dc_refuted"
   ],
   "note": "Proved for every block, predictor and bit position when no AC symbol of size >= 6 has code+additional bits of at most 9 bits and every DC difference needs at most 16 bits of code and additional bits. Without these conditions the claim is false of the code: C21_fast_refuted and C21_dc_refuted give tables and blocks on which the decoder is wrong."
  },
  {
   "property": "C22",
   "status": "proved",
   "theorems": [
    "C22_baseline",
    "C22_progressive",
    "C22_accesses"
   ],
   "note": "For every accepted table, every reader state with a 64-bit window and every block."
  },
  {
   "property": "C23",
   "status": "partial",
   "theorems": [
    "C23_avx2_partial",
    "C23_scalar_partial",
    "C23_refuted"
   ],
   "note": "AVX2: every sample of every block is a byte. Scalar: false, the shortcut for DC-only blocks does not clamp (C23_refuted, also end to end); proved for all other blocks and for DC-only blocks in range."
  },
  {
   "property": "C24",
   "status": "proved",
   "theorems": [
    "C24_no_overflow"
   ],
   "note": "The overflow-checked scalar kernel returns the same samples as the wrapping one for all blocks whose dequantized coefficients are within +-2048."
  },
  {
   "property": "C25",
   "status": "proved",
   "theorems": [
    "C25_shortcut"
   ],
   "note": "All DC values and quantizers whose product fits in 16 bits."
  },
  {
   "property": "C26",
   "status": "partial",
   "theorems": [
    "C26_refuted",
    "C26_near_partial",
    "C26_transposed_partial"
   ],
   "note": "False: a single AC coefficient of 5 gives different images with and without unsafe code. Proved instead: for blocks in range the samples differ by at most one from the clamped scalar ones, and outside the DC-only shortcut the AVX2 kernel is exactly the scalar one with rows and columns exchanged."
  },
  {
   "property": "C27",
   "status": "proved",
   "theorems": [
    "C27_libjpeg"
   ],
   "note": "All byte triples; red is within 1. C28 carries the bound over to the SIMD routines."
  },
  {
   "property": "C28",
   "status": "partial",
   "theorems": [
    "C28_avx2",
    "C28_rgbx",
    "C28_sse_partial",
    "C28_scalar",
    "C28_refuted"
   ],
   "note": "AVX2 proved for all lanes, slices and positions. SSE4.1 proved when 64 bytes are left; with 48..63 bytes left it panics where the scalar routine succeeds (C28_refuted)."
  },
  {
   "property": "C29",
   "status": "partial",
   "theorems": [
    "C29_horizontal_partial",
    "C29_vertical",
    "C29_range",
    "C29_refuted"
   ],
   "note": "The horizontal filter is right for every output but the last but one; the vertical filter is characterised exactly; no scalar or SSE routine leaves the range of its input. C29_refuted: the last but one output, samples of neighbouring rows mixed at row ends, nothing interpolated between the first two rows."
  },
  {
   "property": "C30",
   "status": "partial",
   "theorems": [
    "C30_sse_partial",
    "C30_refuted"
   ],
   "note": "Equal at every position but the fifth, fourth and third last, where the two differ (C30_refuted)."
  },
  {
   "property": "C31",
   "status": "partial",
   "theorems": [
    "C31_refuted",
    "C31_routines_partial"
   ],
   "note": "False: the decoder converts to RGB whatever was asked. The unused RGBA routines do store 255."
  },
  {
   "property": "C32",
   "status": "partial",
   "theorems": [
    "C32_ycbcr",
    "C32_gray_partial",
    "C32_refuted"
   ],
   "note": "YCbCr proved for all plane contents and layouts. Grayscale proved unless the padding makes up another row, in which case the routine panics (C32_refuted)."
  },
  {
   "property": "C33",
   "status": "partial",
   "theorems": [
    "C33_narrow_partial",
    "C33_left_partial",
    "C33_refuted"
   ],
   "note": "Proved for widths below 16 and, for wider images, for all columns but the last 22 to 32 (with the SSE kernel when the rows leave it the 64 bytes it asks for); the last sixteen samples of each row are written at the wrong place (C33_refuted)."
  },
  {
   "property": "C34",
   "status": "partial",
   "theorems": [
    "C34_refuted",
    "C43_partial",
    "C49_partial",
    "C51_luma_partial",
    "C52_luma_partial",
    "C53_luma_partial"
   ],
   "note": "False of the code: the last of an odd number of block rows of a horizontally sampled image is never decoded. The other theorems give every pixel of the first component from its own coefficients, for grayscale and 4:4:4 images of all heights and for subsampled ones with an even number of MCU rows."
  },
  {
   "property": "C35",
   "status": "partial",
   "theorems": [
    "C35_gray_partial",
    "C35_gray_refuted",
    "C35_refuted",
    "C35_prog_refuted",
    "C35_resync_partial"
   ],
   "note": "Proved for grayscale baseline files from the bytes to the pixels: every interval length, any number of intervals, prediction reset and markers D0 to D7 in turn. False of the code for colour images (the interval is counted in blocks of single components) and for intervals that end with a symbol of more than 24 bits (a correct file is rejected); false for progressive files (a correct one is rejected). The resynchronisation itself is proved for every state of the reader."
  },
  {
   "property": "C36",
   "status": "partial",
   "theorems": [
    "C36_refuted",
    "C51_ycc_partial",
    "C51_luma_partial"
   ],
   "note": "False of the code: chrominance blocks are dropped once the reader has seen EOI. Proved that this is all: luminance is never lost, and chrominance only if the last MCU is short."
  },
  {
   "property": "C37",
   "status": "partial",
   "theorems": [
    "C37_runs_partial",
    "C37_restart_refuted"
   ],
   "note": "Proved for all run lengths, grids and positions of scans without restart intervals. False with them: the blocks of a run do not count for the interval."
  },
  {
   "property": "C38",
   "status": "partial",
   "theorems": [
    "C38_file_partial",
    "C38_complete_partial",
    "C38_sign"
   ],
   "note": "Proved on the bytes of whole files for all sizes, coefficients, orders of scans and numbers of refinements: before the inverse DCT the decoder holds the coefficients, down to the last bit sent. DC scans may have any number of components (also with subsampling and blocks outside the image). Missing: restart intervals, Huffman tables before the frame header, codes on which the decoder is wrong (see C21)."
  },
  {
   "property": "C39",
   "status": "proved",
   "theorems": [
    "C39_limit",
    "C39_exact"
   ],
   "note": "All progressive files, limits and histories; exactly the files with too many scans are rejected."
  },
  {
   "property": "C40",
   "status": "partial",
   "theorems": [
    "C40_threads_partial",
    "C40_refuted"
   ],
   "note": "False for values that do not fit in 32 bits (panic); proved for all others."
  },
  {
   "property": "C41",
   "status": "proved",
   "theorems": [
    "C41_setters",
    "C41_decoder"
   ],
   "note": ""
  },
  {
   "property": "C42",
   "status": "partial",
   "theorems": [
    "C42_refuted",
    "C42_rejected_partial"
   ],
   "note": "False of the code: the Unsupported error is not returned for the frame types it names. Proved: without a baseline or progressive frame header in front of the first scan the file is not accepted."
  },
  {
   "property": "C43",
   "status": "partial",
   "theorems": [
    "C43_partial",
    "C43_refuted"
   ],
   "note": "Proved from the bytes of the file to the distance of each pixel from the real-number inverse DCT, for all coefficients, tables, sizes up to 65527 and positions of the tables; with restart intervals in C35_gray_partial. False for narrow images whose padding exceeds an eighth of the width (the decoder panics). Missing: codes on which the decoder is wrong (C21)."
  },
  {
   "property": "C44",
   "status": "proved",
   "theorems": [
    "C44_grayscale"
   ],
   "note": ""
  },
  {
   "property": "C45",
   "status": "partial",
   "theorems": [
    "C45_sse",
    "C45_avx2_partial",
    "C45_refuted"
   ],
   "note": "The SSE routine never loads outside its input for any lengths; the AVX2 routine stays inside for the ratio the decoder uses; for other ratios it can load past the end before its assertion (C45_refuted)."
  },
  {
   "property": "C46",
   "status": "partial",
   "theorems": [
    "C46_flat_partial",
    "C46_refuted"
   ],
   "note": "Proved for the scalar and SSE routines; the AVX2 routine turns flat planes into striped ones, also end to end (C46_refuted)."
  },
  {
   "property": "C47",
   "status": "partial",
   "theorems": [
    "C47_refuted",
    "C49_partial",
    "C50_ycc_partial"
   ],
   "note": "False of the code: a file whose first scan ends with a long code is rejected because the marker behind it has not been prefetched. Proved for grayscale and 4:4:4 colour files whose first scan ends with a short code."
  },
  {
   "property": "C48",
   "status": "proved",
   "theorems": [
    "C48_ac",
    "C48_dc"
   ],
   "note": "All blocks and tables in the stated range. Uses the axioms of the real numbers of the standard library (see DESIGN.md)."
  },
  {
   "property": "C49",
   "status": "partial",
   "theorems": [
    "C49_partial",
    "C49_known_partial",
    "C49_refuted"
   ],
   "note": "Proved from the bytes of the file to the distance of each pixel from the real-number inverse DCT. False for narrow images whose padding exceeds an eighth of the width (the decoder panics) and files of C47; missing: restart intervals, tables before the frame header, codes on which the decoder is wrong (C21)."
  },
  {
   "property": "C50",
   "status": "partial",
   "theorems": [
    "C50_ycc_partial",
    "C50_luma_partial",
    "C50_rgb_partial",
    "C50_refuted"
   ],
   "note": "Proved from the bytes of the file to the distance of each sample (YCbCr, luminance) or channel (RGB) from the real-number result. False for RGB: the SSE conversion panics on narrow images and the last columns of wide images are misplaced (C33). Missing: restart intervals, tables before the frame header, codes on which the decoder is wrong (C21)."
  },
  {
   "property": "C51",
   "status": "partial",
   "theorems": [
    "C51_ycc_partial",
    "C51_rgb_partial",
    "C51_luma_partial",
    "C51_refuted"
   ],
   "note": "False of the code: when the end-of-image marker is seen while the last MCU is decoded, the remaining chroma blocks of that MCU are dropped, and the last block of the image loses its colour. Proved with exactly this exception (and only if the dropped blocks take at most 64 bits), from the bytes of the file to the distance of each sample or channel from the real-number result; the luminance is always complete. Missing: restart intervals, files whose last four blocks take at most 64 bits, the columns of RGB excluded in C33, codes on which the decoder is wrong (C21)."
  },
  {
   "property": "C52",
   "status": "partial",
   "theorems": [
    "C52_luma_partial",
    "C52_ycc_partial",
    "C52_rgb_partial",
    "C52_440_ycc_partial",
    "C52_440_rgb_partial",
    "C52_420_ycc_partial",
    "C52_420_rgb_partial",
    "C52_rows_refuted",
    "C52_wide_refuted",
    "C52_440_refuted",
    "C52_420_refuted"
   ],
   "note": "False of the code: with two columns of luminance blocks per MCU an odd last row of MCUs is never decoded (images of up to eight lines in 4:2:2 come out black), and wide flat images in 4:4:0 and 4:2:0 panic. Proved outside these cases, from the bytes to the distance from the exact real-number result: the luminance for all sampling factors, and for 4:2:2 the interpolated chroma and the RGB conversion except in the first column and the last columns (where the filter runs across rows). For 4:4:0 the chroma is one line too early and not interpolated across the border between groups of sixteen lines (C52_440_refuted, C53_440_refuted); exactly that is proved, in YCbCr and RGB, except for the last two lines of images whose height is no multiple of 16. For 4:2:0 each line mixes two lines of chroma of the same parity, two apart, instead of the two nearest (C52_420_refuted, C53_420_refuted); exactly that is proved, in YCbCr and RGB, except for the first column, the last two columns of the last MCU and the last five lines of images whose height is no multiple of 32. Missing: chroma of 4:2:0 images wider than 48 with AVX2, restart intervals, and what is missing in C51."
  },
  {
   "property": "C53",
   "status": "partial",
   "theorems": [
    "C53_luma_partial",
    "C53_ycc_partial",
    "C53_rgb_partial",
    "C53_440_ycc_partial",
    "C53_440_rgb_partial",
    "C53_420_ycc_partial",
    "C53_420_rgb_partial",
    "C53_rows_refuted",
    "C53_wide_refuted",
    "C53_440_refuted",
    "C53_420_refuted"
   ],
   "note": "False of the code: with two columns of luminance blocks per MCU an odd last row of MCUs is never shown (images of up to eight lines in 4:2:2 come out black), and wide flat images in 4:4:0 and 4:2:0 come out black, both without an error. Proved outside these cases, from the bytes to the distance from the exact real-number result: the luminance for all sampling factors, and for 4:2:2 the interpolated chroma and the RGB conversion except in the first column and the last columns (where the filter runs across rows). For 4:4:0 the chroma is one line too early and not interpolated across the border between groups of sixteen lines (C52_440_refuted, C53_440_refuted); exactly that is proved, in YCbCr and RGB, except for the last two lines of images whose height is no multiple of 16. For 4:2:0 each line mixes two lines of chroma of the same parity, two apart, instead of the two nearest (C52_420_refuted, C53_420_refuted); exactly that is proved, in YCbCr and RGB, except for the first column, the last two columns of the last MCU and the last five lines of images whose height is no multiple of 32. Missing: chroma of 4:2:0 images wider than 48 with AVX2, and what is missing in C38 and C50."
  },
  {
   "property": "C54",
   "status": "partial",
   "theorems": [
    "C54_stops_partial",
    "C54_ycc_partial",
    "C54_luma_partial",
    "C54_sampled_partial",
    "C49_partial",
    "C54_refuted"
   ],
   "note": "False of the code. Proved for all grayscale progressive files and, as YCbCr or grayscale output, for colour files under the size conditions of C50 and C53: at a DQT, DRI, APP0, APP1, APP14 or COM segment between scans the decoder stops and returns, without an error, the pixels of the scans before it, whatever follows; an unknown APPn makes it fail. Huffman tables between scans are handled (C49_partial)."
  },
  {
   "property": "C55",
   "status": "partial",
   "theorems": [
    "C55_refuted",
    "C55_list_refuted"
   ],
   "note": "False of the code: only the first scan of a baseline file is decoded, its data are taken for all components, and the next scan header makes the call fail. C55_list_refuted, for all files: components listed at the end of a scan header with the first Huffman tables can be dropped from the list without any effect on the pixels."
  },
  {
   "property": "C56",
   "status": "partial",
   "theorems": [
    "C56_partial",
    "C56_refuted"
   ],
   "note": "Proved for baseline files outside strict mode, from the bytes to the distance of each pixel from the exact inverse DCT. False of the code in strict mode (refused) and for progressive files (a black image without an error)."
  },
  {
   "property": "C57",
   "status": "partial",
   "theorems": [
    "C57_partial",
    "C57_dc_partial",
    "C57_refuted"
   ],
   "note": "Proved for all files with a baseline frame header: both orders give the same state of the decoder and the same pixels, or both fail. The same for progressive frame headers and segments that define only DC tables. False of the code for AC tables and progressive frame headers: tables sent before are prepared for baseline scans and misread end-of-band runs."
  },
  {
   "property": "C58",
   "status": "partial",
   "theorems": [
    "C58_partial",
    "C58_refuted"
   ],
   "note": "False of the code: tables are bound to the components when the frame header is read. C58_partial characterises it for all files and all states: a DQT segment that no frame header follows never changes the pixels; C58_refuted shows a missing table and a replaced one."
  },
  {
   "property": "C59",
   "status": "partial",
   "theorems": [
    "C59_partial",
    "C59_refuted"
   ],
   "note": "False of the code: proved that a file with an identifier other than 1, 2 and 3 is never accepted, whatever else it contains and whatever the decoder was used for before."
  },
  {
   "property": "C60",
   "status": "partial",
   "theorems": [
    "C60_partial",
    "C60_refuted"
   ],
   "note": "Proved for the headers, for all files and all states of the decoder. False of the code for cuts inside the entropy-coded data: decode_buffer returns Ok with other pixels."
  },
  {
   "property": "C61",
   "status": "partial",
   "theorems": [
    "C61_partial",
    "C61_refuted",
    "C51_ycc_partial",
    "C51_rgb_partial",
    "C31_routines_partial"
   ],
   "note": "False of the code: CMYK and YCCK are accepted and give zeros, for every file and state (C61_partial). The formats RGB, YCbCr and grayscale are C50 to C53, RGBA is C31."
  },
  {
   "property": "C62",
   "status": "partial",
   "theorems": [
    "C62_partial",
    "C62_refuted"
   ],
   "note": "Proved byte for byte for all valid baseline and progressive colour files of sizes for which all rows are decoded. False of the code for widths with much padding: YCbCr can be had, but the decoder panics for grayscale. Missing: sizes for which rows are lost (C34) and baseline files whose last block takes at most 64 bits (C36)."
  },
  {
   "property": "C63",
   "status": "partial",
   "theorems": [
    "C63_partial",
    "C63_refuted"
   ],
   "note": "Proved for the left columns, away from the edges of subsampled chroma. False of the code for the last columns (C33). Missing: the AVX2 routine for 4:2:0 above 48 columns, the SSE routine for narrow images, and the conditions of C62."
  },
  {
   "property": "C64",
   "status": "partial",
   "theorems": [
    "C64_gray_partial",
    "C64_luma_partial",
    "C64_ycc_partial",
    "C64_rgb_partial",
    "C64_refuted"
   ],
   "note": "Proved for grayscale files and the luminance of colour files in full, for YCbCr files without subsampling in full, with subsampling away from the edges, for RGB in the left columns. False of the code for baseline colour files that end in short blocks (C36): blocks are lost. Missing: narrow images and the edges of subsampled chroma, where padding shows."
  },
  {
   "property": "C65",
   "status": "partial",
   "theorems": [
    "C65_gray_partial",
    "C65_luma_partial",
    "C65_colour_partial"
   ],
   "note": "Proved for grayscale files, for the luminance of colour files with any sampling factors and for all of YCbCr output without subsampling. Missing: the sizes and files excluded in C62 and C64; C64_refuted shows that the claim fails for some of them. RGB output follows from C63 where that holds."
  },
  {
   "property": "C66",
   "status": "partial",
   "theorems": [
    "C66_partial",
    "C66_refuted"
   ],
   "note": "Proved for all files read by a new decoder and all parameters with Ah and Al up to 13, by a simulation between the two executions of the whole decoder. Missing: Ah and Al of 14 and 15; C66_refuted shows a file that is refused because of Al = 14."
  }
 ]
}