{"id": "C01", "title": "Decoding always terminates", "statement": "For every byte buffer and every option set, Decoder::read_headers and Decoder::decode_buffer finish: no input makes them loop forever.", "quantifier": "all byte buffers (any length), all options, all decoder states produced by earlier calls", "why_tests_cant": "A test can only time out on the buffers it tries; non-termination needs a well-founded argument over all buffers.", "anchors": ["src/decoder.rs:decode_headers_internal", "src/mcu_prog.rs:get_marker", "src/mcu_prog.rs:decode_mcu_ycbcr_progressive", "src/bitstream.rs:refill", "src/bitstream.rs:decode_mcu_block", "src/headers.rs:parse_huffman"]}
{"id": "C02", "title": "No input makes the decoder panic", "statement": "For every byte buffer, decode_buffer and read_headers return Ok or Err; they never panic (index out of bounds, unwrap on None, slice too short).", "quantifier": "all byte buffers, all options", "why_tests_cant": "The fuzz target samples buffers; absence of a panicking buffer is a universal claim over an infinite set.", "anchors": ["src/decoder.rs:decode_buffer", "src/headers.rs:parse_sos", "src/mcu.rs:check_tables", "src/worker.rs:color_convert_ycbcr", "src/color_convert/scalar.rs:ycbcr_to_grayscale"]}
{"id": "C03", "title": "Pixel buffer has the advertised size", "statement": "Whenever decode_buffer returns Ok(pixels), pixels.len() equals width() * height() * get_output_colorspace().num_components() as reported by the decoder after the call.", "quantifier": "all byte buffers and options for which decoding succeeds", "why_tests_cant": "Callers index the buffer with the reported dimensions; a single hostile file breaking the equation is enough for an out-of-bounds access.", "anchors": ["src/mcu.rs:decode_mcu_ycbcr_baseline", "src/mcu_prog.rs:finish_progressive_decoding", "src/decoder.rs:width", "src/decoder.rs:height"]}
{"id": "C04", "title": "Dimension limits are enforced", "statement": "If read_headers or decode_buffer succeeds on a new decoder, the reported width and height are non-zero and do not exceed the configured max_width and max_height.", "quantifier": "all byte buffers, all limits", "why_tests_cant": "The limit protects against memory exhaustion by hostile files, so it has to hold for files nobody has written yet.", "anchors": ["src/headers.rs:parse_start_of_frame", "src/options.rs:set_max_width", "src/options.rs:set_max_height"]}
{"id": "C05", "title": "read_headers agrees with decode_buffer", "statement": "On equal decoders and equal bytes: if read_headers fails, decode_buffer fails with the same error; if decode_buffer succeeds on a progressive image, read_headers succeeds and reports the same ImageInfo.", "quantifier": "all byte buffers, options and decoder states", "why_tests_cant": "Users size buffers from read_headers before decoding; agreement must hold for every file.", "anchors": ["src/decoder.rs:read_headers", "src/decoder.rs:decode_internal"]}
{"id": "C06", "title": "Files without the SOI signature are rejected", "statement": "A buffer whose first two bytes are not FF D8 is rejected with IllegalMagicBytes carrying exactly those two bytes, a buffer shorter than two bytes with ExhaustedData, and neither changes the decoder's reported image information.", "quantifier": "all byte buffers, options and decoder states", "why_tests_cant": "Holds over all prefixes and all buffer lengths.", "anchors": ["src/decoder.rs:decode_headers_internal", "src/misc.rs:read_u16_be"]}
{"id": "C07", "title": "info() reports the frame header", "statement": "A new decoder's info() is None; after a successful read_headers on a file with one frame header, info() is Some and carries exactly the width, height and component count stored in that header.", "quantifier": "all well-formed frame headers, with any other segments around them", "why_tests_cant": "The value must be right for all 2^32 dimension pairs and every segment order.", "anchors": ["src/decoder.rs:info", "src/headers.rs:parse_start_of_frame"]}
{"id": "C08", "title": "Options only filter", "statement": "Raising max_width, max_height or max_scans, or switching strict mode off, never changes the pixels of an image that decoded successfully before.", "quantifier": "all byte buffers and all pairs of option sets ordered that way", "why_tests_cant": "A relational property over pairs of executions for every input.", "anchors": ["src/options.rs:ZuneJpegOptions", "src/decoder.rs:decode_headers_internal", "src/mcu.rs:decode_mcu_ycbcr_baseline", "src/mcu_prog.rs:finish_progressive_decoding"]}
{"id": "C09", "title": "Thread count and scheduling do not affect the pixels", "statement": "For a fixed buffer and options the result of decode_buffer is the same for every number of worker threads and every order or interleaving in which the workers write their rows.", "quantifier": "all images, all thread counts, all interleavings of worker writes", "why_tests_cant": "The number of schedules is astronomically large and tests see only the ones the OS picks.", "anchors": ["src/mcu.rs:decode_mcu_ycbcr_baseline", "src/mcu_prog.rs:finish_progressive_decoding", "src/worker.rs:post_process"]}
{"id": "C10", "title": "A decoder can be reused", "statement": "Decoding a buffer with a decoder that has already processed other buffers gives the same result as decoding it with a new decoder with the same options.", "quantifier": "all histories of earlier calls, all buffers", "why_tests_cant": "Depends on every field that survives a call, over all call histories.", "anchors": ["src/decoder.rs:Decoder", "src/headers.rs:parse_start_of_frame", "src/decoder.rs:parse_marker_inner"]}
{"id": "C11", "title": "Header parsing ignores what follows the first scan header", "statement": "If read_headers succeeds on a buffer, appending arbitrary bytes to the buffer changes neither the result nor the reported information.", "quantifier": "all accepted buffers, all suffixes", "why_tests_cant": "Universal over suffixes; needed for streaming use where only a prefix of the file is available.", "anchors": ["src/decoder.rs:read_headers", "src/decoder.rs:decode_headers_internal"]}
{"id": "C12", "title": "Application and comment segments are transparent", "statement": "Inserting a well-formed APPn, COM or unrecognised marker segment in front of any other header segment changes neither whether read_headers and decode_buffer succeed nor, when they do, their results and the decoder's state.", "quantifier": "all payloads up to 65533 bytes, all surrounding files", "why_tests_cant": "Metadata payloads are arbitrary; tests carry a handful.", "anchors": ["src/decoder.rs:parse_marker_inner", "src/decoder.rs:decode_headers_internal", "src/marker.rs:from_u8"]}
{"id": "C13", "title": "Fill bytes before a marker are ignored", "statement": "The standard (B.1.1.2) lets any marker be preceded by extra FF bytes; inserting such a fill byte before a header marker does not change the result.", "quantifier": "all files, all marker positions", "why_tests_cant": "Universal over files and insertion points.", "anchors": ["src/decoder.rs:decode_headers_internal", "src/marker.rs:from_u8"]}
{"id": "C14", "title": "Quantization tables are parsed faithfully", "statement": "For every DQT segment carrying any number of 8-bit tables, each destination ends up holding the 64 values of the last table sent to it, moved from zig-zag to natural order, and the other destinations are untouched.", "quantifier": "all lists of tables, all values, all prior decoder states", "why_tests_cant": "256^64 tables and arbitrarily many tables per segment.", "anchors": ["src/headers.rs:parse_dqt", "src/headers.rs:un_zig_zag", "src/misc.rs:UN_ZIGZAG"]}
{"id": "C15", "title": "Huffman table segments are parsed faithfully", "statement": "For every DHT segment carrying any number of acceptable tables, each destination ends up holding the table built from its counts and symbols, the last one winning, and no other destination changes.", "quantifier": "all lists of table definitions, all prior decoder states", "why_tests_cant": "The space of table lists is infinite.", "anchors": ["src/headers.rs:parse_huffman", "src/huffman.rs:HuffmanTable::new"]}
{"id": "C16", "title": "Huffman tables are accepted exactly when they define a prefix code", "statement": "A DHT table is accepted if and only if its code-length counts leave room for a prefix code that never uses an all-ones codeword (and, for DC tables, no symbol exceeds 15).", "quantifier": "all 16-entry count vectors with at most 256 symbols, all symbol lists", "why_tests_cant": "256^16 count vectors.", "anchors": ["src/huffman.rs:make_derived_table"]}
{"id": "C17", "title": "Huffman decoding returns the symbol whose codeword comes next", "statement": "For every accepted table and every bit sequence, decoding yields symbol s and consumes n bits if and only if the canonical codeword of s has n bits and the sequence starts with it; if no codeword matches, an error is returned.", "quantifier": "all accepted tables, all symbols, all following bits", "why_tests_cant": "All tables times all 16-bit windows; the fast and slow lookup paths must agree everywhere.", "anchors": ["src/bitstream.rs:decode_huff!", "src/huffman.rs:make_derived_table"]}
{"id": "C18", "title": "Signed coefficients follow the standard's EXTEND rule", "statement": "The value decoded from an s-bit magnitude field is the one given by EXTEND in T.81 F.12, and every value has exactly one such encoding.", "quantifier": "all magnitude categories and all bit patterns", "why_tests_cant": "Exhaustive for each category; a bit trick with arithmetic shifts is involved.", "anchors": ["src/bitstream.rs:huff_extend"]}
{"id": "C19", "title": "The bit reader delivers the unstuffed scan bits in order", "statement": "Starting from any position in a scan, the bits the decoder reads are exactly the bits of the entropy-coded bytes with the stuffed zero bytes removed, in order, none lost or repeated, up to the next marker.", "quantifier": "all scan contents and all sequences of read sizes the decoder may request", "why_tests_cant": "Refills happen at data-dependent points; every alignment of refills with FF bytes must work.", "anchors": ["src/bitstream.rs:refill", "src/bitstream.rs:get_bits", "src/bitstream.rs:drop_bits", "src/bitstream.rs:peek_bits"]}
{"id": "C20", "title": "The 4-byte fast refill is equivalent to byte-wise refill", "statement": "Skipping the byte-wise path when none of the next four bytes is FF never changes the bits delivered.", "quantifier": "all 2^32 four-byte windows and all reader states", "why_tests_cant": "2^32 windows times all states.", "anchors": ["src/bitstream.rs:has_byte", "src/bitstream.rs:has_zero", "src/bitstream.rs:refill"]}
{"id": "C21", "title": "Coefficient blocks decode to what was encoded", "statement": "For every 8x8 block of quantized coefficients that baseline JPEG can represent and every pair of Huffman tables having the needed codes, decoding the T.81 encoding of the block (at any bit position of a scan) returns exactly the block and the new DC predictor.", "quantifier": "all blocks, all tables, all bit alignments, all predictors", "why_tests_cant": "A round trip over 64 coefficients, arbitrary code tables and arbitrary alignment.", "anchors": ["src/bitstream.rs:decode_mcu_block", "src/bitstream.rs:decode_dc", "src/huffman.rs:make_derived_table"]}
{"id": "C22", "title": "Corrupt scan data cannot crash block decoding", "statement": "For every byte sequence in a scan and all accepted tables, decoding one block (baseline, or any of the progressive block decoders) ends with a block of 64 16-bit values or an error, never a panic.", "quantifier": "all scan bytes, tables, reader states", "why_tests_cant": "Corruption is arbitrary.", "anchors": ["src/bitstream.rs:decode_mcu_block", "src/bitstream.rs:decode_mcu_ac_first", "src/bitstream.rs:decode_mcu_ac_refine"]}
{"id": "C23", "title": "Samples are in 0..=255", "statement": "Every sample produced by dequantization and inverse DCT lies in 0..=255 whatever the coefficients and the quantization table, so conversion to bytes never wraps.", "quantifier": "all coefficient blocks and quantization tables, both the scalar and the AVX2 routine", "why_tests_cant": "2^1024 blocks.", "anchors": ["src/idct/scalar.rs:dequantize_and_idct_int", "src/idct/avx2.rs:dequantize_and_idct_int_avx2", "src/color_convert/scalar.rs:ycbcr_to_grayscale"]}
{"id": "C24", "title": "The inverse DCT does not overflow on legal images", "statement": "For every block whose dequantized coefficients fit the range of 8-bit JPEG, all intermediate values of the scalar inverse DCT stay inside i32, so release and overflow-checked builds compute the same samples.", "quantifier": "all blocks in range", "why_tests_cant": "64-dimensional input space.", "anchors": ["src/idct/scalar.rs:dequantize_and_idct_int"]}
{"id": "C25", "title": "The all-AC-zero shortcut agrees with the full inverse DCT", "statement": "For a block with only a DC coefficient the shortcut gives all 64 samples the same value, and that value differs by at most one from what the full transform gives, after clamping.", "quantifier": "all DC values and quantizers for which the product fits in 16 bits", "why_tests_cant": "All DC/quantizer pairs, and the full transform has to be evaluated symbolically.", "anchors": ["src/idct/scalar.rs:dequantize_and_idct_int"]}
{"id": "C26", "title": "AVX2 and scalar inverse DCT agree", "statement": "The AVX2 inverse DCT (used when unsafe code is allowed) produces the same samples as the scalar one, so ZuneJpegOptions::set_use_unsafe does not influence them.", "quantifier": "all coefficient blocks and quantization tables", "why_tests_cant": "The two existing tests use constant blocks; the claim is over all blocks.", "anchors": ["src/idct/avx2.rs:dequantize_and_idct_int_avx2", "src/idct/avx2.rs:transpose", "src/idct/scalar.rs:dequantize_and_idct_int"]}
{"id": "C27", "title": "Colour conversion is within 2 of libjpeg", "statement": "For every Y, Cb, Cr sample triple each of R, G, B differs by at most 2 from the value libjpeg(-turbo) computes, and lies in 0..=255.", "quantifier": "all 2^24 sample triples", "why_tests_cant": "Stated in the documentation for all pixels; the claim compares two integer approximations everywhere.", "anchors": ["src/color_convert/scalar.rs:ycbcr_to_rgb_16_scalar", "src/color_convert/avx.rs"]}
{"id": "C28", "title": "SIMD and scalar colour conversion agree", "statement": "The AVX2 and SSE4.1 colour conversion routines write the same bytes as the scalar ones for every 16-pixel group (for RGBX: the same R, G, B bytes), write nowhere else and advance the output position by the same amount.", "quantifier": "all 16-pixel groups of 16-bit samples, all output buffers and positions", "why_tests_cant": "2^768 groups; lane shuffles must be right for each lane.", "anchors": ["src/color_convert/avx.rs:ycbcr_to_rgb_avx2", "src/color_convert/avx.rs:ycbcr_to_rgba_avx2", "src/color_convert/sse.rs:ycbcr_to_rgba_sse_16", "src/color_convert/sse.rs:ycbcr_to_rgb_sse_16"]}
{"id": "C29", "title": "Chroma upsampling is the documented triangle filter", "statement": "Horizontal and vertical upsampling produce (3*near + far + 2) >> 2 with near/far as in the module documentation, and every result lies between the smallest and the largest input sample.", "quantifier": "all rows of any length with samples in 0..=255", "why_tests_cant": "All row lengths and all samples.", "anchors": ["src/upsampler/scalar.rs:upsample_horizontal", "src/upsampler/scalar.rs:upsample_vertical", "src/upsampler/scalar.rs:upsample_hv"]}
{"id": "C30", "title": "SSE and scalar upsampling agree", "statement": "The SSE4.1 horizontal upsampler gives the same output as the scalar one.", "quantifier": "all inputs whose length is a multiple of 4 and at least 8", "why_tests_cant": "The two existing tests use arithmetic progressions, on which wrong neighbours cannot be noticed.", "anchors": ["src/upsampler/sse.rs:upsample_horizontal_sse_u", "src/upsampler/scalar.rs:upsample_horizontal"]}
{"id": "C31", "title": "RGBA output is opaque", "statement": "When a three-component image is decoded to RGBA, every fourth output byte is 255.", "quantifier": "all three-component images", "why_tests_cant": "All images.", "anchors": ["src/decoder.rs:default", "src/color_convert.rs:choose_ycbcr_to_rgb_convert_func", "src/worker.rs:color_convert_ycbcr"]}
{"id": "C32", "title": "Grayscale and YCbCr output puts every sample at its place", "statement": "When decoding to GRAYSCALE or YCbCr, output row r, column c holds the samples of row r, column c of the reconstructed planes; padding columns are dropped and nothing else is written.", "quantifier": "all plane contents, all widths and heights", "why_tests_cant": "Layout arithmetic has to hold for all widths, including those that are not a multiple of 8.", "anchors": ["src/color_convert/scalar.rs:ycbcr_to_grayscale", "src/color_convert/scalar.rs:ycbcr_to_ycbcr"]}
{"id": "C33", "title": "RGB output puts every pixel at its place", "statement": "When decoding to RGB, output row r, column c holds the colour conversion of the samples of row r, column c.", "quantifier": "all plane contents, all widths", "why_tests_cant": "Layout arithmetic has to hold for all widths.", "anchors": ["src/worker.rs:color_convert_ycbcr"]}
{"id": "C34", "title": "Every block row of the image is decoded", "statement": "On success, all rows of the output come from decoded data, for every image height and sampling layout.", "quantifier": "all heights and supported sampling factors", "why_tests_cant": "All heights.", "anchors": ["src/mcu.rs:decode_mcu_ycbcr_baseline"]}
{"id": "C35", "title": "Restart intervals", "statement": "At every restart marker that follows the number of MCUs announced by DRI, decoding resynchronises: bits before the marker are dropped, DC predictors are zero and the next block is read from the bytes right after the marker.", "quantifier": "all restart intervals and scan contents", "why_tests_cant": "Depends on the alignment of look-ahead refills with the marker.", "anchors": ["src/mcu.rs:handle_rst", "src/bitstream.rs:reset"]}
{"id": "C36", "title": "The end of image marker does not cut off pending blocks", "statement": "Blocks whose bits lie before the EOI marker are decoded even if the bit reader has already seen the marker while reading ahead.", "quantifier": "all scans", "why_tests_cant": "Depends on how many bits are buffered when the marker is met.", "anchors": ["src/mcu.rs:decode_mcu_ycbcr_baseline", "src/bitstream.rs:refill"]}
{"id": "C37", "title": "Progressive end-of-band runs skip exactly the announced blocks", "statement": "In a progressive AC scan an end-of-band run of n blocks leaves exactly the next n blocks of the component untouched, across row boundaries, and decoding resumes at the block after them.", "quantifier": "all run lengths, block-grid sizes and positions", "why_tests_cant": "Uses division and remainder instead of a counter; all sizes and positions matter.", "anchors": ["src/mcu_prog.rs:parse_entropy_coded_data", "src/bitstream.rs:decode_mcu_ac_first"]}
{"id": "C38", "title": "Successive approximation reconstructs coefficients", "statement": "Decoding the DC coefficient with point transform Al and refining it bit by bit yields the original DC coefficient; refining an AC coefficient never changes its sign and yields the original magnitude.", "quantifier": "all coefficients, all numbers of refinement scans", "why_tests_cant": "All coefficient values and scan scripts.", "anchors": ["src/bitstream.rs:decode_prog_dc_first", "src/bitstream.rs:decode_prog_dc_refine", "src/bitstream.rs:decode_mcu_ac_refine"]}
{"id": "C39", "title": "The scan limit is enforced", "statement": "If decode_buffer succeeds on a progressive image, the number of scans processed is at most max(1, max_scans).", "quantifier": "all progressive files and limits", "why_tests_cant": "Protects against decompression bombs, so it must hold for all files.", "anchors": ["src/mcu_prog.rs:decode_mcu_ycbcr_progressive", "src/options.rs:set_max_scans"]}
{"id": "C40", "title": "set_num_threads rejects only zero", "statement": "Decoder::set_num_threads(n) returns an error exactly when n = 0 and otherwise configures n threads.", "quantifier": "all 2^64 values of n", "why_tests_cant": "2^64 values.", "anchors": ["src/decoder.rs:set_num_threads"]}
{"id": "C41", "title": "Option setters are independent and retrievable", "statement": "After any sequence of option setters each getter returns the last value passed to the matching setter, or the default.", "quantifier": "all sequences of setter calls", "why_tests_cant": "All sequences.", "anchors": ["src/options.rs:ZuneJpegOptions"]}
{"id": "C42", "title": "Unsupported frame types are reported as Unsupported", "statement": "A file whose first frame header is SOF1, SOF3, SOF9, SOF10 or SOF11 is rejected with DecodeErrors::Unsupported naming the scheme.", "quantifier": "all such files", "why_tests_cant": "All files.", "anchors": ["src/decoder.rs:parse_marker_inner", "src/marker.rs:from_u8", "src/errors.rs:from_int"]}
{"id": "C43", "title": "Grayscale baseline images decode correctly end to end", "statement": "For every single-component baseline file produced by a T.81 encoder, decode_buffer returns Ok with exactly width*height bytes, each within the rounding error of the sample T.81 prescribes for its position (inverse DCT of the dequantized coefficients, level shifted and limited).", "quantifier": "all image sizes, all coefficient blocks, all quantization and Huffman tables", "why_tests_cant": "The whole pipeline over all images.", "anchors": ["src/decoder.rs:decode_buffer", "src/mcu.rs:decode_mcu_ycbcr_baseline", "src/worker.rs:post_process"]}
{"id": "C44", "title": "Single-component files are decoded as grayscale", "statement": "If a frame header declares one component, the output colour space becomes GRAYSCALE whatever was requested, and stays visible through get_output_colorspace.", "quantifier": "all single-component frame headers and requested colour spaces", "why_tests_cant": "All headers.", "anchors": ["src/headers.rs:parse_start_of_frame", "src/decoder.rs:get_output_colorspace"]}
{"id": "C45", "title": "SIMD kernels stay inside their slices", "statement": "The SSE/AVX2 kernels never read or write outside the input and output slices they are given: an access that would is preceded by a check that panics.", "quantifier": "all slice lengths and positions", "why_tests_cant": "Unchecked pointer accesses have no observable symptom in tests.", "anchors": ["src/upsampler/sse.rs:upsample_horizontal_sse_u", "src/color_convert/sse.rs", "src/color_convert/avx.rs"]}
{"id": "C46", "title": "Flat planes stay flat", "statement": "Upsampling a plane in which all samples have one value gives a plane of that value, whichever routine (scalar, SSE4.1, AVX2) the decoder selects.", "quantifier": "all sample values, all plane sizes and all upsampling routines", "why_tests_cant": "Depends on the machine and shows up as slight stripes that image comparisons with tolerance accept.", "anchors": ["src/upsampler/avx2.rs:upsample_hv_simd", "src/upsampler/scalar.rs", "src/upsampler/sse.rs"]}
{"id": "C47", "title": "Valid progressive files are not rejected", "statement": "If a file is a valid progressive JPEG within the configured limits (T.81 scans of single components, no restart intervals), decode_buffer does not return an error.", "quantifier": "all image sizes, coefficients, Huffman tables and orders of scans", "why_tests_cant": "Whether a marker has been prefetched depends on the number of bits left in the window at the end of a scan; all lengths of scans matter.", "anchors": ["src/mcu_prog.rs:decode_mcu_ycbcr_progressive", "src/mcu_prog.rs:get_marker", "src/bitstream.rs:refill"]}
{"id": "C48", "title": "Samples are close to the inverse DCT of the standard", "statement": "For dequantized coefficients in the range of 8-bit baseline images (-2048..2048), every sample of a block differs from the inverse DCT of T.81 A.3.3 (in real numbers, level shifted, limited to 0..255) by at most 0.621 plus one seven-thousandth of the sum of the magnitudes of the coefficients, and by less than 1 if the block has a DC coefficient only; this holds for the scalar and the AVX2 routine.", "quantifier": "all blocks, quantization tables and positions", "why_tests_cant": "2^700 blocks; the error of the fixed-point arithmetic depends on the signs of all coefficients.", "anchors": ["src/idct/scalar.rs:dequantize_and_idct_int", "src/idct/avx2.rs:dequantize_and_idct_avx2"]}
{"id": "C49", "title": "Grayscale progressive images decode correctly end to end", "statement": "For every valid single-component progressive file within the configured limits, decode_buffer returns Ok with exactly width*height bytes, each within the rounding error of the sample T.81 prescribes for its position (inverse DCT of the dequantized coefficients the scans send, level shifted and limited); if scans are missing at the end, this holds of the coefficients as far as they have been sent.", "quantifier": "all image sizes, coefficients, quantization and Huffman tables, orders of scans, numbers of refinements, machines and options", "why_tests_cant": "The whole pipeline over all images; the result combines entropy decoding, refinement, dequantization, inverse DCT and placement.", "anchors": ["src/decoder.rs:decode_buffer", "src/mcu_prog.rs:decode_mcu_ycbcr_progressive", "src/mcu_prog.rs:finish_progressive_decoding", "src/worker.rs:post_process"]}
{"id": "C50", "title": "Colour progressive images without subsampling decode correctly end to end", "statement": "For every valid three-component 4:4:4 progressive file within the configured limits, decode_buffer returns Ok with exactly width*height*channels bytes: for YCbCr output the samples of the three components in pixel order, each within the rounding error of the sample T.81 prescribes; for grayscale output the luminance samples; for RGB output the JFIF conversion of the exact samples, each channel within 2 plus the weighted rounding errors of the samples.", "quantifier": "all image sizes, coefficients, quantization and Huffman tables, orders of scans, numbers of refinements, machines and options", "why_tests_cant": "The whole pipeline over all images; the result combines entropy decoding, refinement, dequantization, inverse DCT, colour conversion and placement.", "anchors": ["src/decoder.rs:decode_buffer", "src/mcu_prog.rs:decode_mcu_ycbcr_progressive", "src/mcu_prog.rs:finish_progressive_decoding", "src/worker.rs:post_process", "src/color_convert/scalar.rs:ycbcr_to_rgb_16_scalar", "src/color_convert/avx.rs:ycbcr_to_rgb_avx2"]}
{"id": "C51", "title": "Baseline colour images without subsampling decode correctly end to end", "statement": "For every valid three-component 4:4:4 baseline file (one interleaved scan, no restart intervals) within the configured limits, decode_buffer returns Ok with exactly width*height*channels bytes: for YCbCr output the samples of the three components in pixel order, each within the rounding error of the sample T.81 prescribes; for grayscale output the luminance samples; for RGB output the JFIF conversion of the exact samples, each channel within 2 plus the weighted rounding errors of the samples.", "quantifier": "all image sizes, coefficients, quantization and Huffman tables, machines and options", "why_tests_cant": "The whole pipeline over all images; what happens at the end of the data depends on how many bits the last blocks take.", "anchors": ["src/decoder.rs:decode_buffer", "src/mcu.rs:decode_mcu_ycbcr_baseline", "src/bitstream.rs:decode_mcu_block", "src/worker.rs:post_process"]}
{"id": "C52", "title": "Colour images with subsampled chroma decode correctly end to end", "statement": "For every valid three-component baseline file with 4:2:2, 4:4:0 or 4:2:0 chroma (one interleaved scan, no restart intervals) within the configured limits, decode_buffer returns Ok with exactly width*height*channels bytes: the luminance samples are those T.81 prescribes up to the rounding error; the chroma samples are those T.81 prescribes, brought to the size of the image with the triangle filter of libjpeg (weights 3/4 and 1/4); RGB output is the JFIF conversion of these.", "quantifier": "all image sizes, sampling factors, coefficients, quantization and Huffman tables, machines and options", "why_tests_cant": "The whole pipeline over all images; whole rows of MCUs are missing for some heights, and wide flat images crash.", "anchors": ["src/decoder.rs:decode_buffer", "src/mcu.rs:decode_mcu_ycbcr_baseline", "src/worker.rs:post_process", "src/upsampler/scalar.rs", "src/upsampler/sse.rs"]}
{"id": "C53", "title": "Progressive colour images with subsampled chroma decode correctly end to end", "statement": "For every valid three-component progressive file with 4:2:2, 4:4:0 or 4:2:0 chroma within the configured limits, decode_buffer returns Ok with exactly width*height*channels bytes: the luminance samples are those T.81 prescribes up to the rounding error; the chroma samples are those T.81 prescribes, brought to the size of the image with the triangle filter of libjpeg (weights 3/4 and 1/4); RGB output is the JFIF conversion of these.", "quantifier": "all image sizes, sampling factors, coefficients, quantization and Huffman tables, orders of scans, numbers of refinements, machines and options", "why_tests_cant": "The whole pipeline over all images; for some sizes the result is a black image without any error, which no test notices unless it happens to use such a size.", "anchors": ["src/decoder.rs:decode_buffer", "src/mcu_prog.rs:decode_mcu_ycbcr_progressive", "src/mcu_prog.rs:finish_progressive_decoding", "src/worker.rs:post_process", "src/upsampler/scalar.rs", "src/upsampler/sse.rs"]}
{"id": "C54", "title": "Segments between progressive scans do not change the picture", "statement": "Comments, application data, quantization tables for later frames and restart interval definitions may stand between the scans of a progressive file (T.81 B.2.4). Inserting a comment or an application segment there does not change what decode_buffer returns.", "quantifier": "all progressive files, positions between scans and segments", "why_tests_cant": "A file cut at any scan still shows a plausible picture; the loss of the later scans shows only in comparison with another decoder.", "anchors": ["src/mcu_prog.rs:decode_mcu_ycbcr_progressive", "src/mcu_prog.rs:get_marker"]}
{"id": "C55", "title": "Baseline images may have one scan for each component", "statement": "A baseline colour file in which every component has its own scan decodes to the same pixels as the file with one interleaved scan and the same coefficients (T.81 A.2, B.2.3).", "quantifier": "all baseline files with several scans", "why_tests_cant": "Test images come from encoders that interleave.", "anchors": ["src/mcu.rs:decode_mcu_ycbcr_baseline", "src/headers.rs:parse_sos", "src/decoder.rs:decode_internal"]}
{"id": "C56", "title": "Sampling factors of a single component do not matter", "statement": "In a file with one component the blocks come row by row whatever the sampling factors in the frame header are (T.81 A.2.2). decode_buffer returns the same pixels for all factors 1 and 2, baseline or progressive, in strict mode or not.", "quantifier": "all single-component files, sampling factors, machines and options", "why_tests_cant": "All images with unusual factors; the geometry of every pixel depends on them.", "anchors": ["src/mcu.rs:decode_mcu_ycbcr_baseline", "src/mcu_prog.rs:decode_mcu_ycbcr_progressive", "src/headers.rs:parse_start_of_frame", "src/decoder.rs:set_upsampling"]}
{"id": "C57", "title": "Huffman tables may precede the frame header", "statement": "Moving a Huffman table segment from behind the frame header to the place before it changes neither the outcome of read_headers nor that of decode_buffer.", "quantifier": "all files, tables and frame headers", "why_tests_cant": "Encoders agree on one order, so tests see only that one.", "anchors": ["src/headers.rs:parse_huffman", "src/huffman.rs:make_derived_table", "src/decoder.rs:parse_marker_inner"]}
{"id": "C58", "title": "Quantization tables may follow the frame header", "statement": "A quantization table sent between the frame header and the scan header is the one used for the components that select it (T.81 B.2.4.1: tables are in force when the scan starts).", "quantifier": "all files, tables and frame headers", "why_tests_cant": "Encoders agree on one order, so tests see only that one.", "anchors": ["src/headers.rs:parse_dqt", "src/headers.rs:parse_start_of_frame"]}
{"id": "C59", "title": "Component identifiers are arbitrary", "statement": "Identifiers of components are free (T.81 B.2.2: 0 to 255, all different); the result of decode_buffer does not depend on which ones a file uses.", "quantifier": "all files and all choices of identifiers", "why_tests_cant": "Test images use the JFIF identifiers 1, 2, 3.", "anchors": ["src/components.rs:Components::from", "src/headers.rs:parse_sos"]}
{"id": "C60", "title": "Truncated files are reported", "statement": "If a file is accepted, decode_buffer fails on every proper beginning of it that lacks part of the headers or of the entropy-coded data, and read_headers fails exactly on the beginnings that end before the end of the first scan header.", "quantifier": "all files and all cut points", "why_tests_cant": "A file has as many cut points as bytes.", "anchors": ["src/decoder.rs:decode_headers_internal", "src/bitstream.rs:refill", "src/mcu.rs:decode_mcu_ycbcr_baseline"]}
{"id": "C61", "title": "An output format is delivered or refused", "statement": "For every colour space that can be requested, decode_buffer either returns pixels in this colour space or an error.", "quantifier": "all colour spaces and files", "why_tests_cant": "Every combination of input and output colour space has its own conversion routine.", "anchors": ["src/color_convert.rs:choose_ycbcr_to_rgb_convert_func", "src/worker.rs:post_process", "src/worker.rs:color_convert_ycbcr"]}
{"id": "C62", "title": "Grayscale output is the luminance of YCbCr output", "statement": "For a colour file, the bytes decode_buffer returns when grayscale is requested are exactly the first bytes of the pixels it returns when YCbCr is requested, whatever the sampling factors and the coding of the file.", "quantifier": "all valid baseline and progressive colour files of all sizes and samplings, all processors, all option values", "why_tests_cant": "The two formats are written by different routines with different strides; agreement on a few images says nothing about other widths.", "anchors": ["src/worker.rs:post_process_inner", "src/components.rs", "src/mcu.rs:decode_mcu_ycbcr_baseline", "src/mcu_prog.rs:decode_mcu_ycbcr_progressive"]}
{"id": "C63", "title": "RGB output is the conversion of YCbCr output", "statement": "Each pixel decode_buffer returns when RGB is requested is the colour conversion of the pixel it returns at the same place when YCbCr is requested.", "quantifier": "all valid baseline and progressive colour files, all processors, all option values, all pixels", "why_tests_cant": "The pixels of an image are converted in groups by several routines; which pixels go through which one depends on the width.", "anchors": ["src/worker.rs:post_process_inner", "src/color_convert/scalar.rs:ycbcr_to_rgb_16_scalar", "src/color_convert/avx.rs:ycbcr_to_rgb_avx2", "src/color_convert/sse.rs:ycbcr_to_rgb_sse"]}
{"id": "C64", "title": "Pixels depend on the image, not on its coding", "statement": "Two files with the same coefficients and quantization tables decode to the same pixels, whether they are baseline, baseline with restart intervals or progressive, and whatever Huffman tables, scans and other segments they have (lossless transcoding).", "quantifier": "all pairs of valid files with the same coefficients", "why_tests_cant": "There are unboundedly many ways to code an image; a test compares a few pairs.", "anchors": ["src/mcu.rs:decode_mcu_ycbcr_baseline", "src/mcu_prog.rs:decode_mcu_ycbcr_progressive", "src/bitstream.rs:decode_mcu_block", "src/worker.rs:post_process"]}
{"id": "C65", "title": "A sample depends only on its block", "statement": "A luminance sample, and without subsampling a chrominance sample, depends only on the coefficients of its block, the quantization table and its place in the block: images that share a block have the same samples there, whatever their sizes and the other blocks (lossless cropping).", "quantifier": "all pairs of valid files, all pairs of places", "why_tests_cant": "It relates every two images that share a block.", "anchors": ["src/idct/scalar.rs:dequantize_and_idct_int", "src/idct/avx2.rs:dequantize_and_idct_avx2", "src/worker.rs:post_process_inner"]}
{"id": "C66", "title": "Scan parameters without a meaning in baseline files are ignored", "statement": "Two baseline files that differ only in the spectral selection and successive approximation parameters of the scan header decode alike: decode_buffer returns the same pixels for both, or pixels for neither. Some encoders write other values than 0, 63, 0, 0.", "quantifier": "all files with a baseline frame header, all values of the parameters, all contents before and after the scan header, all processors, all option values", "why_tests_cant": "The parameters are kept in the same fields progressive decoding uses; that no step of baseline decoding reads them is a statement about all files.", "anchors": ["src/headers.rs:parse_sos", "src/mcu.rs:decode_mcu_ycbcr_baseline"]}
