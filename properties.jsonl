{"id": "C01", "title": "F(n) is the big-endian value of the next n bits", "statement": "F(n), for 0<=n<=63, returns the unsigned big-endian number formed by the next n bits of Data (bit 7 of each byte first), advances Position by exactly n and changes nothing else; it panics exactly when fewer than n bits remain.", "quantifier": "every byte sequence, every bit position inside it, every n in 0..63", "why_tests_cant": "the two existing tests fix one 2-byte buffer", "anchors": ["internal/bitstream/bitstream.go: F, readBit"]}
{"id": "C02", "title": "F reads concatenate", "statement": "Reading m bits and then n bits gives the same bits, the same final position and the same panics as reading m+n bits at once, the result being split as hi*2^n+lo.", "quantifier": "all data, positions, m, n with m+n<=63", "why_tests_cant": "infinitely many splits and positions", "anchors": ["internal/bitstream/bitstream.go: F"]}
{"id": "C03", "title": "Uvlc decodes every uvlc code word", "statement": "Every value v in 0..2^32-2 written as an AV1 uvlc code word (k zeros, a one, k bits) is decoded to v consuming exactly 2k+1 bits; a run of 32 or more zeros ended by a one yields 2^32-1 and consumes only the run and the one; Uvlc never hangs: if there is no one bit left it panics.", "quantifier": "every value, every position, every following bits", "why_tests_cant": "2^32 values and unbounded zero runs", "anchors": ["internal/bitstream/bitstream.go: Uvlc"]}
{"id": "C04", "title": "Leb128 round trip", "statement": "Every value below 2^56, written as a little-endian base-128 number of 1..8 bytes (including over-long encodings), is decoded to that value at any bit alignment; exactly 8*k bits are consumed and Leb128Bytes is set to k. Any result is in 0..2^56-1.", "quantifier": "every value, every encoding length, every alignment", "why_tests_cant": "2^56 values times paddings", "anchors": ["internal/bitstream/bitstream.go: Leb128"]}
{"id": "C05", "title": "Su(n) is two's complement", "statement": "Su(n) decodes the n-bit two's complement representation of every v in -2^(n-1)..2^(n-1)-1 to v, consuming n bits; Su's range is exactly that interval.", "quantifier": "every n in 1..62, every value", "why_tests_cant": "unbounded family of widths and values", "anchors": ["internal/bitstream/bitstream.go: Su"]}
{"id": "C06", "title": "Ns(n) round trip", "statement": "For every n>=1 Ns(n) decodes the AV1 non-symmetric code of every v<n to v, consuming floor(log2 n) or that +1 bits as the code prescribes, and never returns a value outside 0..n-1 on any input bits.", "quantifier": "every n>=1 (n<2^62), every v<n, every input", "why_tests_cant": "unbounded n", "anchors": ["internal/bitstream/bitstream.go: Ns", "internal/util/util.go: FloorLog2"]}
{"id": "C07", "title": "Le(n) round trip", "statement": "Le(n) returns the little-endian number formed by the next n bytes (n<=7), consuming 8n bits.", "quantifier": "every n<=7, all data", "why_tests_cant": "256^n values", "anchors": ["internal/bitstream/bitstream.go: Le"]}
{"id": "C08", "title": "ByteAlignment reaches the next byte boundary", "statement": "ByteAlignment advances Position to the smallest multiple of 8 that is >= Position (by at most 7 bits), does nothing when already aligned, and never fails when the position is inside the data.", "quantifier": "all data and positions", "why_tests_cant": "all positions", "anchors": ["internal/bitstream/bitstream.go: ByteAlignment"]}
{"id": "C09", "title": "TrailingBits consumes the rest of the payload", "statement": "TrailingBits(k), k>=1, advances by exactly k bits whatever their content; it panics iff fewer than k bits remain.", "quantifier": "all k, data, positions", "why_tests_cant": "unbounded k", "anchors": ["internal/bitstream/bitstream.go: TrailingBits"]}
{"id": "C10", "title": "Bitstream readers never move backwards, never write", "statement": "Every bitstream reader (F, Uvlc, Leb128, TrailingBits, ByteAlignment, Su, Ns, Le), whenever it returns, leaves Data unchanged, has not decreased Position, and has not moved Position past the end of Data.", "quantifier": "every sequence of reader calls with arbitrary arguments on any data", "why_tests_cant": "histories of calls are unbounded", "anchors": ["internal/bitstream/bitstream.go"]}
{"id": "C11", "title": "OBU header round trip", "statement": "Every OBU header (type 0..15, has_size, extension with temporal id 0..7 and spatial id 0..3), serialised per the AV1 syntax, is decoded back field by field; exactly 1 byte is consumed without and 2 bytes with extension.", "quantifier": "all header values, all positions, all following bits", "why_tests_cant": "tests check one byte pattern", "anchors": ["internal/header/header.go: NewHeader, NewExtensionHeader"]}
{"id": "C12", "title": "TileLog2 is the least k", "statement": "TileLog2(blk, target), blk>=1, returns the least k>=0 with blk*2^k >= target; it does not terminate for blk=0, target>0.", "quantifier": "all blk>=1, target up to 2^62", "why_tests_cant": "unbounded arguments; non-termination cannot be tested", "anchors": ["internal/util/util.go: TileLog2"]}
{"id": "C13", "title": "CeilLog2 / FloorLog2 are the logarithms", "statement": "For x>=1, FloorLog2(x) is the unique s with 2^s <= x < 2^(s+1); CeilLog2(x) is the least i with x <= 2^i; FloorLog2(0) = -1; FloorLog2 of a negative number never returns.", "quantifier": "all 64-bit arguments", "why_tests_cant": "unbounded arguments, non-termination", "anchors": ["internal/util/util.go: CeilLog2, FloorLog2"]}
{"id": "C14", "title": "Round2 rounds half up", "statement": "Round2(x,n) is the integer nearest to x/2^n, ties towards +infinity, for every x (also negative) and n>=0.", "quantifier": "all x, n (no overflow)", "why_tests_cant": "all integers", "anchors": ["internal/util/util.go: Round2"]}
{"id": "C15", "title": "Round2Signed is symmetric rounding", "statement": "Round2Signed(x,n) equals Round2(x,n) for x>=0 and -Round2(-x,n) for x<0.", "quantifier": "all x, n", "why_tests_cant": "all integers", "anchors": ["internal/util/util.go: Round2Signed"]}
{"id": "C16", "title": "Clip3 / Clip1 clamp", "statement": "Clip3(lo,hi,z) with lo<=hi lies in [lo,hi] and equals z when z already does; Clip1(x, d) is x clamped to 0..2^d-1.", "quantifier": "all arguments", "why_tests_cant": "all integers", "anchors": ["internal/util/util.go: Clip3, Clip1"]}
{"id": "C17", "title": "InverseRecenter is a bijection", "statement": "For every r>=0, v -> InverseRecenter(r,v) is a bijection from the naturals onto the naturals, visiting values in order of distance from r.", "quantifier": "all r>=0, v>=0", "why_tests_cant": "infinite domain", "anchors": ["internal/util/util.go: InverseRecenter"]}
{"id": "C18", "title": "NegDeinterleave is a bijection of 0..max-1", "statement": "For 0<=ref<max, diff -> NegDeinterleave(diff,ref,max) is the spec's bijection of 0..max-1.", "quantifier": "all max, ref, diff", "why_tests_cant": "all arguments", "anchors": ["internal/util/util.go: NegDeinterleave"]}
{"id": "C19", "title": "Sort sorts the requested range only", "statement": "Sort(arr,i1,i2) leaves elements outside i1..i2 untouched and replaces arr[i1..i2] by its sorted permutation; it panics iff the range is invalid.", "quantifier": "all slices and index pairs", "why_tests_cant": "all inputs", "anchors": ["internal/util/util.go: Sort"]}
{"id": "C20", "title": "Brev / Cos128 / Sin128 compute bit reversal and the cosine table", "statement": "Brev(n,x) reverses the low n bits of x; Cos128 and Sin128 are defined on every integer angle and satisfy the quarter wave symmetries.", "quantifier": "all n, x, all angles", "why_tests_cant": "all integers", "anchors": ["internal/util/util.go: Brev, Cos128, Sin128"]}
{"id": "C21", "title": "Colour configuration round trip", "statement": "Every colour configuration representable in the AV1 color_config() syntax for profiles 0..2 is decoded back field by field, consuming exactly its encoding; every returned BitDepth is 8, 10 or 12, NumPlanes is 1 iff monochrome else 3, and vertical subsampling implies horizontal subsampling.", "quantifier": "all profiles, all configurations, all input bits", "why_tests_cant": "2^40 configurations", "anchors": ["internal/sequenceheader/sequence_header.go: NewColorConfig"]}
{"id": "C22", "title": "Sequence header round trip", "statement": "Every AV1 sequence header is decoded to the values that were encoded (sizes, tool flags, colour configuration).", "quantifier": "all sequence headers in the AV1 syntax", "why_tests_cant": "astronomically many headers", "anchors": ["internal/sequenceheader/sequence_header.go: NewSequenceHeader"]}
{"id": "C23", "title": "An OBU consumes exactly its declared size", "statement": "After an OBU that carries obu_size, the position is 8*obu_size bits after the size field, whatever the payload type.", "quantifier": "every OBU in every stream", "why_tests_cant": "all payloads", "anchors": ["internal/obu/obu.go: build"]}
{"id": "C24", "title": "Dropped OBUs are skipped exactly and have no effect", "statement": "An OBU outside the selected operating point (temporal or spatial layer bit not set) is skipped by exactly its declared size, without reading a payload bit and without changing decoder state; sequence headers and temporal delimiters are never dropped.", "quantifier": "all headers, operating points and states", "why_tests_cant": "all combinations of layer ids and operating points", "anchors": ["internal/obu/obu.go: build"]}
{"id": "C25", "title": "Unit framing accounts for every byte", "statement": "Parsing a stream consumes the temporal units one after the other; within a temporal unit, the frame units; within a frame unit, the OBUs, each starting where the length fields say; the parser terminates on every finite input, and returns one entry per OBU in order.", "quantifier": "all byte streams", "why_tests_cant": "all streams", "anchors": ["internal/parser/parser.go: bitstream, temporalUnit, frameUnit"]}
{"id": "C26", "title": "Sequence header persistence", "statement": "A sequence header stays in effect for all later OBUs of the stream until replaced by another one.", "quantifier": "all streams", "why_tests_cant": "histories of OBUs", "anchors": ["internal/parser/parser.go: frameUnit"]}
{"id": "C27", "title": "Symbol decoder invariant", "statement": "After init and after every symbol: 2^15 <= SymbolRange < 2^16 and 0 <= SymbolValue < SymbolRange; every returned symbol is in 0..N-1; the search loop always stops inside the cdf.", "quantifier": "all valid cdfs, all data, all histories of symbol reads", "why_tests_cant": "unbounded histories", "anchors": ["internal/symbol/symbol.go: ReadSymbol", "internal/tilegroup/tile_group.go: initSymbol"]}
{"id": "C28", "title": "CDF adaptation keeps CDFs valid", "statement": "Every adaptation keeps the cdf non-decreasing, below or equal 32768, ending in 32768, with counter in 0..32; it increases the probability of the decoded symbol; with DisableCdfUpdate the cdf is unchanged.", "quantifier": "all valid cdfs and symbol histories", "why_tests_cant": "unbounded histories", "anchors": ["internal/symbol/symbol.go: ReadSymbol"]}
{"id": "C29", "title": "A tile's symbol data never leaves the tile", "statement": "From initSymbol(sz) on, any history of symbol and literal reads keeps the position inside the sz bytes of the tile, and exitSymbol lands exactly at the end of the tile.", "quantifier": "all tile sizes, data, histories", "why_tests_cant": "unbounded histories", "anchors": ["internal/symbol/symbol.go", "internal/tilegroup/tile_group.go: initSymbol, exitSymbol"]}
{"id": "C30", "title": "Every symbol sequence is encodable", "statement": "For every sequence of symbols over valid cdfs with non zero probability there is tile data from which exactly this sequence is decoded.", "quantifier": "all symbol sequences", "why_tests_cant": "unbounded sequences", "anchors": ["internal/symbol/symbol.go"]}
{"id": "C31", "title": "Literals", "statement": "L(n) returns a value in 0..2^n-1, NS(n) a value in 0..n-1, whatever the data.", "quantifier": "all n, data, states", "why_tests_cant": "all data", "anchors": ["internal/literal/literal.go"]}
{"id": "C32", "title": "Tiles partition the frame", "statement": "The tile column and row starts returned are strictly increasing, start at 0, end at MiCols resp. MiRows, and every tile start is superblock aligned: every mode info unit lies in exactly one tile; at most 64 columns and rows.", "quantifier": "all frame sizes, all tile syntax bits", "why_tests_cant": "all frame sizes", "anchors": ["internal/tileinfo/tile_info.go"]}
{"id": "C33", "title": "Superres width bounds", "statement": "0 < FrameWidth <= UpscaledWidth <= 65536, UpscaledWidth <= 2*FrameWidth (+rounding), without superres both are equal.", "quantifier": "all headers", "why_tests_cant": "all sizes and denominators", "anchors": ["internal/uncompressedheader/uncompressed_header.go: superResParams"]}
{"id": "C34", "title": "Mode info grid covers the frame", "statement": "MiCols*4 >= FrameWidth, MiCols is even and MiCols*4 < FrameWidth+8; the same for rows.", "quantifier": "all sizes", "why_tests_cant": "all sizes", "anchors": ["internal/uncompressedheader/uncompressed_header.go: computeImageSize"]}
{"id": "C35", "title": "Quantizer index range", "statement": "GetQIndex returns a value in 0..255 for every segment; ignoring deltas it depends only on base_q_idx and the segment feature.", "quantifier": "all header values", "why_tests_cant": "all combos", "anchors": ["internal/uncompressedheader/uncompressed_header.go: GetQIndex"]}
{"id": "C36", "title": "Lossless flag", "statement": "CodedLossless holds iff for every one of the 8 segments the qindex is 0 and all five deltas are 0; AllLossless additionally iff superres is not used.", "quantifier": "all header values", "why_tests_cant": "all combos", "anchors": ["internal/uncompressedheader/uncompressed_header.go: build"]}
{"id": "C37", "title": "Partition decoding covers each block exactly once", "statement": "For every block size and every partition type, the sub-blocks decoded tile the block: every 4x4 position is covered exactly once.", "quantifier": "all block sizes, positions, partition types", "why_tests_cant": "all positions", "anchors": ["internal/tilegroup/decode_partition.go"]}
{"id": "C38", "title": "Loop filter keeps samples in range", "statement": "Narrow and wide loop filters map in-range samples to in-range samples and change only the taps they are meant to.", "quantifier": "all samples, thresholds, bit depths", "why_tests_cant": "all sample values", "anchors": ["internal/tilegroup/loop_filter_process.go"]}
{"id": "C39", "title": "CDEF output stays between the taps", "statement": "A CDEF filtered sample lies between the minimum and maximum of the samples it is computed from; strength 0 leaves it unchanged; direction is in 0..7.", "quantifier": "all frames and strengths", "why_tests_cant": "all samples", "anchors": ["internal/tilegroup/cdef.go"]}
{"id": "C40", "title": "Intra prediction interpolates", "statement": "DC, Paeth and smooth predictors produce samples between the min and max of the neighbours used.", "quantifier": "all neighbours and block sizes", "why_tests_cant": "all values", "anchors": ["internal/tilegroup/predict_intra.go"]}
{"id": "C41", "title": "Walsh-Hadamard transform is lossless", "statement": "The inverse 4x4 WHT inverts the forward WHT for every residual block.", "quantifier": "all residuals", "why_tests_cant": "all integers", "anchors": ["internal/tilegroup/transform.go"]}
{"id": "C42", "title": "Motion vector candidate stack ordering", "statement": "Sorting the candidates orders them by decreasing weight and keeps each motion vector attached to its weight.", "quantifier": "all stacks", "why_tests_cant": "all weights", "anchors": ["internal/tilegroup/find_mv_stack.go"]}
{"id": "C43", "title": "Reference update touches exactly the refreshed slots", "statement": "After a frame, exactly the reference slots with a set refresh flag hold the new frame's data; all others are unchanged.", "quantifier": "all refresh masks and slots", "why_tests_cant": "all masks and contents", "anchors": ["internal/tilegroup/decode_frame_wrapup.go"]}
{"id": "C44", "title": "Frames without primary reference start from the default CDFs", "statement": "A frame with primary_ref_frame none starts decoding from the default CDF tables, whatever was decoded before.", "quantifier": "all histories", "why_tests_cant": "histories", "anchors": ["internal/uncompressedheader/cdf.go"]}
{"id": "C45", "title": "A returned sequence header is internally consistent", "statement": "Whatever the bits, a sequence header that parses has field values in range and consistent with each other (sizes fit their bit counts, order-hint dependent tools only with order hints, forced values in 0..2, colour configuration valid).", "quantifier": "all byte streams and positions", "why_tests_cant": "all inputs", "anchors": ["internal/sequenceheader/sequence_header.go: NewSequenceHeader"]}
{"id": "C46", "title": "Sequence header parsing is total", "statement": "Parsing a sequence header never loops, never changes the data, only moves forward, and never ends outside the data: it returns or panics.", "quantifier": "all byte streams and positions", "why_tests_cant": "all inputs", "anchors": ["internal/sequenceheader/sequence_header.go: NewSequenceHeader"]}
{"id": "C47", "title": "Repeated and redundant frame headers are accepted", "statement": "A redundant frame header OBU after the frame header of the same frame is accepted and has no effect.", "quantifier": "all streams and states", "why_tests_cant": "histories of OBUs", "anchors": ["internal/obu/obu.go: ParseFrameHeader, FrameHeaderCopy"]}
{"id": "C48", "title": "Frame header parsing is total", "statement": "With any sequence header the decoder has accepted and any decoder state, parsing a frame header never loops, never changes the data, only moves forward and never ends outside the data: it returns or panics.", "quantifier": "all accepted sequence headers, states, byte streams and positions", "why_tests_cant": "all inputs", "anchors": ["internal/uncompressedheader/uncompressed_header.go: NewUncompressedHeader, build"]}
{"id": "C49", "title": "Quantizer parameters round trip", "statement": "quantization_params() written as the AV1 syntax prescribes is read back as base_q_idx, the five deltas (V deltas equal to the U deltas unless coded separately, all 0 for monochrome) and the matrix levels, consuming exactly its bits.", "quantifier": "all parameter values, plane counts and separate_uv_delta_q settings", "why_tests_cant": "product of all values", "anchors": ["internal/uncompressedheader/uncompressed_header.go: quantizationParams, readDeltaQ"]}
{"id": "C50", "title": "Segmentation parameters round trip", "statement": "segmentation_params() of a frame without primary reference is read back: every enabled feature of every segment with its value, SegIdPreSkip set exactly when a feature from ref_frame up is enabled, LastActiveSegId the largest segment with an enabled feature.", "quantifier": "all 64 optional feature values", "why_tests_cant": "2^64 enable patterns times values", "anchors": ["internal/uncompressedheader/uncompressed_header.go: segmentationParams"]}
{"id": "C51", "title": "CDEF parameters round trip", "statement": "cdef_params() is read back with damping 3..6 and 2^cdef_bits strengths per plane type, a secondary strength of 4 being coded as 3.", "quantifier": "all strengths, dampings, bit counts, plane counts", "why_tests_cant": "product of all values", "anchors": ["internal/uncompressedheader/uncompressed_header.go: cdefParams"]}
{"id": "C52", "title": "Loop restoration parameters round trip", "statement": "lr_params() is read back as the restoration type of each plane and the unit sizes (64..256, chroma optionally halved).", "quantifier": "all type combinations, sizes, superblock sizes, subsamplings", "why_tests_cant": "product of all values", "anchors": ["internal/uncompressedheader/uncompressed_header.go: lrParams"]}
{"id": "C53", "title": "Film grain parameters round trip", "statement": "film_grain_params() with updated parameters is read back: seed, scaling points, auto-regressive coefficients (their number given by the lag), multipliers and flags.", "quantifier": "all parameter sets, monochrome or not, all subsamplings, frame types", "why_tests_cant": "unbounded product of values", "anchors": ["internal/uncompressedheader/uncompressed_header.go: filmGrainParams"]}
{"id": "C54", "title": "Loop filter parameters round trip", "statement": "loop_filter_params() is read back as four levels, sharpness and updated deltas; for lossless frames and intra block copy the levels are zero.", "quantifier": "all parameter values", "why_tests_cant": "product of all values", "anchors": ["internal/uncompressedheader/uncompressed_header.go: loopFilterParams"]}
{"id": "C55", "title": "Render size defaults to the frame size", "statement": "Without explicit render size, the render size is the upscaled width and the frame height; with it, the two coded values.", "quantifier": "all headers", "why_tests_cant": "all inputs", "anchors": ["internal/uncompressedheader/uncompressed_header.go: renderSize"]}
{"id": "C56", "title": "Refresh flags are taken from the stream", "statement": "A frame that is neither a switch frame nor a shown key frame refreshes exactly the slots of the refresh_frame_flags coded in its header.", "quantifier": "all headers", "why_tests_cant": "all inputs", "anchors": ["internal/uncompressedheader/uncompressed_header.go: build"]}
{"id": "C57", "title": "Skip mode is available when two reference frames surround the frame", "statement": "skip_mode_present is read when order hints are enabled, the frame uses compound reference and has a nearest forward and backward (or second forward) reference.", "quantifier": "all order hints and references", "why_tests_cant": "all order hint combinations", "anchors": ["internal/uncompressedheader/uncompressed_header.go: skipModeParams, GetRelativeDist"]}
{"id": "C58", "title": "Global motion parameters follow the coded type", "statement": "A reference with a coded global motion type other than identity gets the coded parameters.", "quantifier": "all headers", "why_tests_cant": "all inputs", "anchors": ["internal/uncompressedheader/uncompressed_header.go: globalMotionParams, readGlobalParam"]}
{"id": "C59", "title": "Frame header values are in range", "statement": "Whatever the bits, a returned frame header has frame type 0..3, eight-bit refresh flags, reference indices 0..7, quantizer, segmentation, delta, loop filter, CDEF, restoration and film grain parameters inside the ranges the syntax allows, and coding modes consistent with each other (delta LF only with delta Q, intra block copy only in intra frames without superres, lossless frames only 4x4 transforms).", "quantifier": "all byte streams, sequence headers and states", "why_tests_cant": "all inputs", "anchors": ["internal/uncompressedheader/uncompressed_header.go: NewUncompressedHeader"]}
{"id": "C60", "title": "Quantizer matrix level per plane", "statement": "With quantizer matrices, a segment that is not lossless uses qm_y for luma, qm_u for U and qm_v for V; a lossless one uses level 15.", "quantifier": "all headers", "why_tests_cant": "all combos", "anchors": ["internal/uncompressedheader/uncompressed_header.go: build"]}
{"id": "C61", "title": "Screen content tools obey the sequence header", "statement": "When the sequence header forces screen content tools (or integer motion vectors) off, frames have them off; when it forces them on, on.", "quantifier": "all headers", "why_tests_cant": "all inputs", "anchors": ["internal/uncompressedheader/uncompressed_header.go: build"]}
{"id": "C62", "title": "Delta Q and delta LF parameters round trip", "statement": "delta_q_params() and delta_lf_params() are read back, and are absent exactly when base_q_idx is 0, or delta Q is absent or intra block copy is on.", "quantifier": "all parameter values", "why_tests_cant": "product of all values", "anchors": ["internal/uncompressedheader/uncompressed_header.go: deltaQParams, deltaLfParams"]}
{"id": "C63", "title": "Tile contexts can be cleared for every frame size", "statement": "At the start of each tile (above) and tile row (left) all contexts of the whole frame width (height) are reset to 0, whatever the frame size.", "quantifier": "all frame sizes and context contents", "why_tests_cant": "all sizes", "anchors": ["internal/tilegroup/tile_group.go: clearAboveContext, clearLeftContext"]}
{"id": "C64", "title": "Default CDF tables are valid CDFs", "statement": "Every default CDF is usable by the symbol decoder: increasing, at most 16 symbols, ending with 32768, adaptation counter 0; so the first read of each syntax element succeeds.", "quantifier": "all default tables, all tile data", "why_tests_cant": "thousands of tables times all tile data", "anchors": ["internal/uncompressedheader/cdf.go: DEFAULT_*"]}
{"id": "C65", "title": "Loop filter level of an edge", "statement": "The loop filter level of an edge is the frame level changed by the block's delta LF, the segment's feature and the reference and mode deltas, clamped to 0..63 at each stage.", "quantifier": "all headers, segments, references, modes, planes and passes", "why_tests_cant": "product of all values", "anchors": ["internal/tilegroup/loop_filter_process.go: adaptiveFilterStrengthSelection"]}
{"id": "C66", "title": "Loop filter limits of an edge", "statement": "The limit, outer limit and threshold of an edge follow from its level and the frame's sharpness as the specification prescribes.", "quantifier": "all levels and sharpness values, all frames", "why_tests_cant": "all combos", "anchors": ["internal/tilegroup/loop_filter_process.go: adaptiveFilterStrength"]}
{"id": "C67", "title": "CDEF direction search finds the best direction", "statement": "The direction found for an 8x8 block is the first of the eight whose lines explain the block best, and the variance is its lead over the perpendicular direction.", "quantifier": "all sample blocks, bit depths and positions", "why_tests_cant": "2^512 blocks", "anchors": ["internal/tilegroup/cdef.go: cdefDirection"]}
{"id": "C68", "title": "Dequantisation", "statement": "Each coefficient of a block is multiplied by its quantizer step (scaled by the quantizer matrix where one applies), cut to 24 bits, divided by the transform size's divisor and saturated to bitdepth + 8 signed bits; nothing else is written.", "quantifier": "all coefficients, steps, matrices, transform sizes, bit depths", "why_tests_cant": "all values", "anchors": ["internal/tilegroup/reconstruct.go: reconstruct"]}
{"id": "C69", "title": "Quantizer steps", "statement": "DC and AC quantizer steps are those of the standard's tables for the clamped index, growing with the index.", "quantifier": "all indices (also out of range), bit depths", "why_tests_cant": "all integers", "anchors": ["internal/tilegroup/reconstruct.go: dcQ, acQ, getDcQuant, getAcQuant"]}
{"id": "C70", "title": "Inverse transforms", "statement": "The inverse transform of a block returns the residual the standard prescribes for each transform type and size.", "quantifier": "all coefficient blocks, types, sizes", "why_tests_cant": "all blocks", "anchors": ["internal/tilegroup/transform.go: InverseTranform, inverseDCT, inverseADST, inverseIdentityTransform"]}
{"id": "C71", "title": "Reconstruction adds the residual", "statement": "Reconstructing a block adds the residual to the prediction, clips to the bit depth, and changes only the samples of the block.", "quantifier": "all predictions, residuals, positions, transform types", "why_tests_cant": "all values", "anchors": ["internal/tilegroup/reconstruct.go: reconstruct"]}
{"id": "C72", "title": "Motion vector precision lowering", "statement": "Without high precision motion vectors, each component of a candidate vector is rounded to a multiple of 2 eighths (8 with integer vectors), ties towards zero; with high precision it is unchanged.", "quantifier": "all vectors", "why_tests_cant": "all integers", "anchors": ["internal/tilegroup/find_mv_stack.go: lowerPrecision"]}
{"id": "C73", "title": "Candidates clamped to the frame", "statement": "Each candidate vector returned is clamped, to the nearest vector with which the block reaches at most its own size and 16 samples beyond the frame.", "quantifier": "all blocks, frame sizes and vectors", "why_tests_cant": "all values", "anchors": ["internal/tilegroup/find_mv_stack.go: clampMv, contextAndClamping"]}
{"id": "C74", "title": "Each candidate appears once with summed weight", "statement": "Searching a neighbour adds its vector to the candidate stack once: an equal candidate gets the weight added, otherwise it becomes a new last candidate with that weight.", "quantifier": "all stacks, neighbours and weights", "why_tests_cant": "all histories of searches", "anchors": ["internal/tilegroup/find_mv_stack.go: searchStackProcess, compoundSearchStackProcess"]}
{"id": "C75", "title": "Candidate search", "statement": "For every neighbourhood, the motion vector candidate search terminates with up to eight candidates and symbol contexts in range.", "quantifier": "all neighbourhoods, block sizes and positions", "why_tests_cant": "all neighbourhoods", "anchors": ["internal/tilegroup/find_mv_stack.go: findMvStack"]}
{"id": "C76", "title": "Intra prediction stays inside its block", "statement": "An intra prediction call changes only the samples of its block, always returns, and over any sequence of calls every sample of the frame and of the neighbour buffers stays a legal sample of the bit depth.", "quantifier": "all call sequences, modes, positions, sizes, frames", "why_tests_cant": "all histories", "anchors": ["internal/tilegroup/predict_intra.go: predictIntra"]}
{"id": "C77", "title": "Intra prediction uses the decoded neighbours", "statement": "The row above is the last decoded row above the block (repeated at the right frame edge), the left column the decoded column left of it, mid-grey minus or plus one where missing.", "quantifier": "all positions, availabilities, frames", "why_tests_cant": "all frames", "anchors": ["internal/tilegroup/predict_intra.go: predictIntra"]}
{"id": "C78", "title": "Directional intra prediction", "statement": "Each sample of a directional block is the neighbour (interpolated to a 32nd) met when going from it in the prediction direction.", "quantifier": "all angles, sizes, neighbours", "why_tests_cant": "all neighbours and angles", "anchors": ["internal/tilegroup/predict_intra.go: directionalIntraPredictionProcess"]}
{"id": "C79", "title": "Filter-intra prediction", "statement": "A luma block using filter-intra is predicted with the recursive filter of its mode.", "quantifier": "all neighbours, modes, sizes", "why_tests_cant": "all neighbours", "anchors": ["internal/tilegroup/predict_intra.go: recursiveIntraPredictionProcess"]}
{"id": "C80", "title": "Saved CDFs are a snapshot", "statement": "The CDFs saved for a reference slot are those of the frame at the time of saving: a later frame that takes the slot as its primary reference starts from exactly these, whatever was decoded in between.", "quantifier": "all histories of frames, tiles, symbol reads, saves and loads", "why_tests_cant": "histories; aliasing shows only after particular interleavings", "anchors": ["internal/uncompressedheader/cdf.go: SaveCdfs, LoadCdfs", "internal/symbol/symbol.go: ReadSymbol"]}
{"id": "C81", "title": "A symbol read adapts only its own CDF", "statement": "Reading one syntax element with one context adapts that CDF and leaves the CDFs of all other syntax elements and contexts unchanged.", "quantifier": "all histories, all pairs of CDF variables and contexts", "why_tests_cant": "all pairs and histories; aliasing", "anchors": ["internal/uncompressedheader/cdf.go: initNonCoeffCdfs", "internal/symbol/symbol.go: ReadSymbol"]}
{"id": "C82", "title": "Every CDF variable is initialised", "statement": "After a frame header without primary reference and the start of a tile, every CDF variable of the tile is set to a table, whatever happened before.", "quantifier": "all histories, all CDF variables", "why_tests_cant": "histories", "anchors": ["internal/uncompressedheader/cdf.go: initNonCoeffCdfs, initCoeffCdfs", "internal/tilegroup/tile_group.go: initSymbol"]}
{"id": "C83", "title": "CDF tables cover all contexts of the standard", "statement": "For every syntax element and every context of the AV1 standard there is a CDF with the right number of symbols, at the start of every frame.", "quantifier": "all tables, contexts, base_q_idx and histories", "why_tests_cant": "tens of thousands of tables times all histories", "anchors": ["internal/uncompressedheader/cdf.go: DEFAULT_*"]}
{"id": "C84", "title": "Tiles start from the frame's CDFs", "statement": "Each tile of a frame starts from the CDFs of the frame header, independently of what was decoded in the other tiles.", "quantifier": "all histories of tiles and symbol reads", "why_tests_cant": "histories; aliasing", "anchors": ["internal/tilegroup/tile_group.go: initSymbol, exitSymbol"]}
{"id": "C85", "title": "Reference frames survive to the next frame", "statement": "A frame kept in a reference slot still has all its data (header values, motion vectors, segment ids, samples) when the next frame is decoded.", "quantifier": "all slots, frames, positions", "why_tests_cant": "all contents; lost data shows only in later frames", "anchors": ["internal/obu/obu.go", "internal/tilegroup/tile_group.go: FrameStore"]}
{"id": "C86", "title": "Super-resolution keeps flat areas and unscaled frames", "statement": "The upscaled frame equals the input where it is flat, and equals the input everywhere when the frame is not scaled.", "quantifier": "all frames, planes, sizes, positions", "why_tests_cant": "all frames and sizes", "anchors": ["internal/tilegroup/decode_frame_wrapup.go: upscalingProcess"]}
{"id": "C87", "title": "Super-resolution keeps the picture aligned", "statement": "For widths up to 1024 and a reduction of at least a sixteenth, output columns are evenly spaced in the input row and each is taken at the centre of its column, with an error of at most (width+10)/4 units of 2^-14 of a column.", "quantifier": "all widths up to 1024, all scalings of at least 16/15, all columns", "why_tests_cant": "all pairs of widths", "anchors": ["internal/tilegroup/decode_frame_wrapup.go: upscalingProcess"]}
{"id": "C88", "title": "Loop restoration stays in its planes, stripes and units", "statement": "Planes without restoration are copied; every block lies inside its plane and stripe; samples are read inside the plane and at most two rows outside the stripe; the block uses the restoration unit that contains it.", "quantifier": "all frames, planes, positions, sizes, subsamplings", "why_tests_cant": "all positions and sizes", "anchors": ["internal/tilegroup/loop_restoration.go: loopRestoration, loopRestoreBlock, getSourceSample"]}
{"id": "C89", "title": "Loop restoration filters run", "statement": "Frames with Wiener or self-guided restoration are filtered.", "quantifier": "all frames and unit types", "why_tests_cant": "all frames", "anchors": ["internal/tilegroup/loop_restoration.go: wienerFilter, selfGuidedFilter"]}
{"id": "C90", "title": "The output is the decoded frame", "statement": "The frame given to the user is the decoded and filtered frame; a frame that is not shown gives no output.", "quantifier": "all frames, sizes, filter settings", "why_tests_cant": "all frames and settings", "anchors": ["internal/tilegroup/tile_group.go: decodeFrameWrapup", "internal/tilegroup/output.go: outputProcess"]}
{"id": "C91", "title": "Operating points, film grain and repeated frames", "statement": "Frames of a stream with operating points, with film grain, and frames shown again are output as they were decoded.", "quantifier": "all frames and headers", "why_tests_cant": "all headers", "anchors": ["internal/tilegroup/output.go: outputProcess", "internal/tilegroup/decode_frame_wrapup.go: referenceFrameLoadingProcess"]}
{"id": "C92", "title": "Which edges the loop filter touches", "statement": "An edge is filtered only if it is on the screen, is not the picture border, lies on a transform edge, and lies on a block edge or belongs to an intra or non-skipped block; the filter length is that of the smaller transform of the two sides across the edge, at most 16 for luma and 8 for chroma; all vertical edges of a plane are filtered before its horizontal ones, each position once.", "quantifier": "all frames, planes, positions, block and transform sizes, subsamplings", "why_tests_cant": "all frames and positions", "anchors": ["internal/tilegroup/loop_filter_process.go: loopFilter, loopFilterEdge, filterSize"]}
{"id": "C93", "title": "How the partition symbol is read", "statement": "A neighbour is available iff it lies in the tile; the partition symbol uses the CDF of the block size and of the neighbours' split context, adapts only that CDF, and gives a legal partition of the block; it is read only when the block fits in the frame.", "quantifier": "all tiles, blocks, neighbours, CDF contents and data", "why_tests_cant": "all neighbourhoods and data", "anchors": ["internal/tilegroup/decode_partition.go: decodePartition", "internal/tilegroup/util.go: isInside"]}
{"id": "C94", "title": "Frame headers of key and intra-only frames", "statement": "Any legal header of a key frame or intra-only frame, coded as in the AV1 syntax, decodes to exactly the values that were coded (type and flags, sizes, tiles, quantizer, segmentation, filters, transform mode, film grain), consumes exactly its bits, and sets the frame size and tiles of the decoder state.", "quantifier": "all sequence headers, frame headers and decoder states", "why_tests_cant": "all headers: dozens of interdependent optional fields", "anchors": ["internal/uncompressedheader/uncompressed_header.go: NewUncompressedHeader, build", "internal/tileinfo/tile_info.go: NewTileInfo"]}
{"id": "C95", "title": "What the motion vector search looks at and how it counts", "statement": "A neighbour's pair of vectors adds its weight to stored pairs equal in both vectors only; candidates adjacent to the block get a bonus of 640; the scan of a row or column depends only on neighbours beside the block, in the frame and within 64 samples; missing candidates become the global vector; the DRL context of an entry compares its weight and its successor's with 640.", "quantifier": "all neighbourhoods, candidate stacks and blocks", "why_tests_cant": "all neighbourhoods", "anchors": ["internal/tilegroup/find_mv_stack.go: compoundSearchStackProcess, scanRowProcess, scanColProcess, extraSearchProcess, contextAndClampingProcess"]}
{"id": "C96", "title": "The coefficients of a transform block are those of the bitstream", "statement": "Parsing a transform block reads exactly the symbols and bits of the AV1 coefficient syntax (zero flag, transform type, number of coefficients, levels, signs, Golomb remainders), each with the table and context the standard prescribes, yields the coefficients that were coded, and leaves the neighbour contexts and transform types the standard prescribes.", "quantifier": "all planes, transform sizes, blocks in the frame, neighbour contexts, CDF tables, tile data", "why_tests_cant": "all data, contexts and adaptation states", "anchors": ["internal/tilegroup/coeffs.go: coeffs, allZeroSymbol, transformType, getCoeffBaseCtx, readCoeffBrSymbol, readDcSignSymbol"]}
{"id": "C97", "title": "The coefficient order is the standard's", "statement": "For every transform size and type allowed in it, coefficients are placed in the order of the standard (row, column, or diagonal scan), which visits every position of the coded area exactly once.", "quantifier": "all transform sizes and types", "why_tests_cant": "all sizes and types", "anchors": ["internal/tilegroup/coeffs.go: getScan, getMColScan, getMrowScan, getDefaultScan"]}
{"id": "C98", "title": "Transform types are legal", "statement": "Whatever the data, the type recorded for a luma block belongs to the set allowed for its size and prediction; a chroma block uses the type of the luma block or of its intra mode if its own set has it, else DCT; one-dimensional types occur only up to 16x16.", "quantifier": "all data, sizes, modes, blocks", "why_tests_cant": "all data", "anchors": ["internal/tilegroup/coeffs.go: transformType, computeTxType, getTxSet, isTxTypeInSet"]}
{"id": "C99", "title": "The number of coefficients is reported", "statement": "Parsing a transform block returns the number of coefficients coded, on which the reconstruction of the block depends.", "quantifier": "all blocks and data", "why_tests_cant": "all data", "anchors": ["internal/tilegroup/coeffs.go: coeffs"]}
{"id": "C100", "title": "Parsing a transform block terminates", "statement": "For every tile data, parsing a transform block ends.", "quantifier": "all data, tables, blocks", "why_tests_cant": "no bound on the length of a run", "anchors": ["internal/tilegroup/coeffs.go: coeffs"]}
{"id": "C101", "title": "Every transform block that begins in the frame can be parsed", "statement": "A transform block that begins inside the frame is parsed, also when it extends beyond the right or bottom edge.", "quantifier": "all blocks, sizes, frames", "why_tests_cant": "all sizes and positions", "anchors": ["internal/tilegroup/coeffs.go: coeffs, transformType", "internal/tilegroup/tile_group.go: TxTypes, AboveLevelContext, LeftLevelContext"]}
{"id": "C102", "title": "Mode information of intra frames follows the syntax", "statement": "Parsing the mode information of a block of an intra frame reads exactly the symbols and bits of the AV1 syntax (segment, skip, CDEF index, deltas, luma and chroma modes, angles, chroma from luma, palette and filter flags), each with the standard's table and context, and stores exactly their values.", "quantifier": "all blocks, headers, neighbours, tile data and tables", "why_tests_cant": "all data and neighbourhoods", "anchors": ["internal/tilegroup/intra_frame_mode_info.go: intraFrameModeInfo"]}
{"id": "C103", "title": "The skip flag is read with the context of the neighbours", "statement": "The skip flag uses the context given by the number of neighbours (above, left) that are skipped.", "quantifier": "all blocks and neighbours, tile data", "why_tests_cant": "all neighbourhoods", "anchors": ["internal/tilegroup/intra_frame_mode_info.go: readSkip"]}
{"id": "C104", "title": "The segment of a block is the coded one", "statement": "The segment is predicted from the three neighbours and decoded relative to the prediction; it is always one of the segments in use.", "quantifier": "all neighbours, numbers of segments, coded values", "why_tests_cant": "all combinations and data", "anchors": ["internal/tilegroup/intra_frame_mode_info.go: readSegmentId, intraSegmentId", "internal/util/util.go: NegDeinterleave"]}
{"id": "C105", "title": "The CDEF index is stored for the areas the block covers", "statement": "A CDEF index is read once for each 64x64 area, at the first block that is not skipped, and stored for exactly the areas the block covers.", "quantifier": "all block positions, sizes, grids, data", "why_tests_cant": "all positions and grids", "anchors": ["internal/tilegroup/intra_frame_mode_info.go: readCdef"]}
{"id": "C106", "title": "Quantizer and loop filter deltas", "statement": "Deltas are read once per superblock unless it is skipped as a whole, scaled by the resolution of the header, added and clipped to 1..255 and -63..63; one loop filter delta or one per filter level as the header says.", "quantifier": "all blocks, headers, values, data", "why_tests_cant": "all data", "anchors": ["internal/tilegroup/intra_frame_mode_info.go: readDeltaQIndex, readDeltaLf"]}
{"id": "C107", "title": "Luma mode and angle", "statement": "The luma mode is read with the context of the modes above and to the left, and is one of the 13 intra modes; an angle in -3..3 is read only for directional modes of blocks of at least 8x8.", "quantifier": "all neighbours, blocks, data", "why_tests_cant": "all data", "anchors": ["internal/tilegroup/intra_frame_mode_info.go: intraFrameYModeSymbol, intraAngleInfoY, intraAngleInfoUv"]}
{"id": "C108", "title": "Chroma mode and chroma from luma", "statement": "Chroma from luma is available for blocks up to 32x32 (4x4 chroma if lossless); its two parameters have the coded sign and magnitude and are not both 0.", "quantifier": "all blocks and data", "why_tests_cant": "all data", "anchors": ["internal/tilegroup/intra_frame_mode_info.go: intraFrameModeInfo, readCflAlphas"]}
{"id": "C109", "title": "Palette, filter-intra and intra block copy flags are read", "statement": "Streams that allow palettes, recursive filter prediction or intra block copy are parsed.", "quantifier": "all blocks and data with these tools", "why_tests_cant": "all data", "anchors": ["internal/tilegroup/intra_frame_mode_info.go: intraFrameModeInfo, filterIntraModeInfo", "internal/tilegroup/palette.go: paletteModeInfo", "internal/bitstream/bitstream.go: S"]}
{"id": "C110", "title": "Reference frames of an intra block", "statement": "A block of an intra frame is recorded with reference frames INTRA_FRAME and NONE.", "quantifier": "all blocks and previous values", "why_tests_cant": "all histories", "anchors": ["internal/tilegroup/intra_frame_mode_info.go: intraFrameModeInfo"]}
{"id": "C111", "title": "The transform size of a block is the coded one", "statement": "For blocks without a tree of transform sizes, the size is 4x4 if lossless, else the largest transform of the block, split as often as the depth symbol says; the symbol is read, with the table of the block size and the context of the neighbours, for intra blocks and for inter blocks that are not skipped.", "quantifier": "all blocks, neighbours, headers, tile data", "why_tests_cant": "all neighbours and data", "anchors": ["internal/tilegroup/tx_size.go: readBlockTxSize, readTxSize, txDepthSymbol, getAboveTxWidth, getLeftTxHeight"]}
{"id": "C112", "title": "The transform size is recorded over the block", "statement": "After a block without a tree is parsed, exactly the positions the block covers hold its transform size, anywhere in the frame.", "quantifier": "all blocks, positions, previous contents", "why_tests_cant": "all positions", "anchors": ["internal/tilegroup/tx_size.go: readBlockTxSize"]}
{"id": "C113", "title": "Trees of transform sizes of inter blocks are parsed", "statement": "Inter blocks that are not skipped read a tree of transform sizes, and every position of a leaf holds its size.", "quantifier": "all inter blocks", "why_tests_cant": "all trees", "anchors": ["internal/tilegroup/tx_size.go: readVarTxSize"]}
{"id": "C114", "title": "Which blocks have chroma and which neighbours they see", "statement": "A block has chroma iff the stream has and it covers an odd row and column of every subsampled direction; its luma (chroma) neighbours are available iff the position above (left of) its luma (chroma) area lies in the tile.", "quantifier": "all blocks, sizes, positions, tiles, subsamplings", "why_tests_cant": "all positions and tiles", "anchors": ["internal/tilegroup/decode_block.go: decodeBlock", "internal/tilegroup/util.go: isInside"]}
{"id": "C115", "title": "Modes and reference frames of a block are recorded", "statement": "After a block is parsed, exactly the positions it covers hold its luma mode, its chroma mode and its reference frames, anywhere in the frame.", "quantifier": "all blocks, positions, values, previous contents", "why_tests_cant": "all positions", "anchors": ["internal/tilegroup/decode_block.go: decodeBlock"]}
{"id": "C116", "title": "Motion data of inter blocks is recorded", "statement": "After an inter block is parsed, the positions it covers hold its motion vectors, interpolation filters and compound indices, which later blocks and frames use.", "quantifier": "all blocks and histories", "why_tests_cant": "all histories", "anchors": ["internal/tilegroup/decode_block.go: decodeBlock"]}
{"id": "C117", "title": "Flags and sizes of a block are recorded", "statement": "After a block is decoded, exactly the positions it covers hold its inter, skip and skip mode flags, transform size, block size, palette sizes and loop filter deltas, anywhere in the frame.", "quantifier": "all blocks, positions, values, previous contents", "why_tests_cant": "all positions", "anchors": ["internal/tilegroup/decode_block.go: decodeBlock"]}
{"id": "C118", "title": "Skipped blocks clear the coefficient contexts", "statement": "A skipped block sets the level and DC contexts above and to the left to 0 over exactly the positions it covers in each plane, and only there.", "quantifier": "all blocks, subsamplings, previous contexts", "why_tests_cant": "all positions and histories", "anchors": ["internal/tilegroup/decode_block.go: resetBlockContext, decodeBlock"]}
{"id": "C119", "title": "Each intra mode uses its predictor and is stored in place", "statement": "A block predicted with mode 0 is filled by the mean, 1 to 8 by the direction of the mode, 9 to 11 by the smooth predictors, 12 by Paeth, sample (i, j) of the prediction going to row y+i, column x+j; the edge filters, their strengths, the upsampling and the corner filter are chosen as in the standard.", "quantifier": "all modes, block sizes, positions, neighbours and frames", "why_tests_cant": "all samples and neighbours", "anchors": ["internal/tilegroup/predict_intra.go: predictIntra, intraEdgeFilterStrengthSelectionProcess, intraEdgeUpsampleSelectionProcess, filterCornerProcess"]}
{"id": "C120", "title": "The box filter of self-guided restoration is the standard's", "statement": "The two box filtered versions of a sample are those of the standard: from the sums and squares of the window, the noise parameter of the set, and the 3x3 weights of the pass.", "quantifier": "all pictures, parameter sets, bit depths and positions", "why_tests_cant": "all samples", "anchors": ["internal/tilegroup/loop_restoration.go: boxFilter"]}
{"id": "C121", "title": "The stages at the end of a frame run in order", "statement": "A new frame is deblocked if a level is not 0, CDEF reads the deblocked frame, both are superresolved and restored, and the result goes to the refreshed slots and, if shown, to the output; without a coded map the segment ids are those of the previous frame; a repeated frame is output unfiltered.", "quantifier": "all frames, headers and states", "why_tests_cant": "all histories", "anchors": ["internal/tilegroup/tile_group.go: decodeFrameWrapup"]}
{"id": "C122", "title": "Motion vector differences are read with the standard's tables", "statement": "A motion vector difference reads the joint symbol, and for each coded component sign, class, integer bits, fraction and precision, each with the table of the context (inter or intra block copy) and component, in the order of the syntax; no other table is adapted.", "quantifier": "all headers, table contents, tile data", "why_tests_cant": "all data and adaptation histories", "anchors": ["internal/tilegroup/assign_mv.go: readMv, readMvComponent", "internal/uncompressedheader/cdf.go: initNonCoeffCdfs"]}
{"id": "C123", "title": "A motion vector difference has the coded value", "statement": "The value of a component is the one the class, the integer bits, the fraction and the precision bit code, with the coded sign; the vector is prediction plus difference.", "quantifier": "all symbols, predictions, headers", "why_tests_cant": "all symbol sequences", "anchors": ["internal/tilegroup/assign_mv.go: readMv, readMvComponent"]}
{"id": "C124", "title": "Each vector of a compound block is found the way its mode says", "statement": "For each of the twelve inter modes, the vector of each reference is the nearest or near candidate, the global motion or a new vector as the mode says.", "quantifier": "all modes and both references", "why_tests_cant": "exhaustive over modes; used by every block", "anchors": ["internal/tilegroup/assign_mv.go: getMode"]}
{"id": "C125", "title": "The motion vectors of a block are assigned from the candidates", "statement": "Global modes take the global motion, the others the candidate with the coded index (the first for nearest, and for new vectors if at most one was found); new vectors add the difference; a block copied from the same frame starts from the first candidate that is not zero, else from the superblock above, or to the left in the first row.", "quantifier": "all candidate lists, indices, modes, positions, data", "why_tests_cant": "all lists and data", "anchors": ["internal/tilegroup/assign_mv.go: assignMv"]}
{"id": "C126", "title": "Restoration units are read with the superblock they begin in", "statement": "With each superblock exactly those restoration units of each plane are read whose top left corner lies in it, at the upscaled resolution; so each unit of the frame is read exactly once.", "quantifier": "all frame sizes, superblocks, planes, unit sizes, superresolution denominators", "why_tests_cant": "all sizes and positions", "anchors": ["internal/tilegroup/read_loop_restoration.go: readLr", "internal/util/util.go: CountUnitsInFrame"]}
{"id": "C127", "title": "Reading a filter coefficient terminates on any data", "statement": "The coefficients of restoration filters are read in a loop without limit; whatever the tile data, the loop ends and the reader stays in the tile.", "quantifier": "all tile data, states, parameters", "why_tests_cant": "termination for every input", "anchors": ["internal/tilegroup/read_loop_restoration.go: decodeSubexpBool"]}
{"id": "C128", "title": "Filter coefficients have the coded value", "statement": "A coefficient is the value of the standard's subexponential code, recentred around that of the previous unit, and lies in its range.", "quantifier": "all bit sequences, references, the four parameter sets", "why_tests_cant": "all inputs", "anchors": ["internal/tilegroup/read_loop_restoration.go: decodeSubexpBool, decodeUnsignedSubexpWithRefBool, decodeSignedSubexpWithRefBool"]}
{"id": "C129", "title": "Restoration units are parsed and stored", "statement": "A unit stores its type, and its self-guided set and weights or its Wiener coefficients, which become the prediction for the next unit of the plane; other planes keep theirs.", "quantifier": "all frames, planes, units, data", "why_tests_cant": "all histories", "anchors": ["internal/tilegroup/read_loop_restoration.go: readLrUnit"]}
{"id": "C130", "title": "The transform blocks of a block cover it exactly", "statement": "In each plane every sample of a block's area is in exactly one transform block and no other sample is in any; the blocks come in the order of the standard: chunks of 64x64, planes in a chunk, rows and columns in a plane.", "quantifier": "all block sizes, positions, transform sizes, subsamplings, planes and samples", "why_tests_cant": "all blocks and positions", "anchors": ["internal/tilegroup/residual.go: residual, getTxSize"]}
{"id": "C131", "title": "The transforms of inter luma are the leaves of the recorded tree", "statement": "For inter blocks the luma transform blocks are those of the tree given by the recorded sizes: a part that fits the size recorded at its corner is a transform, others are halved or quartered, parts outside the frame left out, in raster order of the parts; every sample in the frame is in exactly one.", "quantifier": "all blocks, recorded sizes, frame sizes", "why_tests_cant": "induction over all trees", "anchors": ["internal/tilegroup/residual.go: transformTree, findTxSize, residual"]}
{"id": "C132", "title": "A transform block predicts, reads and adds in order, and is marked as decoded", "statement": "A transform block in the frame is predicted (palette, or neighbours with availability of its plane, then chroma from luma), its coefficients are read unless skipped, the residual added if there are any; its size and that it is decoded are recorded at exactly its positions; outside the frame nothing happens.", "quantifier": "all blocks, planes, positions, sizes, modes, previous flags", "why_tests_cant": "all positions and histories", "anchors": ["internal/tilegroup/residual.go: transformBlock", "internal/state/state.go: BlockDecoded"]}
{"id": "C133", "title": "Chroma from luma adds the scaled luma", "statement": "Each chroma sample of the block becomes prediction plus alpha times (luma minus its average), rounded and clipped to the bit depth, with the alpha of its plane; other samples are unchanged.", "quantifier": "all frames, alphas, sizes, bit depths, subsamplings", "why_tests_cant": "all samples", "anchors": ["internal/tilegroup/residual.go: predictChromaFromLuma", "internal/util/util.go: Clip1, Round2Signed"]}
{"id": "C134", "title": "Palette prediction paints the colours of the map", "statement": "Each sample of the block becomes the palette colour its map entry names, in luma and chroma; other samples are unchanged.", "quantifier": "all maps, palettes, positions, sizes", "why_tests_cant": "all maps", "anchors": ["internal/tilegroup/residual.go: palettePrediction"]}
{"id": "C135", "title": "Transform sizes of chroma and of leaves", "statement": "The chroma transform is that of the block's chroma area, at most 32x32; any width and height in ratio at most 4 names its transform size.", "quantifier": "all block sizes, subsamplings, planes; all pairs of sides", "why_tests_cant": "finite but exhaustive, with shape arguments", "anchors": ["internal/tilegroup/residual.go: getTxSize, findTxSize"]}
{"id": "C136", "title": "The decoded flags are set up at the start of a superblock", "statement": "At the start of each superblock the row above and the column to the left are marked as decoded as far as the tile reaches, and everything else as not decoded.", "quantifier": "all superblocks, tiles, subsamplings, previous flags", "why_tests_cant": "all positions and histories", "anchors": ["internal/tilegroup/tile_group.go: clearBlockDecodedFlags, decodeTile"]}
{"id": "C137", "title": "Interpolation keeps constant pictures", "statement": "Predicting from a picture with the same value everywhere gives that value (times the gain of compound prediction), whatever the vector, the filters and the scale.", "quantifier": "all values, bit depths, filters, positions, sizes, scales", "why_tests_cant": "all filters and positions", "anchors": ["internal/tilegroup/predict_inter.go: blockInterPredictionProcess, roundVariablesDerivationProcess"]}
{"id": "C138", "title": "Only references within the scale limits are used", "statement": "A reference picture is refused exactly when it is more than twice as large or more than sixteen times smaller than the current one; a reference counts as scaled exactly when its size differs.", "quantifier": "all sizes of reference and frame", "why_tests_cant": "all sizes", "anchors": ["internal/tilegroup/predict_inter.go: motionVectorScalingProcess", "internal/tilegroup/util.go: isScaled"]}
{"id": "C139", "title": "A vector points to the scaled position", "statement": "The position in the reference, in 1/1024 of a sample, and the distance between samples are those of the standard for the vector, the position and the ratio of the sizes.", "quantifier": "all positions, vectors, sizes, planes", "why_tests_cant": "all vectors and sizes", "anchors": ["internal/tilegroup/predict_inter.go: motionVectorScalingProcess", "internal/util/util.go: Round2Signed"]}
{"id": "C140", "title": "The prediction is the interpolated reference", "statement": "Each predicted sample is the eight tap horizontal and vertical filter of the reference around the position the vector points to, positions outside clamped to the picture; so it depends on the vector.", "quantifier": "all pictures, vectors, filters, sizes", "why_tests_cant": "all pictures and positions", "anchors": ["internal/tilegroup/predict_inter.go: blockInterPredictionProcess"]}
{"id": "C141", "title": "Divisions of the warp model are by reciprocals", "statement": "Shift and factor of a divisor give its reciprocal to 1 part in 256.", "quantifier": "all divisors", "why_tests_cant": "all divisors", "anchors": ["internal/tilegroup/predict_inter.go: resolveDivisorProcess"]}
{"id": "C142", "title": "The shear of a warp is derived and checked", "statement": "The four shear parameters are those of the warp, clamped, rounded to multiples of 64; a warp is valid exactly when the shear stays within its limits.", "quantifier": "all warps", "why_tests_cant": "all parameters", "anchors": ["internal/tilegroup/predict_inter.go: setupShearProcess"]}
{"id": "C143", "title": "Every kind of inter prediction can be decoded", "statement": "Blocks with one or two references, wedge, difference and distance weights, inter-intra, warped and copied blocks are predicted without a failure.", "quantifier": "all blocks, references and modes", "why_tests_cant": "all kinds and states", "anchors": ["internal/tilegroup/predict_inter.go: predictInter, blockWarpProcess, warpEstimationProcess, maskBlendProcess, distanceWeightsProcess"]}
{"id": "C144", "title": "Overlapped prediction blends towards the edge", "statement": "With overlapped motion each sample becomes the rounded weighted mean of the two predictions, between them; weights depend on the distance from the edge shared with the neighbour (row from the one above, column from the one to the left), at least one half, growing to one; other samples are unchanged.", "quantifier": "all predictions, masks, positions, neighbours", "why_tests_cant": "all samples", "anchors": ["internal/tilegroup/predict_inter.go: overlapBlendingProcess, overlappedMotionCompensationProcess", "internal/util/util.go: GetObmcMask"]}
{"id": "C145", "title": "The prediction is stored in the block", "statement": "Sample (i, j) of the prediction, clipped to the bit depth, is stored at row y+i, column x+j of the plane; nothing else changes.", "quantifier": "all blocks, planes, predictions", "why_tests_cant": "all samples", "anchors": ["internal/tilegroup/predict_inter.go: predictInter"]}
{"id": "C146", "title": "The predictions of an inter block cover it with the right vectors", "statement": "For each plane an inter block asks for the predictions of the standard: one of the block's size, or, where a subsampled block covers several small inter blocks, one for each of them with its own vector; an inter-intra block is also predicted from its neighbours.", "quantifier": "all block sizes, positions, planes, subsamplings, neighbours", "why_tests_cant": "all blocks and neighbours", "anchors": ["internal/tilegroup/compute_prediction.go: computePrediction"]}
{"id": "C147", "title": "The reference frame of an inter block is read as coded", "statement": "Each inter block reads its reference with the flags of the standard, each with the context its neighbours' references give; with reference_select large blocks may have two; skip mode and segments fix the references.", "quantifier": "all neighbours, headers, data", "why_tests_cant": "all neighbourhoods and symbol sequences", "anchors": ["internal/tilegroup/inter_block_mode_info.go: readRefFrames", "internal/tilegroup/syntax_element.go"]}
{"id": "C148", "title": "The segment of a block of an inter frame", "statement": "Without an update the segment is the least of the previous map in the block; with one it is read, or predicted in time if flagged, and the flags are kept for the neighbours below and to the right.", "quantifier": "all maps, blocks, headers, data", "why_tests_cant": "all maps and histories", "anchors": ["internal/tilegroup/inter_frame_mode_info.go: interSegmentId, getSegmentId"]}
{"id": "C149", "title": "Skip mode and the inter flag are read as coded", "statement": "Skip mode is read where the frame, size and segment permit; whether a block is inter coded is fixed by skip mode, the segment's reference or global motion, else read with the context of the neighbours.", "quantifier": "all blocks, segments, neighbours, data", "why_tests_cant": "all combinations", "anchors": ["internal/tilegroup/inter_frame_mode_info.go: readSkipMode, readIsInter"]}
{"id": "C150", "title": "Intra blocks of inter frames are read as coded", "statement": "An intra block of an inter frame reads luma mode (by size class), angle, chroma mode, chroma from luma parameters, palettes and recursive filters like the standard.", "quantifier": "all blocks, headers, data", "why_tests_cant": "all symbol sequences", "anchors": ["internal/tilegroup/inter_frame_mode_info.go: intraBlockModeInfo"]}
{"id": "C151", "title": "The mode of an inter block and its candidate are read as coded", "statement": "A block with one reference reads its mode (new, global, nearest, near) and, where there is a choice, the index of the candidate.", "quantifier": "all contexts, candidates, data", "why_tests_cant": "all symbol sequences", "anchors": ["internal/tilegroup/inter_block_mode_info.go: interBlockModeInfo"]}
{"id": "C152", "title": "The motion mode is read as coded", "statement": "The motion mode is simple unless the standard codes it; samples for warping come from the neighbours with the same single reference.", "quantifier": "all blocks, neighbours, headers", "why_tests_cant": "all neighbourhoods", "anchors": ["internal/tilegroup/inter_block_mode_info.go: readMotionMode, findWarpSamples, addSample"]}
{"id": "C153", "title": "The interpolation filter is read where it is coded", "statement": "A block takes the filter of the frame; if that is switchable, the regular one where none is coded, else the coded one.", "quantifier": "all blocks, modes, global motions", "why_tests_cant": "all combinations", "anchors": ["internal/tilegroup/inter_block_mode_info.go: needsInterpFilter, interBlockModeInfo"]}
{"id": "C154", "title": "Inter-intra and compound type are read as coded", "statement": "Inter-intra is read for blocks of 8x8 to 32x32 with one reference outside of skip mode if enabled; the compound type is read for blocks with two references.", "quantifier": "all blocks and headers", "why_tests_cant": "all combinations", "anchors": ["internal/tilegroup/inter_block_mode_info.go: readInterIntraMode, readCompoundType"]}
{"id": "C155", "title": "A block of an inter frame is parsed in the order of the standard", "statement": "The elements of a block of an inter frame are read in the order, with the tables and contexts of the standard, and give its values.", "quantifier": "all blocks, states, data", "why_tests_cant": "all symbol sequences and states", "anchors": ["internal/tilegroup/inter_frame_mode_info.go: interFrameModeInfo", "internal/tilegroup/inter_block_mode_info.go: interBlockModeInfo"]}
{"id": "C156", "title": "A tile group is split into its tiles", "statement": "Each tile of a tile group is decoded once, in order, with the rectangle of its number, the base quantizer index and a symbol decoder started on exactly its own bytes; the group takes exactly its bytes and the last tile of the frame completes the frame.", "quantifier": "all tile layouts, groups, tile data and tile decoders that read through the symbol decoder", "why_tests_cant": "all groups of any number of tiles of any sizes", "anchors": ["internal/tilegroup/tile_group.go: NewTileGroup, build", "internal/tilegroup/tile_group.go: initSymbol, exitSymbol"]}
{"id": "C157", "title": "The CDEF index of a superblock is reset", "statement": "Before a superblock is decoded its CDEF index (for 128x128 all four) is reset to -1, and no other index changes, wherever the superblock is.", "quantifier": "all positions and all histories of superblocks", "why_tests_cant": "all histories and positions", "anchors": ["internal/cdef/cdef.go: ClearCdef"]}
{"id": "C158", "title": "Frames of every size can be decoded", "statement": "A tile group is decoded, whatever the size of the frame.", "quantifier": "all frame sizes, tile data, block contents", "why_tests_cant": "all sizes and data", "anchors": ["internal/tilegroup/tile_group.go: decodeTile, clearAboveContext, clearLeftContext", "internal/obu/obu.go: NewObu, newFrame"]}
{"id": "C159", "title": "Tiles are independent", "statement": "Contexts, loop filter deltas and restoration references at the start of a tile do not depend on earlier tiles: the first superblock starts from zero contexts and deltas and the middle restoration coefficients.", "quantifier": "all states earlier tiles can leave, all tiles and block decoders", "why_tests_cant": "all states", "anchors": ["internal/tilegroup/tile_group.go: decodeTile, clearAboveContext, clearLeftContext"]}
{"id": "C160", "title": "Decoding always terminates", "statement": "For every input, reading the stream ends: the loops over temporal units, frame units, OBUs, tiles, superblocks, partitions and block flags all stop (the call returns or panics).", "quantifier": "all byte streams", "why_tests_cant": "all inputs; no test can see a loop that never ends", "anchors": ["internal/parser/parser.go: bitstream, temporalUnit, frameUnit", "internal/obu/obu.go: NewObu", "internal/tilegroup/tile_group.go: build, decodeTile, decodePartition, clearBlockDecodedFlags", "internal/cdef/cdef.go: ClearCdef"]}
{"id": "C161", "title": "Tile sizes cannot break the symbol decoder", "statement": "Whatever size a tile claims (also negative or beyond the data), reading symbols and literals gives values of their alphabet and keeps the tables valid, or panics because the data are too short.", "quantifier": "all tile sizes, data, and histories of reads", "why_tests_cant": "all sizes and data", "anchors": ["internal/symbol/symbol.go: ReadSymbol", "internal/literal/literal.go: L, NS", "internal/tilegroup/tile_group.go: initSymbol"]}
{"id": "C162", "title": "The palette cache is the union of the neighbours' palettes", "statement": "The palette cache of a block has, in ascending order and without duplicates, exactly the colors of the palettes above (within the superblock row) and to the left.", "quantifier": "all positions, palettes, palette sizes and earlier contents of the cache", "why_tests_cant": "all pairs of sorted lists", "anchors": ["internal/tilegroup/palette.go: getPaletteCache"]}
{"id": "C163", "title": "Every sample of a palette block gets a color index", "statement": "The color indices of a block with a palette are read: each sample gets an index from the context of its neighbours, and the samples outside the frame copy the last one inside.", "quantifier": "all block sizes, positions, subsamplings, palette sizes, maps and data", "why_tests_cant": "all blocks and data", "anchors": ["internal/tilegroup/palette_tokens.go: paletteTokens, getPaletteColorContext"]}
{"id": "C164", "title": "Masks weigh two predictions", "statement": "The mask of a compound block weighs each sample: by the difference of the two predictions (38 to 64 parts of 64, from the other side with mask_type), or by the distance from the edge of the intra prediction; samples outside the block keep their weight.", "quantifier": "all predictions, block sizes, bit depths, modes and earlier masks", "why_tests_cant": "all blocks and sample values", "anchors": ["internal/tilegroup/predict_inter.go: differenceWeightMaskProcess, intraModeVariantMaskProcess"]}
{"id": "C165", "title": "A mask blends two predictions", "statement": "Each sample of the block becomes the mean of the two predictions (or of the intra and the inter prediction) in the proportion of its weight, with the weights averaged for subsampled planes; it lies between the two and within the bit depth, and nothing else changes.", "quantifier": "all predictions, masks, positions, sizes, planes and subsamplings", "why_tests_cant": "all blocks and sample values", "anchors": ["internal/tilegroup/predict_inter.go: maskBlendProcess"]}
{"id": "C166", "title": "Distance weights favour the nearer reference", "statement": "With distance weights, the two references get positive weights with sum 16 from the ratio of their distances (classes split at 3/2, 5/2, 7/2), the nearer one more.", "quantifier": "all order hints and references", "why_tests_cant": "all pairs of distances", "anchors": ["internal/tilegroup/predict_inter.go: distanceWeightsProcess"]}
{"id": "C167", "title": "Wedge masks", "statement": "The table of wedge masks holds, for each block size with wedges, sign and index, the window of the 64x64 mask of the standard's direction centred at the standard's point; the two signs are complementary, each row and column crosses the edge once, and sign 0 favours the first row and column.", "quantifier": "all earlier contents of the table, block sizes, signs, wedges, samples", "why_tests_cant": "all contents; 100352 table entries", "anchors": ["internal/wedgemask/wedge_mask.go: InitialiseWedgeMaskTable, getWedgeDirection, getWedgeXoff, getWedgeYoff, blockShape"]}
{"id": "C168", "title": "Coded tile sizes are read as coded", "statement": "If the tile layout is not uniform, every list of tile widths and heights the standard permits is read as coded: the number of tiles, where each starts and ends, the tile for the CDF update and the number of bytes of the tile sizes.", "quantifier": "all frame sizes, lists of tile sizes, following data", "why_tests_cant": "all lists of sizes", "anchors": ["internal/tileinfo/tile_info.go: NewTileInfo"]}
{"id": "C169", "title": "Which neighbours make the edges of a prediction smooth", "statement": "The edges of a directional prediction count as smooth exactly if the block above or the one to the left (for subsampled chroma the neighbours of the whole chroma block) is predicted in a smooth mode.", "quantifier": "all positions, planes, subsamplings, stored modes and available neighbours", "why_tests_cant": "all combinations of neighbours and positions", "anchors": ["internal/tilegroup/predict_intra.go: getFilterType, isSmooth"]}
