import json
P=[]
def p(title, statement, quant, why, anchors):
    P.append(dict(id="C%02d"%(len(P)+1), title=title, statement=statement, quantifier=quant, why_tests_cant=why, anchors=anchors))
B="internal/bitstream/bitstream.go"
p("F(n) is the big-endian value of the next n bits",
  "F(n), for 0<=n<=63, returns the unsigned big-endian number formed by the next n bits of Data (bit 7 of each byte first), advances Position by exactly n and changes nothing else; it panics exactly when fewer than n bits remain.",
  "every byte sequence, every bit position inside it, every n in 0..63","the two existing tests fix one 2-byte buffer",[B+": F, readBit"])
p("F reads concatenate","Reading m bits and then n bits gives the same bits, the same final position and the same panics as reading m+n bits at once, the result being split as hi*2^n+lo.",
  "all data, positions, m, n with m+n<=63","infinitely many splits and positions",[B+": F"])
p("Uvlc decodes every uvlc code word","Every value v in 0..2^32-2 written as an AV1 uvlc code word (k zeros, a one, k bits) is decoded to v consuming exactly 2k+1 bits; a run of 32 or more zeros ended by a one yields 2^32-1 and consumes only the run and the one; Uvlc never hangs: if there is no one bit left it panics.",
  "every value, every position, every following bits","2^32 values and unbounded zero runs",[B+": Uvlc"])
p("Leb128 round trip","Every value below 2^56, written as a little-endian base-128 number of 1..8 bytes (including over-long encodings), is decoded to that value at any bit alignment; exactly 8*k bits are consumed and Leb128Bytes is set to k. Any result is in 0..2^56-1.",
  "every value, every encoding length, every alignment","2^56 values times paddings",[B+": Leb128"])
p("Su(n) is two's complement","Su(n) decodes the n-bit two's complement representation of every v in -2^(n-1)..2^(n-1)-1 to v, consuming n bits; Su's range is exactly that interval.",
  "every n in 1..62, every value","unbounded family of widths and values",[B+": Su"])
p("Ns(n) round trip","For every n>=1 Ns(n) decodes the AV1 non-symmetric code of every v<n to v, consuming floor(log2 n) or that +1 bits as the code prescribes, and never returns a value outside 0..n-1 on any input bits.",
  "every n>=1 (n<2^62), every v<n, every input","unbounded n",[B+": Ns", "internal/util/util.go: FloorLog2"])
p("Le(n) round trip","Le(n) returns the little-endian number formed by the next n bytes (n<=7), consuming 8n bits.","every n<=7, all data","256^n values",[B+": Le"])
p("ByteAlignment reaches the next byte boundary","ByteAlignment advances Position to the smallest multiple of 8 that is >= Position (by at most 7 bits), does nothing when already aligned, and never fails when the position is inside the data.","all data and positions","all positions",[B+": ByteAlignment"])
p("TrailingBits consumes the rest of the payload","TrailingBits(k), k>=1, advances by exactly k bits whatever their content; it panics iff fewer than k bits remain.","all k, data, positions","unbounded k",[B+": TrailingBits"])
p("Bitstream readers never move backwards, never write","Every bitstream reader (F, Uvlc, Leb128, TrailingBits, ByteAlignment, Su, Ns, Le), whenever it returns, leaves Data unchanged, has not decreased Position, and has not moved Position past the end of Data.","every sequence of reader calls with arbitrary arguments on any data","histories of calls are unbounded",[B])
p("OBU header round trip","Every OBU header (type 0..15, has_size, extension with temporal id 0..7 and spatial id 0..3), serialised per the AV1 syntax, is decoded back field by field; exactly 1 byte is consumed without and 2 bytes with extension.","all header values, all positions, all following bits","tests check one byte pattern",["internal/header/header.go: NewHeader, NewExtensionHeader"])
U="internal/util/util.go"
p("TileLog2 is the least k","TileLog2(blk, target), blk>=1, returns the least k>=0 with blk*2^k >= target; it does not terminate for blk=0, target>0.","all blk>=1, target up to 2^62","unbounded arguments; non-termination cannot be tested",[U+": TileLog2"])
p("CeilLog2 / FloorLog2 are the logarithms","For x>=1, FloorLog2(x) is the unique s with 2^s <= x < 2^(s+1); CeilLog2(x) is the least i with x <= 2^i; FloorLog2(0) = -1; FloorLog2 of a negative number never returns.","all 64-bit arguments","unbounded arguments, non-termination",[U+": CeilLog2, FloorLog2"])
p("Round2 rounds half up","Round2(x,n) is the integer nearest to x/2^n, ties towards +infinity, for every x (also negative) and n>=0.","all x, n (no overflow)","all integers",[U+": Round2"])
p("Round2Signed is symmetric rounding","Round2Signed(x,n) equals Round2(x,n) for x>=0 and -Round2(-x,n) for x<0.","all x, n","all integers",[U+": Round2Signed"])
p("Clip3 / Clip1 clamp","Clip3(lo,hi,z) with lo<=hi lies in [lo,hi] and equals z when z already does; Clip1(x, d) is x clamped to 0..2^d-1.","all arguments","all integers",[U+": Clip3, Clip1"])
p("InverseRecenter is a bijection","For every r>=0, v -> InverseRecenter(r,v) is a bijection from the naturals onto the naturals, visiting values in order of distance from r.","all r>=0, v>=0","infinite domain",[U+": InverseRecenter"])
p("NegDeinterleave is a bijection of 0..max-1","For 0<=ref<max, diff -> NegDeinterleave(diff,ref,max) is the spec's bijection of 0..max-1.","all max, ref, diff","all arguments",[U+": NegDeinterleave"])
p("Sort sorts the requested range only","Sort(arr,i1,i2) leaves elements outside i1..i2 untouched and replaces arr[i1..i2] by its sorted permutation; it panics iff the range is invalid.","all slices and index pairs","all inputs",[U+": Sort"])
p("Brev / Cos128 / Sin128 compute bit reversal and the cosine table","Brev(n,x) reverses the low n bits of x; Cos128 and Sin128 are defined on every integer angle and satisfy the quarter wave symmetries.","all n, x, all angles","all integers",[U+": Brev, Cos128, Sin128"])
S="internal/sequenceheader/sequence_header.go"
p("Colour configuration round trip","Every colour configuration representable in the AV1 color_config() syntax for profiles 0..2 is decoded back field by field, consuming exactly its encoding; every returned BitDepth is 8, 10 or 12, NumPlanes is 1 iff monochrome else 3, and vertical subsampling implies horizontal subsampling.","all profiles, all configurations, all input bits","2^40 configurations",[S+": NewColorConfig"])
p("Sequence header round trip","Every AV1 sequence header is decoded to the values that were encoded (sizes, tool flags, colour configuration).","all sequence headers in the AV1 syntax","astronomically many headers",[S+": NewSequenceHeader"])
O="internal/obu/obu.go"
p("An OBU consumes exactly its declared size","After an OBU that carries obu_size, the position is 8*obu_size bits after the size field, whatever the payload type.","every OBU in every stream","all payloads",[O+": build"])
p("Dropped OBUs are skipped exactly and have no effect","An OBU outside the selected operating point (temporal or spatial layer bit not set) is skipped by exactly its declared size, without reading a payload bit and without changing decoder state; sequence headers and temporal delimiters are never dropped.","all headers, operating points and states","all combinations of layer ids and operating points",[O+": build"])
p("Unit framing accounts for every byte","Parsing a stream consumes the temporal units one after the other; within a temporal unit, the frame units; within a frame unit, the OBUs, each starting where the length fields say; the parser terminates on every finite input, and returns one entry per OBU in order.","all byte streams","all streams",["internal/parser/parser.go: bitstream, temporalUnit, frameUnit"])
p("Sequence header persistence","A sequence header stays in effect for all later OBUs of the stream until replaced by another one.","all streams","histories of OBUs",["internal/parser/parser.go: frameUnit"])
Y="internal/symbol/symbol.go"
p("Symbol decoder invariant","After init and after every symbol: 2^15 <= SymbolRange < 2^16 and 0 <= SymbolValue < SymbolRange; every returned symbol is in 0..N-1; the search loop always stops inside the cdf.","all valid cdfs, all data, all histories of symbol reads","unbounded histories",[Y+": ReadSymbol","internal/tilegroup/tile_group.go: initSymbol"])
p("CDF adaptation keeps CDFs valid","Every adaptation keeps the cdf non-decreasing, below or equal 32768, ending in 32768, with counter in 0..32; it increases the probability of the decoded symbol; with DisableCdfUpdate the cdf is unchanged.","all valid cdfs and symbol histories","unbounded histories",[Y+": ReadSymbol"])
p("A tile's symbol data never leaves the tile","From initSymbol(sz) on, any history of symbol and literal reads keeps the position inside the sz bytes of the tile, and exitSymbol lands exactly at the end of the tile.","all tile sizes, data, histories","unbounded histories",[Y,"internal/tilegroup/tile_group.go: initSymbol, exitSymbol"])
p("Every symbol sequence is encodable","For every sequence of symbols over valid cdfs with non zero probability there is tile data from which exactly this sequence is decoded.","all symbol sequences","unbounded sequences",[Y])
p("Literals","L(n) returns a value in 0..2^n-1, NS(n) a value in 0..n-1, whatever the data.","all n, data, states","all data",["internal/literal/literal.go"])
T="internal/tileinfo/tile_info.go"
p("Tiles partition the frame","The tile column and row starts returned are strictly increasing, start at 0, end at MiCols resp. MiRows, and every tile start is superblock aligned: every mode info unit lies in exactly one tile; at most 64 columns and rows.","all frame sizes, all tile syntax bits","all frame sizes",[T])
H="internal/uncompressedheader/uncompressed_header.go"
p("Superres width bounds","0 < FrameWidth <= UpscaledWidth <= 65536, UpscaledWidth <= 2*FrameWidth (+rounding), without superres both are equal.","all headers","all sizes and denominators",[H+": superResParams"])
p("Mode info grid covers the frame","MiCols*4 >= FrameWidth, MiCols is even and MiCols*4 < FrameWidth+8; the same for rows.","all sizes","all sizes",[H+": computeImageSize"])
p("Quantizer index range","GetQIndex returns a value in 0..255 for every segment; ignoring deltas it depends only on base_q_idx and the segment feature.","all header values","all combos",[H+": GetQIndex"])
p("Lossless flag","CodedLossless holds iff for every one of the 8 segments the qindex is 0 and all five deltas are 0; AllLossless additionally iff superres is not used.","all header values","all combos",[H+": build"])
p("Partition decoding covers each block exactly once","For every block size and every partition type, the sub-blocks decoded tile the block: every 4x4 position is covered exactly once.","all block sizes, positions, partition types","all positions",["internal/tilegroup/decode_partition.go"])
p("Loop filter keeps samples in range","Narrow and wide loop filters map in-range samples to in-range samples and change only the taps they are meant to.","all samples, thresholds, bit depths","all sample values",["internal/tilegroup/loop_filter_process.go"])
p("CDEF output stays between the taps","A CDEF filtered sample lies between the minimum and maximum of the samples it is computed from; strength 0 leaves it unchanged; direction is in 0..7.","all frames and strengths","all samples",["internal/tilegroup/cdef.go"])
p("Intra prediction interpolates","DC, Paeth and smooth predictors produce samples between the min and max of the neighbours used.","all neighbours and block sizes","all values",["internal/tilegroup/predict_intra.go"])
p("Walsh-Hadamard transform is lossless","The inverse 4x4 WHT inverts the forward WHT for every residual block.","all residuals","all integers",["internal/tilegroup/transform.go"])
p("Motion vector candidate stack ordering","Sorting the candidates orders them by decreasing weight and keeps each motion vector attached to its weight.","all stacks","all weights",["internal/tilegroup/find_mv_stack.go"])
p("Reference update touches exactly the refreshed slots","After a frame, exactly the reference slots with a set refresh flag hold the new frame's data; all others are unchanged.","all refresh masks and slots","all masks and contents",["internal/tilegroup/decode_frame_wrapup.go"])
p("Frames without primary reference start from the default CDFs","A frame with primary_ref_frame none starts decoding from the default CDF tables, whatever was decoded before.","all histories","histories",["internal/uncompressedheader/cdf.go"])
S="internal/sequenceheader/sequence_header.go"
p("A returned sequence header is internally consistent","Whatever the bits, a sequence header that parses has field values in range and consistent with each other (sizes fit their bit counts, order-hint dependent tools only with order hints, forced values in 0..2, colour configuration valid).","all byte streams and positions","all inputs",[S+": NewSequenceHeader"])
p("Sequence header parsing is total","Parsing a sequence header never loops, never changes the data, only moves forward, and never ends outside the data: it returns or panics.","all byte streams and positions","all inputs",[S+": NewSequenceHeader"])
p("Repeated and redundant frame headers are accepted","A redundant frame header OBU after the frame header of the same frame is accepted and has no effect.","all streams and states","histories of OBUs",["internal/obu/obu.go: ParseFrameHeader, FrameHeaderCopy"])
U="internal/uncompressedheader/uncompressed_header.go"
p("Frame header parsing is total","With any sequence header the decoder has accepted and any decoder state, parsing a frame header never loops, never changes the data, only moves forward and never ends outside the data: it returns or panics.","all accepted sequence headers, states, byte streams and positions","all inputs",[U+": NewUncompressedHeader, build"])
p("Quantizer parameters round trip","quantization_params() written as the AV1 syntax prescribes is read back as base_q_idx, the five deltas (V deltas equal to the U deltas unless coded separately, all 0 for monochrome) and the matrix levels, consuming exactly its bits.","all parameter values, plane counts and separate_uv_delta_q settings","product of all values",[U+": quantizationParams, readDeltaQ"])
p("Segmentation parameters round trip","segmentation_params() of a frame without primary reference is read back: every enabled feature of every segment with its value, SegIdPreSkip set exactly when a feature from ref_frame up is enabled, LastActiveSegId the largest segment with an enabled feature.","all 64 optional feature values","2^64 enable patterns times values",[U+": segmentationParams"])
p("CDEF parameters round trip","cdef_params() is read back with damping 3..6 and 2^cdef_bits strengths per plane type, a secondary strength of 4 being coded as 3.","all strengths, dampings, bit counts, plane counts","product of all values",[U+": cdefParams"])
p("Loop restoration parameters round trip","lr_params() is read back as the restoration type of each plane and the unit sizes (64..256, chroma optionally halved).","all type combinations, sizes, superblock sizes, subsamplings","product of all values",[U+": lrParams"])
p("Film grain parameters round trip","film_grain_params() with updated parameters is read back: seed, scaling points, auto-regressive coefficients (their number given by the lag), multipliers and flags.","all parameter sets, monochrome or not, all subsamplings, frame types","unbounded product of values",[U+": filmGrainParams"])
p("Loop filter parameters round trip","loop_filter_params() is read back as four levels, sharpness and updated deltas; for lossless frames and intra block copy the levels are zero.","all parameter values","product of all values",[U+": loopFilterParams"])
p("Render size defaults to the frame size","Without explicit render size, the render size is the upscaled width and the frame height; with it, the two coded values.","all headers","all inputs",[U+": renderSize"])
p("Refresh flags are taken from the stream","A frame that is neither a switch frame nor a shown key frame refreshes exactly the slots of the refresh_frame_flags coded in its header.","all headers","all inputs",[U+": build"])
p("Skip mode is available when two reference frames surround the frame","skip_mode_present is read when order hints are enabled, the frame uses compound reference and has a nearest forward and backward (or second forward) reference.","all order hints and references","all order hint combinations",[U+": skipModeParams, GetRelativeDist"])
p("Global motion parameters follow the coded type","A reference with a coded global motion type other than identity gets the coded parameters.","all headers","all inputs",[U+": globalMotionParams, readGlobalParam"])
p("Frame header values are in range","Whatever the bits, a returned frame header has frame type 0..3, eight-bit refresh flags, reference indices 0..7, quantizer, segmentation, delta, loop filter, CDEF, restoration and film grain parameters inside the ranges the syntax allows, and coding modes consistent with each other (delta LF only with delta Q, intra block copy only in intra frames without superres, lossless frames only 4x4 transforms).","all byte streams, sequence headers and states","all inputs",[U+": NewUncompressedHeader"])
p("Quantizer matrix level per plane","With quantizer matrices, a segment that is not lossless uses qm_y for luma, qm_u for U and qm_v for V; a lossless one uses level 15.","all headers","all combos",[U+": build"])
p("Screen content tools obey the sequence header","When the sequence header forces screen content tools (or integer motion vectors) off, frames have them off; when it forces them on, on.","all headers","all inputs",[U+": build"])
p("Delta Q and delta LF parameters round trip","delta_q_params() and delta_lf_params() are read back, and are absent exactly when base_q_idx is 0, or delta Q is absent or intra block copy is on.","all parameter values","product of all values",[U+": deltaQParams, deltaLfParams"])
p("Tile contexts can be cleared for every frame size","At the start of each tile (above) and tile row (left) all contexts of the whole frame width (height) are reset to 0, whatever the frame size.","all frame sizes and context contents","all sizes",["internal/tilegroup/tile_group.go: clearAboveContext, clearLeftContext"])
p("Default CDF tables are valid CDFs","Every default CDF is usable by the symbol decoder: increasing, at most 16 symbols, ending with 32768, adaptation counter 0; so the first read of each syntax element succeeds.","all default tables, all tile data","thousands of tables times all tile data",["internal/uncompressedheader/cdf.go: DEFAULT_*"])
p("Loop filter level of an edge","The loop filter level of an edge is the frame level changed by the block's delta LF, the segment's feature and the reference and mode deltas, clamped to 0..63 at each stage.","all headers, segments, references, modes, planes and passes","product of all values",["internal/tilegroup/loop_filter_process.go: adaptiveFilterStrengthSelection"])
p("Loop filter limits of an edge","The limit, outer limit and threshold of an edge follow from its level and the frame's sharpness as the specification prescribes.","all levels and sharpness values, all frames","all combos",["internal/tilegroup/loop_filter_process.go: adaptiveFilterStrength"])
p("CDEF direction search finds the best direction","The direction found for an 8x8 block is the first of the eight whose lines explain the block best, and the variance is its lead over the perpendicular direction.","all sample blocks, bit depths and positions","2^512 blocks",["internal/tilegroup/cdef.go: cdefDirection"])
R="internal/tilegroup/reconstruct.go"
p("Dequantisation","Each coefficient of a block is multiplied by its quantizer step (scaled by the quantizer matrix where one applies), cut to 24 bits, divided by the transform size's divisor and saturated to bitdepth + 8 signed bits; nothing else is written.","all coefficients, steps, matrices, transform sizes, bit depths","all values",[R+": reconstruct"])
p("Quantizer steps","DC and AC quantizer steps are those of the standard's tables for the clamped index, growing with the index.","all indices (also out of range), bit depths","all integers",[R+": dcQ, acQ, getDcQuant, getAcQuant"])
p("Inverse transforms","The inverse transform of a block returns the residual the standard prescribes for each transform type and size.","all coefficient blocks, types, sizes","all blocks",["internal/tilegroup/transform.go: InverseTranform, inverseDCT, inverseADST, inverseIdentityTransform"])
p("Reconstruction adds the residual","Reconstructing a block adds the residual to the prediction, clips to the bit depth, and changes only the samples of the block.","all predictions, residuals, positions, transform types","all values",[R+": reconstruct"])
MVS="internal/tilegroup/find_mv_stack.go"
p("Motion vector precision lowering","Without high precision motion vectors, each component of a candidate vector is rounded to a multiple of 2 eighths (8 with integer vectors), ties towards zero; with high precision it is unchanged.","all vectors","all integers",[MVS+": lowerPrecision"])
p("Candidates clamped to the frame","Each candidate vector returned is clamped, to the nearest vector with which the block reaches at most its own size and 16 samples beyond the frame.","all blocks, frame sizes and vectors","all values",[MVS+": clampMv, contextAndClamping"])
p("Each candidate appears once with summed weight","Searching a neighbour adds its vector to the candidate stack once: an equal candidate gets the weight added, otherwise it becomes a new last candidate with that weight.","all stacks, neighbours and weights","all histories of searches",[MVS+": searchStackProcess, compoundSearchStackProcess"])
p("Candidate search","For every neighbourhood, the motion vector candidate search terminates with up to eight candidates and symbol contexts in range.","all neighbourhoods, block sizes and positions","all neighbourhoods",[MVS+": findMvStack"])
PI="internal/tilegroup/predict_intra.go"
p("Intra prediction stays inside its block","An intra prediction call changes only the samples of its block, always returns, and over any sequence of calls every sample of the frame and of the neighbour buffers stays a legal sample of the bit depth.","all call sequences, modes, positions, sizes, frames","all histories",[PI+": predictIntra"])
p("Intra prediction uses the decoded neighbours","The row above is the last decoded row above the block (repeated at the right frame edge), the left column the decoded column left of it, mid-grey minus or plus one where missing.","all positions, availabilities, frames","all frames",[PI+": predictIntra"])
p("Directional intra prediction","Each sample of a directional block is the neighbour (interpolated to a 32nd) met when going from it in the prediction direction.","all angles, sizes, neighbours","all neighbours and angles",[PI+": directionalIntraPredictionProcess"])
p("Filter-intra prediction","A luma block using filter-intra is predicted with the recursive filter of its mode.","all neighbours, modes, sizes","all neighbours",[PI+": recursiveIntraPredictionProcess"])
p("Saved CDFs are a snapshot","The CDFs saved for a reference slot are those of the frame at the time of saving: a later frame that takes the slot as its primary reference starts from exactly these, whatever was decoded in between.","all histories of frames, tiles, symbol reads, saves and loads","histories; aliasing shows only after particular interleavings",["internal/uncompressedheader/cdf.go: SaveCdfs, LoadCdfs","internal/symbol/symbol.go: ReadSymbol"])
p("A symbol read adapts only its own CDF","Reading one syntax element with one context adapts that CDF and leaves the CDFs of all other syntax elements and contexts unchanged.","all histories, all pairs of CDF variables and contexts","all pairs and histories; aliasing",["internal/uncompressedheader/cdf.go: initNonCoeffCdfs","internal/symbol/symbol.go: ReadSymbol"])
p("Every CDF variable is initialised","After a frame header without primary reference and the start of a tile, every CDF variable of the tile is set to a table, whatever happened before.","all histories, all CDF variables","histories",["internal/uncompressedheader/cdf.go: initNonCoeffCdfs, initCoeffCdfs","internal/tilegroup/tile_group.go: initSymbol"])
p("CDF tables cover all contexts of the standard","For every syntax element and every context of the AV1 standard there is a CDF with the right number of symbols, at the start of every frame.","all tables, contexts, base_q_idx and histories","tens of thousands of tables times all histories",["internal/uncompressedheader/cdf.go: DEFAULT_*"])
p("Tiles start from the frame's CDFs","Each tile of a frame starts from the CDFs of the frame header, independently of what was decoded in the other tiles.","all histories of tiles and symbol reads","histories; aliasing",["internal/tilegroup/tile_group.go: initSymbol, exitSymbol"])
DW="internal/tilegroup/decode_frame_wrapup.go"
LR="internal/tilegroup/loop_restoration.go"
p("Reference frames survive to the next frame","A frame kept in a reference slot still has all its data (header values, motion vectors, segment ids, samples) when the next frame is decoded.","all slots, frames, positions","all contents; lost data shows only in later frames",["internal/obu/obu.go","internal/tilegroup/tile_group.go: FrameStore"])
p("Super-resolution keeps flat areas and unscaled frames","The upscaled frame equals the input where it is flat, and equals the input everywhere when the frame is not scaled.","all frames, planes, sizes, positions","all frames and sizes",[DW+": upscalingProcess"])
p("Super-resolution keeps the picture aligned","For widths up to 1024 and a reduction of at least a sixteenth, output columns are evenly spaced in the input row and each is taken at the centre of its column, with an error of at most (width+10)/4 units of 2^-14 of a column.","all widths up to 1024, all scalings of at least 16/15, all columns","all pairs of widths",[DW+": upscalingProcess"])
p("Loop restoration stays in its planes, stripes and units","Planes without restoration are copied; every block lies inside its plane and stripe; samples are read inside the plane and at most two rows outside the stripe; the block uses the restoration unit that contains it.","all frames, planes, positions, sizes, subsamplings","all positions and sizes",[LR+": loopRestoration, loopRestoreBlock, getSourceSample"])
p("Loop restoration filters run","Frames with Wiener or self-guided restoration are filtered.","all frames and unit types","all frames",[LR+": wienerFilter, selfGuidedFilter"])
p("The output is the decoded frame","The frame given to the user is the decoded and filtered frame; a frame that is not shown gives no output.","all frames, sizes, filter settings","all frames and settings",["internal/tilegroup/tile_group.go: decodeFrameWrapup","internal/tilegroup/output.go: outputProcess"])
p("Operating points, film grain and repeated frames","Frames of a stream with operating points, with film grain, and frames shown again are output as they were decoded.","all frames and headers","all headers",["internal/tilegroup/output.go: outputProcess",DW+": referenceFrameLoadingProcess"])
LFG="internal/tilegroup/loop_filter_process.go"
p("Which edges the loop filter touches","An edge is filtered only if it is on the screen, is not the picture border, lies on a transform edge, and lies on a block edge or belongs to an intra or non-skipped block; the filter length is that of the smaller transform of the two sides across the edge, at most 16 for luma and 8 for chroma; all vertical edges of a plane are filtered before its horizontal ones, each position once.","all frames, planes, positions, block and transform sizes, subsamplings","all frames and positions",[LFG+": loopFilter, loopFilterEdge, filterSize"])
p("How the partition symbol is read","A neighbour is available iff it lies in the tile; the partition symbol uses the CDF of the block size and of the neighbours' split context, adapts only that CDF, and gives a legal partition of the block; it is read only when the block fits in the frame.","all tiles, blocks, neighbours, CDF contents and data","all neighbourhoods and data",["internal/tilegroup/decode_partition.go: decodePartition","internal/tilegroup/util.go: isInside"])
p("Frame headers of key and intra-only frames","Any legal header of a key frame or intra-only frame, coded as in the AV1 syntax, decodes to exactly the values that were coded (type and flags, sizes, tiles, quantizer, segmentation, filters, transform mode, film grain), consumes exactly its bits, and sets the frame size and tiles of the decoder state.","all sequence headers, frame headers and decoder states","all headers: dozens of interdependent optional fields",["internal/uncompressedheader/uncompressed_header.go: NewUncompressedHeader, build","internal/tileinfo/tile_info.go: NewTileInfo"])
p("What the motion vector search looks at and how it counts","A neighbour's pair of vectors adds its weight to stored pairs equal in both vectors only; candidates adjacent to the block get a bonus of 640; the scan of a row or column depends only on neighbours beside the block, in the frame and within 64 samples; missing candidates become the global vector; the DRL context of an entry compares its weight and its successor's with 640.","all neighbourhoods, candidate stacks and blocks","all neighbourhoods",["internal/tilegroup/find_mv_stack.go: compoundSearchStackProcess, scanRowProcess, scanColProcess, extraSearchProcess, contextAndClampingProcess"])
CO="internal/tilegroup/coeffs.go"
p("The coefficients of a transform block are those of the bitstream","Parsing a transform block reads exactly the symbols and bits of the AV1 coefficient syntax (zero flag, transform type, number of coefficients, levels, signs, Golomb remainders), each with the table and context the standard prescribes, yields the coefficients that were coded, and leaves the neighbour contexts and transform types the standard prescribes.","all planes, transform sizes, blocks in the frame, neighbour contexts, CDF tables, tile data","all data, contexts and adaptation states",[CO+": coeffs, allZeroSymbol, transformType, getCoeffBaseCtx, readCoeffBrSymbol, readDcSignSymbol"])
p("The coefficient order is the standard's","For every transform size and type allowed in it, coefficients are placed in the order of the standard (row, column, or diagonal scan), which visits every position of the coded area exactly once.","all transform sizes and types","all sizes and types",[CO+": getScan, getMColScan, getMrowScan, getDefaultScan"])
p("Transform types are legal","Whatever the data, the type recorded for a luma block belongs to the set allowed for its size and prediction; a chroma block uses the type of the luma block or of its intra mode if its own set has it, else DCT; one-dimensional types occur only up to 16x16.","all data, sizes, modes, blocks","all data",[CO+": transformType, computeTxType, getTxSet, isTxTypeInSet"])
p("The number of coefficients is reported","Parsing a transform block returns the number of coefficients coded, on which the reconstruction of the block depends.","all blocks and data","all data",[CO+": coeffs"])
p("Parsing a transform block terminates","For every tile data, parsing a transform block ends.","all data, tables, blocks","no bound on the length of a run",[CO+": coeffs"])
p("Every transform block that begins in the frame can be parsed","A transform block that begins inside the frame is parsed, also when it extends beyond the right or bottom edge.","all blocks, sizes, frames","all sizes and positions",[CO+": coeffs, transformType","internal/tilegroup/tile_group.go: TxTypes, AboveLevelContext, LeftLevelContext"])
IM="internal/tilegroup/intra_frame_mode_info.go"
p("Mode information of intra frames follows the syntax","Parsing the mode information of a block of an intra frame reads exactly the symbols and bits of the AV1 syntax (segment, skip, CDEF index, deltas, luma and chroma modes, angles, chroma from luma, palette and filter flags), each with the standard's table and context, and stores exactly their values.","all blocks, headers, neighbours, tile data and tables","all data and neighbourhoods",[IM+": intraFrameModeInfo"])
p("The skip flag is read with the context of the neighbours","The skip flag uses the context given by the number of neighbours (above, left) that are skipped.","all blocks and neighbours, tile data","all neighbourhoods",[IM+": readSkip"])
p("The segment of a block is the coded one","The segment is predicted from the three neighbours and decoded relative to the prediction; it is always one of the segments in use.","all neighbours, numbers of segments, coded values","all combinations and data",[IM+": readSegmentId, intraSegmentId","internal/util/util.go: NegDeinterleave"])
p("The CDEF index is stored for the areas the block covers","A CDEF index is read once for each 64x64 area, at the first block that is not skipped, and stored for exactly the areas the block covers.","all block positions, sizes, grids, data","all positions and grids",[IM+": readCdef"])
p("Quantizer and loop filter deltas","Deltas are read once per superblock unless it is skipped as a whole, scaled by the resolution of the header, added and clipped to 1..255 and -63..63; one loop filter delta or one per filter level as the header says.","all blocks, headers, values, data","all data",[IM+": readDeltaQIndex, readDeltaLf"])
p("Luma mode and angle","The luma mode is read with the context of the modes above and to the left, and is one of the 13 intra modes; an angle in -3..3 is read only for directional modes of blocks of at least 8x8.","all neighbours, blocks, data","all data",[IM+": intraFrameYModeSymbol, intraAngleInfoY, intraAngleInfoUv"])
p("Chroma mode and chroma from luma","Chroma from luma is available for blocks up to 32x32 (4x4 chroma if lossless); its two parameters have the coded sign and magnitude and are not both 0.","all blocks and data","all data",[IM+": intraFrameModeInfo, readCflAlphas"])
p("Palette, filter-intra and intra block copy flags are read","Streams that allow palettes, recursive filter prediction or intra block copy are parsed.","all blocks and data with these tools","all data",[IM+": intraFrameModeInfo, filterIntraModeInfo","internal/tilegroup/palette.go: paletteModeInfo","internal/bitstream/bitstream.go: S"])
p("Reference frames of an intra block","A block of an intra frame is recorded with reference frames INTRA_FRAME and NONE.","all blocks and previous values","all histories",[IM+": intraFrameModeInfo"])
TX="internal/tilegroup/tx_size.go"
p("The transform size of a block is the coded one","For blocks without a tree of transform sizes, the size is 4x4 if lossless, else the largest transform of the block, split as often as the depth symbol says; the symbol is read, with the table of the block size and the context of the neighbours, for intra blocks and for inter blocks that are not skipped.","all blocks, neighbours, headers, tile data","all neighbours and data",[TX+": readBlockTxSize, readTxSize, txDepthSymbol, getAboveTxWidth, getLeftTxHeight"])
p("The transform size is recorded over the block","After a block without a tree is parsed, exactly the positions the block covers hold its transform size, anywhere in the frame.","all blocks, positions, previous contents","all positions",[TX+": readBlockTxSize"])
p("Trees of transform sizes of inter blocks are parsed","Inter blocks that are not skipped read a tree of transform sizes, and every position of a leaf holds its size.","all inter blocks","all trees",[TX+": readVarTxSize"])
DB="internal/tilegroup/decode_block.go"
p("Which blocks have chroma and which neighbours they see","A block has chroma iff the stream has and it covers an odd row and column of every subsampled direction; its luma (chroma) neighbours are available iff the position above (left of) its luma (chroma) area lies in the tile.","all blocks, sizes, positions, tiles, subsamplings","all positions and tiles",[DB+": decodeBlock","internal/tilegroup/util.go: isInside"])
p("Modes and reference frames of a block are recorded","After a block is parsed, exactly the positions it covers hold its luma mode, its chroma mode and its reference frames, anywhere in the frame.","all blocks, positions, values, previous contents","all positions",[DB+": decodeBlock"])
p("Motion data of inter blocks is recorded","After an inter block is parsed, the positions it covers hold its motion vectors, interpolation filters and compound indices, which later blocks and frames use.","all blocks and histories","all histories",[DB+": decodeBlock"])
p("Flags and sizes of a block are recorded","After a block is decoded, exactly the positions it covers hold its inter, skip and skip mode flags, transform size, block size, palette sizes and loop filter deltas, anywhere in the frame.","all blocks, positions, values, previous contents","all positions",[DB+": decodeBlock"])
p("Skipped blocks clear the coefficient contexts","A skipped block sets the level and DC contexts above and to the left to 0 over exactly the positions it covers in each plane, and only there.","all blocks, subsamplings, previous contexts","all positions and histories",[DB+": resetBlockContext, decodeBlock"])
p("Each intra mode uses its predictor and is stored in place","A block predicted with mode 0 is filled by the mean, 1 to 8 by the direction of the mode, 9 to 11 by the smooth predictors, 12 by Paeth, sample (i, j) of the prediction going to row y+i, column x+j; the edge filters, their strengths, the upsampling and the corner filter are chosen as in the standard.","all modes, block sizes, positions, neighbours and frames","all samples and neighbours",["internal/tilegroup/predict_intra.go: predictIntra, intraEdgeFilterStrengthSelectionProcess, intraEdgeUpsampleSelectionProcess, filterCornerProcess"])
p("The box filter of self-guided restoration is the standard's","The two box filtered versions of a sample are those of the standard: from the sums and squares of the window, the noise parameter of the set, and the 3x3 weights of the pass.","all pictures, parameter sets, bit depths and positions","all samples",["internal/tilegroup/loop_restoration.go: boxFilter"])
p("The stages at the end of a frame run in order","A new frame is deblocked if a level is not 0, CDEF reads the deblocked frame, both are superresolved and restored, and the result goes to the refreshed slots and, if shown, to the output; without a coded map the segment ids are those of the previous frame; a repeated frame is output unfiltered.","all frames, headers and states","all histories",["internal/tilegroup/tile_group.go: decodeFrameWrapup"])
MVR="internal/tilegroup/assign_mv.go"
p("Motion vector differences are read with the standard's tables","A motion vector difference reads the joint symbol, and for each coded component sign, class, integer bits, fraction and precision, each with the table of the context (inter or intra block copy) and component, in the order of the syntax; no other table is adapted.","all headers, table contents, tile data","all data and adaptation histories",[MVR+": readMv, readMvComponent","internal/uncompressedheader/cdf.go: initNonCoeffCdfs"])
p("A motion vector difference has the coded value","The value of a component is the one the class, the integer bits, the fraction and the precision bit code, with the coded sign; the vector is prediction plus difference.","all symbols, predictions, headers","all symbol sequences",[MVR+": readMv, readMvComponent"])
p("Each vector of a compound block is found the way its mode says","For each of the twelve inter modes, the vector of each reference is the nearest or near candidate, the global motion or a new vector as the mode says.","all modes and both references","exhaustive over modes; used by every block",[MVR+": getMode"])
p("The motion vectors of a block are assigned from the candidates","Global modes take the global motion, the others the candidate with the coded index (the first for nearest, and for new vectors if at most one was found); new vectors add the difference; a block copied from the same frame starts from the first candidate that is not zero, else from the superblock above, or to the left in the first row.","all candidate lists, indices, modes, positions, data","all lists and data",[MVR+": assignMv"])
LR="internal/tilegroup/read_loop_restoration.go"
p("Restoration units are read with the superblock they begin in","With each superblock exactly those restoration units of each plane are read whose top left corner lies in it, at the upscaled resolution; so each unit of the frame is read exactly once.","all frame sizes, superblocks, planes, unit sizes, superresolution denominators","all sizes and positions",[LR+": readLr","internal/util/util.go: CountUnitsInFrame"])
p("Reading a filter coefficient terminates on any data","The coefficients of restoration filters are read in a loop without limit; whatever the tile data, the loop ends and the reader stays in the tile.","all tile data, states, parameters","termination for every input",[LR+": decodeSubexpBool"])
p("Filter coefficients have the coded value","A coefficient is the value of the standard's subexponential code, recentred around that of the previous unit, and lies in its range.","all bit sequences, references, the four parameter sets","all inputs",[LR+": decodeSubexpBool, decodeUnsignedSubexpWithRefBool, decodeSignedSubexpWithRefBool"])
p("Restoration units are parsed and stored","A unit stores its type, and its self-guided set and weights or its Wiener coefficients, which become the prediction for the next unit of the plane; other planes keep theirs.","all frames, planes, units, data","all histories",[LR+": readLrUnit"])
RS="internal/tilegroup/residual.go"
p("The transform blocks of a block cover it exactly","In each plane every sample of a block's area is in exactly one transform block and no other sample is in any; the blocks come in the order of the standard: chunks of 64x64, planes in a chunk, rows and columns in a plane.","all block sizes, positions, transform sizes, subsamplings, planes and samples","all blocks and positions",[RS+": residual, getTxSize"])
p("The transforms of inter luma are the leaves of the recorded tree","For inter blocks the luma transform blocks are those of the tree given by the recorded sizes: a part that fits the size recorded at its corner is a transform, others are halved or quartered, parts outside the frame left out, in raster order of the parts; every sample in the frame is in exactly one.","all blocks, recorded sizes, frame sizes","induction over all trees",[RS+": transformTree, findTxSize, residual"])
p("A transform block predicts, reads and adds in order, and is marked as decoded","A transform block in the frame is predicted (palette, or neighbours with availability of its plane, then chroma from luma), its coefficients are read unless skipped, the residual added if there are any; its size and that it is decoded are recorded at exactly its positions; outside the frame nothing happens.","all blocks, planes, positions, sizes, modes, previous flags","all positions and histories",[RS+": transformBlock","internal/state/state.go: BlockDecoded"])
p("Chroma from luma adds the scaled luma","Each chroma sample of the block becomes prediction plus alpha times (luma minus its average), rounded and clipped to the bit depth, with the alpha of its plane; other samples are unchanged.","all frames, alphas, sizes, bit depths, subsamplings","all samples",[RS+": predictChromaFromLuma","internal/util/util.go: Clip1, Round2Signed"])
p("Palette prediction paints the colours of the map","Each sample of the block becomes the palette colour its map entry names, in luma and chroma; other samples are unchanged.","all maps, palettes, positions, sizes","all maps",[RS+": palettePrediction"])
p("Transform sizes of chroma and of leaves","The chroma transform is that of the block's chroma area, at most 32x32; any width and height in ratio at most 4 names its transform size.","all block sizes, subsamplings, planes; all pairs of sides","finite but exhaustive, with shape arguments",[RS+": getTxSize, findTxSize"])
p("The decoded flags are set up at the start of a superblock","At the start of each superblock the row above and the column to the left are marked as decoded as far as the tile reaches, and everything else as not decoded.","all superblocks, tiles, subsamplings, previous flags","all positions and histories",["internal/tilegroup/tile_group.go: clearBlockDecodedFlags, decodeTile"])
PI="internal/tilegroup/predict_inter.go"
p("Interpolation keeps constant pictures","Predicting from a picture with the same value everywhere gives that value (times the gain of compound prediction), whatever the vector, the filters and the scale.","all values, bit depths, filters, positions, sizes, scales","all filters and positions",[PI+": blockInterPredictionProcess, roundVariablesDerivationProcess"])
p("Only references within the scale limits are used","A reference picture is refused exactly when it is more than twice as large or more than sixteen times smaller than the current one; a reference counts as scaled exactly when its size differs.","all sizes of reference and frame","all sizes",[PI+": motionVectorScalingProcess","internal/tilegroup/util.go: isScaled"])
p("A vector points to the scaled position","The position in the reference, in 1/1024 of a sample, and the distance between samples are those of the standard for the vector, the position and the ratio of the sizes.","all positions, vectors, sizes, planes","all vectors and sizes",[PI+": motionVectorScalingProcess","internal/util/util.go: Round2Signed"])
p("The prediction is the interpolated reference","Each predicted sample is the eight tap horizontal and vertical filter of the reference around the position the vector points to, positions outside clamped to the picture; so it depends on the vector.","all pictures, vectors, filters, sizes","all pictures and positions",[PI+": blockInterPredictionProcess"])
p("Divisions of the warp model are by reciprocals","Shift and factor of a divisor give its reciprocal to 1 part in 256.","all divisors","all divisors",[PI+": resolveDivisorProcess"])
p("The shear of a warp is derived and checked","The four shear parameters are those of the warp, clamped, rounded to multiples of 64; a warp is valid exactly when the shear stays within its limits.","all warps","all parameters",[PI+": setupShearProcess"])
p("Every kind of inter prediction can be decoded","Blocks with one or two references, wedge, difference and distance weights, inter-intra, warped and copied blocks are predicted without a failure.","all blocks, references and modes","all kinds and states",[PI+": predictInter, blockWarpProcess, warpEstimationProcess, maskBlendProcess, distanceWeightsProcess"])
p("Overlapped prediction blends towards the edge","With overlapped motion each sample becomes the rounded weighted mean of the two predictions, between them; weights depend on the distance from the edge shared with the neighbour (row from the one above, column from the one to the left), at least one half, growing to one; other samples are unchanged.","all predictions, masks, positions, neighbours","all samples",[PI+": overlapBlendingProcess, overlappedMotionCompensationProcess","internal/util/util.go: GetObmcMask"])
p("The prediction is stored in the block","Sample (i, j) of the prediction, clipped to the bit depth, is stored at row y+i, column x+j of the plane; nothing else changes.","all blocks, planes, predictions","all samples",[PI+": predictInter"])
p("The predictions of an inter block cover it with the right vectors","For each plane an inter block asks for the predictions of the standard: one of the block's size, or, where a subsampled block covers several small inter blocks, one for each of them with its own vector; an inter-intra block is also predicted from its neighbours.","all block sizes, positions, planes, subsamplings, neighbours","all blocks and neighbours",["internal/tilegroup/compute_prediction.go: computePrediction"])
IF="internal/tilegroup/inter_frame_mode_info.go"
IB="internal/tilegroup/inter_block_mode_info.go"
p("The reference frame of an inter block is read as coded","Each inter block reads its reference with the flags of the standard, each with the context its neighbours' references give; with reference_select large blocks may have two; skip mode and segments fix the references.","all neighbours, headers, data","all neighbourhoods and symbol sequences",[IB+": readRefFrames","internal/tilegroup/syntax_element.go"])
p("The segment of a block of an inter frame","Without an update the segment is the least of the previous map in the block; with one it is read, or predicted in time if flagged, and the flags are kept for the neighbours below and to the right.","all maps, blocks, headers, data","all maps and histories",[IF+": interSegmentId, getSegmentId"])
p("Skip mode and the inter flag are read as coded","Skip mode is read where the frame, size and segment permit; whether a block is inter coded is fixed by skip mode, the segment's reference or global motion, else read with the context of the neighbours.","all blocks, segments, neighbours, data","all combinations",[IF+": readSkipMode, readIsInter"])
p("Intra blocks of inter frames are read as coded","An intra block of an inter frame reads luma mode (by size class), angle, chroma mode, chroma from luma parameters, palettes and recursive filters like the standard.","all blocks, headers, data","all symbol sequences",[IF+": intraBlockModeInfo"])
p("The mode of an inter block and its candidate are read as coded","A block with one reference reads its mode (new, global, nearest, near) and, where there is a choice, the index of the candidate.","all contexts, candidates, data","all symbol sequences",[IB+": interBlockModeInfo"])
p("The motion mode is read as coded","The motion mode is simple unless the standard codes it; samples for warping come from the neighbours with the same single reference.","all blocks, neighbours, headers","all neighbourhoods",[IB+": readMotionMode, findWarpSamples, addSample"])
p("The interpolation filter is read where it is coded","A block takes the filter of the frame; if that is switchable, the regular one where none is coded, else the coded one.","all blocks, modes, global motions","all combinations",[IB+": needsInterpFilter, interBlockModeInfo"])
p("Inter-intra and compound type are read as coded","Inter-intra is read for blocks of 8x8 to 32x32 with one reference outside of skip mode if enabled; the compound type is read for blocks with two references.","all blocks and headers","all combinations",[IB+": readInterIntraMode, readCompoundType"])
p("A block of an inter frame is parsed in the order of the standard","The elements of a block of an inter frame are read in the order, with the tables and contexts of the standard, and give its values.","all blocks, states, data","all symbol sequences and states",[IF+": interFrameModeInfo",IB+": interBlockModeInfo"])
TGF="internal/tilegroup/tile_group.go"
p("A tile group is split into its tiles","Each tile of a tile group is decoded once, in order, with the rectangle of its number, the base quantizer index and a symbol decoder started on exactly its own bytes; the group takes exactly its bytes and the last tile of the frame completes the frame.","all tile layouts, groups, tile data and tile decoders that read through the symbol decoder","all groups of any number of tiles of any sizes",[TGF+": NewTileGroup, build","internal/tilegroup/tile_group.go: initSymbol, exitSymbol"])
p("The CDEF index of a superblock is reset","Before a superblock is decoded its CDEF index (for 128x128 all four) is reset to -1, and no other index changes, wherever the superblock is.","all positions and all histories of superblocks","all histories and positions",["internal/cdef/cdef.go: ClearCdef"])
p("Frames of every size can be decoded","A tile group is decoded, whatever the size of the frame.","all frame sizes, tile data, block contents","all sizes and data",[TGF+": decodeTile, clearAboveContext, clearLeftContext","internal/obu/obu.go: NewObu, newFrame"])
p("Tiles are independent","Contexts, loop filter deltas and restoration references at the start of a tile do not depend on earlier tiles: the first superblock starts from zero contexts and deltas and the middle restoration coefficients.","all states earlier tiles can leave, all tiles and block decoders","all states",[TGF+": decodeTile, clearAboveContext, clearLeftContext"])
p("Decoding always terminates","For every input, reading the stream ends: the loops over temporal units, frame units, OBUs, tiles, superblocks, partitions and block flags all stop (the call returns or panics).","all byte streams","all inputs; no test can see a loop that never ends",["internal/parser/parser.go: bitstream, temporalUnit, frameUnit","internal/obu/obu.go: NewObu",TGF+": build, decodeTile, decodePartition, clearBlockDecodedFlags","internal/cdef/cdef.go: ClearCdef"])
p("Tile sizes cannot break the symbol decoder","Whatever size a tile claims (also negative or beyond the data), reading symbols and literals gives values of their alphabet and keeps the tables valid, or panics because the data are too short.","all tile sizes, data, and histories of reads","all sizes and data",["internal/symbol/symbol.go: ReadSymbol","internal/literal/literal.go: L, NS",TGF+": initSymbol"])
p("The palette cache is the union of the neighbours' palettes","The palette cache of a block has, in ascending order and without duplicates, exactly the colors of the palettes above (within the superblock row) and to the left.","all positions, palettes, palette sizes and earlier contents of the cache","all pairs of sorted lists",["internal/tilegroup/palette.go: getPaletteCache"])
p("Every sample of a palette block gets a color index","The color indices of a block with a palette are read: each sample gets an index from the context of its neighbours, and the samples outside the frame copy the last one inside.","all block sizes, positions, subsamplings, palette sizes, maps and data","all blocks and data",["internal/tilegroup/palette_tokens.go: paletteTokens, getPaletteColorContext"])
PI="internal/tilegroup/predict_inter.go"
p("Masks weigh two predictions","The mask of a compound block weighs each sample: by the difference of the two predictions (38 to 64 parts of 64, from the other side with mask_type), or by the distance from the edge of the intra prediction; samples outside the block keep their weight.","all predictions, block sizes, bit depths, modes and earlier masks","all blocks and sample values",[PI+": differenceWeightMaskProcess, intraModeVariantMaskProcess"])
p("A mask blends two predictions","Each sample of the block becomes the mean of the two predictions (or of the intra and the inter prediction) in the proportion of its weight, with the weights averaged for subsampled planes; it lies between the two and within the bit depth, and nothing else changes.","all predictions, masks, positions, sizes, planes and subsamplings","all blocks and sample values",[PI+": maskBlendProcess"])
p("Distance weights favour the nearer reference","With distance weights, the two references get positive weights with sum 16 from the ratio of their distances (classes split at 3/2, 5/2, 7/2), the nearer one more.","all order hints and references","all pairs of distances",[PI+": distanceWeightsProcess"])
p("Wedge masks","The table of wedge masks holds, for each block size with wedges, sign and index, the window of the 64x64 mask of the standard's direction centred at the standard's point; the two signs are complementary, each row and column crosses the edge once, and sign 0 favours the first row and column.","all earlier contents of the table, block sizes, signs, wedges, samples","all contents; 100352 table entries",["internal/wedgemask/wedge_mask.go: InitialiseWedgeMaskTable, getWedgeDirection, getWedgeXoff, getWedgeYoff, blockShape"])
p("Coded tile sizes are read as coded","If the tile layout is not uniform, every list of tile widths and heights the standard permits is read as coded: the number of tiles, where each starts and ends, the tile for the CDF update and the number of bytes of the tile sizes.","all frame sizes, lists of tile sizes, following data","all lists of sizes",["internal/tileinfo/tile_info.go: NewTileInfo"])
p("Which neighbours make the edges of a prediction smooth","The edges of a directional prediction count as smooth exactly if the block above or the one to the left (for subsampled chroma the neighbours of the whole chroma block) is predicted in a smooth mode.","all positions, planes, subsamplings, stored modes and available neighbours","all combinations of neighbours and positions",["internal/tilegroup/predict_intra.go: getFilterType, isSmooth"])
open("/verif/properties.jsonl","w").write("".join(json.dumps(x)+"\n" for x in P))
