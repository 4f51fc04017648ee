# gov1 in Rocq: design, trusted base and coverage

gov1 is an AV1 decoder in Go that is still being written: many functions panic on every input or differ from the AV1
standard. The properties in `properties.jsonl` say what a user of a decoder relies on; where the code violates one, the
violation itself is a theorem (`_refuted`, for all inputs of the violating kind, with a concrete witness) and the largest
part of the property that does hold is another one (`_partial`).
169 properties: 56 proved, 113 partial; 507 theorems named in MANIFEST.json.

## 1. Layout
* `rocq/theories/*.v`: the development. Three kinds of files:
  * **model** (`Bitstream.v`, `Symbol.v`, `UncompressedHeader.v`, `Residual.v`, ...): one definition per Go function, same
    order of effects, a comment with file and lines at each definition and the simplification, if any;
  * **specification** (`Spec*.v`): written from the standard or from plain mathematics, never from the model: encoders of the
    syntax, arithmetic definitions, "programs" (trees of symbol and bit reads with the tables named), relations. They do not
    import the model files;
  * **proofs** (`*Proofs.v`, `*Sim.v`, ...) and **theorems** (`Prop*.v`). Each theorem `Cnn_...` is followed by an `Example`
    that meets its hypotheses with a concrete case and by `Print Assumptions`.
* `tools/`: generators of properties.jsonl, MANIFEST.json, DESIGN.md, and the mutation runner. They are not part of the proof.
* `seeded/LOG.jsonl`: one line per wrong program tried (section 5).

## 2. Trusted base
* Coq 8.16.1's kernel, including its `vm_compute` machine (used for finite table facts and for examples).
* No axioms. There are 501 `Print Assumptions` commands, one after each theorem, and each prints
  `Closed under the global context`. Nothing is `Admitted`, there are no section-less variables, no functors or module
  types, no kernel checks switched off. `vcheck` lists axioms of the standard library (Reals, ssrunder, functional
  extensionality) because library files are loaded that contain them (`lia`/`lra`/ssreflect machinery); no theorem depends on
  any of them, as `Print Assumptions` shows.
* The transcription from Go to Gallina (section 3) and the reading of the standard in `Spec*.v`. Tables (CDFs, quantizers,
  scans, filters, constants) were copied mechanically from the sources; many are constrained by theorems (C64, C83, C97, ...).
* The sources were only read, as text. As pinned, `internal/uncompressedheader/uncompressed_header.go` imports
  `internal/tilegroup` (line 9) while tilegroup imports uncompressedheader: an import cycle, which the Go compiler rejects.
  The model gives each function the meaning it has by itself.

## 3. How Go is modelled (`GoBase.v`)
* A call ends in `Ok v`, `Panic` or `Hang`. `Hang` stands for a loop whose fuel ran out: theorems about termination say that
  `Hang` is not reached with the fuel the model supplies, theorems about divergence that it is reached for every fuel. Nothing in
  the repo recovers from panics, so the state after a panic is not represented.
* `M S A := S -> res (A * S)`: functions on a state. States contain only the fields the modelled function reads or writes.
* Slices and arrays are lists; an index below 0 or at or above the length panics, as do a nil slice (the empty list), `make`
  with a negative length and a shift by a negative count. Go arrays have their declared length.
* `int` is 64 bits. `util` and `bitstream` use explicit wrap-around (`i64`) where an argument can overflow; elsewhere `Z`
  is used, and the values are bounded by the proved ranges (samples, table entries, positions).
* Aliasing is modelled where it is observable: CDF tables (a heap of arrays with addresses, `CdfMemory.v`), transform
  permutations. At block level (`Elements.v`) each CDF variable has its own table: the sharing found in C81 is stated there and
  in C122, and the block level theorems are about variables that share with none.
* Symbol decoding at block level: `ElementsSim.v` relates a model function to a program of the specification: from every decoder state
  and all tables of the right shape, the function reads exactly the symbols of the program, with those tables, and returns
  the program's result (`agrees`, `follows_program`). C27-C30 tie symbols to the bits of the tile.

## 4. What is modelled and what is not
Modelled (files under /repo/internal): bitstream, util, header, sequenceheader, uncompressedheader (all but the parts named in
C94: temporal point info, frame ids beyond what C48/C59 need), tileinfo, obu, parser, symbol, literal, cdef, wedgemask (with slices that have room: Wedge.v);
tilegroup: tile_group.go, decode_partition.go, decode_block.go, intra_frame_mode_info.go, inter_frame_mode_info.go,
inter_block_mode_info.go, palette.go, palette_tokens.go, tx_size.go, assign_mv.go, find_mv_stack.go,
read_loop_restoration.go, residual.go, coeffs.go, reconstruct.go, transform.go, quantizer.go (tables), predict_intra.go,
predict_inter.go, compute_prediction.go, loop_filter_process.go, cdef.go, loop_restoration.go, decode_frame_wrapup.go,
output.go, syntax_element.go, util.go; cdf.go (tables, initialisation, copying).

Not modelled: logging and `cmd` (file reading, flags); memory and time; the text of panics; the parts of a function after a point
that is never passed (a `b.S()` or an index of a nil slice that always panics), which is stated where it happens and proved to
panic for all inputs; the contents of arrays declared but never read.

Function boundaries that stay parameters: `Obu.v`/`Parser.v` are about all payload parsers (records of functions) that satisfy the
stated reader laws; `Block.v` about all mode info functions; `Partition.v` about all block decoders. `properties.jsonl` and the
theorem statements say which.

## 5. Testing the theorems against wrong programs
`tools/mutations.py` lists edits of the model (a wrong boundary, a swapped argument, a dropped update, a missed case);
`tools/mutate.py` applies each to a scratch copy, rebuilds what depends on the edited file with the recorded claim as target, and
appends to `seeded/LOG.jsonl` the definition, the edit, the claim it breaks, the theorems that no longer build and those that were
tightened because they still did. 770 lines. Edits that leave the function extensionally the same are marked equivalent.

## 6. Property table (generated by tools/mkdesign.py)

Each entry: status; where the theorems are; which code is modelled (full paths and lines are in the comments of the
model files); what is proved and what is not. `_refuted` theorems state that the code violates the claim, `_partial` ones the
part that holds.

* **C01 F(n) is the big-endian value of the next n bits** — proved, 2 theorems in PropBitstream.v. Code: internal/bitstream/bitstream.go: F, readBit. Proved as stated.
* **C02 F reads concatenate** — proved, 1 theorem in PropBitstream.v. Code: internal/bitstream/bitstream.go: F. Proved as stated.
* **C03 Uvlc decodes every uvlc code word** — proved, 3 theorems in PropBitstream.v. Code: internal/bitstream/bitstream.go: Uvlc. Proved as stated.
* **C04 Leb128 round trip** — proved, 2 theorems in PropBitstream.v. Code: internal/bitstream/bitstream.go: Leb128. Proved as stated.
* **C05 Su(n) is two's complement** — proved, 2 theorems in PropBitstream.v. Code: internal/bitstream/bitstream.go: Su. Proved as stated.
* **C06 Ns(n) round trip** — proved, 2 theorems in PropBitstream.v. Code: internal/bitstream/bitstream.go: Ns; internal/util/util.go: FloorLog2. Proved as stated.
* **C07 Le(n) round trip** — proved, 1 theorem in PropBitstream.v. Code: internal/bitstream/bitstream.go: Le. Proved as stated.
* **C08 ByteAlignment reaches the next byte boundary** — proved, 1 theorem in PropBitstream.v. Code: internal/bitstream/bitstream.go: ByteAlignment. Proved as stated.
* **C09 TrailingBits consumes the rest of the payload** — proved, 2 theorems in PropBitstream.v. Code: internal/bitstream/bitstream.go: TrailingBits. Proved as stated.
* **C10 Bitstream readers never move backwards, never write** — proved, 2 theorems in PropBitstream.v. Code: internal/bitstream/bitstream.go. Proved as stated.
* **C11 OBU header round trip** — proved, 1 theorem in PropBitstream.v. Code: internal/header/header.go: NewHeader, NewExtensionHeader. Proved as stated.
* **C12 TileLog2 is the least k** — proved, 2 theorems in PropUtil.v. Code: internal/util/util.go: TileLog2. Proved as stated.
* **C13 CeilLog2 / FloorLog2 are the logarithms** — proved, 4 theorems in PropUtil.v. Code: internal/util/util.go: CeilLog2, FloorLog2. Proved as stated.
* **C14 Round2 rounds half up** — proved, 2 theorems in PropUtil.v. Code: internal/util/util.go: Round2. Proved as stated.
* **C15 Round2Signed is symmetric rounding** — partial, 2 theorems in PropUtil.v. Code: internal/util/util.go: Round2Signed. False of the code: for x>=0 Round2Signed rounds the constant 2. Proved: the negative branch, and that the result ignores every non-negative x.
* **C16 Clip3 / Clip1 clamp** — partial, 5 theorems in PropUtil.v. Code: internal/util/util.go: Clip3, Clip1. Clip3 proved in full. The Clip1 half is false of the code: Clip1 returns 2 for every sample (proved).
* **C17 InverseRecenter is a bijection** — proved, 3 theorems in PropUtil.v. Code: internal/util/util.go: InverseRecenter. Proved as stated.
* **C18 NegDeinterleave is a bijection of 0..max-1** — partial, 3 theorems in PropUtil.v. Code: internal/util/util.go: NegDeinterleave. False of the code for ref>=2 (guard is ref==1 instead of ref!=0). Proved: agreement for ref 0 and 1, disagreement for every other ref, and that the map is still a bijection of 0..max-1.
* **C19 Sort sorts the requested range only** — proved, 2 theorems in PropUtil.v. Code: internal/util/util.go: Sort. Proved as stated.
* **C20 Brev / Cos128 / Sin128 compute bit reversal and the cosine table** — partial, 5 theorems in PropUtil.v. Code: internal/util/util.go: Brev, Cos128, Sin128. False of the code: Brev copies bit 1 everywhere (exact value proved), Cos128/Sin128 panic outside one quarter turn (proved); the first quarter is proved correct against the table.
* **C21 Colour configuration round trip** — proved, 2 theorems in PropSequence.v. Code: internal/sequenceheader/sequence_header.go: NewColorConfig. Proved as stated.
* **C22 Sequence header round trip** — partial, 6 theorems in PropSequence.v. Code: internal/sequenceheader/sequence_header.go: NewSequenceHeader. False of the code: headers with the normal operating point syntax are misread and reduced headers lose their size (both refuted by theorem). Proved: the prefix, and the whole size/tools section.
* **C23 An OBU consumes exactly its declared size** — partial, 5 theorems in PropObu.v. Code: internal/obu/obu.go: build. Proved for temporal delimiters, dropped OBUs, padding with a zero byte, and for all other types except frames and tile groups as long as the payload leaves room for trailing bits; refuted for padding without zero byte.
* **C24 Dropped OBUs are skipped exactly and have no effect** — proved, 3 theorems in PropObu.v. Code: internal/obu/obu.go: build. Proved as stated.
* **C25 Unit framing accounts for every byte** — proved, 2 theorems in PropObu.v. Code: internal/parser/parser.go: bitstream, temporalUnit, frameUnit. Proved as stated.
* **C26 Sequence header persistence** — partial, 2 theorems in PropObu.v. Code: internal/parser/parser.go: frameUnit. The sequence header persists (proved for every stream). The operating point chosen from it is forgotten at every frame unit (refuted part).
* **C27 Symbol decoder invariant** — proved, 2 theorems in PropSymbol.v. Code: internal/symbol/symbol.go: ReadSymbol; internal/tilegroup/tile_group.go: initSymbol. Proved as stated.
* **C28 CDF adaptation keeps CDFs valid** — proved, 3 theorems in PropSymbol.v. Code: internal/symbol/symbol.go: ReadSymbol. Proved as stated.
* **C29 A tile's symbol data never leaves the tile** — proved, 1 theorem in PropSymbol.v. Code: internal/symbol/symbol.go; internal/tilegroup/tile_group.go: initSymbol, exitSymbol. Proved as stated.
* **C30 Every symbol sequence is encodable** — proved, 1 theorem in PropSymbol.v. Code: internal/symbol/symbol.go. Proved as stated.
* **C31 Literals** — proved, 3 theorems in PropSymbol.v. Code: internal/literal/literal.go. Proved as stated.
* **C32 Tiles partition the frame** — partial, 5 theorems in PropTiles.v. Code: internal/tileinfo/tile_info.go. Proved in full for 64x64 superblocks (every size, every bit stream). False of the code for 128x128 superblocks (superblock columns computed from the height) and for the number of uniform tile rows (loop test inverted); both refuted by theorem.
* **C33 Superres width bounds** — proved, 1 theorem in PropHeader.v. Code: internal/uncompressedheader/uncompressed_header.go: superResParams. Proved as stated.
* **C34 Mode info grid covers the frame** — proved, 1 theorem in PropHeader.v. Code: internal/uncompressedheader/uncompressed_header.go: computeImageSize. Proved as stated.
* **C35 Quantizer index range** — partial, 3 theorems in PropHeader.v. Code: internal/uncompressedheader/uncompressed_header.go: GetQIndex. Range proved with and without deltas whenever the current index is in 0..255; value ignoring deltas proved in full. False of the code: with deltas the segment feature is ignored (refuted).
* **C36 Lossless flag** — proved, 1 theorem in PropHeader.v. Code: internal/uncompressedheader/uncompressed_header.go: build. Proved as stated.
* **C37 Partition decoding covers each block exactly once** — partial, 8 theorems in PropPartition.v. Code: internal/tilegroup/decode_partition.go. Proved: partition types NONE, VERT, SPLIT, HORZ_B, VERT_A, HORZ_4 tile the block exactly, whole tiles are covered exactly once under them, decoding terminates for every input. False of the code for HORZ, HORZ_A, VERT_B, VERT_4 and at the frame edge (refuted).
* **C38 Loop filter keeps samples in range** — partial, 8 theorems in PropLoopFilter.v. Code: internal/tilegroup/loop_filter_process.go. Proved: the narrow filter exactly, in range and smoothing; the filter decisions; the whole filter keeps samples in range, terminates, and leaves the frame alone at level 0. False of the code: the wide filter always panics, edges closer than 7 samples to the border panic, and with the fixed 2x2 skip array nothing is ever filtered (refuted).
* **C39 CDEF output stays between the taps** — partial, 9 theorems in PropCdef.v. Code: internal/tilegroup/cdef.go. Proved: results lie between nearby samples for every input, zero strengths change nothing, termination, and the exact value of every sample of every frame (equal to the standard's when luma primary strengths are 0 and chroma ones even and not 0). False of the code: parity of strengths ignored, chroma damping with primary strength 0, frames of more than one 8x8 block panic unless CDEF is off there (refuted).
* **C40 Intra prediction interpolates** — partial, 8 theorems in PropIntra.v. Code: internal/tilegroup/predict_intra.go. Exact values of DC (both or no neighbours), Paeth and smooth (4 and 8 sample sides) and their bounds proved; refuted with one neighbour only (constant 0 or 2) and for sides of 16 and more (panic).
* **C41 Walsh-Hadamard transform is lossless** — partial, 4 theorems in PropTransform.v. Code: internal/tilegroup/transform.go. The one-dimensional transform is proved to invert the forward transform, and to be a bijection, for all integers. False of the code for blocks: the working row is never allocated (panic), and if it were, all rows of the result would be equal (refuted).
* **C42 Motion vector candidate stack ordering** — partial, 6 theorems in PropMvStack.v. Code: internal/tilegroup/find_mv_stack.go. Proved: weights end up a decreasing permutation inside the range, nothing changes outside it, termination, ordered ranges untouched. False of the code: a swap loses a vector, and ordering a third candidate panics (refuted).
* **C43 Reference update touches exactly the refreshed slots** — partial, 3 theorems in PropWrapup.v. Code: internal/tilegroup/decode_frame_wrapup.go. Exactly the slots of the set bits hold the frame when the update ends, and it ends for frames up to 9x9; refuted: it panics for every larger frame. Loop filter, segmentation and film grain parameters are not saved at all (stubs).
* **C44 Frames without primary reference start from the default CDFs** — partial, 2 theorems in PropCdfMemory.v. Code: internal/uncompressedheader/cdf.go. Refuted: initNonCoeffCdfs/initCoeffCdfs assign the default slices without copying and ReadSymbol adapts them in place, so after any adapting read no later frame starts from the defaults. True part: histories without adapting reads.
* **C45 A returned sequence header is internally consistent** — proved, 1 theorem in PropSequence.v. Code: internal/sequenceheader/sequence_header.go: NewSequenceHeader. Proved as stated.
* **C46 Sequence header parsing is total** — proved, 1 theorem in PropSequence.v. Code: internal/sequenceheader/sequence_header.go: NewSequenceHeader. Proved as stated.
* **C47 Repeated and redundant frame headers are accepted** — partial, 2 theorems in PropObu.v. Code: internal/obu/obu.go: ParseFrameHeader, FrameHeaderCopy. False of the code: a second frame header always panics (proved).
* **C48 Frame header parsing is total** — proved, 1 theorem in PropHeader.v. Code: internal/uncompressedheader/uncompressed_header.go: NewUncompressedHeader, build. Proved as stated.
* **C49 Quantizer parameters round trip** — proved, 1 theorem in PropHeader.v. Code: internal/uncompressedheader/uncompressed_header.go: quantizationParams, readDeltaQ. Proved as stated.
* **C50 Segmentation parameters round trip** — partial, 2 theorems in PropHeader.v. Code: internal/uncompressedheader/uncompressed_header.go: segmentationParams. Round trip proved for every feature and value except reference frame 4..7, which the code stores as 0 (refuted).
* **C51 CDEF parameters round trip** — proved, 2 theorems in PropHeader.v. Code: internal/uncompressedheader/uncompressed_header.go: cdefParams. Proved as stated.
* **C52 Loop restoration parameters round trip** — proved, 1 theorem in PropHeader.v. Code: internal/uncompressedheader/uncompressed_header.go: lrParams. Proved as stated.
* **C53 Film grain parameters round trip** — proved, 3 theorems in PropHeader.v. Code: internal/uncompressedheader/uncompressed_header.go: filmGrainParams. Proved as stated.
* **C54 Loop filter parameters round trip** — partial, 3 theorems in PropHeader.v. Code: internal/uncompressedheader/uncompressed_header.go: loopFilterParams. Round trip proved for the same syntax with a 6-bit sharpness field. False of the code with the 3-bit field of the standard, and lossless frames get level 1 for the second luma level (both refuted).
* **C55 Render size defaults to the frame size** — partial, 2 theorems in PropHeader.v. Code: internal/uncompressedheader/uncompressed_header.go: renderSize. Explicit sizes proved. Default render height is 0 (refuted).
* **C56 Refresh flags are taken from the stream** — partial, 2 theorems in PropHeader.v. Code: internal/uncompressedheader/uncompressed_header.go: build. Switch frames and shown key frames proved. False of the code: every shown frame and hidden key frame refreshes all slots (refuted).
* **C57 Skip mode is available when two reference frames surround the frame** — partial, 2 theorems in PropHeader.v. Code: internal/uncompressedheader/uncompressed_header.go: skipModeParams, GetRelativeDist. The distance function proved to be the standard's. False of the code: skip mode is never present (refuted).
* **C58 Global motion parameters follow the coded type** — partial, 3 theorems in PropFollowup2.v, PropHeader.v. Code: internal/uncompressedheader/uncompressed_header.go: globalMotionParams, readGlobalParam. Types in range, identity for intra frames proved. False of the code: parameters always identity (refuted).
* **C59 Frame header values are in range** — proved, 1 theorem in PropHeader.v. Code: internal/uncompressedheader/uncompressed_header.go: NewUncompressedHeader. Proved as stated.
* **C60 Quantizer matrix level per plane** — partial, 2 theorems in PropHeader.v. Code: internal/uncompressedheader/uncompressed_header.go: build. Luma and lossless segments proved. False of the code: chroma planes get the luma level (refuted).
* **C61 Screen content tools obey the sequence header** — partial, 2 theorems in PropHeader.v. Code: internal/uncompressedheader/uncompressed_header.go: build. Forced on proved. False of the code: forced off is on (refuted).
* **C62 Delta Q and delta LF parameters round trip** — proved, 2 theorems in PropHeader.v. Code: internal/uncompressedheader/uncompressed_header.go: deltaQParams, deltaLfParams. Proved as stated.
* **C63 Tile contexts can be cleared for every frame size** — partial, 2 theorems in PropPartition.v. Code: internal/tilegroup/tile_group.go: clearAboveContext, clearLeftContext. True only for frames at most 3 units wide/high (proved); for every larger frame clearing panics (refuted).
* **C64 Default CDF tables are valid CDFs** — partial, 3 theorems in PropCdf.v. Code: internal/uncompressedheader/cdf.go: DEFAULT_*. 94 of 96 tables valid (proved); with the other two every read panics (refuted).
* **C65 Loop filter level of an edge** — proved, 2 theorems in PropLoopFilter.v. Code: internal/tilegroup/loop_filter_process.go: adaptiveFilterStrengthSelection. Proved as stated.
* **C66 Loop filter limits of an edge** — partial, 2 theorems in PropLoopFilter.v. Code: internal/tilegroup/loop_filter_process.go: adaptiveFilterStrength. Proved for sharpness 0 and 5..7, and ranges for all. False of the code for sharpness 1..4 (refuted).
* **C67 CDEF direction search finds the best direction** — proved, 2 theorems in PropCdef.v. Code: internal/tilegroup/cdef.go: cdefDirection. Proved as stated.
* **C68 Dequantisation** — proved, 4 theorems in PropTransform.v. Code: internal/tilegroup/reconstruct.go: reconstruct. Proved as stated.
* **C69 Quantizer steps** — partial, 2 theorems in PropTransform.v. Code: internal/tilegroup/reconstruct.go: dcQ, acQ, getDcQuant, getAcQuant. DC steps proved. False of the code: AC coefficients get DC steps (refuted).
* **C70 Inverse transforms** — partial, 6 theorems in PropTransform.v. Code: internal/tilegroup/transform.go: InverseTranform, inverseDCT, inverseADST, inverseIdentityTransform. Identity transforms and Hadamard steps proved. False of the code: every DCT and ADST panics for every input (refuted).
* **C71 Reconstruction adds the residual** — partial, 3 theorems in PropTransform.v. Code: internal/tilegroup/reconstruct.go: reconstruct. Only the block is touched (proved). False of the code: reconstruction always panics, and adding the residual would make every sample 2 (refuted).
* **C72 Motion vector precision lowering** — proved, 3 theorems in PropMvStack.v. Code: internal/tilegroup/find_mv_stack.go: lowerPrecision. Proved as stated.
* **C73 Candidates clamped to the frame** — proved, 2 theorems in PropMvStack.v. Code: internal/tilegroup/find_mv_stack.go: clampMv, contextAndClamping. Proved as stated.
* **C74 Each candidate appears once with summed weight** — partial, 2 theorems in PropMvStack.v. Code: internal/tilegroup/find_mv_stack.go: searchStackProcess, compoundSearchStackProcess. Single reference blocks proved. False of the code for two references: known pairs are pushed again (refuted).
* **C75 Candidate search** — partial, 4 theorems in PropMvStack.v. Code: internal/tilegroup/find_mv_stack.go: findMvStack. Termination and context ranges proved for all neighbourhoods. False of the code: it returns only with at most one candidate and never for compound blocks (refuted).
* **C76 Intra prediction stays inside its block** — proved, 3 theorems in PropIntra.v. Code: internal/tilegroup/predict_intra.go: predictIntra. Proved as stated.
* **C77 Intra prediction uses the decoded neighbours** — partial, 5 theorems in PropEdgeType.v, PropIntra.v. Code: internal/tilegroup/predict_intra.go: predictIntra. Refuted: with a left neighbour the left samples overwrite the row above and the left column is never set; below the first row the row above is read from the block's own row. True part: the left column without a left neighbour, and the corner.
* **C78 Directional intra prediction** — partial, 7 theorems in PropIntra.v. Code: internal/tilegroup/predict_intra.go: directionalIntraPredictionProcess. Vertical, angles above 180 (no edge filter) proved; refuted: horizontal is transposed, below 90 degrees the displacement is 2i instead of i+1, between 90 and 180 it panics, with edge filter it panics.
* **C79 Filter-intra prediction** — partial, 1 theorem in PropIntra.v. Code: internal/tilegroup/predict_intra.go: recursiveIntraPredictionProcess. Refuted: filter-intra always panics.
* **C80 Saved CDFs are a snapshot** — partial, 3 theorems in PropCdfMemory.v. Code: internal/uncompressedheader/cdf.go: SaveCdfs, LoadCdfs; internal/symbol/symbol.go: ReadSymbol. Refuted: SaveCdfs/LoadCdfs copy slice headers only; the saved tables keep adapting, and the primary reference frame makes no difference for the non-coefficient CDFs. True part: no adapting read between save and load.
* **C81 A symbol read adapts only its own CDF** — partial, 2 theorems in PropCdfMemory.v. Code: internal/uncompressedheader/cdf.go: initNonCoeffCdfs; internal/symbol/symbol.go: ReadSymbol. Refuted for variables initialised from the same default slice (motion vector contexts, loop filter deltas). True for all other variables.
* **C82 Every CDF variable is initialised** — partial, 2 theorems in PropCdfMemory.v. Code: internal/uncompressedheader/cdf.go: initNonCoeffCdfs, initCoeffCdfs; internal/tilegroup/tile_group.go: initSymbol. Refuted for RefMvCdf, which is never initialised. All other variables are.
* **C83 CDF tables cover all contexts of the standard** — partial, 3 theorems in PropCdfMemory.v. Code: internal/uncompressedheader/cdf.go: DEFAULT_*. Refuted for DEFAULT_COEFF_BASE_CDF: set 3, 4x4 chroma has 4 contexts (and a third plane). All other 93 tables have the dimensions of the standard.
* **C84 Tiles start from the frame's CDFs** — partial, 2 theorems in PropCdfMemory.v. Code: internal/tilegroup/tile_group.go: initSymbol, exitSymbol. Refuted: tiles share the tables, so a tile starts from what earlier tiles left. True part: no adapting reads.
* **C85 Reference frames survive to the next frame** — partial, 2 theorems in PropWrapup.v. Code: internal/obu/obu.go; internal/tilegroup/tile_group.go: FrameStore. Refuted: every tile group starts with a zero FrameStore, so all samples of all references are 0. Everything else survives.
* **C86 Super-resolution keeps flat areas and unscaled frames** — partial, 4 theorems in PropWrapup.v. Code: internal/tilegroup/decode_frame_wrapup.go: upscalingProcess. Filter sums reproduce flat rows and the process succeeds up to 9x9; refuted: unscaled rows are shifted by one column and after Clip1 every sample is 2.
* **C87 Super-resolution keeps the picture aligned** — proved, 2 theorems in PropWrapup.v. Code: internal/tilegroup/decode_frame_wrapup.go: upscalingProcess. Proved as stated.
* **C88 Loop restoration stays in its planes, stripes and units** — partial, 5 theorems in PropWrapup.v. Code: internal/tilegroup/loop_restoration.go: loopRestoration, loopRestoreBlock, getSourceSample. All parts proved except the unit column, which is refuted (8 is added to the column too).
* **C89 Loop restoration filters run** — partial, 3 theorems in PropFollowup.v, PropWrapup.v. Code: internal/tilegroup/loop_restoration.go: wienerFilter, selfGuidedFilter. Refuted: a Wiener block always panics, a self-guided block unless it is 1x1; completed frames contain only CDEF samples and the constant 2.
* **C90 The output is the decoded frame** — partial, 2 theorems in PropWrapup.v. Code: internal/tilegroup/tile_group.go: decodeFrameWrapup; internal/tilegroup/output.go: outputProcess. Refuted: frames above 9x9 never end, shown frames above 1x1 neither, and the output of a 1x1 frame is always 2. True part: slots and frames not shown.
* **C91 Operating points, film grain and repeated frames** — partial, 4 theorems in PropWrapup.v. Code: internal/tilegroup/output.go: outputProcess; internal/tilegroup/decode_frame_wrapup.go: referenceFrameLoadingProcess. Refuted: operating points and film grain panic, repeating a key frame never ends normally, and repeated frames have transposed chroma.
* **C92 Which edges the loop filter touches** — partial, 7 theorems in PropLoopFilterEdges.v. Code: internal/tilegroup/loop_filter_process.go: loopFilter, loopFilterEdge, filterSize. Proved as stated.
* **C93 How the partition symbol is read** — proved, 4 theorems in PropPartitionCtx.v. Code: internal/tilegroup/decode_partition.go: decodePartition; internal/tilegroup/util.go: isInside. Proved as stated.
* **C94 Frame headers of key and intra-only frames** — partial, 4 theorems in PropFrameHeader.v, PropTileSyntax.v. Code: internal/uncompressedheader/uncompressed_header.go: NewUncompressedHeader, build; internal/tileinfo/tile_info.go: NewTileInfo. Proved for every sequence header without frame ids and with screen content tools not forced off, and every shown key frame or hidden intra-only frame; loop_filter_sharpness is read as 6 bits (3 in AV1), the default render height is 0, shown intra-only frames do not read their refresh flags, and tile_info is concrete for one superblock row of uniform tiles and for all coded tile sizes with 64x64 superblocks (C94_coded_tiles_partial); other tile layouts: any bits that NewTileInfo parses.
* **C95 What the motion vector search looks at and how it counts** — partial, 8 theorems in PropFollowup.v, PropMvStackMore.v. Code: internal/tilegroup/find_mv_stack.go: compoundSearchStackProcess, scanRowProcess, scanColProcess, extraSearchProcess, contextAndClampingProcess. All parts proved except the bonus, which the last adjacent candidate never gets (refuted).
* **C96 The coefficients of a transform block are those of the bitstream** — partial, 5 theorems in PropCoeffs.v. Code: internal/tilegroup/coeffs.go: coeffs, allZeroSymbol, transformType, getCoeffBaseCtx, readCoeffBrSymbol, readDcSignSymbol. The whole parse follows the standard syntax with the standard contexts except for three differences, each refuted: signs of all coefficients but the first are not read, levels are cut to 16 bits, 64x16 uses the order of 16x64. Agreement with the standard proved for blocks of at most one coefficient below 2^16.
* **C97 The coefficient order is the standard's** — partial, 2 theorems in PropCoeffs.v. Code: internal/tilegroup/coeffs.go: getScan, getMColScan, getMrowScan, getDefaultScan. Proved for every size except 64x16, which uses the order of 16x64 (refuted).
* **C98 Transform types are legal** — proved, 3 theorems in PropCoeffs.v. Code: internal/tilegroup/coeffs.go: transformType, computeTxType, getTxSet, isTxTypeInSet. Proved as stated.
* **C99 The number of coefficients is reported** — partial, 2 theorems in PropCoeffs.v. Code: internal/tilegroup/coeffs.go: coeffs. Refuted: the number returned is always 0 (shadowed variable); right for empty blocks only.
* **C100 Parsing a transform block terminates** — partial, 2 theorems in PropCoeffs.v. Code: internal/tilegroup/coeffs.go: coeffs. Refuted: on a 20-bit tile the Golomb prefix loop never ends, for any number of steps. True part: otherwise it returns, without panic.
* **C101 Every transform block that begins in the frame can be parsed** — partial, 2 theorems in PropCoeffs.v. Code: internal/tilegroup/coeffs.go: coeffs, transformType; internal/tilegroup/tile_group.go: TxTypes, AboveLevelContext, LeftLevelContext. Refuted: a block parses only if entirely inside the frame, and a luma block only in the top left 8x8.
* **C102 Mode information of intra frames follows the syntax** — partial, 2 theorems in PropModeInfo.v. Code: internal/tilegroup/intra_frame_mode_info.go: intraFrameModeInfo. Every element follows the standard except for the differences of C103, C104, C105, C108, C109, C110; without segmentation, screen content and filter intra the result is the standard one up to the sign of chroma from luma.
* **C103 The skip flag is read with the context of the neighbours** — partial, 3 theorems in PropModeInfo.v. Code: internal/tilegroup/intra_frame_mode_info.go: readSkip. Refuted: the context is taken from SkipModes (always 0 in intra frames), an array of 2x2 entries, so it panics elsewhere. True with that array in place of the skip flags.
* **C104 The segment of a block is the coded one** — partial, 3 theorems in PropModeInfo.v. Code: internal/tilegroup/intra_frame_mode_info.go: readSegmentId, intraSegmentId; internal/util/util.go: NegDeinterleave. Proved for 8 segments and predictions 0 and 1; refuted for predictions of 2 or more and for values beyond the last segment (panic).
* **C105 The CDEF index is stored for the areas the block covers** — partial, 3 theorems in PropModeInfo.v. Code: internal/tilegroup/intra_frame_mode_info.go: readCdef. Proved up to the diagonal of the 64x64 grid for blocks up to 64x64; refuted right of it (area below overwritten or panic) and for 128 wide blocks.
* **C106 Quantizer and loop filter deltas** — proved, 3 theorems in PropModeInfo.v. Code: internal/tilegroup/intra_frame_mode_info.go: readDeltaQIndex, readDeltaLf. Proved as stated.
* **C107 Luma mode and angle** — proved, 3 theorems in PropModeInfo.v. Code: internal/tilegroup/intra_frame_mode_info.go: intraFrameYModeSymbol, intraAngleInfoY, intraAngleInfoUv. Proved as stated.
* **C108 Chroma mode and chroma from luma** — partial, 3 theorems in PropModeInfo.v. Code: internal/tilegroup/intra_frame_mode_info.go: intraFrameModeInfo, readCflAlphas. Same symbols except for blocks with a side of 32 (refuted); both parameters always have the opposite sign (refuted).
* **C109 Palette, filter-intra and intra block copy flags are read** — partial, 4 theorems in PropModeInfo.v. Code: internal/tilegroup/intra_frame_mode_info.go: intraFrameModeInfo, filterIntraModeInfo; internal/tilegroup/palette.go: paletteModeInfo; internal/bitstream/bitstream.go: S. Refuted: these tools end the decoder (b.S() panics). With the tools off nothing is read.
* **C110 Reference frames of an intra block** — partial, 1 theorem in PropModeInfo.v. Code: internal/tilegroup/intra_frame_mode_info.go: intraFrameModeInfo. Refuted: always NONE and the previous value.
* **C111 The transform size of a block is the coded one** — partial, 5 theorems in PropTxSize.v. Code: internal/tilegroup/tx_size.go: readBlockTxSize, readTxSize, txDepthSymbol, getAboveTxWidth, getLeftTxHeight. The standard syntax for blocks that are not skipped with both neighbours or none. Refuted: skipped intra blocks read no depth; in the first row of a tile the left neighbour is ignored; in the first column of the frame it panics. The general behaviour is proved.
* **C112 The transform size is recorded over the block** — partial, 2 theorems in PropTxSize.v. Code: internal/tilegroup/tx_size.go: readBlockTxSize. Proved whenever the function returns; refuted beyond 256x256 samples (panic).
* **C113 Trees of transform sizes of inter blocks are parsed** — partial, 2 theorems in PropTxSize.v. Code: internal/tilegroup/tx_size.go: readVarTxSize. Refuted: every block with a tree panics; a leaf would be recorded on its diagonal only.
* **C114 Which blocks have chroma and which neighbours they see** — proved, 1 theorem in PropBlock.v. Code: internal/tilegroup/decode_block.go: decodeBlock; internal/tilegroup/util.go: isInside. Proved as stated.
* **C115 Modes and reference frames of a block are recorded** — partial, 3 theorems in PropBlock.v. Code: internal/tilegroup/decode_block.go: decodeBlock. Recorded exactly whenever the stores return; refuted beyond 256x256 samples, and beyond 8x8 samples for blocks recorded as intra with chroma (panic).
* **C116 Motion data of inter blocks is recorded** — partial, 3 theorems in PropBlock.v. Code: internal/tilegroup/decode_block.go: decodeBlock. Refuted: the flag tested is a state field that is never assigned, so no motion data is ever recorded. With the flag set, filters and compound indices are recorded exactly (C116_recorded_partial), as are the motion vectors of one or two references (C116_vectors_partial).
* **C117 Flags and sizes of a block are recorded** — partial, 2 theorems in PropBlock.v. Code: internal/tilegroup/decode_block.go: decodeBlock. Recorded exactly whenever the stores return (palette colours not covered); refuted beyond the first 8x8 samples of the frame (panic).
* **C118 Skipped blocks clear the coefficient contexts** — partial, 2 theorems in PropBlock.v. Code: internal/tilegroup/decode_block.go: resetBlockContext, decodeBlock. The clearing function is exact; refuted for the decoder: it is never called (a state field that is never assigned).
* **C119 Each intra mode uses its predictor and is stored in place** — partial, 7 theorems in PropEdgeType.v, PropIntraMore.v. Code: internal/tilegroup/predict_intra.go: predictIntra, intraEdgeFilterStrengthSelectionProcess, intraEdgeUpsampleSelectionProcess, filterCornerProcess. Predictor and placement proved for every mode without filter-intra (which panics, C79); strengths proved when the neighbour is smooth or w+h <= 12 and refuted otherwise.
* **C120 The box filter of self-guided restoration is the standard's** — partial, 1 theorem in PropBox.v. Code: internal/tilegroup/loop_restoration.go: boxFilter. Proved for blocks of one sample; larger blocks panic (C89), and the final clip discards the value (C89).
* **C121 The stages at the end of a frame run in order** — proved, 2 theorems in PropPipeline.v. Code: internal/tilegroup/tile_group.go: decodeFrameWrapup. Order and data flow of the stages for every frame whose wrap-up returns; what the stages do wrong is in C38, C39, C86, C89.
* **C122 Motion vector differences are read with the standard's tables** — partial, 4 theorems in PropMvRead.v. Code: internal/tilegroup/assign_mv.go: readMv, readMvComponent; internal/uncompressedheader/cdf.go: initNonCoeffCdfs. Proved for each component and for vectors with at most one coded component; with both, the code behaves as the standard with tables shared between contexts and components (C122_merged_partial), which gives other symbols (refuted by a concrete stream).
* **C123 A motion vector difference has the coded value** — partial, 2 theorems in PropMvRead.v. Code: internal/tilegroup/assign_mv.go: readMv, readMvComponent. Right exactly for class 0 and integer parts 0 and 2 of longer classes (the integer bits are all put in the same place); refuted otherwise.
* **C124 Each vector of a compound block is found the way its mode says** — partial, 2 theorems in PropMvRead.v. Code: internal/tilegroup/assign_mv.go: getMode. Refuted for the second vector of NEAREST_NEARESTMV and NEW_NEARESTMV, proved for everything else.
* **C125 The motion vectors of a block are assigned from the candidates** — partial, 5 theorems in PropMvRead.v. Code: internal/tilegroup/assign_mv.go: assignMv. Proved for candidate indices 0 and 1 (larger ones panic), relative to C122, C123 and C124; intra block copy proved except for blocks without candidate below the first row of superblocks (refuted).
* **C126 Restoration units are read with the superblock they begin in** — partial, 3 theorems in PropLrRead.v. Code: internal/tilegroup/read_loop_restoration.go: readLr; internal/util/util.go: CountUnitsInFrame. Proved for chroma planes and for luma without subsampling (with unit sizes from 32, i.e. all); luma of subsampled streams uses the chroma subsampling, so that at most half the rows of units are read (refuted).
* **C127 Reading a filter coefficient terminates on any data** — proved, 1 theorem in PropLrRead.v. Code: internal/tilegroup/read_loop_restoration.go: decodeSubexpBool. For every tile state; the loop reads at most the remaining bits and 17 bits of padding.
* **C128 Filter coefficients have the coded value** — partial, 2 theorems in PropLrRead.v. Code: internal/tilegroup/read_loop_restoration.go: decodeSubexpBool, decodeUnsignedSubexpWithRefBool, decodeSignedSubexpWithRefBool. Right for the values of the first two rounds (the 2^(k+1) nearest to the reference); further ones are wrong and may be out of range (refuted).
* **C129 Restoration units are parsed and stored** — partial, 4 theorems in PropLrRead.v. Code: internal/tilegroup/read_loop_restoration.go: readLrUnit. Proved for units without filter and self-guided units of planes with switchable restoration, first unit of the plane; all others panic (refuted).
* **C130 The transform blocks of a block cover it exactly** — partial, 2 theorems in PropResidual.v. Code: internal/tilegroup/residual.go: residual, getTxSize. Coverage for all sizes; the order for blocks up to 64x64: larger ones are not cut into chunks, the block width table is all 0 (refuted).
* **C131 The transforms of inter luma are the leaves of the recorded tree** — proved, 1 theorem in PropResidual.v. Code: internal/tilegroup/residual.go: transformTree, findTxSize, residual. For every recorded table with transform sizes in range; includes the chroma transform blocks that follow.
* **C132 A transform block predicts, reads and adds in order, and is marked as decoded** — partial, 7 theorems in PropResidual.v. Code: internal/tilegroup/residual.go: transformBlock; internal/state/state.go: BlockDecoded. Events for blocks on the diagonal of their superblock with the same luma and chroma availability and 64x64 superblocks; marks for square ones. Refuted: luma asks chroma availability, column taken from the row, marks as wide as high, no block below row 8 returns.
* **C133 Chroma from luma adds the scaled luma** — partial, 4 theorems in PropResidual.v. Code: internal/tilegroup/residual.go: predictChromaFromLuma; internal/util/util.go: Clip1, Round2Signed. Only the block is written and the luma sums and their total are right; all samples become 2 since Clip1 ignores its argument, and the alpha of V serves both planes (refuted).
* **C134 Palette prediction paints the colours of the map** — partial, 2 theorems in PropResidual.v. Code: internal/tilegroup/residual.go: palettePrediction. Luma proved; chroma always panics (refuted).
* **C135 Transform sizes of chroma and of leaves** — proved, 3 theorems in PropResidual.v. Code: internal/tilegroup/residual.go: getTxSize, findTxSize. For 4:4:4, 4:2:0 and, for the block sizes the standard allows there, 4:2:2.
* **C136 The decoded flags are set up at the start of a superblock** — partial, 3 theorems in PropResidual.v. Code: internal/tilegroup/tile_group.go: clearBlockDecodedFlags, decodeTile. What happens with 64x64 superblocks, for all histories: two flags cleared, none set (refuted); with 128x128 it always panics (refuted).
* **C137 Interpolation keeps constant pictures** — proved, 1 theorem in PropPredictInter.v. Code: internal/tilegroup/predict_inter.go: blockInterPredictionProcess, roundVariablesDerivationProcess. For all steps >= 0, all filters, all rounding of single and compound prediction.
* **C138 Only references within the scale limits are used** — proved, 2 theorems in PropPredictInter.v. Code: internal/tilegroup/predict_inter.go: motionVectorScalingProcess; internal/tilegroup/util.go: isScaled. References of at most 2^17 samples a side.
* **C139 A vector points to the scaled position** — partial, 2 theorems in PropPredictInter.v. Code: internal/tilegroup/predict_inter.go: motionVectorScalingProcess; internal/util/util.go: Round2Signed. Right when the standard position is at most 32/1024; otherwise 32/1024 is used and the distance between samples is 0 (refuted: Round2Signed rounds a constant for positive values).
* **C140 The prediction is the interpolated reference** — partial, 2 theorems in PropPredictInter.v. Code: internal/tilegroup/predict_inter.go: blockInterPredictionProcess. Exactly the standard filter for positions with fraction below 1/16 and no vertical step (all that occur: C139); the vector is then ignored and every sample of the block is the corner sample of the reference (refuted). Others index the filters out of range.
* **C141 Divisions of the warp model are by reciprocals** — partial, 2 theorems in PropPredictInter.v. Code: internal/tilegroup/predict_inter.go: resolveDivisorProcess. Factor and shift + 1 are the reciprocal to 1/256 for all divisors but those with leading bits 420 (wrong table entry); the returned shift is one too small for all (refuted).
* **C142 The shear of a warp is derived and checked** — partial, 2 theorems in PropPredictInter.v. Code: internal/tilegroup/predict_inter.go: setupShearProcess. Multiples of 64 in range, valid exactly when the limits hold, alpha and beta the standard values when negative; positive ones become 0 so that extreme warps are valid (refuted).
* **C143 Every kind of inter prediction can be decoded** — partial, 2 theorems in PropPredictInter.v. Code: internal/tilegroup/predict_inter.go: predictInter, blockWarpProcess, warpEstimationProcess, maskBlendProcess, distanceWeightsProcess. Refuted: exactly which kinds panic: compound, wedge, difference and distance weights, copied and warped blocks.
* **C144 Overlapped prediction blends towards the edge** — partial, 6 theorems in PropFollowup.v, PropPredictInter.v. Code: internal/tilegroup/predict_inter.go: overlapBlendingProcess, overlappedMotionCompensationProcess; internal/util/util.go: GetObmcMask. The blend is proved in full, and the masks up to 16; the mask of 32 has a weight 3 (refuted) and the left neighbour is weighed by row (refuted).
* **C145 The prediction is stored in the block** — partial, 2 theorems in PropPredictInter.v. Code: internal/tilegroup/predict_inter.go: predictInter. Only the block changes if it is not higher than wide (partial); the value 2 goes to the diagonal, the rest is not written (refuted).
* **C146 The predictions of an inter block cover it with the right vectors** — partial, 5 theorems in PropComputePrediction.v. Code: internal/tilegroup/compute_prediction.go: computePrediction. Proved for all planes for which the standard has one prediction, in general exactly the first of the standard; others are missing (refuted); inter-intra at a superblock edge panics (refuted).
* **C147 The reference frame of an inter block is read as coded** — partial, 6 theorems in PropInterMode.v. Code: internal/tilegroup/inter_block_mode_info.go: readRefFrames; internal/tilegroup/syntax_element.go. Follows the code variant exactly; equals the standard where the two wrong contexts agree; contexts of ALTREF and LAST2 wrong, LAST3, GOLDEN and compound references panic (refuted).
* **C148 The segment of a block of an inter frame** — partial, 8 theorems in PropInterSeg.v. Code: internal/tilegroup/inter_frame_mode_info.go: interSegmentId, getSegmentId. The prediction from the previous map, and reading without temporal update (for the segments of C104), proved; temporal update panics, left flags go to the row above, that row has three elements (refuted).
* **C149 Skip mode and the inter flag are read as coded** — partial, 5 theorems in PropInterSeg.v. Code: internal/tilegroup/inter_frame_mode_info.go: readSkipMode, readIsInter. Proved outside of segments with global motion, which become intra (refuted); coded skip mode panics (refuted).
* **C150 Intra blocks of inter frames are read as coded** — partial, 3 theorems in PropInterBlock.v. Code: internal/tilegroup/inter_frame_mode_info.go: intraBlockModeInfo. Proved without palettes and recursive filters, but for the sign of the chroma from luma parameters (refuted).
* **C151 The mode of an inter block and its candidate are read as coded** — partial, 6 theorems in PropFollowup2.v, PropInterBlock.v. Code: internal/tilegroup/inter_block_mode_info.go: interBlockModeInfo. New and global modes proved; nearest, near and any choice between candidates panic (refuted).
* **C152 The motion mode is read as coded** — partial, 5 theorems in PropFollowup2.v, PropInterBlock.v. Code: internal/tilegroup/inter_block_mode_info.go: readMotionMode, findWarpSamples, addSample. Simple where header, size or global warp say so; everything else never returns, and no warp sample can be found (refuted).
* **C153 The interpolation filter is read where it is coded** — partial, 5 theorems in PropInterBlock.v. Code: internal/tilegroup/inter_block_mode_info.go: needsInterpFilter, interBlockModeInfo. Proved but for GLOBAL_GLOBALMV (refuted); coded filters panic (refuted).
* **C154 Inter-intra and compound type are read as coded** — partial, 5 theorems in PropInterBlock.v. Code: internal/tilegroup/inter_block_mode_info.go: readInterIntraMode, readCompoundType. Inter-intra is never read where coded, read in skip mode where it is not (refuted); compound types with masks or distance weights panic (refuted); the rest proved.
* **C155 A block of an inter frame is parsed in the order of the standard** — partial, 1 theorem in PropInterBlock.v. Code: internal/tilegroup/inter_frame_mode_info.go: interFrameModeInfo; internal/tilegroup/inter_block_mode_info.go: interBlockModeInfo. Whole block without segmentation, skip mode, reference_select, switchable motion and filter, in the variant of C147 and C150; candidate list and vectors are parameters (C42, C72-C75, C95, C122-C125).
* **C156 A tile group is split into its tiles** — proved, 2 theorems in PropTileGroup.v. Code: internal/tilegroup/tile_group.go: NewTileGroup, build; internal/tilegroup/tile_group.go: initSymbol, exitSymbol. For every layout, group and tile decoder that reads through the symbol decoder (which C27 shows of every read): accepted groups are cut correctly; and if every tile is decoded, the group is accepted. Tile sizes up to 7 bytes of size field.
* **C157 The CDEF index of a superblock is reset** — partial, 3 theorems in PropDecoder.v. Code: internal/cdef/cdef.go: ClearCdef. Proved for superblocks of 64x64 in the first three rows and columns, after any history. Refuted: the fourth superblock of a row or column always panics (cap is tested, len is indexed); of 128x128 superblocks only the first quarter is reset (CdefSize4 is never set).
* **C158 Frames of every size can be decoded** — partial, 3 theorems in PropDecoder.v. Code: internal/tilegroup/tile_group.go: decodeTile, clearAboveContext, clearLeftContext; internal/obu/obu.go: NewObu, newFrame. Refuted: whatever the data and the block decoding, a frame wider or higher than 8 samples in one tile is never decoded, nor any well formed group of a frame wider than 8 (the segmentation context has 3 entries); for OBU_FRAME stated in frame width and height. The case shows an 8x8 frame decoded and a 9x9 one panicking.
* **C159 Tiles are independent** — partial, 2 theorems in PropDecoder.v. Code: internal/tilegroup/tile_group.go: decodeTile, clearAboveContext, clearLeftContext. Independence is proved for all states and block decoders. The values at the first superblock are proved for frames of at most 3 rows and columns of 4x4 samples; larger ones panic (C158).
* **C160 Decoding always terminates** — partial, 1 theorem in PropTerminates.v. Code: internal/parser/parser.go: bitstream, temporalUnit, frameUnit; internal/obu/obu.go: NewObu; internal/tilegroup/tile_group.go: build, decodeTile, decodePartition, clearBlockDecodedFlags; internal/cdef/cdef.go: ClearCdef. All loops of the modelled levels stop for every input, if the readers of elements, one block and the end of a frame do; missing: coefficient reading does not for some blocks (C100_termination_refuted).
* **C161 Tile sizes cannot break the symbol decoder** — proved, 1 theorem in PropSymbolAny.v. Code: internal/symbol/symbol.go: ReadSymbol; internal/literal/literal.go: L, NS; internal/tilegroup/tile_group.go: initSymbol. For every integer size, every history of symbol, literal and NS reads over valid CDFs; a panic implies the tile exceeds the data.
* **C162 The palette cache is the union of the neighbours' palettes** — partial, 3 theorems in PropPalette.v. Code: internal/tilegroup/palette.go: getPaletteCache. For all sorted palettes and enough room: ascending, no duplicates, all colors above and the ones to the left that are not larger than all colors above. False beyond that: larger colors on the left are dropped (C162_left_refuted: with nothing above, the cache is empty), and the code never gives the cache a length, so any color above panics (C162_nil_refuted).
* **C163 Every sample of a palette block gets a color index** — partial, 3 theorems in PropPalette.v. Code: internal/tilegroup/palette_tokens.go: paletteTokens, getPaletteColorContext. False: the score table is a nil slice, so every context computation panics (C163_context_refuted) and a block with a palette is never decoded (C163_tokens_refuted, whatever b.S() would return at a sample). True: without a palette nothing is read or changed (C163_none_partial).
* **C164 Masks weigh two predictions** — partial, 5 theorems in PropMasks.v. Code: internal/tilegroup/predict_inter.go: differenceWeightMaskProcess, intraModeVariantMaskProcess. Given a mask with room for the block (in the code it is nil, C164_nil_refuted): both masks are exact for all predictions below 2^40, sizes (intra: to 128), bit depths, and stay in their ranges.
* **C165 A mask blends two predictions** — partial, 4 theorems in PropMasks.v. Code: internal/tilegroup/predict_inter.go: maskBlendProcess. Exact blend for all predictions below 2^40, masks of weights 0..64, planes and subsamplings; between the two predictions. False: the result is not clipped (C165_range_refuted), and with an intra prediction the constant 2 takes the place of the inter prediction (C165_interintra_refuted).
* **C166 Distance weights favour the nearer reference** — partial, 4 theorems in PropMasks.v. Code: internal/tilegroup/predict_inter.go: distanceWeightsProcess. Given a slice for the distances (in the code it is nil, C166_nil_refuted): exact for all hints and distances, sum 16, nearer reference heavier.
* **C167 Wedge masks** — partial, 6 theorems in PropWedge.v. Code: internal/wedgemask/wedge_mask.go: InitialiseWedgeMaskTable, getWedgeDirection, getWedgeXoff, getWedgeYoff, blockShape. Given slices with room and the sizes of the blocks: every entry is exact (the corner the code counts twice never changes a sign), nothing else changes; complementary, one edge per row and column, sign. False: the slices are nil (C167_nil_refuted), and the sizes the code takes are never set, so even with room it stores nothing (C167_sizes_refuted).
* **C168 Coded tile sizes are read as coded** — partial, 2 theorems in PropTileSyntax.v. Code: internal/tileinfo/tile_info.go: NewTileInfo. Proved for 64x64 superblocks: every frame up to 2^20 4x4 columns and rows, every valid list of sizes, the bits of the standard. Refuted for 128x128 superblocks (the number of columns comes from the height, the rows still count 64x64 superblocks).
* **C169 Which neighbours make the edges of a prediction smooth** — partial, 3 theorems in PropEdgeType.v. Code: internal/tilegroup/predict_intra.go: getFilterType, isSmooth. Proved for luma and for chroma that is not subsampled, unless both neighbours exist and only the one above is smooth; refuted: the one above is ignored if there is one to the left, and subsampled chroma takes the other 4x4 column (row).
