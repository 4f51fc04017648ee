notes={
"C94":("partial","Proved for every sequence header without frame ids and with screen content tools not forced off, and every shown key frame or hidden intra-only frame; loop_filter_sharpness is read as 6 bits (3 in AV1), the default render height is 0, shown intra-only frames do not read their refresh flags, and tile_info is concrete for one superblock row of uniform tiles and for all coded tile sizes with 64x64 superblocks (C94_coded_tiles_partial); other tile layouts: any bits that NewTileInfo parses."),
"C15":("partial","False of the code: for x>=0 Round2Signed rounds the constant 2. Proved: the negative branch, and that the result ignores every non-negative x."),
"C16":("partial","Clip3 proved in full. The Clip1 half is false of the code: Clip1 returns 2 for every sample (proved)."),
"C18":("partial","False of the code for ref>=2 (guard is ref==1 instead of ref!=0). Proved: agreement for ref 0 and 1, disagreement for every other ref, and that the map is still a bijection of 0..max-1."),
"C20":("partial","False of the code: Brev copies bit 1 everywhere (exact value proved), Cos128/Sin128 panic outside one quarter turn (proved); the first quarter is proved correct against the table."),
"C22":("partial","False of the code: headers with the normal operating point syntax are misread and reduced headers lose their size (both refuted by theorem). Proved: the prefix, and the whole size/tools section."),
"C23":("partial","Proved for temporal delimiters, dropped OBUs, padding with a zero byte, and for all other types except frames and tile groups as long as the payload leaves room for trailing bits; refuted for padding without zero byte."),
"C26":("partial","The sequence header persists (proved for every stream). The operating point chosen from it is forgotten at every frame unit (refuted part)."),
"C32":("partial","Proved in full for 64x64 superblocks (every size, every bit stream). False of the code for 128x128 superblocks (superblock columns computed from the height) and for the number of uniform tile rows (loop test inverted); both refuted by theorem."),
"C47":("partial","False of the code: a second frame header always panics (proved)."),
"C35":("partial","Range proved with and without deltas whenever the current index is in 0..255; value ignoring deltas proved in full. False of the code: with deltas the segment feature is ignored (refuted)."),
"C50":("partial","Round trip proved for every feature and value except reference frame 4..7, which the code stores as 0 (refuted)."),
"C54":("partial","Round trip proved for the same syntax with a 6-bit sharpness field. False of the code with the 3-bit field of the standard, and lossless frames get level 1 for the second luma level (both refuted)."),
"C55":("partial","Explicit sizes proved. Default render height is 0 (refuted)."),
"C56":("partial","Switch frames and shown key frames proved. False of the code: every shown frame and hidden key frame refreshes all slots (refuted)."),
"C57":("partial","The distance function proved to be the standard's. False of the code: skip mode is never present (refuted)."),
"C58":("partial","Types in range, identity for intra frames proved. False of the code: parameters always identity (refuted)."),
"C60":("partial","Luma and lossless segments proved. False of the code: chroma planes get the luma level (refuted)."),
"C61":("partial","Forced on proved. False of the code: forced off is on (refuted)."),
"C37":("partial","Proved: partition types NONE, VERT, SPLIT, HORZ_B, VERT_A, HORZ_4 tile the block exactly, whole tiles are covered exactly once under them, decoding terminates for every input. False of the code for HORZ, HORZ_A, VERT_B, VERT_4 and at the frame edge (refuted)."),
"C63":("partial","True only for frames at most 3 units wide/high (proved); for every larger frame clearing panics (refuted)."),
"C64":("partial","94 of 96 tables valid (proved); with the other two every read panics (refuted)."),
"C38":("partial","Proved: the narrow filter exactly, in range and smoothing; the filter decisions; the whole filter keeps samples in range, terminates, and leaves the frame alone at level 0. False of the code: the wide filter always panics, edges closer than 7 samples to the border panic, and with the fixed 2x2 skip array nothing is ever filtered (refuted)."),
"C66":("partial","Proved for sharpness 0 and 5..7, and ranges for all. False of the code for sharpness 1..4 (refuted)."),
"C39":("partial","Proved: results lie between nearby samples for every input, zero strengths change nothing, termination, and the exact value of every sample of every frame (equal to the standard's when luma primary strengths are 0 and chroma ones even and not 0). False of the code: parity of strengths ignored, chroma damping with primary strength 0, frames of more than one 8x8 block panic unless CDEF is off there (refuted)."),
"C41":("partial","The one-dimensional transform is proved to invert the forward transform, and to be a bijection, for all integers. False of the code for blocks: the working row is never allocated (panic), and if it were, all rows of the result would be equal (refuted)."),
"C69":("partial","DC steps proved. False of the code: AC coefficients get DC steps (refuted)."),
"C70":("partial","Identity transforms and Hadamard steps proved. False of the code: every DCT and ADST panics for every input (refuted)."),
"C71":("partial","Only the block is touched (proved). False of the code: reconstruction always panics, and adding the residual would make every sample 2 (refuted)."),
"C42":("partial","Proved: weights end up a decreasing permutation inside the range, nothing changes outside it, termination, ordered ranges untouched. False of the code: a swap loses a vector, and ordering a third candidate panics (refuted)."),
"C74":("partial","Single reference blocks proved. False of the code for two references: known pairs are pushed again (refuted)."),
"C75":("partial","Termination and context ranges proved for all neighbourhoods. False of the code: it returns only with at most one candidate and never for compound blocks (refuted)."),
 "C40":("partial","Exact values of DC (both or no neighbours), Paeth and smooth (4 and 8 sample sides) and their bounds proved; refuted with one neighbour only (constant 0 or 2) and for sides of 16 and more (panic)."),
 "C77":("partial","Refuted: with a left neighbour the left samples overwrite the row above and the left column is never set; below the first row the row above is read from the block's own row. True part: the left column without a left neighbour, and the corner."),
 "C78":("partial","Vertical, angles above 180 (no edge filter) proved; refuted: horizontal is transposed, below 90 degrees the displacement is 2i instead of i+1, between 90 and 180 it panics, with edge filter it panics."),
 "C79":("partial","Refuted: filter-intra always panics."),

'C44': ('partial','Refuted: initNonCoeffCdfs/initCoeffCdfs assign the default slices without copying and ReadSymbol adapts them in place, so after any adapting read no later frame starts from the defaults. True part: histories without adapting reads.'),
'C80': ('partial','Refuted: SaveCdfs/LoadCdfs copy slice headers only; the saved tables keep adapting, and the primary reference frame makes no difference for the non-coefficient CDFs. True part: no adapting read between save and load.'),
'C81': ('partial','Refuted for variables initialised from the same default slice (motion vector contexts, loop filter deltas). True for all other variables.'),
'C82': ('partial','Refuted for RefMvCdf, which is never initialised. All other variables are.'),
'C83': ('partial','Refuted for DEFAULT_COEFF_BASE_CDF: set 3, 4x4 chroma has 4 contexts (and a third plane). All other 93 tables have the dimensions of the standard.'),
'C84': ('partial','Refuted: tiles share the tables, so a tile starts from what earlier tiles left. True part: no adapting reads.'),

'C43': ('partial','Exactly the slots of the set bits hold the frame when the update ends, and it ends for frames up to 9x9; refuted: it panics for every larger frame. Loop filter, segmentation and film grain parameters are not saved at all (stubs).'),
'C85': ('partial','Refuted: every tile group starts with a zero FrameStore, so all samples of all references are 0. Everything else survives.'),
'C86': ('partial','Filter sums reproduce flat rows and the process succeeds up to 9x9; refuted: unscaled rows are shifted by one column and after Clip1 every sample is 2.'),
'C88': ('partial','All parts proved except the unit column, which is refuted (8 is added to the column too).'),
'C89': ('partial','Refuted: a Wiener block always panics, a self-guided block unless it is 1x1; completed frames contain only CDEF samples and the constant 2.'),
'C90': ('partial','Refuted: frames above 9x9 never end, shown frames above 1x1 neither, and the output of a 1x1 frame is always 2. True part: slots and frames not shown.'),
'C91': ('partial','Refuted: operating points and film grain panic, repeating a key frame never ends normally, and repeated frames have transposed chroma.'),
'C95': ('partial','All parts proved except the bonus, which the last adjacent candidate never gets (refuted).'),
'C96': ('partial','The whole parse follows the standard syntax with the standard contexts except for three differences, each refuted: signs of all coefficients but the first are not read, levels are cut to 16 bits, 64x16 uses the order of 16x64. Agreement with the standard proved for blocks of at most one coefficient below 2^16.'),
'C97': ('partial','Proved for every size except 64x16, which uses the order of 16x64 (refuted).'),
'C99': ('partial','Refuted: the number returned is always 0 (shadowed variable); right for empty blocks only.'),
'C100': ('partial','Refuted: on a 20-bit tile the Golomb prefix loop never ends, for any number of steps. True part: otherwise it returns, without panic.'),
'C101': ('partial','Refuted: a block parses only if entirely inside the frame, and a luma block only in the top left 8x8.'),
'C102': ('partial','Every element follows the standard except for the differences of C103, C104, C105, C108, C109, C110; without segmentation, screen content and filter intra the result is the standard one up to the sign of chroma from luma.'),
'C103': ('partial','Refuted: the context is taken from SkipModes (always 0 in intra frames), an array of 2x2 entries, so it panics elsewhere. True with that array in place of the skip flags.'),
'C104': ('partial','Proved for 8 segments and predictions 0 and 1; refuted for predictions of 2 or more and for values beyond the last segment (panic).'),
'C105': ('partial','Proved up to the diagonal of the 64x64 grid for blocks up to 64x64; refuted right of it (area below overwritten or panic) and for 128 wide blocks.'),
'C108': ('partial','Same symbols except for blocks with a side of 32 (refuted); both parameters always have the opposite sign (refuted).'),
'C109': ('partial','Refuted: these tools end the decoder (b.S() panics). With the tools off nothing is read.'),
'C110': ('partial','Refuted: always NONE and the previous value.'),
'C111': ('partial','The standard syntax for blocks that are not skipped with both neighbours or none. Refuted: skipped intra blocks read no depth; in the first row of a tile the left neighbour is ignored; in the first column of the frame it panics. The general behaviour is proved.'),
'C112': ('partial','Proved whenever the function returns; refuted beyond 256x256 samples (panic).'),
'C113': ('partial','Refuted: every block with a tree panics; a leaf would be recorded on its diagonal only.'),
'C115': ('partial','Recorded exactly whenever the stores return; refuted beyond 256x256 samples, and beyond 8x8 samples for blocks recorded as intra with chroma (panic).'),
'C116': ('partial','Refuted: the flag tested is a state field that is never assigned, so no motion data is ever recorded. With the flag set, filters and compound indices are recorded exactly (C116_recorded_partial), as are the motion vectors of one or two references (C116_vectors_partial).'),
'C117': ('partial','Recorded exactly whenever the stores return (palette colours not covered); refuted beyond the first 8x8 samples of the frame (panic).'),
'C118': ('partial','The clearing function is exact; refuted for the decoder: it is never called (a state field that is never assigned).'),
'C119': ('partial','Predictor and placement proved for every mode without filter-intra (which panics, C79); strengths proved when the neighbour is smooth or w+h <= 12 and refuted otherwise.'),
'C120': ('partial','Proved for blocks of one sample; larger blocks panic (C89), and the final clip discards the value (C89).'),
'C121': ('proved','Order and data flow of the stages for every frame whose wrap-up returns; what the stages do wrong is in C38, C39, C86, C89.'),
'C122': ('partial','Proved for each component and for vectors with at most one coded component; with both, the code behaves as the standard with tables shared between contexts and components (C122_merged_partial), which gives other symbols (refuted by a concrete stream).'),
'C123': ('partial','Right exactly for class 0 and integer parts 0 and 2 of longer classes (the integer bits are all put in the same place); refuted otherwise.'),
'C124': ('partial','Refuted for the second vector of NEAREST_NEARESTMV and NEW_NEARESTMV, proved for everything else.'),
'C125': ('partial','Proved for candidate indices 0 and 1 (larger ones panic), relative to C122, C123 and C124; intra block copy proved except for blocks without candidate below the first row of superblocks (refuted).'),
'C126': ('partial','Proved for chroma planes and for luma without subsampling (with unit sizes from 32, i.e. all); luma of subsampled streams uses the chroma subsampling, so that at most half the rows of units are read (refuted).'),
'C127': ('proved','For every tile state; the loop reads at most the remaining bits and 17 bits of padding.'),
'C128': ('partial','Right for the values of the first two rounds (the 2^(k+1) nearest to the reference); further ones are wrong and may be out of range (refuted).'),
'C129': ('partial','Proved for units without filter and self-guided units of planes with switchable restoration, first unit of the plane; all others panic (refuted).'),

'C130': ('partial','Coverage for all sizes; the order for blocks up to 64x64: larger ones are not cut into chunks, the block width table is all 0 (refuted).'),
'C131': ('proved','For every recorded table with transform sizes in range; includes the chroma transform blocks that follow.'),
'C132': ('partial','Events for blocks on the diagonal of their superblock with the same luma and chroma availability and 64x64 superblocks; marks for square ones. Refuted: luma asks chroma availability, column taken from the row, marks as wide as high, no block below row 8 returns.'),
'C133': ('partial','Only the block is written and the luma sums and their total are right; all samples become 2 since Clip1 ignores its argument, and the alpha of V serves both planes (refuted).'),
'C134': ('partial','Luma proved; chroma always panics (refuted).'),
'C135': ('proved','For 4:4:4, 4:2:0 and, for the block sizes the standard allows there, 4:2:2.'),
'C136': ('partial','What happens with 64x64 superblocks, for all histories: two flags cleared, none set (refuted); with 128x128 it always panics (refuted).'),
'C137': ('proved','For all steps >= 0, all filters, all rounding of single and compound prediction.'),
'C138': ('proved','References of at most 2^17 samples a side.'),
'C139': ('partial','Right when the standard position is at most 32/1024; otherwise 32/1024 is used and the distance between samples is 0 (refuted: Round2Signed rounds a constant for positive values).'),
'C140': ('partial','Exactly the standard filter for positions with fraction below 1/16 and no vertical step (all that occur: C139); the vector is then ignored and every sample of the block is the corner sample of the reference (refuted). Others index the filters out of range.'),
'C141': ('partial','Factor and shift + 1 are the reciprocal to 1/256 for all divisors but those with leading bits 420 (wrong table entry); the returned shift is one too small for all (refuted).'),
'C142': ('partial','Multiples of 64 in range, valid exactly when the limits hold, alpha and beta the standard values when negative; positive ones become 0 so that extreme warps are valid (refuted).'),
'C143': ('partial','Refuted: exactly which kinds panic: compound, wedge, difference and distance weights, copied and warped blocks.'),
'C144': ('partial','The blend is proved in full, and the masks up to 16; the mask of 32 has a weight 3 (refuted) and the left neighbour is weighed by row (refuted).'),
'C145': ('partial','Only the block changes if it is not higher than wide (partial); the value 2 goes to the diagonal, the rest is not written (refuted).'),
'C146': ('partial','Proved for all planes for which the standard has one prediction, in general exactly the first of the standard; others are missing (refuted); inter-intra at a superblock edge panics (refuted).'),
'C147': ('partial','Follows the code variant exactly; equals the standard where the two wrong contexts agree; contexts of ALTREF and LAST2 wrong, LAST3, GOLDEN and compound references panic (refuted).'),
'C148': ('partial','The prediction from the previous map, and reading without temporal update (for the segments of C104), proved; temporal update panics, left flags go to the row above, that row has three elements (refuted).'),
'C149': ('partial','Proved outside of segments with global motion, which become intra (refuted); coded skip mode panics (refuted).'),
'C150': ('partial','Proved without palettes and recursive filters, but for the sign of the chroma from luma parameters (refuted).'),
'C151': ('partial','New and global modes proved; nearest, near and any choice between candidates panic (refuted).'),
'C152': ('partial','Simple where header, size or global warp say so; everything else never returns, and no warp sample can be found (refuted).'),
'C153': ('partial','Proved but for GLOBAL_GLOBALMV (refuted); coded filters panic (refuted).'),
'C154': ('partial','Inter-intra is never read where coded, read in skip mode where it is not (refuted); compound types with masks or distance weights panic (refuted); the rest proved.'),
'C155': ('partial','Whole block without segmentation, skip mode, reference_select, switchable motion and filter, in the variant of C147 and C150; candidate list and vectors are parameters (C42, C72-C75, C95, C122-C125).'),
 'C156': ('proved','For every layout, group and tile decoder that reads through the symbol decoder (which C27 shows of every read): accepted groups are cut correctly; and if every tile is decoded, the group is accepted. Tile sizes up to 7 bytes of size field.'),
 'C157': ('partial','Proved for superblocks of 64x64 in the first three rows and columns, after any history. Refuted: the fourth superblock of a row or column always panics (cap is tested, len is indexed); of 128x128 superblocks only the first quarter is reset (CdefSize4 is never set).'),
 'C158': ('partial','Refuted: whatever the data and the block decoding, a frame wider or higher than 8 samples in one tile is never decoded, nor any well formed group of a frame wider than 8 (the segmentation context has 3 entries); for OBU_FRAME stated in frame width and height. The case shows an 8x8 frame decoded and a 9x9 one panicking.'),
 'C159': ('partial','Independence is proved for all states and block decoders. The values at the first superblock are proved for frames of at most 3 rows and columns of 4x4 samples; larger ones panic (C158).'),
 'C160': ('partial','All loops of the modelled levels stop for every input, if the readers of elements, one block and the end of a frame do; missing: coefficient reading does not for some blocks (C100_termination_refuted).'),
 'C161': ('proved','For every integer size, every history of symbol, literal and NS reads over valid CDFs; a panic implies the tile exceeds the data.'),
 'C162': ('partial','For all sorted palettes and enough room: ascending, no duplicates, all colors above and the ones to the left that are not larger than all colors above. False beyond that: larger colors on the left are dropped (C162_left_refuted: with nothing above, the cache is empty), and the code never gives the cache a length, so any color above panics (C162_nil_refuted).'),
 'C163': ('partial','False: the score table is a nil slice, so every context computation panics (C163_context_refuted) and a block with a palette is never decoded (C163_tokens_refuted, whatever b.S() would return at a sample). True: without a palette nothing is read or changed (C163_none_partial).'),
 'C164': ('partial','Given a mask with room for the block (in the code it is nil, C164_nil_refuted): both masks are exact for all predictions below 2^40, sizes (intra: to 128), bit depths, and stay in their ranges.'),
 'C165': ('partial','Exact blend for all predictions below 2^40, masks of weights 0..64, planes and subsamplings; between the two predictions. False: the result is not clipped (C165_range_refuted), and with an intra prediction the constant 2 takes the place of the inter prediction (C165_interintra_refuted).'),
 'C166': ('partial','Given a slice for the distances (in the code it is nil, C166_nil_refuted): exact for all hints and distances, sum 16, nearer reference heavier.'),
 'C167': ('partial','Given slices with room and the sizes of the blocks: every entry is exact (the corner the code counts twice never changes a sign), nothing else changes; complementary, one edge per row and column, sign. False: the slices are nil (C167_nil_refuted), and the sizes the code takes are never set, so even with room it stores nothing (C167_sizes_refuted).'),
"C168":("partial","Proved for 64x64 superblocks: every frame up to 2^20 4x4 columns and rows, every valid list of sizes, the bits of the standard. Refuted for 128x128 superblocks (the number of columns comes from the height, the rows still count 64x64 superblocks)."),
"C169":("partial","Proved for luma and for chroma that is not subsampled, unless both neighbours exist and only the one above is smooth; refuted: the one above is ignored if there is one to the left, and subsampled chroma takes the other 4x4 column (row)."),
}
