{
 "claims": [
  {
   "property": "C01",
   "status": "proved",
   "theorems": [
    "C01_F_reads_next_bits",
    "C01_bit_order"
   ],
   "note": ""
  },
  {
   "property": "C02",
   "status": "proved",
   "theorems": [
    "C02_F_concat"
   ],
   "note": ""
  },
  {
   "property": "C03",
   "status": "proved",
   "theorems": [
    "C03_uvlc_roundtrip",
    "C03_uvlc_saturates",
    "C03_uvlc_total"
   ],
   "note": ""
  },
  {
   "property": "C04",
   "status": "proved",
   "theorems": [
    "C04_leb128_roundtrip",
    "C04_leb128_range"
   ],
   "note": ""
  },
  {
   "property": "C05",
   "status": "proved",
   "theorems": [
    "C05_su_roundtrip",
    "C05_su_range"
   ],
   "note": ""
  },
  {
   "property": "C06",
   "status": "proved",
   "theorems": [
    "C06_ns_roundtrip",
    "C06_ns_range"
   ],
   "note": ""
  },
  {
   "property": "C07",
   "status": "proved",
   "theorems": [
    "C07_le_roundtrip"
   ],
   "note": ""
  },
  {
   "property": "C08",
   "status": "proved",
   "theorems": [
    "C08_byte_alignment"
   ],
   "note": ""
  },
  {
   "property": "C09",
   "status": "proved",
   "theorems": [
    "C09_trailing_bits",
    "C09_trailing_bits_zero"
   ],
   "note": ""
  },
  {
   "property": "C10",
   "status": "proved",
   "theorems": [
    "C10_readers_move_forward",
    "C10_more_data"
   ],
   "note": ""
  },
  {
   "property": "C11",
   "status": "proved",
   "theorems": [
    "C11_obu_header_roundtrip"
   ],
   "note": ""
  },
  {
   "property": "C12",
   "status": "proved",
   "theorems": [
    "C12_TileLog2_least",
    "C12_TileLog2_zero_diverges"
   ],
   "note": ""
  },
  {
   "property": "C13",
   "status": "proved",
   "theorems": [
    "C13_FloorLog2",
    "C13_FloorLog2_0",
    "C13_FloorLog2_negative_diverges",
    "C13_CeilLog2"
   ],
   "note": ""
  },
  {
   "property": "C14",
   "status": "proved",
   "theorems": [
    "C14_Round2_nearest",
    "C14_nearest_unique"
   ],
   "note": ""
  },
  {
   "property": "C15",
   "status": "partial",
   "theorems": [
    "C15_Round2Signed_negative_partial",
    "C15_Round2Signed_ignores_x_refuted"
   ],
   "note": "False of the code: for x>=0 Round2Signed rounds the constant 2. Proved: the negative branch, and that the result ignores every non-negative x."
  },
  {
   "property": "C16",
   "status": "partial",
   "theorems": [
    "C16_Clip3",
    "C16_Min_Max_Abs",
    "C16_HasNewmv",
    "C16_Clip1_constant_refuted",
    "C16_Clip1_in_range_partial"
   ],
   "note": "Clip3 proved in full. The Clip1 half is false of the code: Clip1 returns 2 for every sample (proved)."
  },
  {
   "property": "C17",
   "status": "proved",
   "theorems": [
    "C17_InverseRecenter_injective",
    "C17_InverseRecenter_onto",
    "C17_InverseRecenter_nonneg_nearest_first"
   ],
   "note": ""
  },
  {
   "property": "C18",
   "status": "partial",
   "theorems": [
    "C18_agrees_with_spec_ref_0_1_partial",
    "C18_wrong_for_every_other_ref_refuted",
    "C18_still_a_bijection"
   ],
   "note": "False of the code for ref>=2 (guard is ref==1 instead of ref!=0). Proved: agreement for ref 0 and 1, disagreement for every other ref, and that the map is still a bijection of 0..max-1."
  },
  {
   "property": "C19",
   "status": "proved",
   "theorems": [
    "C19_Sort",
    "C19_Sort_panics_iff_bad_range"
   ],
   "note": ""
  },
  {
   "property": "C20",
   "status": "partial",
   "theorems": [
    "C20_Brev_actual_refuted",
    "C20_Brev_correct_only_for_uniform_bits_partial",
    "C20_Cos128_first_quarter_partial",
    "C20_Cos128_panics_elsewhere_refuted",
    "C20_Sin128_panics_on_acute_angles_refuted"
   ],
   "note": "False of the code: Brev copies bit 1 everywhere (exact value proved), Cos128/Sin128 panic outside one quarter turn (proved); the first quarter is proved correct against the table."
  },
  {
   "property": "C21",
   "status": "proved",
   "theorems": [
    "C21_color_config_roundtrip",
    "C21_color_config_ranges"
   ],
   "note": ""
  },
  {
   "property": "C22",
   "status": "partial",
   "theorems": [
    "C22_header_prefix_partial",
    "C22_size_and_tools_section_partial",
    "C22_full_header_misread_refuted",
    "C22_reduced_header_has_no_size_refuted",
    "C22_accepted_syntax_partial",
    "C22_accepted_reduced_partial"
   ],
   "note": "False of the code: headers with the normal operating point syntax are misread and reduced headers lose their size (both refuted by theorem). Proved: the prefix, and the whole size/tools section."
  },
  {
   "property": "C23",
   "status": "partial",
   "theorems": [
    "C23_ends_at_declared_size_partial",
    "C23_temporal_delimiter",
    "C23_padding_partial",
    "C23_padding_overrun_refuted",
    "C23_frame_obu_tile_group_size"
   ],
   "note": "Proved for temporal delimiters, dropped OBUs, padding with a zero byte, and for all other types except frames and tile groups as long as the payload leaves room for trailing bits; refuted for padding without zero byte."
  },
  {
   "property": "C24",
   "status": "proved",
   "theorems": [
    "C24_dropped_obu_skipped",
    "C24_dropped_obu_skipped_no_size",
    "C24_selected_obu_parsed"
   ],
   "note": ""
  },
  {
   "property": "C25",
   "status": "proved",
   "theorems": [
    "C25_parser_terminates",
    "C25_wellformed_stream_parses"
   ],
   "note": ""
  },
  {
   "property": "C26",
   "status": "partial",
   "theorems": [
    "C26_sequence_header_persists",
    "C26_operating_point_forgotten_refuted"
   ],
   "note": "The sequence header persists (proved for every stream). The operating point chosen from it is forgotten at every frame unit (refuted part)."
  },
  {
   "property": "C27",
   "status": "proved",
   "theorems": [
    "C27_read_symbol",
    "C27_registers"
   ],
   "note": ""
  },
  {
   "property": "C28",
   "status": "proved",
   "theorems": [
    "C28_adaptation",
    "C28_no_adaptation",
    "C28_history"
   ],
   "note": ""
  },
  {
   "property": "C29",
   "status": "proved",
   "theorems": [
    "C29_tile_confined"
   ],
   "note": ""
  },
  {
   "property": "C30",
   "status": "proved",
   "theorems": [
    "C30_every_sequence_encodable"
   ],
   "note": ""
  },
  {
   "property": "C31",
   "status": "proved",
   "theorems": [
    "C31_literal",
    "C31_non_symmetric",
    "C31_all_values"
   ],
   "note": ""
  },
  {
   "property": "C32",
   "status": "partial",
   "theorems": [
    "C32_tiles_partition_partial",
    "C32_uniform_at_most_64_columns",
    "C32_uniform_one_row_refuted",
    "C32_tile_info_total",
    "C32_128_superblocks_refuted"
   ],
   "note": "Proved in full for 64x64 superblocks (every size, every bit stream). False of the code for 128x128 superblocks (superblock columns computed from the height) and for the number of uniform tile rows (loop test inverted); both refuted by theorem."
  },
  {
   "property": "C33",
   "status": "proved",
   "theorems": [
    "C33_superres_width"
   ],
   "note": ""
  },
  {
   "property": "C34",
   "status": "proved",
   "theorems": [
    "C34_mode_info_grid"
   ],
   "note": ""
  },
  {
   "property": "C35",
   "status": "partial",
   "theorems": [
    "C35_qindex_ignoring_deltas",
    "C35_qindex_range_partial",
    "C35_segment_offset_ignored_refuted"
   ],
   "note": "Range proved with and without deltas whenever the current index is in 0..255; value ignoring deltas proved in full. False of the code: with deltas the segment feature is ignored (refuted)."
  },
  {
   "property": "C36",
   "status": "proved",
   "theorems": [
    "C36_lossless_flags"
   ],
   "note": ""
  },
  {
   "property": "C37",
   "status": "partial",
   "theorems": [
    "C37_partition_tiles_partial",
    "C37_tile_covered_partial",
    "C37_partition_terminates",
    "C37_horz_refuted",
    "C37_horz_a_refuted",
    "C37_vert_b_refuted",
    "C37_vert_4_refuted",
    "C37_frame_edge_refuted"
   ],
   "note": "Proved: partition types NONE, VERT, SPLIT, HORZ_B, VERT_A, HORZ_4 tile the block exactly, whole tiles are covered exactly once under them, decoding terminates for every input. False of the code for HORZ, HORZ_A, VERT_B, VERT_4 and at the frame edge (refuted)."
  },
  {
   "property": "C38",
   "status": "partial",
   "theorems": [
    "C38_narrow_filter_partial",
    "C38_narrow_smooths_partial",
    "C38_filter_mask_partial",
    "C38_whole_frame_in_range",
    "C38_level_zero_untouched",
    "C38_wide_filter_refuted",
    "C38_border_refuted",
    "C38_nothing_filtered_refuted"
   ],
   "note": "Proved: the narrow filter exactly, in range and smoothing; the filter decisions; the whole filter keeps samples in range, terminates, and leaves the frame alone at level 0. False of the code: the wide filter always panics, edges closer than 7 samples to the border panic, and with the fixed 2x2 skip array nothing is ever filtered (refuted)."
  },
  {
   "property": "C39",
   "status": "partial",
   "theorems": [
    "C39_between_taps",
    "C39_terminates",
    "C39_constrain",
    "C39_process_partial",
    "C39_standard_partial",
    "C39_zero_strength",
    "C39_odd_refuted",
    "C39_chroma_damping_refuted",
    "C39_skip_table_refuted"
   ],
   "note": "Proved: results lie between nearby samples for every input, zero strengths change nothing, termination, and the exact value of every sample of every frame (equal to the standard's when luma primary strengths are 0 and chroma ones even and not 0). False of the code: parity of strengths ignored, chroma damping with primary strength 0, frames of more than one 8x8 block panic unless CDEF is off there (refuted)."
  },
  {
   "property": "C40",
   "status": "partial",
   "theorems": [
    "C40_dc_both_partial",
    "C40_dc_none_partial",
    "C40_dc_above_only_refuted",
    "C40_dc_left_only_refuted",
    "C40_paeth_partial",
    "C40_smooth_partial",
    "C40_between_partial",
    "C40_large_blocks_panic_refuted"
   ],
   "note": "Exact values of DC (both or no neighbours), Paeth and smooth (4 and 8 sample sides) and their bounds proved; refuted with one neighbour only (constant 0 or 2) and for sides of 16 and more (panic)."
  },
  {
   "property": "C41",
   "status": "partial",
   "theorems": [
    "C41_wht_row_partial",
    "C41_wht_bijective_partial",
    "C41_block_refuted",
    "C41_rows_refuted"
   ],
   "note": "The one-dimensional transform is proved to invert the forward transform, and to be a bijection, for all integers. False of the code for blocks: the working row is never allocated (panic), and if it were, all rows of the result would be equal (refuted)."
  },
  {
   "property": "C42",
   "status": "partial",
   "theorems": [
    "C42_weights_partial",
    "C42_terminates_partial",
    "C42_in_order_partial",
    "C42_vectors_refuted",
    "C42_third_candidate_refuted",
    "C42_three_panic_refuted"
   ],
   "note": "Proved: weights end up a decreasing permutation inside the range, nothing changes outside it, termination, ordered ranges untouched. False of the code: a swap loses a vector, and ordering a third candidate panics (refuted)."
  },
  {
   "property": "C43",
   "status": "partial",
   "theorems": [
    "C43_slots_partial",
    "C43_succeeds_partial",
    "C43_large_frames_refuted"
   ],
   "note": "Exactly the slots of the set bits hold the frame when the update ends, and it ends for frames up to 9x9; refuted: it panics for every larger frame. Loop filter, segmentation and film grain parameters are not saved at all (stubs)."
  },
  {
   "property": "C44",
   "status": "partial",
   "theorems": [
    "C44_no_adaptation_partial",
    "C44_adapted_forever_refuted"
   ],
   "note": "Refuted: initNonCoeffCdfs/initCoeffCdfs assign the default slices without copying and ReadSymbol adapts them in place, so after any adapting read no later frame starts from the defaults. True part: histories without adapting reads."
  },
  {
   "property": "C45",
   "status": "proved",
   "theorems": [
    "C45_returned_header_consistent"
   ],
   "note": ""
  },
  {
   "property": "C46",
   "status": "proved",
   "theorems": [
    "C46_sequence_header_total"
   ],
   "note": ""
  },
  {
   "property": "C47",
   "status": "partial",
   "theorems": [
    "C47_repeated_frame_header_panics_refuted",
    "C47_frame_header_sets_flag_partial"
   ],
   "note": "False of the code: a second frame header always panics (proved)."
  },
  {
   "property": "C48",
   "status": "proved",
   "theorems": [
    "C48_frame_header_total"
   ],
   "note": ""
  },
  {
   "property": "C49",
   "status": "proved",
   "theorems": [
    "C49_quantization_roundtrip"
   ],
   "note": ""
  },
  {
   "property": "C50",
   "status": "partial",
   "theorems": [
    "C50_segmentation_roundtrip_partial",
    "C50_ref_frame_feature_refuted"
   ],
   "note": "Round trip proved for every feature and value except reference frame 4..7, which the code stores as 0 (refuted)."
  },
  {
   "property": "C51",
   "status": "proved",
   "theorems": [
    "C51_cdef_roundtrip",
    "C51_cdef_off"
   ],
   "note": ""
  },
  {
   "property": "C52",
   "status": "proved",
   "theorems": [
    "C52_restoration_roundtrip"
   ],
   "note": ""
  },
  {
   "property": "C53",
   "status": "proved",
   "theorems": [
    "C53_film_grain_roundtrip",
    "C53_no_grain",
    "C53_grain_reuse_panics"
   ],
   "note": ""
  },
  {
   "property": "C54",
   "status": "partial",
   "theorems": [
    "C54_loop_filter_roundtrip_partial",
    "C54_sharpness_misread_refuted",
    "C54_lossless_level_refuted"
   ],
   "note": "Round trip proved for the same syntax with a 6-bit sharpness field. False of the code with the 3-bit field of the standard, and lossless frames get level 1 for the second luma level (both refuted)."
  },
  {
   "property": "C55",
   "status": "partial",
   "theorems": [
    "C55_explicit_render_size_partial",
    "C55_default_render_height_refuted"
   ],
   "note": "Explicit sizes proved. Default render height is 0 (refuted)."
  },
  {
   "property": "C56",
   "status": "partial",
   "theorems": [
    "C56_refresh_all_partial",
    "C56_shown_frames_refresh_everything_refuted"
   ],
   "note": "Switch frames and shown key frames proved. False of the code: every shown frame and hidden key frame refreshes all slots (refuted)."
  },
  {
   "property": "C57",
   "status": "partial",
   "theorems": [
    "C57_skip_mode_never_present_refuted",
    "C57_relative_distance_partial"
   ],
   "note": "The distance function proved to be the standard's. False of the code: skip mode is never present (refuted)."
  },
  {
   "property": "C58",
   "status": "partial",
   "theorems": [
    "C58_types_coded_partial",
    "C58_global_motion_always_identity_refuted",
    "C58_global_motion_types_partial"
   ],
   "note": "Types in range, identity for intra frames proved. False of the code: parameters always identity (refuted)."
  },
  {
   "property": "C59",
   "status": "proved",
   "theorems": [
    "C59_frame_header_in_range"
   ],
   "note": ""
  },
  {
   "property": "C60",
   "status": "partial",
   "theorems": [
    "C60_qm_levels_partial",
    "C60_chroma_uses_luma_level_refuted"
   ],
   "note": "Luma and lossless segments proved. False of the code: chroma planes get the luma level (refuted)."
  },
  {
   "property": "C61",
   "status": "partial",
   "theorems": [
    "C61_forced_on_partial",
    "C61_forced_off_is_on_refuted"
   ],
   "note": "Forced on proved. False of the code: forced off is on (refuted)."
  },
  {
   "property": "C62",
   "status": "proved",
   "theorems": [
    "C62_delta_params_roundtrip",
    "C62_delta_lf_roundtrip"
   ],
   "note": ""
  },
  {
   "property": "C63",
   "status": "partial",
   "theorems": [
    "C63_small_frames_partial",
    "C63_clear_context_refuted"
   ],
   "note": "True only for frames at most 3 units wide/high (proved); for every larger frame clearing panics (refuted)."
  },
  {
   "property": "C64",
   "status": "partial",
   "theorems": [
    "C64_default_tables_valid_partial",
    "C64_segment_id_predicted_refuted",
    "C64_skip_mode_refuted"
   ],
   "note": "94 of 96 tables valid (proved); with the other two every read panics (refuted)."
  },
  {
   "property": "C65",
   "status": "proved",
   "theorems": [
    "C65_level",
    "C65_level_in_range"
   ],
   "note": ""
  },
  {
   "property": "C66",
   "status": "partial",
   "theorems": [
    "C66_limits_partial",
    "C66_sharpness_refuted"
   ],
   "note": "Proved for sharpness 0 and 5..7, and ranges for all. False of the code for sharpness 1..4 (refuted)."
  },
  {
   "property": "C67",
   "status": "proved",
   "theorems": [
    "C67_direction",
    "C67_variance_range"
   ],
   "note": ""
  },
  {
   "property": "C68",
   "status": "proved",
   "theorems": [
    "C68_coefficient",
    "C68_coefficient_matrix",
    "C68_block",
    "C68_total"
   ],
   "note": ""
  },
  {
   "property": "C69",
   "status": "partial",
   "theorems": [
    "C69_dc_step_partial",
    "C69_ac_step_refuted"
   ],
   "note": "DC steps proved. False of the code: AC coefficients get DC steps (refuted)."
  },
  {
   "property": "C70",
   "status": "partial",
   "theorems": [
    "C70_identity_partial",
    "C70_hadamard_partial",
    "C70_rotation_refuted",
    "C70_dct_refuted",
    "C70_adst_refuted",
    "C70_only_identity_refuted"
   ],
   "note": "Identity transforms and Hadamard steps proved. False of the code: every DCT and ADST panics for every input (refuted)."
  },
  {
   "property": "C71",
   "status": "partial",
   "theorems": [
    "C71_reconstruct_refuted",
    "C71_only_the_block_partial",
    "C71_samples_refuted"
   ],
   "note": "Only the block is touched (proved). False of the code: reconstruction always panics, and adding the residual would make every sample 2 (refuted)."
  },
  {
   "property": "C72",
   "status": "proved",
   "theorems": [
    "C72_integer",
    "C72_quarter",
    "C72_high"
   ],
   "note": ""
  },
  {
   "property": "C73",
   "status": "proved",
   "theorems": [
    "C73_clamp",
    "C73_candidates"
   ],
   "note": ""
  },
  {
   "property": "C74",
   "status": "partial",
   "theorems": [
    "C74_single_partial",
    "C74_compound_refuted"
   ],
   "note": "Single reference blocks proved. False of the code for two references: known pairs are pushed again (refuted)."
  },
  {
   "property": "C75",
   "status": "partial",
   "theorems": [
    "C75_terminates_partial",
    "C75_contexts_partial",
    "C75_one_candidate_refuted",
    "C75_compound_refuted"
   ],
   "note": "Termination and context ranges proved for all neighbourhoods. False of the code: it returns only with at most one candidate and never for compound blocks (refuted)."
  },
  {
   "property": "C76",
   "status": "proved",
   "theorems": [
    "C76_writes_only_its_block",
    "C76_terminates",
    "C76_samples_in_range"
   ],
   "note": ""
  },
  {
   "property": "C77",
   "status": "partial",
   "theorems": [
    "C77_no_neighbours_refuted",
    "C77_outside_unused",
    "C77_left_column_never_set_refuted",
    "C77_above_row_is_own_row_refuted",
    "C77_left_column_from_above_partial"
   ],
   "note": "Refuted: with a left neighbour the left samples overwrite the row above and the left column is never set; below the first row the row above is read from the block's own row. True part: the left column without a left neighbour, and the corner."
  },
  {
   "property": "C78",
   "status": "partial",
   "theorems": [
    "C78_vertical_partial",
    "C78_horizontal_transposed_refuted",
    "C78_above_180_partial",
    "C78_below_90_partial",
    "C78_first_row_not_displaced_refuted",
    "C78_between_90_and_180_panics_refuted",
    "C78_edge_filter_panics_refuted"
   ],
   "note": "Vertical, angles above 180 (no edge filter) proved; refuted: horizontal is transposed, below 90 degrees the displacement is 2i instead of i+1, between 90 and 180 it panics, with edge filter it panics."
  },
  {
   "property": "C79",
   "status": "partial",
   "theorems": [
    "C79_filter_intra_panics_refuted"
   ],
   "note": "Refuted: filter-intra always panics."
  },
  {
   "property": "C80",
   "status": "partial",
   "theorems": [
    "C80_no_adaptation_partial",
    "C80_not_a_snapshot_refuted",
    "C80_primary_reference_ignored_refuted"
   ],
   "note": "Refuted: SaveCdfs/LoadCdfs copy slice headers only; the saved tables keep adapting, and the primary reference frame makes no difference for the non-coefficient CDFs. True part: no adapting read between save and load."
  },
  {
   "property": "C81",
   "status": "partial",
   "theorems": [
    "C81_single_variables_partial",
    "C81_shared_refuted"
   ],
   "note": "Refuted for variables initialised from the same default slice (motion vector contexts, loop filter deltas). True for all other variables."
  },
  {
   "property": "C82",
   "status": "partial",
   "theorems": [
    "C82_initialised_partial",
    "C82_ref_mv_refuted"
   ],
   "note": "Refuted for RefMvCdf, which is never initialised. All other variables are."
  },
  {
   "property": "C83",
   "status": "partial",
   "theorems": [
    "C83_dimensions_partial",
    "C83_contexts_partial",
    "C83_coeff_base_refuted"
   ],
   "note": "Refuted for DEFAULT_COEFF_BASE_CDF: set 3, 4x4 chroma has 4 contexts (and a third plane). All other 93 tables have the dimensions of the standard."
  },
  {
   "property": "C84",
   "status": "partial",
   "theorems": [
    "C84_no_adaptation_partial",
    "C84_tiles_not_independent_refuted"
   ],
   "note": "Refuted: tiles share the tables, so a tile starts from what earlier tiles left. True part: no adapting reads."
  },
  {
   "property": "C85",
   "status": "partial",
   "theorems": [
    "C85_headers_partial",
    "C85_samples_refuted"
   ],
   "note": "Refuted: every tile group starts with a zero FrameStore, so all samples of all references are 0. Everything else survives."
  },
  {
   "property": "C86",
   "status": "partial",
   "theorems": [
    "C86_flat_partial",
    "C86_succeeds_partial",
    "C86_shift_refuted",
    "C86_constant_refuted"
   ],
   "note": "Filter sums reproduce flat rows and the process succeeds up to 9x9; refuted: unscaled rows are shifted by one column and after Clip1 every sample is 2."
  },
  {
   "property": "C87",
   "status": "proved",
   "theorems": [
    "C87_positions",
    "C87_even"
   ],
   "note": ""
  },
  {
   "property": "C88",
   "status": "partial",
   "theorems": [
    "C88_off",
    "C88_other_planes",
    "C88_source",
    "C88_blocks",
    "C88_unit_column_refuted"
   ],
   "note": "All parts proved except the unit column, which is refuted (8 is added to the column too)."
  },
  {
   "property": "C89",
   "status": "partial",
   "theorems": [
    "C89_taps_refuted",
    "C89_filters_refuted",
    "C89_values_refuted"
   ],
   "note": "Refuted: a Wiener block always panics, a self-guided block unless it is 1x1; completed frames contain only CDEF samples and the constant 2."
  },
  {
   "property": "C90",
   "status": "partial",
   "theorems": [
    "C90_output_refuted",
    "C90_slots_partial"
   ],
   "note": "Refuted: frames above 9x9 never end, shown frames above 1x1 neither, and the output of a 1x1 frame is always 2. True part: slots and frames not shown."
  },
  {
   "property": "C91",
   "status": "partial",
   "theorems": [
    "C91_operating_point_refuted",
    "C91_film_grain_refuted",
    "C91_repeat_key_frame_refuted",
    "C91_repeat_chroma_refuted"
   ],
   "note": "Refuted: operating points and film grain panic, repeating a key frame never ends normally, and repeated frames have transposed chroma."
  },
  {
   "property": "C92",
   "status": "partial",
   "theorems": [
    "C92_edge_partial",
    "C92_chroma_block_size",
    "C92_filter_size_vertical",
    "C92_filter_size_refuted",
    "C92_order_partial",
    "C92_order_444_partial",
    "C92_luma_rows_refuted"
   ],
   "note": ""
  },
  {
   "property": "C93",
   "status": "proved",
   "theorems": [
    "C93_available",
    "C93_partition_symbol",
    "C93_default_tables",
    "C93_choice"
   ],
   "note": ""
  },
  {
   "property": "C94",
   "status": "partial",
   "theorems": [
    "C94_accepted_sequences",
    "C94_intra_header_partial",
    "C94_tiles_one_row",
    "C94_coded_tiles_partial"
   ],
   "note": "Proved for every sequence header without frame ids and with screen content tools not forced off, and every shown key frame or hidden intra-only frame; loop_filter_sharpness is read as 6 bits (3 in AV1), the default render height is 0, shown intra-only frames do not read their refresh flags, and tile_info is concrete for one superblock row of uniform tiles and for all coded tile sizes with 64x64 superblocks (C94_coded_tiles_partial); other tile layouts: any bits that NewTileInfo parses."
  },
  {
   "property": "C95",
   "status": "partial",
   "theorems": [
    "C95_temporal_refuted",
    "C95_pair_weights",
    "C95_bonus_partial",
    "C95_bonus_refuted",
    "C95_row_window",
    "C95_col_window",
    "C95_padding",
    "C95_drl"
   ],
   "note": "All parts proved except the bonus, which the last adjacent candidate never gets (refuted)."
  },
  {
   "property": "C96",
   "status": "partial",
   "theorems": [
    "C96_syntax_partial",
    "C96_signs_refuted",
    "C96_standard_refuted",
    "C96_large_level_refuted",
    "C96_single_coefficient_partial"
   ],
   "note": "The whole parse follows the standard syntax with the standard contexts except for three differences, each refuted: signs of all coefficients but the first are not read, levels are cut to 16 bits, 64x16 uses the order of 16x64. Agreement with the standard proved for blocks of at most one coefficient below 2^16."
  },
  {
   "property": "C97",
   "status": "partial",
   "theorems": [
    "C97_scan_partial",
    "C97_scan_64x16_refuted"
   ],
   "note": "Proved for every size except 64x16, which uses the order of 16x64 (refuted)."
  },
  {
   "property": "C98",
   "status": "proved",
   "theorems": [
    "C98_luma_type",
    "C98_sets",
    "C98_chroma_type"
   ],
   "note": ""
  },
  {
   "property": "C99",
   "status": "partial",
   "theorems": [
    "C99_returned_refuted",
    "C99_empty_partial"
   ],
   "note": "Refuted: the number returned is always 0 (shadowed variable); right for empty blocks only."
  },
  {
   "property": "C100",
   "status": "partial",
   "theorems": [
    "C100_termination_refuted",
    "C100_returns_partial"
   ],
   "note": "Refuted: on a 20-bit tile the Golomb prefix loop never ends, for any number of steps. True part: otherwise it returns, without panic."
  },
  {
   "property": "C101",
   "status": "partial",
   "theorems": [
    "C101_edges_refuted",
    "C101_luma_refuted"
   ],
   "note": "Refuted: a block parses only if entirely inside the frame, and a luma block only in the top left 8x8."
  },
  {
   "property": "C102",
   "status": "partial",
   "theorems": [
    "C102_intra_mode_info_partial",
    "C102_standard_partial"
   ],
   "note": "Every element follows the standard except for the differences of C103, C104, C105, C108, C109, C110; without segmentation, screen content and filter intra the result is the standard one up to the sign of chroma from luma."
  },
  {
   "property": "C103",
   "status": "partial",
   "theorems": [
    "C103_skip_partial",
    "C103_context_refuted",
    "C103_small_array_refuted"
   ],
   "note": "Refuted: the context is taken from SkipModes (always 0 in intra frames), an array of 2x2 entries, so it panics elsewhere. True with that array in place of the skip flags."
  },
  {
   "property": "C104",
   "status": "partial",
   "theorems": [
    "C104_segment_partial",
    "C104_prediction_refuted",
    "C104_clip_refuted"
   ],
   "note": "Proved for 8 segments and predictions 0 and 1; refuted for predictions of 2 or more and for values beyond the last segment (panic)."
  },
  {
   "property": "C105",
   "status": "partial",
   "theorems": [
    "C105_cdef_partial",
    "C105_below_refuted",
    "C105_wide_refuted"
   ],
   "note": "Proved up to the diagonal of the 64x64 grid for blocks up to 64x64; refuted right of it (area below overwritten or panic) and for 128 wide blocks."
  },
  {
   "property": "C106",
   "status": "proved",
   "theorems": [
    "C106_delta_q",
    "C106_delta_lf",
    "C106_q_range"
   ],
   "note": ""
  },
  {
   "property": "C107",
   "status": "proved",
   "theorems": [
    "C107_y_mode",
    "C107_angle",
    "C107_angle_range"
   ],
   "note": ""
  },
  {
   "property": "C108",
   "status": "partial",
   "theorems": [
    "C108_chroma_partial",
    "C108_sign_refuted",
    "C108_limit_refuted"
   ],
   "note": "Same symbols except for blocks with a side of 32 (refuted); both parameters always have the opposite sign (refuted)."
  },
  {
   "property": "C109",
   "status": "partial",
   "theorems": [
    "C109_intrabc_refuted",
    "C109_filter_refuted",
    "C109_palette_refuted",
    "C109_off_partial"
   ],
   "note": "Refuted: these tools end the decoder (b.S() panics). With the tools off nothing is read."
  },
  {
   "property": "C110",
   "status": "partial",
   "theorems": [
    "C110_ref_frame_refuted"
   ],
   "note": "Refuted: always NONE and the previous value."
  },
  {
   "property": "C111",
   "status": "partial",
   "theorems": [
    "C111_tx_size_partial",
    "C111_standard_partial",
    "C111_skipped_refuted",
    "C111_top_row_refuted",
    "C111_first_column_refuted"
   ],
   "note": "The standard syntax for blocks that are not skipped with both neighbours or none. Refuted: skipped intra blocks read no depth; in the first row of a tile the left neighbour is ignored; in the first column of the frame it panics. The general behaviour is proved."
  },
  {
   "property": "C112",
   "status": "partial",
   "theorems": [
    "C112_sizes",
    "C112_limit_refuted"
   ],
   "note": "Proved whenever the function returns; refuted beyond 256x256 samples (panic)."
  },
  {
   "property": "C113",
   "status": "partial",
   "theorems": [
    "C113_tree_refuted",
    "C113_leaf_refuted"
   ],
   "note": "Refuted: every block with a tree panics; a leaf would be recorded on its diagonal only."
  },
  {
   "property": "C114",
   "status": "proved",
   "theorems": [
    "C114_chroma_and_neighbours"
   ],
   "note": ""
  },
  {
   "property": "C115",
   "status": "partial",
   "theorems": [
    "C115_recorded_before",
    "C115_returns_partial",
    "C115_limits_refuted"
   ],
   "note": "Recorded exactly whenever the stores return; refuted beyond 256x256 samples, and beyond 8x8 samples for blocks recorded as intra with chroma (panic)."
  },
  {
   "property": "C116",
   "status": "partial",
   "theorems": [
    "C116_recorded_partial",
    "C116_motion_refuted",
    "C116_vectors_partial"
   ],
   "note": "Refuted: the flag tested is a state field that is never assigned, so no motion data is ever recorded. With the flag set, filters and compound indices are recorded exactly (C116_recorded_partial), as are the motion vectors of one or two references (C116_vectors_partial)."
  },
  {
   "property": "C117",
   "status": "partial",
   "theorems": [
    "C117_recorded_after",
    "C117_limit_refuted"
   ],
   "note": "Recorded exactly whenever the stores return (palette colours not covered); refuted beyond the first 8x8 samples of the frame (panic)."
  },
  {
   "property": "C118",
   "status": "partial",
   "theorems": [
    "C118_reset_partial",
    "C118_not_reset_refuted"
   ],
   "note": "The clearing function is exact; refuted for the decoder: it is never called (a state field that is never assigned)."
  },
  {
   "property": "C119",
   "status": "partial",
   "theorems": [
    "C119_unfiltered_partial",
    "C119_modes",
    "C119_first_block",
    "C119_strength_partial",
    "C119_strength_refuted",
    "C119_upsampling",
    "C119_corner"
   ],
   "note": "Predictor and placement proved for every mode without filter-intra (which panics, C79); strengths proved when the neighbour is smooth or w+h <= 12 and refuted otherwise."
  },
  {
   "property": "C120",
   "status": "partial",
   "theorems": [
    "C120_box_filter_partial"
   ],
   "note": "Proved for blocks of one sample; larger blocks panic (C89), and the final clip discards the value (C89)."
  },
  {
   "property": "C121",
   "status": "proved",
   "theorems": [
    "C121_new_frame",
    "C121_repeated_frame"
   ],
   "note": "Order and data flow of the stages for every frame whose wrap-up returns; what the stages do wrong is in C38, C39, C86, C89."
  },
  {
   "property": "C122",
   "status": "partial",
   "theorems": [
    "C122_component_partial",
    "C122_one_component_partial",
    "C122_merged_partial",
    "C122_both_components_refuted"
   ],
   "note": "Proved for each component and for vectors with at most one coded component; with both, the code behaves as the standard with tables shared between contexts and components (C122_merged_partial), which gives other symbols (refuted by a concrete stream)."
  },
  {
   "property": "C123",
   "status": "partial",
   "theorems": [
    "C123_value_partial",
    "C123_long_refuted"
   ],
   "note": "Right exactly for class 0 and integer parts 0 and 2 of longer classes (the integer bits are all put in the same place); refuted otherwise."
  },
  {
   "property": "C124",
   "status": "partial",
   "theorems": [
    "C124_modes_partial",
    "C124_second_nearest_refuted"
   ],
   "note": "Refuted for the second vector of NEAREST_NEARESTMV and NEW_NEARESTMV, proved for everything else."
  },
  {
   "property": "C125",
   "status": "partial",
   "theorems": [
    "C125_assignment_partial",
    "C125_second_partial",
    "C125_index_refuted",
    "C125_intrabc_partial",
    "C125_intrabc_refuted"
   ],
   "note": "Proved for candidate indices 0 and 1 (larger ones panic), relative to C122, C123 and C124; intra block copy proved except for blocks without candidate below the first row of superblocks (refuted)."
  },
  {
   "property": "C126",
   "status": "partial",
   "theorems": [
    "C126_units_partial",
    "C126_each_once_partial",
    "C126_luma_refuted"
   ],
   "note": "Proved for chroma planes and for luma without subsampling (with unit sizes from 32, i.e. all); luma of subsampled streams uses the chroma subsampling, so that at most half the rows of units are read (refuted)."
  },
  {
   "property": "C127",
   "status": "proved",
   "theorems": [
    "C127_terminates"
   ],
   "note": "For every tile state; the loop reads at most the remaining bits and 17 bits of padding."
  },
  {
   "property": "C128",
   "status": "partial",
   "theorems": [
    "C128_near_values_partial",
    "C128_far_values_refuted"
   ],
   "note": "Right for the values of the first two rounds (the 2^(k+1) nearest to the reference); further ones are wrong and may be out of range (refuted)."
  },
  {
   "property": "C129",
   "status": "partial",
   "theorems": [
    "C129_unit_partial",
    "C129_fixed_type_refuted",
    "C129_wiener_refuted",
    "C129_intrabc_partial"
   ],
   "note": "Proved for units without filter and self-guided units of planes with switchable restoration, first unit of the plane; all others panic (refuted)."
  },
  {
   "property": "C130",
   "status": "partial",
   "theorems": [
    "C130_tiling_partial",
    "C130_chunks_refuted"
   ],
   "note": "Coverage for all sizes; the order for blocks up to 64x64: larger ones are not cut into chunks, the block width table is all 0 (refuted)."
  },
  {
   "property": "C131",
   "status": "proved",
   "theorems": [
    "C131_tree"
   ],
   "note": "For every recorded table with transform sizes in range; includes the chroma transform blocks that follow."
  },
  {
   "property": "C132",
   "status": "partial",
   "theorems": [
    "C132_outside",
    "C132_marks_partial",
    "C132_rows_refuted",
    "C132_events_partial",
    "C132_neighbours_refuted",
    "C132_column_refuted",
    "C132_shape_refuted"
   ],
   "note": "Events for blocks on the diagonal of their superblock with the same luma and chroma availability and 64x64 superblocks; marks for square ones. Refuted: luma asks chroma availability, column taken from the row, marks as wide as high, no block below row 8 returns."
  },
  {
   "property": "C133",
   "status": "partial",
   "theorems": [
    "C133_block_partial",
    "C133_luma_partial",
    "C133_value_refuted",
    "C133_alpha_refuted"
   ],
   "note": "Only the block is written and the luma sums and their total are right; all samples become 2 since Clip1 ignores its argument, and the alpha of V serves both planes (refuted)."
  },
  {
   "property": "C134",
   "status": "partial",
   "theorems": [
    "C134_luma_partial",
    "C134_chroma_refuted"
   ],
   "note": "Luma proved; chroma always panics (refuted)."
  },
  {
   "property": "C135",
   "status": "proved",
   "theorems": [
    "C135_uv_size",
    "C135_uv_size_422",
    "C135_find"
   ],
   "note": "For 4:4:4, 4:2:0 and, for the block sizes the standard allows there, 4:2:2."
  },
  {
   "property": "C136",
   "status": "partial",
   "theorems": [
    "C136_small_partial",
    "C136_start_refuted",
    "C136_large_refuted"
   ],
   "note": "What happens with 64x64 superblocks, for all histories: two flags cleared, none set (refuted); with 128x128 it always panics (refuted)."
  },
  {
   "property": "C137",
   "status": "proved",
   "theorems": [
    "C137_constant_picture"
   ],
   "note": "For all steps >= 0, all filters, all rounding of single and compound prediction."
  },
  {
   "property": "C138",
   "status": "proved",
   "theorems": [
    "C138_scale_limits",
    "C138_is_scaled"
   ],
   "note": "References of at most 2^17 samples a side."
  },
  {
   "property": "C139",
   "status": "partial",
   "theorems": [
    "C139_scaled_position_refuted",
    "C139_scaled_position_partial"
   ],
   "note": "Right when the standard position is at most 32/1024; otherwise 32/1024 is used and the distance between samples is 0 (refuted: Round2Signed rounds a constant for positive values)."
  },
  {
   "property": "C140",
   "status": "partial",
   "theorems": [
    "C140_interpolation_partial",
    "C140_vector_ignored_refuted"
   ],
   "note": "Exactly the standard filter for positions with fraction below 1/16 and no vertical step (all that occur: C139); the vector is then ignored and every sample of the block is the corner sample of the reference (refuted). Others index the filters out of range."
  },
  {
   "property": "C141",
   "status": "partial",
   "theorems": [
    "C141_reciprocal_partial",
    "C141_reciprocal_refuted"
   ],
   "note": "Factor and shift + 1 are the reciprocal to 1/256 for all divisors but those with leading bits 420 (wrong table entry); the returned shift is one too small for all (refuted)."
  },
  {
   "property": "C142",
   "status": "partial",
   "theorems": [
    "C142_shear_partial",
    "C142_strong_warp_valid_refuted"
   ],
   "note": "Multiples of 64 in range, valid exactly when the limits hold, alpha and beta the standard values when negative; positive ones become 0 so that extreme warps are valid (refuted)."
  },
  {
   "property": "C143",
   "status": "partial",
   "theorems": [
    "C143_only_single_refuted",
    "C143_warp_refuted"
   ],
   "note": "Refuted: exactly which kinds panic: compound, wedge, difference and distance weights, copied and warped blocks."
  },
  {
   "property": "C144",
   "status": "partial",
   "theorems": [
    "C144_intra_neighbours",
    "C144_above_extent",
    "C144_blend",
    "C144_masks_partial",
    "C144_mask32_refuted",
    "C144_left_by_row_refuted"
   ],
   "note": "The blend is proved in full, and the masks up to 16; the mask of 32 has a weight 3 (refuted) and the left neighbour is weighed by row (refuted)."
  },
  {
   "property": "C145",
   "status": "partial",
   "theorems": [
    "C145_diagonal_refuted",
    "C145_within_block_partial"
   ],
   "note": "Only the block changes if it is not higher than wide (partial); the value 2 goes to the diagonal, the rest is not written (refuted)."
  },
  {
   "property": "C146",
   "status": "partial",
   "theorems": [
    "C146_first",
    "C146_predictions_partial",
    "C146_small_refuted",
    "C146_interintra_refuted",
    "C146_intra_untouched_partial"
   ],
   "note": "Proved for all planes for which the standard has one prediction, in general exactly the first of the standard; others are missing (refuted); inter-intra at a superblock edge panics (refuted)."
  },
  {
   "property": "C147",
   "status": "partial",
   "theorems": [
    "C147_single_partial",
    "C147_standard_partial",
    "C147_far_refuted",
    "C147_context_refuted",
    "C147_compound_refuted",
    "C147_fixed_partial"
   ],
   "note": "Follows the code variant exactly; equals the standard where the two wrong contexts agree; contexts of ALTREF and LAST2 wrong, LAST3, GOLDEN and compound references panic (refuted)."
  },
  {
   "property": "C148",
   "status": "partial",
   "theorems": [
    "C148_predicted",
    "C148_predicted_found",
    "C148_kept",
    "C148_read_partial",
    "C148_temporal_refuted",
    "C148_cleared_partial",
    "C148_left_refuted",
    "C148_short_refuted"
   ],
   "note": "The prediction from the previous map, and reading without temporal update (for the segments of C104), proved; temporal update panics, left flags go to the row above, that row has three elements (refuted)."
  },
  {
   "property": "C149",
   "status": "partial",
   "theorems": [
    "C149_is_inter_partial",
    "C149_skip_mode_inter",
    "C149_global_refuted",
    "C149_skip_mode_partial",
    "C149_skip_mode_refuted"
   ],
   "note": "Proved outside of segments with global motion, which become intra (refuted); coded skip mode panics (refuted)."
  },
  {
   "property": "C150",
   "status": "partial",
   "theorems": [
    "C150_intra_block_partial",
    "C150_intra_block_code_partial",
    "C150_sign_refuted"
   ],
   "note": "Proved without palettes and recursive filters, but for the sign of the chroma from luma parameters (refuted)."
  },
  {
   "property": "C151",
   "status": "partial",
   "theorems": [
    "C151_one_candidate",
    "C151_mode_partial",
    "C151_near_refuted",
    "C151_segment_partial",
    "C151_candidate_partial",
    "C151_choice_refuted"
   ],
   "note": "New and global modes proved; nearest, near and any choice between candidates panic (refuted)."
  },
  {
   "property": "C152",
   "status": "partial",
   "theorems": [
    "C152_places_refuted",
    "C152_simple_partial",
    "C152_other_refuted",
    "C152_no_samples_refuted",
    "C152_sample_refuted"
   ],
   "note": "Simple where header, size or global warp say so; everything else never returns, and no warp sample can be found (refuted)."
  },
  {
   "property": "C153",
   "status": "partial",
   "theorems": [
    "C153_needed_partial",
    "C153_global_refuted",
    "C153_frame_filter",
    "C153_regular_partial",
    "C153_coded_refuted"
   ],
   "note": "Proved but for GLOBAL_GLOBALMV (refuted); coded filters panic (refuted)."
  },
  {
   "property": "C154",
   "status": "partial",
   "theorems": [
    "C154_interintra_partial",
    "C154_unread_refuted",
    "C154_skip_mode_refuted",
    "C154_compound_partial",
    "C154_compound_refuted"
   ],
   "note": "Inter-intra is never read where coded, read in skip mode where it is not (refuted); compound types with masks or distance weights panic (refuted); the rest proved."
  },
  {
   "property": "C155",
   "status": "partial",
   "theorems": [
    "C155_block_partial"
   ],
   "note": "Whole block without segmentation, skip mode, reference_select, switchable motion and filter, in the variant of C147 and C150; candidate list and vectors are parameters (C42, C72-C75, C95, C122-C125)."
  },
  {
   "property": "C156",
   "status": "proved",
   "theorems": [
    "C156_tiles_of_group",
    "C156_group_returns"
   ],
   "note": "For every layout, group and tile decoder that reads through the symbol decoder (which C27 shows of every read): accepted groups are cut correctly; and if every tile is decoded, the group is accepted. Tile sizes up to 7 bytes of size field."
  },
  {
   "property": "C157",
   "status": "partial",
   "theorems": [
    "C157_first_three_partial",
    "C157_fourth_refuted",
    "C157_large_refuted"
   ],
   "note": "Proved for superblocks of 64x64 in the first three rows and columns, after any history. Refuted: the fourth superblock of a row or column always panics (cap is tested, len is indexed); of 128x128 superblocks only the first quarter is reset (CdefSize4 is never set)."
  },
  {
   "property": "C158",
   "status": "partial",
   "theorems": [
    "C158_single_tile_refuted",
    "C158_group_refuted",
    "C158_frame_refuted"
   ],
   "note": "Refuted: whatever the data and the block decoding, a frame wider or higher than 8 samples in one tile is never decoded, nor any well formed group of a frame wider than 8 (the segmentation context has 3 entries); for OBU_FRAME stated in frame width and height. The case shows an 8x8 frame decoded and a 9x9 one panicking."
  },
  {
   "property": "C159",
   "status": "partial",
   "theorems": [
    "C159_independent",
    "C159_first_superblock_partial"
   ],
   "note": "Independence is proved for all states and block decoders. The values at the first superblock are proved for frames of at most 3 rows and columns of 4x4 samples; larger ones panic (C158)."
  },
  {
   "property": "C160",
   "status": "partial",
   "theorems": [
    "C160_terminates_partial"
   ],
   "note": "All loops of the modelled levels stop for every input, if the readers of elements, one block and the end of a frame do; missing: coefficient reading does not for some blocks (C100_termination_refuted)."
  },
  {
   "property": "C161",
   "status": "proved",
   "theorems": [
    "C161_any_size"
   ],
   "note": "For every integer size, every history of symbol, literal and NS reads over valid CDFs; a panic implies the tile exceeds the data."
  },
  {
   "property": "C162",
   "status": "partial",
   "theorems": [
    "C162_cache_partial",
    "C162_left_refuted",
    "C162_nil_refuted"
   ],
   "note": "For all sorted palettes and enough room: ascending, no duplicates, all colors above and the ones to the left that are not larger than all colors above. False beyond that: larger colors on the left are dropped (C162_left_refuted: with nothing above, the cache is empty), and the code never gives the cache a length, so any color above panics (C162_nil_refuted)."
  },
  {
   "property": "C163",
   "status": "partial",
   "theorems": [
    "C163_context_refuted",
    "C163_tokens_refuted",
    "C163_none_partial"
   ],
   "note": "False: the score table is a nil slice, so every context computation panics (C163_context_refuted) and a block with a palette is never decoded (C163_tokens_refuted, whatever b.S() would return at a sample). True: without a palette nothing is read or changed (C163_none_partial)."
  },
  {
   "property": "C164",
   "status": "partial",
   "theorems": [
    "C164_difference_partial",
    "C164_difference_range",
    "C164_intra_partial",
    "C164_intra_falls",
    "C164_nil_refuted"
   ],
   "note": "Given a mask with room for the block (in the code it is nil, C164_nil_refuted): both masks are exact for all predictions below 2^40, sizes (intra: to 128), bit depths, and stay in their ranges."
  },
  {
   "property": "C165",
   "status": "partial",
   "theorems": [
    "C165_blend_partial",
    "C165_between",
    "C165_range_refuted",
    "C165_interintra_refuted"
   ],
   "note": "Exact blend for all predictions below 2^40, masks of weights 0..64, planes and subsamplings; between the two predictions. False: the result is not clipped (C165_range_refuted), and with an intra prediction the constant 2 takes the place of the inter prediction (C165_interintra_refuted)."
  },
  {
   "property": "C166",
   "status": "partial",
   "theorems": [
    "C166_weights_partial",
    "C166_sum",
    "C166_process_partial",
    "C166_nil_refuted"
   ],
   "note": "Given a slice for the distances (in the code it is nil, C166_nil_refuted): exact for all hints and distances, sum 16, nearer reference heavier."
  },
  {
   "property": "C167",
   "status": "partial",
   "theorems": [
    "C167_masks_partial",
    "C167_complement",
    "C167_one_edge",
    "C167_sign",
    "C167_nil_refuted",
    "C167_sizes_refuted"
   ],
   "note": "Given slices with room and the sizes of the blocks: every entry is exact (the corner the code counts twice never changes a sign), nothing else changes; complementary, one edge per row and column, sign. False: the slices are nil (C167_nil_refuted), and the sizes the code takes are never set, so even with room it stores nothing (C167_sizes_refuted)."
  },
  {
   "property": "C168",
   "status": "partial",
   "theorems": [
    "C168_coded_sizes_partial",
    "C168_128_refuted"
   ],
   "note": "Proved for 64x64 superblocks: every frame up to 2^20 4x4 columns and rows, every valid list of sizes, the bits of the standard. Refuted for 128x128 superblocks (the number of columns comes from the height, the rows still count 64x64 superblocks)."
  },
  {
   "property": "C169",
   "status": "partial",
   "theorems": [
    "C169_smooth_partial",
    "C169_above_ignored_refuted",
    "C169_chroma_column_refuted"
   ],
   "note": "Proved for luma and for chroma that is not subsampled, unless both neighbours exist and only the one above is smooth; refuted: the one above is ignored if there is one to the left, and subsampled chroma takes the other 4x4 column (row)."
  }
 ]
}