(** GENERATED by tools/gen_tables.py from the Go source: a transcription of literals, no logic. *)
From Coq Require Import ZArith List.
Import ListNotations.
Open Scope Z_scope.

(** internal/shared/constants.go:3 *) Definition BLOCK_INVALID : Z := 3.
(** internal/shared/constants.go:4 *) Definition BLOCK_SIZES : Z := 22.
(** internal/shared/constants.go:5 *) Definition BLOCK_4X4 : Z := 0.
(** internal/shared/constants.go:6 *) Definition BLOCK_4X8 : Z := 1.
(** internal/shared/constants.go:7 *) Definition BLOCK_8X4 : Z := 2.
(** internal/shared/constants.go:8 *) Definition BLOCK_8X8 : Z := 3.
(** internal/shared/constants.go:9 *) Definition BLOCK_8X16 : Z := 4.
(** internal/shared/constants.go:10 *) Definition BLOCK_16X8 : Z := 5.
(** internal/shared/constants.go:11 *) Definition BLOCK_16X16 : Z := 6.
(** internal/shared/constants.go:12 *) Definition BLOCK_16X32 : Z := 7.
(** internal/shared/constants.go:13 *) Definition BLOCK_32X16 : Z := 8.
(** internal/shared/constants.go:14 *) Definition BLOCK_32X32 : Z := 9.
(** internal/shared/constants.go:15 *) Definition BLOCK_32X64 : Z := 10.
(** internal/shared/constants.go:16 *) Definition BLOCK_64X32 : Z := 11.
(** internal/shared/constants.go:17 *) Definition BLOCK_64X64 : Z := 12.
(** internal/shared/constants.go:18 *) Definition BLOCK_64X128 : Z := 13.
(** internal/shared/constants.go:19 *) Definition BLOCK_128X64 : Z := 14.
(** internal/shared/constants.go:20 *) Definition BLOCK_128X128 : Z := 15.
(** internal/shared/constants.go:21 *) Definition BLOCK_4X16 : Z := 16.
(** internal/shared/constants.go:22 *) Definition BLOCK_16X4 : Z := 17.
(** internal/shared/constants.go:23 *) Definition BLOCK_8X32 : Z := 18.
(** internal/shared/constants.go:24 *) Definition BLOCK_32X8 : Z := 19.
(** internal/shared/constants.go:25 *) Definition BLOCK_16X64 : Z := 20.
(** internal/shared/constants.go:26 *) Definition BLOCK_64X16 : Z := 21.
(** internal/shared/constants.go:156 *) Definition NONE : Z := (-1).
(** internal/shared/constants.go:157 *) Definition INTRA_FRAME : Z := 0.
(** internal/shared/constants.go:158 *) Definition LAST_FRAME : Z := 1.
(** internal/shared/constants.go:159 *) Definition LAST2_FRAME : Z := 2.
(** internal/shared/constants.go:160 *) Definition LAST3_FRAME : Z := 3.
(** internal/shared/constants.go:161 *) Definition GOLDEN_FRAME : Z := 4.
(** internal/shared/constants.go:162 *) Definition BWDREF_FRAME : Z := 5.
(** internal/shared/constants.go:163 *) Definition ALTREF2_FRAME : Z := 6.
(** internal/shared/constants.go:164 *) Definition ALTREF_FRAME : Z := 7.
(** internal/shared/constants.go:166 *) Definition NEARESTMV : Z := 14.
(** internal/shared/constants.go:167 *) Definition NEARMV : Z := 15.
(** internal/shared/constants.go:168 *) Definition GLOBALMV : Z := 16.
(** internal/shared/constants.go:169 *) Definition NEWMV : Z := 17.
(** internal/shared/constants.go:170 *) Definition NEAREST_NEARESTMV : Z := 18.
(** internal/shared/constants.go:171 *) Definition NEAR_NEARMV : Z := 19.
(** internal/shared/constants.go:172 *) Definition NEAREST_NEWMV : Z := 20.
(** internal/shared/constants.go:173 *) Definition NEW_NEARESTMV : Z := 21.
(** internal/shared/constants.go:174 *) Definition NEAR_NEWMV : Z := 22.
(** internal/shared/constants.go:175 *) Definition NEW_NEARMV : Z := 23.
(** internal/shared/constants.go:176 *) Definition GLOBAL_GLOBALMV : Z := 24.
(** internal/shared/constants.go:177 *) Definition NEW_NEWMV : Z := 25.
(** internal/shared/constants.go:179 *) Definition SUPERRES_NUM : Z := 8.
(** internal/shared/constants.go:181 *) Definition TX_MODE_LARGEST : Z := 1.
(** internal/shared/constants.go:182 *) Definition TX_MODE_SELECT : Z := 2.
(** internal/shared/constants.go:184 *) Definition MI_SIZE_LOG2 : Z := 2.
(** internal/shared/constants.go:209 *) Definition WARPEDMODEL_PREC_BITS : Z := 16.
(** internal/shared/constants.go:210 *) Definition WARPEDMODEL_NONDIAGAFFINE_CLAMP : Z := 8192.
(** internal/shared/constants.go:211 *) Definition WARPEDMODEL_TRANS_CLAMP : Z := 8388608.
(** internal/shared/constants.go:212 *) Definition WARPEDPIXEL_PREC_SHIFTS : Z := 64.
(** internal/shared/constants.go:213 *) Definition WARPEDDIFF_PREC_BITS : Z := 10.
(** internal/shared/constants.go:214 *) Definition WARP_PARAM_REDUCE_BITS : Z := 6.
(** internal/shared/constants.go:216 *) Definition GM_TRANS_ONLY_PREC_BITS : Z := 3.
(** internal/shared/constants.go:217 *) Definition GM_TRANS_PREC_BITS : Z := 6.
(** internal/shared/constants.go:218 *) Definition GM_ABS_TRANS_ONLY_BITS : Z := 9.
(** internal/shared/constants.go:219 *) Definition GM_ABS_ALPHA_BITS : Z := 12.
(** internal/shared/constants.go:220 *) Definition GM_ABS_TRANS_BITS : Z := 12.
(** internal/shared/constants.go:221 *) Definition GM_ALPHA_PREC_BITS : Z := 15.
(** internal/shared/constants.go:223 *) Definition TRANSLATION : Z := 1.
(** internal/shared/constants.go:225 *) Definition EIGHTTAP : Z := 0.
(** internal/shared/constants.go:226 *) Definition EIGHTTAP_SMOOTH : Z := 1.
(** internal/shared/constants.go:227 *) Definition EIGHTTAP_SHARP : Z := 2.
(** internal/shared/constants.go:228 *) Definition BILINEAR : Z := 3.
(** internal/shared/constants.go:229 *) Definition SWITCHABLE : Z := 4.
(** internal/shared/constants.go:231 *) Definition NUM_REF_FRAMES : Z := 8.
(** internal/shared/constants.go:232 *) Definition REFS_PER_FRAME : Z := 7.
(** internal/shared/constants.go:233 *) Definition KEY_FRAME : Z := 0.
(** internal/shared/constants.go:234 *) Definition PRIMARY_REF_NONE : Z := 7.
(** internal/shared/constants.go:235 *) Definition MAX_SEGMENTS : Z := 8.
(** internal/shared/constants.go:237 *) Definition SEG_LVL_ALT_Q : Z := 0.
(** internal/shared/constants.go:238 *) Definition SEG_LVL_ALT_LF_Y_V : Z := 1.
(** internal/shared/constants.go:239 *) Definition SEG_LVL_REF_FRAME : Z := 5.
(** internal/shared/constants.go:240 *) Definition SEG_LVL_SKIP : Z := 6.
(** internal/shared/constants.go:241 *) Definition SEG_LVL_GLOBALMV : Z := 7.
(** internal/shared/constants.go:242 *) Definition SEG_LVL_MAX : Z := 8.
(** internal/shared/constants.go:244 *) Definition MAX_LOOP_FILTER : Z := 63.
(** internal/shared/constants.go:246 *) Definition IDENTITY : Z := 0.
(** internal/shared/constants.go:247 *) Definition ROTZOOM : Z := 2.
(** internal/shared/constants.go:248 *) Definition AFFINE : Z := 3.
(** internal/shared/constants.go:254 *) Definition RESTORE_NONE : Z := 0.
(** internal/shared/constants.go:255 *) Definition RESTORE_WIENER : Z := 1.
(** internal/shared/constants.go:256 *) Definition RESTORE_SGRPROJ : Z := 2.
(** internal/shared/constants.go:257 *) Definition RESTORE_SWITCHABLE : Z := 3.
(** internal/shared/constants.go:263 *) Definition RESTORATION_TILESIZE_MAX : Z := 256.
(** internal/shared/constants.go:265 *) Definition MV_CONTEXTS : Z := 2.
(** internal/shared/constants.go:266 *) Definition FRAME_LF_COUNT : Z := 4.
(** internal/shared/constants.go:268 *) Definition MAX_TILE_WIDTH : Z := 4096.
(** internal/shared/constants.go:269 *) Definition MAX_TILE_AREA : Z := 9437184.
(** internal/shared/constants.go:270 *) Definition MAX_TILE_COLS : Z := 64.
(** internal/shared/constants.go:271 *) Definition MAX_TILE_ROWS : Z := 64.
(** internal/symbol/symbol.go:10 *) Definition EC_PROB_SHIFT : Z := 6.
(** internal/symbol/symbol.go:11 *) Definition EC_MIN_PROB : Z := 4.
(** internal/wedgemask/wedge_mask.go:9 *) Definition MASK_MASTER_SIZE : Z := 64.
(** internal/wedgemask/wedge_mask.go:10 *) Definition WEDGE_TYPES : Z := 16.
(** internal/wedgemask/wedge_mask.go:12 *) Definition WEDGE_HORIZONTAL : Z := 0.
(** internal/wedgemask/wedge_mask.go:13 *) Definition WEDGE_VERTICAL : Z := 1.
(** internal/wedgemask/wedge_mask.go:14 *) Definition WEDGE_OBLIQUE27 : Z := 2.
(** internal/wedgemask/wedge_mask.go:15 *) Definition WEDGE_OBLIQUE63 : Z := 3.
(** internal/wedgemask/wedge_mask.go:16 *) Definition WEDGE_OBLIQUE117 : Z := 4.
(** internal/wedgemask/wedge_mask.go:17 *) Definition WEDGE_OBLIQUE153 : Z := 5.
(** internal/sequenceheader/sequence_header.go:9 *) Definition CP_UNSPECIFIED : Z := 2.
(** internal/sequenceheader/sequence_header.go:10 *) Definition TC_UNSPECIFIED : Z := 2.
(** internal/sequenceheader/sequence_header.go:11 *) Definition MC_UNSPECIFIED : Z := 2.
(** internal/uncompressedheader/uncompressed_header.go:14 *) Definition ONLY_4X4 : Z := 0.
(** internal/uncompressedheader/uncompressed_header.go:16 *) Definition SUPERRES_DENOM_BITS : Z := 3.
(** internal/uncompressedheader/uncompressed_header.go:17 *) Definition SUPERRES_DENOM_MIN : Z := 9.
(** internal/uncompressedheader/uncompressed_header.go:19 *) Definition INTER_FRAME : Z := 1.
(** internal/uncompressedheader/uncompressed_header.go:20 *) Definition SWITCH_FRAME : Z := 3.
(** internal/uncompressedheader/uncompressed_header.go:22 *) Definition TOTAL_REFS_PER_FRAME : Z := 8.
(** internal/tilegroup/tile_group.go:12 *) Definition WIENER_COEFFS : Z := 3.
(** internal/tilegroup/tile_group.go:14 *) Definition PARTITION_NONE : Z := 0.
(** internal/tilegroup/tile_group.go:15 *) Definition PARTITION_HORZ : Z := 1.
(** internal/tilegroup/tile_group.go:16 *) Definition PARTITION_VERT : Z := 2.
(** internal/tilegroup/tile_group.go:17 *) Definition PARTITION_SPLIT : Z := 3.
(** internal/tilegroup/tile_group.go:18 *) Definition PARTITION_HORZ_A : Z := 4.
(** internal/tilegroup/tile_group.go:19 *) Definition PARTITION_HORZ_B : Z := 5.
(** internal/tilegroup/tile_group.go:20 *) Definition PARTITION_VERT_A : Z := 6.
(** internal/tilegroup/tile_group.go:21 *) Definition PARTITION_VERT_B : Z := 7.
(** internal/tilegroup/tile_group.go:22 *) Definition PARTITION_HORZ_4 : Z := 8.
(** internal/tilegroup/tile_group.go:23 *) Definition PARTITION_VERT_4 : Z := 9.
(** internal/tilegroup/tile_group.go:25 *) Definition MAX_SB_SIZE : Z := 128.
(** internal/tilegroup/tile_group.go:26 *) Definition MAX_FRAME_DISTANCE : Z := 31.
(** internal/tilegroup/tile_group.go:28 *) Definition INTRA_EDGE_TAPS : Z := 5.
(** internal/tilegroup/tile_group.go:29 *) Definition SUBPEL_BITS : Z := 4.
(** internal/tilegroup/tile_group.go:30 *) Definition SCALE_SUBPEL_BITS : Z := 10.
(** internal/tilegroup/tile_group.go:31 *) Definition SUBPEL_MASK : Z := 15.
(** internal/tilegroup/tile_group.go:33 *) Definition PALETTE_COLORS : Z := 8.
(** internal/tilegroup/tile_group.go:34 *) Definition PALETTE_NUM_NEIGHBORS : Z := 3.
(** internal/tilegroup/tile_group.go:36 *) Definition DELTA_Q_SMALL : Z := 3.
(** internal/tilegroup/tile_group.go:37 *) Definition DELTA_LF_SMALL : Z := 3.
(** internal/tilegroup/tile_group.go:39 *) Definition SINGLE_REFERENCE : Z := 0.
(** internal/tilegroup/tile_group.go:40 *) Definition COMPOUND_REFERENCE : Z := 1.
(** internal/tilegroup/tile_group.go:42 *) Definition COMPOUND_WEDGE : Z := 0.
(** internal/tilegroup/tile_group.go:43 *) Definition COMPOUND_DIFFWTD : Z := 1.
(** internal/tilegroup/tile_group.go:44 *) Definition COMPOUND_AVERAGE : Z := 2.
(** internal/tilegroup/tile_group.go:45 *) Definition COMPOUND_INTRA : Z := 3.
(** internal/tilegroup/tile_group.go:46 *) Definition COMPOUND_DISTANCE : Z := 4.
(** internal/tilegroup/tile_group.go:48 *) Definition UNIDIR_COMP_REFERENCE : Z := 0.
(** internal/tilegroup/tile_group.go:49 *) Definition BIDIR_COMP_REFERENCE : Z := 1.
(** internal/tilegroup/tile_group.go:55 *) Definition ANGLE_STEP : Z := 3.
(** internal/tilegroup/tile_group.go:57 *) Definition MI_SIZE : Z := 4.
(** internal/tilegroup/tile_group.go:59 *) Definition SGRPROJ_PARAMS_BITS : Z := 4.
(** internal/tilegroup/tile_group.go:60 *) Definition SGRPROJ_BITS : Z := 7.
(** internal/tilegroup/tile_group.go:61 *) Definition SGRPROJ_PRJ_SUBEXP_K : Z := 4.
(** internal/tilegroup/tile_group.go:63 *) Definition DC_PRED : Z := 0.
(** internal/tilegroup/tile_group.go:64 *) Definition II_DC_PRED : Z := 0.
(** internal/tilegroup/tile_group.go:65 *) Definition II_V_PRED : Z := 1.
(** internal/tilegroup/tile_group.go:66 *) Definition II_H_PRED : Z := 2.
(** internal/tilegroup/tile_group.go:67 *) Definition II_SMOOTH_PRED : Z := 3.
(** internal/tilegroup/tile_group.go:69 *) Definition SIMPLE : Z := 0.
(** internal/tilegroup/tile_group.go:70 *) Definition OBMC : Z := 1.
(** internal/tilegroup/tile_group.go:71 *) Definition LOCALWARP : Z := 2.
(** internal/tilegroup/tile_group.go:73 *) Definition COMPUND_AVERAGE : Z := 2.
(** internal/tilegroup/tile_group.go:75 *) Definition MAX_REF_MV_STACK_SIZE : Z := 8.
(** internal/tilegroup/tile_group.go:77 *) Definition V_PRED : Z := 1.
(** internal/tilegroup/tile_group.go:78 *) Definition H_PRED : Z := 2.
(** internal/tilegroup/tile_group.go:79 *) Definition D157_PRED : Z := 6.
(** internal/tilegroup/tile_group.go:80 *) Definition SMOOTH_PRED : Z := 9.
(** internal/tilegroup/tile_group.go:81 *) Definition SMOOTH_V_PRED : Z := 10.
(** internal/tilegroup/tile_group.go:82 *) Definition SMOOTH_H_PRED : Z := 11.
(** internal/tilegroup/tile_group.go:84 *) Definition D67_PRED : Z := 8.
(** internal/tilegroup/tile_group.go:85 *) Definition UV_CFL_PRED : Z := 13.
(** internal/tilegroup/tile_group.go:87 *) Definition MAX_ANGLE_DELTA : Z := 3.
(** internal/tilegroup/tile_group.go:89 *) Definition CFL_SIGN_ZERO : Z := 0.
(** internal/tilegroup/tile_group.go:90 *) Definition CFL_SIGN_NEG : Z := 2.
(** internal/tilegroup/tile_group.go:92 *) Definition INTRABC_DELAY_PIXELS : Z := 256.
(** internal/tilegroup/tile_group.go:94 *) Definition MV_INTRABC_CONTEXT : Z := 1.
(** internal/tilegroup/tile_group.go:96 *) Definition MV_JOINT_ZERO : Z := 0.
(** internal/tilegroup/tile_group.go:97 *) Definition MV_JOINT_HNZVZ : Z := 1.
(** internal/tilegroup/tile_group.go:98 *) Definition MV_JOINT_HZVNZ : Z := 2.
(** internal/tilegroup/tile_group.go:99 *) Definition MV_JOINT_HNZVNZ : Z := 3.
(** internal/tilegroup/tile_group.go:101 *) Definition CLASS0_SIZE : Z := 2.
(** internal/tilegroup/tile_group.go:103 *) Definition MV_CLASS_0 : Z := 0.
(** internal/tilegroup/tile_group.go:104 *) Definition MV_CLASS_1 : Z := 1.
(** internal/tilegroup/tile_group.go:105 *) Definition MV_CLASS_2 : Z := 2.
(** internal/tilegroup/tile_group.go:106 *) Definition MV_CLASS_3 : Z := 3.
(** internal/tilegroup/tile_group.go:107 *) Definition MV_CLASS_4 : Z := 4.
(** internal/tilegroup/tile_group.go:108 *) Definition MV_CLASS_5 : Z := 5.
(** internal/tilegroup/tile_group.go:109 *) Definition MV_CLASS_6 : Z := 6.
(** internal/tilegroup/tile_group.go:110 *) Definition MV_CLASS_7 : Z := 7.
(** internal/tilegroup/tile_group.go:111 *) Definition MV_CLASS_8 : Z := 8.
(** internal/tilegroup/tile_group.go:112 *) Definition MV_CLASS_9 : Z := 9.
(** internal/tilegroup/tile_group.go:113 *) Definition MV_CLASS_10 : Z := 10.
(** internal/tilegroup/tile_group.go:115 *) Definition LEAST_SQUARES_SAMPLES_MAX : Z := 8.
(** internal/tilegroup/tile_group.go:117 *) Definition REF_SCALE_SHIFT : Z := 14.
(** internal/tilegroup/tile_group.go:119 *) Definition INTRA_FILTER_SCALE_BITS : Z := 4.
(** internal/tilegroup/tile_group.go:121 *) Definition LS_MV_MAX : Z := 256.
(** internal/tilegroup/tile_group.go:122 *) Definition DIV_LUT_PREC_BITS : Z := 13.
(** internal/tilegroup/tile_group.go:123 *) Definition DIV_LUT_BITS : Z := 8.
(** internal/tilegroup/coeffs.go:320 *) Definition SIG_COEF_CONTEXTS : Z := 42.
(** internal/tilegroup/coeffs.go:321 *) Definition SIG_COEF_CONTEXTS_EOB : Z := 4.
(** internal/tilegroup/coeffs.go:322 *) Definition SIG_REF_DIFF_OFFSET_NUM : Z := 5.
(** internal/tilegroup/coeffs.go:405 *) Definition TX_CLASS_2D : Z := 0.
(** internal/tilegroup/coeffs.go:406 *) Definition TX_CLASS_HORIZ : Z := 1.
(** internal/tilegroup/coeffs.go:407 *) Definition TX_CLASS_VERT : Z := 2.
(** internal/tilegroup/coeffs.go:798 *) Definition DCT_DCT : Z := 0.
(** internal/tilegroup/coeffs.go:799 *) Definition ADST_DCT : Z := 1.
(** internal/tilegroup/coeffs.go:800 *) Definition DCT_ADST : Z := 2.
(** internal/tilegroup/coeffs.go:801 *) Definition ADST_ADST : Z := 3.
(** internal/tilegroup/coeffs.go:802 *) Definition FLIPADST_DCT : Z := 4.
(** internal/tilegroup/coeffs.go:803 *) Definition DCT_FLIPADST : Z := 5.
(** internal/tilegroup/coeffs.go:804 *) Definition FLIPADST_FLIPADST : Z := 6.
(** internal/tilegroup/coeffs.go:805 *) Definition ADST_FLIPADST : Z := 7.
(** internal/tilegroup/coeffs.go:806 *) Definition FLIPADST_ADST : Z := 8.
(** internal/tilegroup/coeffs.go:807 *) Definition IDTX : Z := 9.
(** internal/tilegroup/coeffs.go:808 *) Definition V_DCT : Z := 10.
(** internal/tilegroup/coeffs.go:809 *) Definition H_DCT : Z := 11.
(** internal/tilegroup/coeffs.go:810 *) Definition V_ADST : Z := 12.
(** internal/tilegroup/coeffs.go:811 *) Definition H_ADST : Z := 13.
(** internal/tilegroup/coeffs.go:812 *) Definition V_FLIPADST : Z := 14.
(** internal/tilegroup/coeffs.go:813 *) Definition H_FLIPADST : Z := 15.
(** internal/tilegroup/coeffs.go:815 *) Definition TX_SET_DCTONLY : Z := 0.
(** internal/tilegroup/coeffs.go:816 *) Definition TX_SET_INTER_1 : Z := 1.
(** internal/tilegroup/coeffs.go:817 *) Definition TX_SET_INTER_2 : Z := 2.
(** internal/tilegroup/coeffs.go:818 *) Definition TX_SET_INTER_3 : Z := 3.
(** internal/tilegroup/coeffs.go:819 *) Definition TX_SET_INTRA_1 : Z := 1.
(** internal/tilegroup/coeffs.go:820 *) Definition TX_SET_INTRA_2 : Z := 2.
(** internal/tilegroup/coeffs.go:821 *) Definition TX_SET_INTRA_3 : Z := 3.
(** internal/tilegroup/coeffs.go:1320 *) Definition NUM_BASE_LEVELS : Z := 2.
(** internal/tilegroup/coeffs.go:1321 *) Definition COEFF_BASE_RANGE : Z := 12.
(** internal/tilegroup/coeffs.go:1322 *) Definition BR_CDF_SIZE : Z := 4.
(** internal/tilegroup/coeffs.go:1460 *) Definition SIG_COEF_CONTEXTS_2D : Z := 26.
(** internal/tilegroup/transform.go:377 *) Definition SINPI_1_9 : Z := 1321.
(** internal/tilegroup/transform.go:378 *) Definition SINPI_2_9 : Z := 2482.
(** internal/tilegroup/transform.go:379 *) Definition SINPI_3_9 : Z := 3344.
(** internal/tilegroup/transform.go:380 *) Definition SINPI_4_9 : Z := 3803.
(** internal/tilegroup/decode_frame_wrapup.go:56 *) Definition FILTER_BITS : Z := 7.
(** internal/tilegroup/decode_frame_wrapup.go:57 *) Definition SUPERRES_FILTER_BITS : Z := 6.
(** internal/tilegroup/decode_frame_wrapup.go:58 *) Definition SUPERRES_FILTER_TAPS : Z := 8.
(** internal/tilegroup/decode_frame_wrapup.go:59 *) Definition SUPERRES_FILTER_OFFSET : Z := 3.
(** internal/tilegroup/decode_frame_wrapup.go:60 *) Definition SUPERRES_FILTER_SHIFTS : Z := 64.
(** internal/tilegroup/decode_frame_wrapup.go:61 *) Definition SUPERRES_SCALE_BITS : Z := 14.
(** internal/tilegroup/decode_frame_wrapup.go:62 *) Definition SUPERRES_SCALE_MASK : Z := 16383.
(** internal/tilegroup/decode_frame_wrapup.go:63 *) Definition SUPERRES_EXTRA_BITS : Z := 8.
(** internal/tilegroup/tx_size.go:155 *) Definition MAX_VARTX_DEPTH : Z := 2.
(** internal/tilegroup/tx_size.go:157 *) Definition TX_4X4 : Z := 0.
(** internal/tilegroup/tx_size.go:158 *) Definition TX_8X8 : Z := 1.
(** internal/tilegroup/tx_size.go:159 *) Definition TX_16X16 : Z := 2.
(** internal/tilegroup/tx_size.go:160 *) Definition TX_32X32 : Z := 3.
(** internal/tilegroup/tx_size.go:161 *) Definition TX_64X64 : Z := 4.
(** internal/tilegroup/tx_size.go:162 *) Definition TX_4X8 : Z := 5.
(** internal/tilegroup/tx_size.go:163 *) Definition TX_8X4 : Z := 6.
(** internal/tilegroup/tx_size.go:164 *) Definition TX_8X16 : Z := 7.
(** internal/tilegroup/tx_size.go:165 *) Definition TX_16X8 : Z := 8.
(** internal/tilegroup/tx_size.go:166 *) Definition TX_16X32 : Z := 9.
(** internal/tilegroup/tx_size.go:167 *) Definition TX_32X16 : Z := 10.
(** internal/tilegroup/tx_size.go:168 *) Definition TX_32X64 : Z := 11.
(** internal/tilegroup/tx_size.go:169 *) Definition TX_64X32 : Z := 12.
(** internal/tilegroup/tx_size.go:170 *) Definition TX_4X16 : Z := 13.
(** internal/tilegroup/tx_size.go:171 *) Definition TX_16X4 : Z := 14.
(** internal/tilegroup/tx_size.go:172 *) Definition TX_8X32 : Z := 15.
(** internal/tilegroup/tx_size.go:173 *) Definition TX_32X8 : Z := 16.
(** internal/tilegroup/tx_size.go:174 *) Definition TX_16X64 : Z := 17.
(** internal/tilegroup/tx_size.go:175 *) Definition TX_64X16 : Z := 18.
(** internal/tilegroup/find_mv_stack.go:10 *) Definition REF_CAT_LEVEL : Z := 640.
(** internal/tilegroup/find_mv_stack.go:11 *) Definition MV_BORDER : Z := 128.
(** internal/tilegroup/loop_restoration.go:220 *) Definition SGRPROJ_PRJ_BITS : Z := 7.
(** internal/tilegroup/loop_restoration.go:221 *) Definition SGRPROJ_MTABLE_BITS : Z := 20.
(** internal/tilegroup/loop_restoration.go:222 *) Definition SGRPROJ_SGR_BITS : Z := 8.
(** internal/tilegroup/loop_restoration.go:223 *) Definition SGRPROJ_RECIP_BITS : Z := 12.
(** internal/tilegroup/loop_restoration.go:224 *) Definition SGRPROJ_RST_BITS : Z := 4.
(** internal/tilegroup/residual.go:295 *) Definition TX_SIZES_ALL : Z := 19.
(** internal/tilegroup/predict_inter.go:20 *) Definition PRED_SIZE : Z := 16.
