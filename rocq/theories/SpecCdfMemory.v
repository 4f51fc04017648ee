(** Specification for the CDF variables: which default table each one is initialised with (AV1 spec init_non_coeff_cdfs, init_coeff_cdfs), written from
    the names of the spec and not from the assignments of the code, and the dimensions of the tables. *)
From Coq Require Import String ZArith List.
Import ListNotations.
Local Open Scope string_scope.
Local Open Scope Z_scope.

(** A variable: its name and, for the arrays the code keeps (motion vector contexts and components, loop filter deltas), the indices. *)
Definition variable : Type := string * list Z.
Definition plain_variables : list (variable * string) := [
  (("YModeCdf", []), "DEFAULT_Y_MODE_CDF");
  (("UVModeCflNotAllowedCdf", []), "DEFAULT_UV_MODE_CFL_NOT_ALLOWED_CDF");
  (("UVModeCflAllowedCdf", []), "DEFAULT_UV_MODE_CFL_ALLOWED_CDF");
  (("AngleDeltaCdf", []), "DEFAULT_ANGLE_DELTA_CDF");
  (("IntrabcCdf", []), "DEFAULT_INTRABC_CDF");
  (("PartitionW8Cdf", []), "DEFAULT_PARTITION_W8_CDF");
  (("PartitionW16Cdf", []), "DEFAULT_PARTITION_W16_CDF");
  (("PartitionW32Cdf", []), "DEFAULT_PARTITION_W32_CDF");
  (("PartitionW64Cdf", []), "DEFAULT_PARTITION_W64_CDF");
  (("PartitionW128Cdf", []), "DEFAULT_PARTITION_W128_CDF");
  (("SegmentIdCdf", []), "DEFAULT_SEGMENT_ID_CDF");
  (("SegmentIdPredictedCdf", []), "DEFAULT_SEGMENT_ID_PREDICTED_CDF");
  (("Tx8x8Cdf", []), "DEFAULT_TX_8X8_CDF");
  (("Tx16x16Cdf", []), "DEFAULT_TX_16X16_CDF");
  (("Tx32x32Cdf", []), "DEFAULT_TX_32X32_CDF");
  (("Tx64x64Cdf", []), "DEFAULT_TX_64X64_CDF");
  (("TxfmSplitCdf", []), "DEFAULT_TXFM_SPLIT_CDF");
  (("FilterIntraModeCdf", []), "DEFAULT_FILTER_INTRA_MODE_CDF");
  (("FilterIntraCdf", []), "DEFAULT_FILTER_INTRA_CDF");
  (("InterpFilterCdf", []), "DEFAULT_INTERP_FILTER_CDF");
  (("MotionModeCdf", []), "DEFAULT_MOTION_MODE_CDF");
  (("NewMvCdf", []), "DEFAULT_NEW_MV_CDF");
  (("ZeroMvCdf", []), "DFEAULT_ZERO_MV_CDF");
  (("CompoundModeCdf", []), "DEFAULT_COMPOUND_MODE_CDF");
  (("DrlModeCdf", []), "DEFAULT_DRL_MODE_CDF");
  (("IsInterCdf", []), "DEFAULT_IS_INTER_CDF");
  (("CompModeCdf", []), "DEFAULT_COMP_MODE_CDF");
  (("SkipModeCdf", []), "DEFAULT_SKIP_MODE_CDF");
  (("SkipCdf", []), "DEFAULT_SKIP_CDF");
  (("CompRefCdf", []), "DEFAULT_COMP_REF_CDF");
  (("CompBwdRefCdf", []), "DEFAULT_COMP_BWD_REF_CDF");
  (("SingleRefCdf", []), "DEFAULT_SINGLE_REF_CDF");
  (("PaletteYModeCdf", []), "DEFAULT_PALETTE_Y_MODE_CDF");
  (("PaletteUVModeCdf", []), "DEFAULT_PALETTE_UV_MODE_CDF");
  (("PaletteUVSizeCdf", []), "DEFAULT_PALETTE_UV_SIZE_CDF");
  (("PaletteSize2YColorCdf", []), "DEFAULT_PALETTE_SIZE_2_Y_COLOR_CDF");
  (("PaletteSize2UVColorCdf", []), "DEFAULT_PALETTE_SIZE_2_UV_COLOR_CDF");
  (("PaletteSize3YColorCdf", []), "DEFAULT_PALETTE_SIZE_3_Y_COLOR_CDF");
  (("PaletteSize3UVColorCdf", []), "DEFAULT_PALETTE_SIZE_3_UV_COLOR_CDF");
  (("PaletteSize4YColorCdf", []), "DEFAULT_PALETTE_SIZE_4_Y_COLOR_CDF");
  (("PaletteSize4UVColorCdf", []), "DEFAULT_PALETTE_SIZE_4_UV_COLOR_CDF");
  (("PaletteSize5YColorCdf", []), "DEFAULT_PALETTE_SIZE_5_Y_COLOR_CDF");
  (("PaletteSize5UVColorCdf", []), "DEFAULT_PALETTE_SIZE_5_UV_COLOR_CDF");
  (("PaletteSize6YColorCdf", []), "DEFAULT_PALETTE_SIZE_6_Y_COLOR_CDF");
  (("PaletteSize6UVColorCdf", []), "DEFAULT_PALETTE_SIZE_6_UV_COLOR_CDF");
  (("PaletteSize7YColorCdf", []), "DEFAULT_PALETTE_SIZE_7_Y_COLOR_CDF");
  (("PaletteSize7UVColorCdf", []), "DEFAULT_PALETTE_SIZE_7_UV_COLOR_CDF");
  (("PaletteSize8YColorCdf", []), "DEFAULT_PALETTE_SIZE_8_Y_COLOR_CDF");
  (("PaletteSize8UVColorCdf", []), "DEFAULT_PALETTE_SIZE_8_UV_COLOR_CDF");
  (("DeltaQCdf", []), "DEFAULT_DELTA_Q_CDF");
  (("DeltaLFCdf", []), "DEFAULT_DELTA_LF_CDF");
  (("IntraTxTypeSet1Cdf", []), "DEFAULT_INTRA_TX_TYPE_SET1_CDF");
  (("IntraTxTypeSet2Cdf", []), "DEFAULT_INTRA_TX_TYPE_SET2_CDF");
  (("InterTxTypeSet1Cdf", []), "DEFAULT_INTER_TX_TYPE_SET1_CDF");
  (("InterTxTypeSet2Cdf", []), "DEFAULT_INTER_TX_TYPE_SET2_CDF");
  (("InterTxTypeSet3Cdf", []), "DEFAULT_INTER_TX_TYPE_SET3_CDF");
  (("UseObmcCdf", []), "DEFAULT_USE_OBMC_CDF");
  (("InterIntraCdf", []), "DEFAULT_INTER_INTRA_CDF");
  (("CompRefTypeCdf", []), "DEFAULT_COMP_REF_TYPE_CDF");
  (("CflSignCdf", []), "DEFAULT_CFL_SIGN_CDF");
  (("UniCompRefCdf", []), "DEFAULT_UNI_COMP_REF_CDF");
  (("WedgeInterIntraCdf", []), "DEFAULT_WEDGE_INTER_INTRA_CDF");
  (("CompGroupIdxCdf", []), "DEFAULT_COMP_GROUP_IDX_CDF");
  (("CompoundIdxCdf", []), "DEFAULT_COMPOUND_IDX_CDF");
  (("CompoundTypeCdf", []), "DEFAULT_COMPOUND_TYPE_CDF");
  (("InterIntraModeCdf", []), "DEFAULT_INTER_INTRA_MODE_CDF");
  (("WedgeIndexCdf", []), "DEFAULT_WEDGE_INDEX_CDF");
  (("CflAlphaCdf", []), "DEFAULT_CFL_ALPHA_CDF");
  (("UseWienerCdf", []), "DEFAULT_USE_WIENER_CDF");
  (("UseSgrprojCdf", []), "DEFAULT_USE_SGRPROJ_CDF");
  (("RestorationTypeCdf", []), "DEFAULT_RESTORATION_TYPE_CDF")].
(** One copy per MvCtx (the component is an index into the table), one per loop filter delta. *)
Definition array_variables : list (variable * string) := [
  (("MvJointCdf", [0]), "DEFAULT_MV_JOINT_CDF");
  (("MvJointCdf", [1]), "DEFAULT_MV_JOINT_CDF");
  (("MvClassCdf", [0]), "DEFAULT_MV_CLASS_CDF");
  (("MvClassCdf", [1]), "DEFAULT_MV_CLASS_CDF");
  (("MvFrCdf", [0]), "DEFAULT_MV_FR_CDF");
  (("MvFrCdf", [1]), "DEFAULT_MV_FR_CDF");
  (("MvClass0FrCdf", [0]), "DEFAULT_MV_CLASS0_FR_CDF");
  (("MvClass0FrCdf", [1]), "DEFAULT_MV_CLASS0_FR_CDF");
  (("DeltaLFMultiCdf", [0]), "DEFAULT_DELTA_LF_CDF");
  (("DeltaLFMultiCdf", [1]), "DEFAULT_DELTA_LF_CDF");
  (("DeltaLFMultiCdf", [2]), "DEFAULT_DELTA_LF_CDF");
  (("DeltaLFMultiCdf", [3]), "DEFAULT_DELTA_LF_CDF");
  (("MvClass0BitCdf", [0; 0]), "DEFAULT_MV_CLASS0_BIT_CDF");
  (("MvClass0BitCdf", [0; 1]), "DEFAULT_MV_CLASS0_BIT_CDF");
  (("MvClass0BitCdf", [1; 0]), "DEFAULT_MV_CLASS0_BIT_CDF");
  (("MvClass0BitCdf", [1; 1]), "DEFAULT_MV_CLASS0_BIT_CDF");
  (("MvClass0HpCdf", [0; 0]), "DEFAULT_MV_CLASS0_HP_CDF");
  (("MvClass0HpCdf", [0; 1]), "DEFAULT_MV_CLASS0_HP_CDF");
  (("MvClass0HpCdf", [1; 0]), "DEFAULT_MV_CLASS0_HP_CDF");
  (("MvClass0HpCdf", [1; 1]), "DEFAULT_MV_CLASS0_HP_CDF");
  (("MvSignCdf", [0; 0]), "DEFAULT_MV_SIGN_CDF");
  (("MvSignCdf", [0; 1]), "DEFAULT_MV_SIGN_CDF");
  (("MvSignCdf", [1; 0]), "DEFAULT_MV_SIGN_CDF");
  (("MvSignCdf", [1; 1]), "DEFAULT_MV_SIGN_CDF");
  (("MvBitCdf", [0; 0]), "DEFAULT_MV_BIT_CDF");
  (("MvBitCdf", [0; 1]), "DEFAULT_MV_BIT_CDF");
  (("MvBitCdf", [1; 0]), "DEFAULT_MV_BIT_CDF");
  (("MvBitCdf", [1; 1]), "DEFAULT_MV_BIT_CDF");
  (("MvHpCdf", [0; 0]), "DEFAULT_MV_HP_CDF");
  (("MvHpCdf", [0; 1]), "DEFAULT_MV_HP_CDF");
  (("MvHpCdf", [1; 0]), "DEFAULT_MV_HP_CDF");
  (("MvHpCdf", [1; 1]), "DEFAULT_MV_HP_CDF")].
(** The coefficient CDFs; the first index of their tables is chosen by base_q_idx. *)
Definition coeff_variables : list (variable * string) := [
  (("TxbSkipCdf", []), "DEFAULT_TXB_SKIP_CDF");
  (("EobPt16Cdf", []), "DEFAULT_EOB_PT_16_CDF");
  (("EobPt32Cdf", []), "DEFAULT_EOB_PT_32_CDF");
  (("EobPt64Cdf", []), "DEFAULT_EOB_PT_64_CDF");
  (("EobPt128Cdf", []), "DEFAULT_EOB_PT_128_CDF");
  (("EobPt256Cdf", []), "DEFAULT_EOB_PT_256_CDF");
  (("EobPt512Cdf", []), "DEFAULT_EOB_PT_512_CDF");
  (("EobPt1024Cdf", []), "DEFAULT_EOB_PT_1024_CDF");
  (("EobExtraCdf", []), "DEFAULT_EOB_EXTRA_CDF");
  (("DcSignCdf", []), "DEFAULT_DC_SIGN_CDF");
  (("CoeffBaseEobCdf", []), "DEFAULT_COEFF_BASE_EOB_CDF");
  (("CoeffBaseCdf", []), "DEFAULT_COEFF_BASE_CDF");
  (("CoeffBrCdf", []), "DEFAULT_COEFF_BR_CDF")].
Definition noncoeff_variables : list (variable * string) := plain_variables ++ array_variables.
(** AV1 spec, init_coeff_cdfs: thresholds on base_q_idx *)
Definition q_class (q i : Z) : Prop := (i = 0 /\ q <= 20) \/ (i = 1 /\ 20 < q <= 60) \/ (i = 2 /\ 60 < q <= 120) \/ (i = 3 /\ 120 < q).

(** The dimensions of the default tables in the AV1 spec (the last one counts the symbols plus the adaptation counter). *)
Definition dimensions : list (string * list Z) := [
  ("DEFAULT_ANGLE_DELTA_CDF", [8; 8]);
  ("DEFAULT_CFL_ALPHA_CDF", [6; 17]);
  ("DEFAULT_CFL_SIGN_CDF", [9]);
  ("DEFAULT_COEFF_BASE_CDF", [4; 5; 2; 42; 5]);
  ("DEFAULT_COEFF_BASE_EOB_CDF", [4; 5; 2; 4; 4]);
  ("DEFAULT_COEFF_BR_CDF", [4; 5; 2; 21; 5]);
  ("DEFAULT_COMPOUND_IDX_CDF", [6; 3]);
  ("DEFAULT_COMPOUND_MODE_CDF", [8; 9]);
  ("DEFAULT_COMPOUND_TYPE_CDF", [22; 3]);
  ("DEFAULT_COMP_BWD_REF_CDF", [3; 2; 3]);
  ("DEFAULT_COMP_GROUP_IDX_CDF", [6; 3]);
  ("DEFAULT_COMP_MODE_CDF", [5; 3]);
  ("DEFAULT_COMP_REF_CDF", [3; 3; 3]);
  ("DEFAULT_COMP_REF_TYPE_CDF", [5; 3]);
  ("DEFAULT_DC_SIGN_CDF", [4; 2; 3; 3]);
  ("DEFAULT_DELTA_LF_CDF", [5]);
  ("DEFAULT_DELTA_Q_CDF", [5]);
  ("DEFAULT_DRL_MODE_CDF", [3; 3]);
  ("DEFAULT_EOB_EXTRA_CDF", [4; 5; 2; 9; 3]);
  ("DEFAULT_EOB_PT_1024_CDF", [4; 2; 12]);
  ("DEFAULT_EOB_PT_128_CDF", [4; 2; 2; 9]);
  ("DEFAULT_EOB_PT_16_CDF", [4; 2; 2; 6]);
  ("DEFAULT_EOB_PT_256_CDF", [4; 2; 2; 10]);
  ("DEFAULT_EOB_PT_32_CDF", [4; 2; 2; 7]);
  ("DEFAULT_EOB_PT_512_CDF", [4; 2; 11]);
  ("DEFAULT_EOB_PT_64_CDF", [4; 2; 2; 8]);
  ("DEFAULT_FILTER_INTRA_CDF", [22; 3]);
  ("DEFAULT_FILTER_INTRA_MODE_CDF", [6]);
  ("DEFAULT_INTERP_FILTER_CDF", [16; 4]);
  ("DEFAULT_INTER_INTRA_CDF", [3; 3]);
  ("DEFAULT_INTER_INTRA_MODE_CDF", [3; 5]);
  ("DEFAULT_INTER_TX_TYPE_SET1_CDF", [2; 17]);
  ("DEFAULT_INTER_TX_TYPE_SET2_CDF", [13]);
  ("DEFAULT_INTER_TX_TYPE_SET3_CDF", [4; 3]);
  ("DEFAULT_INTRABC_CDF", [3]);
  ("DEFAULT_INTRA_FRAME_Y_MODE_CDF", [5; 5; 14]);
  ("DEFAULT_INTRA_TX_TYPE_SET1_CDF", [2; 13; 8]);
  ("DEFAULT_INTRA_TX_TYPE_SET2_CDF", [3; 13; 6]);
  ("DEFAULT_IS_INTER_CDF", [4; 3]);
  ("DEFAULT_MOTION_MODE_CDF", [22; 4]);
  ("DEFAULT_MV_BIT_CDF", [10; 3]);
  ("DEFAULT_MV_CLASS0_BIT_CDF", [3]);
  ("DEFAULT_MV_CLASS0_FR_CDF", [2; 2; 5]);
  ("DEFAULT_MV_CLASS0_HP_CDF", [3]);
  ("DEFAULT_MV_CLASS_CDF", [2; 12]);
  ("DEFAULT_MV_FR_CDF", [2; 5]);
  ("DEFAULT_MV_HP_CDF", [3]);
  ("DEFAULT_MV_JOINT_CDF", [5]);
  ("DEFAULT_MV_SIGN_CDF", [3]);
  ("DEFAULT_NEW_MV_CDF", [6; 3]);
  ("DEFAULT_PALETTE_SIZE_2_UV_COLOR_CDF", [5; 3]);
  ("DEFAULT_PALETTE_SIZE_2_Y_COLOR_CDF", [5; 3]);
  ("DEFAULT_PALETTE_SIZE_3_UV_COLOR_CDF", [5; 4]);
  ("DEFAULT_PALETTE_SIZE_3_Y_COLOR_CDF", [5; 4]);
  ("DEFAULT_PALETTE_SIZE_4_UV_COLOR_CDF", [5; 5]);
  ("DEFAULT_PALETTE_SIZE_4_Y_COLOR_CDF", [5; 5]);
  ("DEFAULT_PALETTE_SIZE_5_UV_COLOR_CDF", [5; 6]);
  ("DEFAULT_PALETTE_SIZE_5_Y_COLOR_CDF", [5; 6]);
  ("DEFAULT_PALETTE_SIZE_6_UV_COLOR_CDF", [5; 7]);
  ("DEFAULT_PALETTE_SIZE_6_Y_COLOR_CDF", [5; 7]);
  ("DEFAULT_PALETTE_SIZE_7_UV_COLOR_CDF", [5; 8]);
  ("DEFAULT_PALETTE_SIZE_7_Y_COLOR_CDF", [5; 8]);
  ("DEFAULT_PALETTE_SIZE_8_UV_COLOR_CDF", [5; 9]);
  ("DEFAULT_PALETTE_SIZE_8_Y_COLOR_CDF", [5; 9]);
  ("DEFAULT_PALETTE_UV_MODE_CDF", [2; 3]);
  ("DEFAULT_PALETTE_UV_SIZE_CDF", [7; 8]);
  ("DEFAULT_PALETTE_Y_MODE_CDF", [7; 3; 3]);
  ("DEFAULT_PARTITION_W128_CDF", [4; 9]);
  ("DEFAULT_PARTITION_W16_CDF", [4; 11]);
  ("DEFAULT_PARTITION_W32_CDF", [4; 11]);
  ("DEFAULT_PARTITION_W64_CDF", [4; 11]);
  ("DEFAULT_PARTITION_W8_CDF", [4; 5]);
  ("DEFAULT_RESTORATION_TYPE_CDF", [4]);
  ("DEFAULT_SEGMENT_ID_CDF", [3; 9]);
  ("DEFAULT_SEGMENT_ID_PREDICTED_CDF", [3; 3]);
  ("DEFAULT_SINGLE_REF_CDF", [3; 6; 3]);
  ("DEFAULT_SKIP_CDF", [3; 3]);
  ("DEFAULT_SKIP_MODE_CDF", [3; 3]);
  ("DEFAULT_TXB_SKIP_CDF", [4; 5; 13; 3]);
  ("DEFAULT_TXFM_SPLIT_CDF", [21; 3]);
  ("DEFAULT_TX_16X16_CDF", [3; 4]);
  ("DEFAULT_TX_32X32_CDF", [3; 4]);
  ("DEFAULT_TX_64X64_CDF", [3; 4]);
  ("DEFAULT_TX_8X8_CDF", [3; 3]);
  ("DEFAULT_UNI_COMP_REF_CDF", [3; 3; 3]);
  ("DEFAULT_USE_OBMC_CDF", [22; 3]);
  ("DEFAULT_USE_SGRPROJ_CDF", [3]);
  ("DEFAULT_USE_WIENER_CDF", [3]);
  ("DEFAULT_UV_MODE_CFL_ALLOWED_CDF", [13; 15]);
  ("DEFAULT_UV_MODE_CFL_NOT_ALLOWED_CDF", [13; 14]);
  ("DEFAULT_WEDGE_INDEX_CDF", [22; 17]);
  ("DEFAULT_WEDGE_INTER_INTRA_CDF", [22; 3]);
  ("DEFAULT_Y_MODE_CDF", [4; 14]);
  ("DFEAULT_ZERO_MV_CDF", [2; 3])].
