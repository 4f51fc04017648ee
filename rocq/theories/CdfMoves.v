(** GENERATED by tools/gen_cdfmoves.py from internal/uncompressedheader/cdf.go and internal/tilegroup/tile_group.go: the assignments
    between CDF variables, in the order of the code.  Each loop is unrolled and each array of slices is copied element by element. *)
From Coq Require Import String.
From Verif Require Import GoBase CdfTables.
Local Open Scope string_scope.

(** A CDF variable (the name without Tile/Saved and, for arrays of slices, the array indices). *)
Definition key : Type := string * list Z.
(** where a source lives *)
Inductive area := Cur | Tile | Saved.

(** internal/uncompressedheader/cdf.go:9-105 initNonCoeffCdfs *)
Definition initNonCoeffMoves : list (key * string) := [
  (("YModeCdf", []), "DEFAULT_Y_MODE_CDF");
  (("UVModeCflNotAllowedCdf", []), "DEFAULT_UV_MODE_CFL_NOT_ALLOWED_CDF");
  (("UVModeCflAllowedCdf", []), "DEFAULT_UV_MODE_CFL_ALLOWED_CDF");
  (("AngleDeltaCdf", []), "DEFAULT_ANGLE_DELTA_CDF");
  (("IntrabcCdf", []), "DEFAULT_INTRABC_CDF");
  (("PartitionW8Cdf", []), "DEFAULT_PARTITION_W8_CDF");
  (("PartitionW16Cdf", []), "DEFAULT_PARTITION_W16_CDF");
  (("PartitionW32Cdf", []), "DEFAULT_PARTITION_W32_CDF");
  (("PartitionW64Cdf", []), "DEFAULT_PARTITION_W64_CDF");
  (("PartitionW128Cdf", []), "DEFAULT_PARTITION_W128_CDF");
  (("SegmentIdCdf", []), "DEFAULT_SEGMENT_ID_CDF");
  (("SegmentIdPredictedCdf", []), "DEFAULT_SEGMENT_ID_PREDICTED_CDF");
  (("Tx8x8Cdf", []), "DEFAULT_TX_8X8_CDF");
  (("Tx16x16Cdf", []), "DEFAULT_TX_16X16_CDF");
  (("Tx32x32Cdf", []), "DEFAULT_TX_32X32_CDF");
  (("Tx64x64Cdf", []), "DEFAULT_TX_64X64_CDF");
  (("TxfmSplitCdf", []), "DEFAULT_TXFM_SPLIT_CDF");
  (("FilterIntraModeCdf", []), "DEFAULT_FILTER_INTRA_MODE_CDF");
  (("FilterIntraCdf", []), "DEFAULT_FILTER_INTRA_CDF");
  (("InterpFilterCdf", []), "DEFAULT_INTERP_FILTER_CDF");
  (("MotionModeCdf", []), "DEFAULT_MOTION_MODE_CDF");
  (("NewMvCdf", []), "DEFAULT_NEW_MV_CDF");
  (("ZeroMvCdf", []), "DFEAULT_ZERO_MV_CDF");
  (("CompoundModeCdf", []), "DEFAULT_COMPOUND_MODE_CDF");
  (("DrlModeCdf", []), "DEFAULT_DRL_MODE_CDF");
  (("IsInterCdf", []), "DEFAULT_IS_INTER_CDF");
  (("CompModeCdf", []), "DEFAULT_COMP_MODE_CDF");
  (("SkipModeCdf", []), "DEFAULT_SKIP_MODE_CDF");
  (("SkipCdf", []), "DEFAULT_SKIP_CDF");
  (("CompRefCdf", []), "DEFAULT_COMP_REF_CDF");
  (("CompBwdRefCdf", []), "DEFAULT_COMP_BWD_REF_CDF");
  (("SingleRefCdf", []), "DEFAULT_SINGLE_REF_CDF");
  (("MvJointCdf", [0]), "DEFAULT_MV_JOINT_CDF");
  (("MvJointCdf", [1]), "DEFAULT_MV_JOINT_CDF");
  (("MvClassCdf", [0]), "DEFAULT_MV_CLASS_CDF");
  (("MvClassCdf", [1]), "DEFAULT_MV_CLASS_CDF");
  (("MvClass0BitCdf", [0; 0]), "DEFAULT_MV_CLASS0_BIT_CDF");
  (("MvClass0BitCdf", [0; 1]), "DEFAULT_MV_CLASS0_BIT_CDF");
  (("MvClass0BitCdf", [1; 0]), "DEFAULT_MV_CLASS0_BIT_CDF");
  (("MvClass0BitCdf", [1; 1]), "DEFAULT_MV_CLASS0_BIT_CDF");
  (("MvFrCdf", [0]), "DEFAULT_MV_FR_CDF");
  (("MvFrCdf", [1]), "DEFAULT_MV_FR_CDF");
  (("MvClass0FrCdf", [0]), "DEFAULT_MV_CLASS0_FR_CDF");
  (("MvClass0FrCdf", [1]), "DEFAULT_MV_CLASS0_FR_CDF");
  (("MvClass0HpCdf", [0; 0]), "DEFAULT_MV_CLASS0_HP_CDF");
  (("MvClass0HpCdf", [0; 1]), "DEFAULT_MV_CLASS0_HP_CDF");
  (("MvClass0HpCdf", [1; 0]), "DEFAULT_MV_CLASS0_HP_CDF");
  (("MvClass0HpCdf", [1; 1]), "DEFAULT_MV_CLASS0_HP_CDF");
  (("MvSignCdf", [0; 0]), "DEFAULT_MV_SIGN_CDF");
  (("MvSignCdf", [0; 1]), "DEFAULT_MV_SIGN_CDF");
  (("MvSignCdf", [1; 0]), "DEFAULT_MV_SIGN_CDF");
  (("MvSignCdf", [1; 1]), "DEFAULT_MV_SIGN_CDF");
  (("MvBitCdf", [0; 0]), "DEFAULT_MV_BIT_CDF");
  (("MvBitCdf", [0; 1]), "DEFAULT_MV_BIT_CDF");
  (("MvBitCdf", [1; 0]), "DEFAULT_MV_BIT_CDF");
  (("MvBitCdf", [1; 1]), "DEFAULT_MV_BIT_CDF");
  (("MvHpCdf", [0; 0]), "DEFAULT_MV_HP_CDF");
  (("MvHpCdf", [0; 1]), "DEFAULT_MV_HP_CDF");
  (("MvHpCdf", [1; 0]), "DEFAULT_MV_HP_CDF");
  (("MvHpCdf", [1; 1]), "DEFAULT_MV_HP_CDF");
  (("PaletteYModeCdf", []), "DEFAULT_PALETTE_Y_MODE_CDF");
  (("PaletteUVModeCdf", []), "DEFAULT_PALETTE_UV_MODE_CDF");
  (("PaletteUVSizeCdf", []), "DEFAULT_PALETTE_UV_SIZE_CDF");
  (("PaletteSize2YColorCdf", []), "DEFAULT_PALETTE_SIZE_2_Y_COLOR_CDF");
  (("PaletteSize2UVColorCdf", []), "DEFAULT_PALETTE_SIZE_2_UV_COLOR_CDF");
  (("PaletteSize3YColorCdf", []), "DEFAULT_PALETTE_SIZE_3_Y_COLOR_CDF");
  (("PaletteSize3UVColorCdf", []), "DEFAULT_PALETTE_SIZE_3_UV_COLOR_CDF");
  (("PaletteSize4YColorCdf", []), "DEFAULT_PALETTE_SIZE_4_Y_COLOR_CDF");
  (("PaletteSize4UVColorCdf", []), "DEFAULT_PALETTE_SIZE_4_UV_COLOR_CDF");
  (("PaletteSize5YColorCdf", []), "DEFAULT_PALETTE_SIZE_5_Y_COLOR_CDF");
  (("PaletteSize5UVColorCdf", []), "DEFAULT_PALETTE_SIZE_5_UV_COLOR_CDF");
  (("PaletteSize6YColorCdf", []), "DEFAULT_PALETTE_SIZE_6_Y_COLOR_CDF");
  (("PaletteSize6UVColorCdf", []), "DEFAULT_PALETTE_SIZE_6_UV_COLOR_CDF");
  (("PaletteSize7YColorCdf", []), "DEFAULT_PALETTE_SIZE_7_Y_COLOR_CDF");
  (("PaletteSize7UVColorCdf", []), "DEFAULT_PALETTE_SIZE_7_UV_COLOR_CDF");
  (("PaletteSize8YColorCdf", []), "DEFAULT_PALETTE_SIZE_8_Y_COLOR_CDF");
  (("PaletteSize8UVColorCdf", []), "DEFAULT_PALETTE_SIZE_8_UV_COLOR_CDF");
  (("DeltaQCdf", []), "DEFAULT_DELTA_Q_CDF");
  (("DeltaLFCdf", []), "DEFAULT_DELTA_LF_CDF");
  (("DeltaLFMultiCdf", [0]), "DEFAULT_DELTA_LF_CDF");
  (("DeltaLFMultiCdf", [1]), "DEFAULT_DELTA_LF_CDF");
  (("DeltaLFMultiCdf", [2]), "DEFAULT_DELTA_LF_CDF");
  (("DeltaLFMultiCdf", [3]), "DEFAULT_DELTA_LF_CDF");
  (("IntraTxTypeSet1Cdf", []), "DEFAULT_INTRA_TX_TYPE_SET1_CDF");
  (("IntraTxTypeSet2Cdf", []), "DEFAULT_INTRA_TX_TYPE_SET2_CDF");
  (("InterTxTypeSet1Cdf", []), "DEFAULT_INTER_TX_TYPE_SET1_CDF");
  (("InterTxTypeSet2Cdf", []), "DEFAULT_INTER_TX_TYPE_SET2_CDF");
  (("InterTxTypeSet3Cdf", []), "DEFAULT_INTER_TX_TYPE_SET3_CDF");
  (("UseObmcCdf", []), "DEFAULT_USE_OBMC_CDF");
  (("InterIntraCdf", []), "DEFAULT_INTER_INTRA_CDF");
  (("CompRefTypeCdf", []), "DEFAULT_COMP_REF_TYPE_CDF");
  (("CflSignCdf", []), "DEFAULT_CFL_SIGN_CDF");
  (("UniCompRefCdf", []), "DEFAULT_UNI_COMP_REF_CDF");
  (("WedgeInterIntraCdf", []), "DEFAULT_WEDGE_INTER_INTRA_CDF");
  (("CompGroupIdxCdf", []), "DEFAULT_COMP_GROUP_IDX_CDF");
  (("CompoundIdxCdf", []), "DEFAULT_COMPOUND_IDX_CDF");
  (("CompoundTypeCdf", []), "DEFAULT_COMPOUND_TYPE_CDF");
  (("InterIntraModeCdf", []), "DEFAULT_INTER_INTRA_MODE_CDF");
  (("WedgeIndexCdf", []), "DEFAULT_WEDGE_INDEX_CDF");
  (("CflAlphaCdf", []), "DEFAULT_CFL_ALPHA_CDF");
  (("UseWienerCdf", []), "DEFAULT_USE_WIENER_CDF");
  (("UseSgrprojCdf", []), "DEFAULT_USE_SGRPROJ_CDF");
  (("RestorationTypeCdf", []), "DEFAULT_RESTORATION_TYPE_CDF")].

(** internal/uncompressedheader/cdf.go:108-134 initCoeffCdfs (each table at the index of the base quantizer) *)
Definition initCoeffMoves : list (key * string) := [
  (("TxbSkipCdf", []), "DEFAULT_TXB_SKIP_CDF");
  (("EobPt16Cdf", []), "DEFAULT_EOB_PT_16_CDF");
  (("EobPt32Cdf", []), "DEFAULT_EOB_PT_32_CDF");
  (("EobPt64Cdf", []), "DEFAULT_EOB_PT_64_CDF");
  (("EobPt128Cdf", []), "DEFAULT_EOB_PT_128_CDF");
  (("EobPt256Cdf", []), "DEFAULT_EOB_PT_256_CDF");
  (("EobPt512Cdf", []), "DEFAULT_EOB_PT_512_CDF");
  (("EobPt1024Cdf", []), "DEFAULT_EOB_PT_1024_CDF");
  (("EobExtraCdf", []), "DEFAULT_EOB_EXTRA_CDF");
  (("DcSignCdf", []), "DEFAULT_DC_SIGN_CDF");
  (("CoeffBaseEobCdf", []), "DEFAULT_COEFF_BASE_EOB_CDF");
  (("CoeffBaseCdf", []), "DEFAULT_COEFF_BASE_CDF");
  (("CoeffBrCdf", []), "DEFAULT_COEFF_BR_CDF")].

(** internal/tilegroup/tile_group.go:472-579 initSymbol: Tile variables from the current ones (TileIntraFrameYModeCdf, set from its default table, is handled in CdfMemory.v) *)
Definition initSymbolMoves : list (key * (area * key)) := [
  (("YModeCdf", []), (Cur, ("YModeCdf", [])));
  (("UVModeCflNotAllowedCdf", []), (Cur, ("UVModeCflNotAllowedCdf", [])));
  (("UVModeCflAllowedCdf", []), (Cur, ("UVModeCflAllowedCdf", [])));
  (("AngleDeltaCdf", []), (Cur, ("AngleDeltaCdf", [])));
  (("IntrabcCdf", []), (Cur, ("IntrabcCdf", [])));
  (("PartitionW8Cdf", []), (Cur, ("PartitionW8Cdf", [])));
  (("PartitionW16Cdf", []), (Cur, ("PartitionW16Cdf", [])));
  (("PartitionW32Cdf", []), (Cur, ("PartitionW32Cdf", [])));
  (("PartitionW64Cdf", []), (Cur, ("PartitionW64Cdf", [])));
  (("PartitionW128Cdf", []), (Cur, ("PartitionW128Cdf", [])));
  (("SegmentIdCdf", []), (Cur, ("SegmentIdCdf", [])));
  (("SegmentIdPredictedCdf", []), (Cur, ("SegmentIdPredictedCdf", [])));
  (("Tx8x8Cdf", []), (Cur, ("Tx8x8Cdf", [])));
  (("Tx16x16Cdf", []), (Cur, ("Tx16x16Cdf", [])));
  (("Tx32x32Cdf", []), (Cur, ("Tx32x32Cdf", [])));
  (("Tx64x64Cdf", []), (Cur, ("Tx64x64Cdf", [])));
  (("TxfmSplitCdf", []), (Cur, ("TxfmSplitCdf", [])));
  (("FilterIntraModeCdf", []), (Cur, ("FilterIntraModeCdf", [])));
  (("FilterIntraCdf", []), (Cur, ("FilterIntraCdf", [])));
  (("InterpFilterCdf", []), (Cur, ("InterpFilterCdf", [])));
  (("MotionModeCdf", []), (Cur, ("MotionModeCdf", [])));
  (("NewMvCdf", []), (Cur, ("NewMvCdf", [])));
  (("ZeroMvCdf", []), (Cur, ("ZeroMvCdf", [])));
  (("RefMvCdf", []), (Cur, ("RefMvCdf", [])));
  (("CompoundModeCdf", []), (Cur, ("CompoundModeCdf", [])));
  (("DrlModeCdf", []), (Cur, ("DrlModeCdf", [])));
  (("IsInterCdf", []), (Cur, ("IsInterCdf", [])));
  (("CompModeCdf", []), (Cur, ("CompModeCdf", [])));
  (("SkipModeCdf", []), (Cur, ("SkipModeCdf", [])));
  (("SkipCdf", []), (Cur, ("SkipCdf", [])));
  (("CompRefCdf", []), (Cur, ("CompRefCdf", [])));
  (("CompBwdRefCdf", []), (Cur, ("CompBwdRefCdf", [])));
  (("SingleRefCdf", []), (Cur, ("SingleRefCdf", [])));
  (("MvJointCdf", [0]), (Cur, ("MvJointCdf", [0])));
  (("MvJointCdf", [1]), (Cur, ("MvJointCdf", [1])));
  (("MvClassCdf", [0]), (Cur, ("MvClassCdf", [0])));
  (("MvClassCdf", [1]), (Cur, ("MvClassCdf", [1])));
  (("MvClass0BitCdf", [0; 0]), (Cur, ("MvClass0BitCdf", [0; 0])));
  (("MvClass0BitCdf", [0; 1]), (Cur, ("MvClass0BitCdf", [0; 1])));
  (("MvClass0BitCdf", [1; 0]), (Cur, ("MvClass0BitCdf", [1; 0])));
  (("MvClass0BitCdf", [1; 1]), (Cur, ("MvClass0BitCdf", [1; 1])));
  (("MvFrCdf", [0]), (Cur, ("MvFrCdf", [0])));
  (("MvFrCdf", [1]), (Cur, ("MvFrCdf", [1])));
  (("MvClass0FrCdf", [0]), (Cur, ("MvClass0FrCdf", [0])));
  (("MvClass0FrCdf", [1]), (Cur, ("MvClass0FrCdf", [1])));
  (("MvClass0HpCdf", [0; 0]), (Cur, ("MvClass0HpCdf", [0; 0])));
  (("MvClass0HpCdf", [0; 1]), (Cur, ("MvClass0HpCdf", [0; 1])));
  (("MvClass0HpCdf", [1; 0]), (Cur, ("MvClass0HpCdf", [1; 0])));
  (("MvClass0HpCdf", [1; 1]), (Cur, ("MvClass0HpCdf", [1; 1])));
  (("MvSignCdf", [0; 0]), (Cur, ("MvSignCdf", [0; 0])));
  (("MvSignCdf", [0; 1]), (Cur, ("MvSignCdf", [0; 1])));
  (("MvSignCdf", [1; 0]), (Cur, ("MvSignCdf", [1; 0])));
  (("MvSignCdf", [1; 1]), (Cur, ("MvSignCdf", [1; 1])));
  (("MvBitCdf", [0; 0]), (Cur, ("MvBitCdf", [0; 0])));
  (("MvBitCdf", [0; 1]), (Cur, ("MvBitCdf", [0; 1])));
  (("MvBitCdf", [1; 0]), (Cur, ("MvBitCdf", [1; 0])));
  (("MvBitCdf", [1; 1]), (Cur, ("MvBitCdf", [1; 1])));
  (("MvHpCdf", [0; 0]), (Cur, ("MvHpCdf", [0; 0])));
  (("MvHpCdf", [0; 1]), (Cur, ("MvHpCdf", [0; 1])));
  (("MvHpCdf", [1; 0]), (Cur, ("MvHpCdf", [1; 0])));
  (("MvHpCdf", [1; 1]), (Cur, ("MvHpCdf", [1; 1])));
  (("PaletteYModeCdf", []), (Cur, ("PaletteYModeCdf", [])));
  (("PaletteUVModeCdf", []), (Cur, ("PaletteUVModeCdf", [])));
  (("PaletteUVSizeCdf", []), (Cur, ("PaletteUVSizeCdf", [])));
  (("PaletteSize2YColorCdf", []), (Cur, ("PaletteSize2YColorCdf", [])));
  (("PaletteSize2UVColorCdf", []), (Cur, ("PaletteSize2UVColorCdf", [])));
  (("PaletteSize3YColorCdf", []), (Cur, ("PaletteSize3YColorCdf", [])));
  (("PaletteSize3UVColorCdf", []), (Cur, ("PaletteSize3UVColorCdf", [])));
  (("PaletteSize4YColorCdf", []), (Cur, ("PaletteSize4YColorCdf", [])));
  (("PaletteSize4UVColorCdf", []), (Cur, ("PaletteSize4UVColorCdf", [])));
  (("PaletteSize5YColorCdf", []), (Cur, ("PaletteSize5YColorCdf", [])));
  (("PaletteSize5UVColorCdf", []), (Cur, ("PaletteSize5UVColorCdf", [])));
  (("PaletteSize6YColorCdf", []), (Cur, ("PaletteSize6YColorCdf", [])));
  (("PaletteSize6UVColorCdf", []), (Cur, ("PaletteSize6UVColorCdf", [])));
  (("PaletteSize7YColorCdf", []), (Cur, ("PaletteSize7YColorCdf", [])));
  (("PaletteSize7UVColorCdf", []), (Cur, ("PaletteSize7UVColorCdf", [])));
  (("PaletteSize8YColorCdf", []), (Cur, ("PaletteSize8YColorCdf", [])));
  (("PaletteSize8UVColorCdf", []), (Cur, ("PaletteSize8UVColorCdf", [])));
  (("DeltaQCdf", []), (Cur, ("DeltaQCdf", [])));
  (("DeltaLFCdf", []), (Cur, ("DeltaLFCdf", [])));
  (("DeltaLFMultiCdf", [0]), (Cur, ("DeltaLFMultiCdf", [0])));
  (("DeltaLFMultiCdf", [1]), (Cur, ("DeltaLFMultiCdf", [1])));
  (("DeltaLFMultiCdf", [2]), (Cur, ("DeltaLFMultiCdf", [2])));
  (("DeltaLFMultiCdf", [3]), (Cur, ("DeltaLFMultiCdf", [3])));
  (("IntraTxTypeSet1Cdf", []), (Cur, ("IntraTxTypeSet1Cdf", [])));
  (("IntraTxTypeSet2Cdf", []), (Cur, ("IntraTxTypeSet2Cdf", [])));
  (("InterTxTypeSet1Cdf", []), (Cur, ("InterTxTypeSet1Cdf", [])));
  (("InterTxTypeSet2Cdf", []), (Cur, ("InterTxTypeSet2Cdf", [])));
  (("InterTxTypeSet3Cdf", []), (Cur, ("InterTxTypeSet3Cdf", [])));
  (("UseObmcCdf", []), (Cur, ("UseObmcCdf", [])));
  (("InterIntraCdf", []), (Cur, ("InterIntraCdf", [])));
  (("CompRefTypeCdf", []), (Cur, ("CompRefTypeCdf", [])));
  (("CflSignCdf", []), (Cur, ("CflSignCdf", [])));
  (("UniCompRefCdf", []), (Cur, ("UniCompRefCdf", [])));
  (("WedgeInterIntraCdf", []), (Cur, ("WedgeInterIntraCdf", [])));
  (("CompGroupIdxCdf", []), (Cur, ("CompGroupIdxCdf", [])));
  (("CompoundIdxCdf", []), (Cur, ("CompoundIdxCdf", [])));
  (("CompoundTypeCdf", []), (Cur, ("CompoundTypeCdf", [])));
  (("InterIntraModeCdf", []), (Cur, ("InterIntraModeCdf", [])));
  (("WedgeIndexCdf", []), (Cur, ("WedgeIndexCdf", [])));
  (("CflAlphaCdf", []), (Cur, ("CflAlphaCdf", [])));
  (("UseWienerCdf", []), (Cur, ("UseWienerCdf", [])));
  (("UseSgrprojCdf", []), (Cur, ("UseSgrprojCdf", [])));
  (("RestorationTypeCdf", []), (Cur, ("RestorationTypeCdf", [])));
  (("TxbSkipCdf", []), (Cur, ("TxbSkipCdf", [])));
  (("EobPt16Cdf", []), (Cur, ("EobPt16Cdf", [])));
  (("EobPt32Cdf", []), (Cur, ("EobPt32Cdf", [])));
  (("EobPt64Cdf", []), (Cur, ("EobPt64Cdf", [])));
  (("EobPt128Cdf", []), (Cur, ("EobPt128Cdf", [])));
  (("EobPt256Cdf", []), (Cur, ("EobPt256Cdf", [])));
  (("EobPt512Cdf", []), (Cur, ("EobPt512Cdf", [])));
  (("EobPt1024Cdf", []), (Cur, ("EobPt1024Cdf", [])));
  (("EobExtraCdf", []), (Cur, ("EobExtraCdf", [])));
  (("DcSignCdf", []), (Cur, ("DcSignCdf", [])));
  (("CoeffBaseEobCdf", []), (Cur, ("CoeffBaseEobCdf", [])));
  (("CoeffBaseCdf", []), (Cur, ("CoeffBaseCdf", [])));
  (("CoeffBrCdf", []), (Cur, ("CoeffBrCdf", [])))].

(** internal/tilegroup/tile_group.go:583-689 exitSymbol: Saved variables *)
Definition exitSymbolMoves : list (key * (area * key)) := [
  (("YModeCdf", []), (Tile, ("YModeCdf", [])));
  (("UVModeCflNotAllowedCdf", []), (Tile, ("UVModeCflNotAllowedCdf", [])));
  (("UVModeCflAllowedCdf", []), (Tile, ("UVModeCflAllowedCdf", [])));
  (("AngleDeltaCdf", []), (Tile, ("AngleDeltaCdf", [])));
  (("IntrabcCdf", []), (Tile, ("IntrabcCdf", [])));
  (("PartitionW8Cdf", []), (Tile, ("PartitionW8Cdf", [])));
  (("PartitionW16Cdf", []), (Tile, ("PartitionW16Cdf", [])));
  (("PartitionW32Cdf", []), (Tile, ("PartitionW32Cdf", [])));
  (("PartitionW64Cdf", []), (Tile, ("PartitionW64Cdf", [])));
  (("PartitionW128Cdf", []), (Tile, ("PartitionW128Cdf", [])));
  (("SegmentIdCdf", []), (Tile, ("SegmentIdCdf", [])));
  (("SegmentIdPredictedCdf", []), (Tile, ("SegmentIdPredictedCdf", [])));
  (("Tx8x8Cdf", []), (Tile, ("Tx8x8Cdf", [])));
  (("Tx16x16Cdf", []), (Tile, ("Tx16x16Cdf", [])));
  (("Tx32x32Cdf", []), (Tile, ("Tx32x32Cdf", [])));
  (("Tx64x64Cdf", []), (Tile, ("Tx64x64Cdf", [])));
  (("TxfmSplitCdf", []), (Tile, ("TxfmSplitCdf", [])));
  (("FilterIntraModeCdf", []), (Tile, ("FilterIntraModeCdf", [])));
  (("FilterIntraCdf", []), (Tile, ("FilterIntraCdf", [])));
  (("InterpFilterCdf", []), (Tile, ("InterpFilterCdf", [])));
  (("MotionModeCdf", []), (Tile, ("MotionModeCdf", [])));
  (("NewMvCdf", []), (Tile, ("NewMvCdf", [])));
  (("ZeroMvCdf", []), (Tile, ("ZeroMvCdf", [])));
  (("RefMvCdf", []), (Tile, ("RefMvCdf", [])));
  (("CompoundModeCdf", []), (Tile, ("CompoundModeCdf", [])));
  (("DrlModeCdf", []), (Tile, ("DrlModeCdf", [])));
  (("IsInterCdf", []), (Tile, ("IsInterCdf", [])));
  (("CompModeCdf", []), (Tile, ("CompModeCdf", [])));
  (("SkipModeCdf", []), (Tile, ("SkipModeCdf", [])));
  (("SkipCdf", []), (Tile, ("SkipCdf", [])));
  (("CompRefCdf", []), (Tile, ("CompRefCdf", [])));
  (("CompBwdRefCdf", []), (Tile, ("CompBwdRefCdf", [])));
  (("SingleRefCdf", []), (Tile, ("SingleRefCdf", [])));
  (("MvJointCdf", [0]), (Tile, ("MvJointCdf", [0])));
  (("MvJointCdf", [1]), (Tile, ("MvJointCdf", [1])));
  (("MvClassCdf", [0]), (Tile, ("MvClassCdf", [0])));
  (("MvClassCdf", [1]), (Tile, ("MvClassCdf", [1])));
  (("MvClass0BitCdf", [0; 0]), (Tile, ("MvClass0BitCdf", [0; 0])));
  (("MvClass0BitCdf", [0; 1]), (Tile, ("MvClass0BitCdf", [0; 1])));
  (("MvClass0BitCdf", [1; 0]), (Tile, ("MvClass0BitCdf", [1; 0])));
  (("MvClass0BitCdf", [1; 1]), (Tile, ("MvClass0BitCdf", [1; 1])));
  (("MvFrCdf", [0]), (Tile, ("MvFrCdf", [0])));
  (("MvFrCdf", [1]), (Tile, ("MvFrCdf", [1])));
  (("MvClass0FrCdf", [0]), (Tile, ("MvClass0FrCdf", [0])));
  (("MvClass0FrCdf", [1]), (Tile, ("MvClass0FrCdf", [1])));
  (("MvClass0HpCdf", [0; 0]), (Tile, ("MvClass0HpCdf", [0; 0])));
  (("MvClass0HpCdf", [0; 1]), (Tile, ("MvClass0HpCdf", [0; 1])));
  (("MvClass0HpCdf", [1; 0]), (Tile, ("MvClass0HpCdf", [1; 0])));
  (("MvClass0HpCdf", [1; 1]), (Tile, ("MvClass0HpCdf", [1; 1])));
  (("MvSignCdf", [0; 0]), (Tile, ("MvSignCdf", [0; 0])));
  (("MvSignCdf", [0; 1]), (Tile, ("MvSignCdf", [0; 1])));
  (("MvSignCdf", [1; 0]), (Tile, ("MvSignCdf", [1; 0])));
  (("MvSignCdf", [1; 1]), (Tile, ("MvSignCdf", [1; 1])));
  (("MvBitCdf", [0; 0]), (Tile, ("MvBitCdf", [0; 0])));
  (("MvBitCdf", [0; 1]), (Tile, ("MvBitCdf", [0; 1])));
  (("MvBitCdf", [1; 0]), (Tile, ("MvBitCdf", [1; 0])));
  (("MvBitCdf", [1; 1]), (Tile, ("MvBitCdf", [1; 1])));
  (("MvHpCdf", [0; 0]), (Tile, ("MvHpCdf", [0; 0])));
  (("MvHpCdf", [0; 1]), (Tile, ("MvHpCdf", [0; 1])));
  (("MvHpCdf", [1; 0]), (Tile, ("MvHpCdf", [1; 0])));
  (("MvHpCdf", [1; 1]), (Tile, ("MvHpCdf", [1; 1])));
  (("PaletteYModeCdf", []), (Tile, ("PaletteYModeCdf", [])));
  (("PaletteUVModeCdf", []), (Tile, ("PaletteUVModeCdf", [])));
  (("PaletteUVSizeCdf", []), (Tile, ("PaletteUVSizeCdf", [])));
  (("PaletteSize2YColorCdf", []), (Tile, ("PaletteSize2YColorCdf", [])));
  (("PaletteSize2UVColorCdf", []), (Tile, ("PaletteSize2UVColorCdf", [])));
  (("PaletteSize3YColorCdf", []), (Tile, ("PaletteSize3YColorCdf", [])));
  (("PaletteSize3UVColorCdf", []), (Tile, ("PaletteSize3UVColorCdf", [])));
  (("PaletteSize4YColorCdf", []), (Tile, ("PaletteSize4YColorCdf", [])));
  (("PaletteSize4UVColorCdf", []), (Tile, ("PaletteSize4UVColorCdf", [])));
  (("PaletteSize5YColorCdf", []), (Tile, ("PaletteSize5YColorCdf", [])));
  (("PaletteSize5UVColorCdf", []), (Tile, ("PaletteSize5UVColorCdf", [])));
  (("PaletteSize6YColorCdf", []), (Tile, ("PaletteSize6YColorCdf", [])));
  (("PaletteSize6UVColorCdf", []), (Tile, ("PaletteSize6UVColorCdf", [])));
  (("PaletteSize7YColorCdf", []), (Tile, ("PaletteSize7YColorCdf", [])));
  (("PaletteSize7UVColorCdf", []), (Tile, ("PaletteSize7UVColorCdf", [])));
  (("PaletteSize8YColorCdf", []), (Tile, ("PaletteSize8YColorCdf", [])));
  (("PaletteSize8UVColorCdf", []), (Tile, ("PaletteSize8UVColorCdf", [])));
  (("DeltaQCdf", []), (Tile, ("DeltaQCdf", [])));
  (("DeltaLFCdf", []), (Tile, ("DeltaLFCdf", [])));
  (("DeltaLFMultiCdf", [0]), (Tile, ("DeltaLFMultiCdf", [0])));
  (("DeltaLFMultiCdf", [1]), (Tile, ("DeltaLFMultiCdf", [1])));
  (("DeltaLFMultiCdf", [2]), (Tile, ("DeltaLFMultiCdf", [2])));
  (("DeltaLFMultiCdf", [3]), (Tile, ("DeltaLFMultiCdf", [3])));
  (("IntraTxTypeSet1Cdf", []), (Tile, ("IntraTxTypeSet1Cdf", [])));
  (("IntraTxTypeSet2Cdf", []), (Tile, ("IntraTxTypeSet2Cdf", [])));
  (("InterTxTypeSet1Cdf", []), (Tile, ("InterTxTypeSet1Cdf", [])));
  (("InterTxTypeSet2Cdf", []), (Tile, ("InterTxTypeSet2Cdf", [])));
  (("InterTxTypeSet3Cdf", []), (Tile, ("InterTxTypeSet3Cdf", [])));
  (("UseObmcCdf", []), (Tile, ("UseObmcCdf", [])));
  (("InterIntraCdf", []), (Tile, ("InterIntraCdf", [])));
  (("CompRefTypeCdf", []), (Cur, ("CompRefTypeCdf", [])));
  (("CflSignCdf", []), (Tile, ("CflSignCdf", [])));
  (("UniCompRefCdf", []), (Tile, ("UniCompRefCdf", [])));
  (("WedgeInterIntraCdf", []), (Tile, ("WedgeInterIntraCdf", [])));
  (("CompGroupIdxCdf", []), (Tile, ("CompGroupIdxCdf", [])));
  (("CompoundIdxCdf", []), (Tile, ("CompoundIdxCdf", [])));
  (("CompoundTypeCdf", []), (Tile, ("CompoundTypeCdf", [])));
  (("InterIntraModeCdf", []), (Tile, ("InterIntraModeCdf", [])));
  (("WedgeIndexCdf", []), (Tile, ("WedgeIndexCdf", [])));
  (("CflAlphaCdf", []), (Tile, ("CflAlphaCdf", [])));
  (("UseWienerCdf", []), (Tile, ("UseWienerCdf", [])));
  (("UseSgrprojCdf", []), (Tile, ("UseSgrprojCdf", [])));
  (("RestorationTypeCdf", []), (Tile, ("RestorationTypeCdf", [])));
  (("TxbSkipCdf", []), (Tile, ("TxbSkipCdf", [])));
  (("EobPt16Cdf", []), (Tile, ("EobPt16Cdf", [])));
  (("EobPt32Cdf", []), (Tile, ("EobPt32Cdf", [])));
  (("EobPt64Cdf", []), (Tile, ("EobPt64Cdf", [])));
  (("EobPt128Cdf", []), (Tile, ("EobPt128Cdf", [])));
  (("EobPt256Cdf", []), (Tile, ("EobPt256Cdf", [])));
  (("EobPt512Cdf", []), (Tile, ("EobPt512Cdf", [])));
  (("EobPt1024Cdf", []), (Tile, ("EobPt1024Cdf", [])));
  (("EobExtraCdf", []), (Tile, ("EobExtraCdf", [])));
  (("DcSignCdf", []), (Tile, ("DcSignCdf", [])));
  (("CoeffBaseEobCdf", []), (Tile, ("CoeffBaseEobCdf", [])));
  (("CoeffBaseCdf", []), (Tile, ("CoeffBaseCdf", [])));
  (("CoeffBrCdf", []), (Tile, ("CoeffBrCdf", [])))].

(** internal/tilegroup/tile_group.go:371-469 frameEndUpdateCdf: current variables *)
Definition frameEndMoves : list (key * (area * key)) := [
  (("YModeCdf", []), (Saved, ("YModeCdf", [])));
  (("UVModeCflNotAllowedCdf", []), (Saved, ("UVModeCflNotAllowedCdf", [])));
  (("UVModeCflAllowedCdf", []), (Saved, ("UVModeCflAllowedCdf", [])));
  (("AngleDeltaCdf", []), (Saved, ("AngleDeltaCdf", [])));
  (("IntrabcCdf", []), (Saved, ("IntrabcCdf", [])));
  (("PartitionW8Cdf", []), (Saved, ("PartitionW8Cdf", [])));
  (("PartitionW16Cdf", []), (Saved, ("PartitionW16Cdf", [])));
  (("PartitionW32Cdf", []), (Saved, ("PartitionW32Cdf", [])));
  (("PartitionW64Cdf", []), (Saved, ("PartitionW64Cdf", [])));
  (("PartitionW128Cdf", []), (Saved, ("PartitionW128Cdf", [])));
  (("SegmentIdCdf", []), (Saved, ("SegmentIdCdf", [])));
  (("SegmentIdPredictedCdf", []), (Saved, ("SegmentIdPredictedCdf", [])));
  (("Tx8x8Cdf", []), (Saved, ("Tx8x8Cdf", [])));
  (("Tx16x16Cdf", []), (Saved, ("Tx16x16Cdf", [])));
  (("Tx32x32Cdf", []), (Saved, ("Tx32x32Cdf", [])));
  (("Tx64x64Cdf", []), (Saved, ("Tx64x64Cdf", [])));
  (("TxfmSplitCdf", []), (Saved, ("TxfmSplitCdf", [])));
  (("FilterIntraModeCdf", []), (Saved, ("FilterIntraModeCdf", [])));
  (("FilterIntraCdf", []), (Saved, ("FilterIntraCdf", [])));
  (("InterpFilterCdf", []), (Saved, ("InterpFilterCdf", [])));
  (("MotionModeCdf", []), (Saved, ("MotionModeCdf", [])));
  (("NewMvCdf", []), (Saved, ("NewMvCdf", [])));
  (("ZeroMvCdf", []), (Saved, ("ZeroMvCdf", [])));
  (("RefMvCdf", []), (Saved, ("RefMvCdf", [])));
  (("CompoundModeCdf", []), (Saved, ("CompoundModeCdf", [])));
  (("DrlModeCdf", []), (Saved, ("DrlModeCdf", [])));
  (("IsInterCdf", []), (Saved, ("IsInterCdf", [])));
  (("CompModeCdf", []), (Saved, ("CompModeCdf", [])));
  (("SkipModeCdf", []), (Saved, ("SkipModeCdf", [])));
  (("SkipCdf", []), (Saved, ("SkipCdf", [])));
  (("CompRefCdf", []), (Saved, ("CompRefCdf", [])));
  (("CompBwdRefCdf", []), (Saved, ("CompBwdRefCdf", [])));
  (("SingleRefCdf", []), (Saved, ("SingleRefCdf", [])));
  (("MvJointCdf", [0]), (Saved, ("MvJointCdf", [0])));
  (("MvJointCdf", [1]), (Saved, ("MvJointCdf", [1])));
  (("MvClassCdf", [0]), (Saved, ("MvClassCdf", [0])));
  (("MvClassCdf", [1]), (Saved, ("MvClassCdf", [1])));
  (("MvClass0BitCdf", [0; 0]), (Saved, ("MvClass0BitCdf", [0; 0])));
  (("MvClass0BitCdf", [0; 1]), (Saved, ("MvClass0BitCdf", [0; 1])));
  (("MvClass0BitCdf", [1; 0]), (Saved, ("MvClass0BitCdf", [1; 0])));
  (("MvClass0BitCdf", [1; 1]), (Saved, ("MvClass0BitCdf", [1; 1])));
  (("MvFrCdf", [0]), (Saved, ("MvFrCdf", [0])));
  (("MvFrCdf", [1]), (Saved, ("MvFrCdf", [1])));
  (("MvClass0FrCdf", [0]), (Saved, ("MvClass0FrCdf", [0])));
  (("MvClass0FrCdf", [1]), (Saved, ("MvClass0FrCdf", [1])));
  (("MvClass0HpCdf", [0; 0]), (Saved, ("MvClass0HpCdf", [0; 0])));
  (("MvClass0HpCdf", [0; 1]), (Saved, ("MvClass0HpCdf", [0; 1])));
  (("MvClass0HpCdf", [1; 0]), (Saved, ("MvClass0HpCdf", [1; 0])));
  (("MvClass0HpCdf", [1; 1]), (Saved, ("MvClass0HpCdf", [1; 1])));
  (("MvSignCdf", [0; 0]), (Saved, ("MvSignCdf", [0; 0])));
  (("MvSignCdf", [0; 1]), (Saved, ("MvSignCdf", [0; 1])));
  (("MvSignCdf", [1; 0]), (Saved, ("MvSignCdf", [1; 0])));
  (("MvSignCdf", [1; 1]), (Saved, ("MvSignCdf", [1; 1])));
  (("MvBitCdf", [0; 0]), (Saved, ("MvBitCdf", [0; 0])));
  (("MvBitCdf", [0; 1]), (Saved, ("MvBitCdf", [0; 1])));
  (("MvBitCdf", [1; 0]), (Saved, ("MvBitCdf", [1; 0])));
  (("MvBitCdf", [1; 1]), (Saved, ("MvBitCdf", [1; 1])));
  (("MvHpCdf", [0; 0]), (Saved, ("MvHpCdf", [0; 0])));
  (("MvHpCdf", [0; 1]), (Saved, ("MvHpCdf", [0; 1])));
  (("MvHpCdf", [1; 0]), (Saved, ("MvHpCdf", [1; 0])));
  (("MvHpCdf", [1; 1]), (Saved, ("MvHpCdf", [1; 1])));
  (("PaletteYModeCdf", []), (Saved, ("PaletteYModeCdf", [])));
  (("PaletteUVModeCdf", []), (Saved, ("PaletteUVModeCdf", [])));
  (("PaletteUVSizeCdf", []), (Saved, ("PaletteUVSizeCdf", [])));
  (("PaletteSize2YColorCdf", []), (Saved, ("PaletteSize2YColorCdf", [])));
  (("PaletteSize2UVColorCdf", []), (Saved, ("PaletteSize2UVColorCdf", [])));
  (("PaletteSize3YColorCdf", []), (Saved, ("PaletteSize3YColorCdf", [])));
  (("PaletteSize3UVColorCdf", []), (Saved, ("PaletteSize3UVColorCdf", [])));
  (("PaletteSize4YColorCdf", []), (Saved, ("PaletteSize4YColorCdf", [])));
  (("PaletteSize4UVColorCdf", []), (Saved, ("PaletteSize4UVColorCdf", [])));
  (("PaletteSize5YColorCdf", []), (Saved, ("PaletteSize5YColorCdf", [])));
  (("PaletteSize5UVColorCdf", []), (Saved, ("PaletteSize5UVColorCdf", [])));
  (("PaletteSize6YColorCdf", []), (Saved, ("PaletteSize6YColorCdf", [])));
  (("PaletteSize6UVColorCdf", []), (Saved, ("PaletteSize6UVColorCdf", [])));
  (("PaletteSize7YColorCdf", []), (Saved, ("PaletteSize7YColorCdf", [])));
  (("PaletteSize7UVColorCdf", []), (Saved, ("PaletteSize7UVColorCdf", [])));
  (("PaletteSize8YColorCdf", []), (Saved, ("PaletteSize8YColorCdf", [])));
  (("PaletteSize8UVColorCdf", []), (Saved, ("PaletteSize8UVColorCdf", [])));
  (("DeltaQCdf", []), (Saved, ("DeltaQCdf", [])));
  (("DeltaLFCdf", []), (Saved, ("DeltaLFCdf", [])));
  (("DeltaLFMultiCdf", [0]), (Saved, ("DeltaLFMultiCdf", [0])));
  (("DeltaLFMultiCdf", [1]), (Saved, ("DeltaLFMultiCdf", [1])));
  (("DeltaLFMultiCdf", [2]), (Saved, ("DeltaLFMultiCdf", [2])));
  (("DeltaLFMultiCdf", [3]), (Saved, ("DeltaLFMultiCdf", [3])));
  (("IntraTxTypeSet1Cdf", []), (Saved, ("IntraTxTypeSet1Cdf", [])));
  (("IntraTxTypeSet2Cdf", []), (Saved, ("IntraTxTypeSet2Cdf", [])));
  (("InterTxTypeSet1Cdf", []), (Saved, ("InterTxTypeSet1Cdf", [])));
  (("InterTxTypeSet2Cdf", []), (Saved, ("InterTxTypeSet2Cdf", [])));
  (("InterTxTypeSet3Cdf", []), (Saved, ("InterTxTypeSet3Cdf", [])));
  (("UseObmcCdf", []), (Saved, ("UseObmcCdf", [])));
  (("InterIntraCdf", []), (Saved, ("InterIntraCdf", [])));
  (("CompRefTypeCdf", []), (Cur, ("CompRefTypeCdf", [])));
  (("CflSignCdf", []), (Saved, ("CflSignCdf", [])));
  (("UniCompRefCdf", []), (Saved, ("UniCompRefCdf", [])));
  (("WedgeInterIntraCdf", []), (Saved, ("WedgeInterIntraCdf", [])));
  (("CompGroupIdxCdf", []), (Saved, ("CompGroupIdxCdf", [])));
  (("CompoundIdxCdf", []), (Saved, ("CompoundIdxCdf", [])));
  (("CompoundTypeCdf", []), (Saved, ("CompoundTypeCdf", [])));
  (("InterIntraModeCdf", []), (Saved, ("InterIntraModeCdf", [])));
  (("WedgeIndexCdf", []), (Saved, ("WedgeIndexCdf", [])));
  (("CflAlphaCdf", []), (Saved, ("CflAlphaCdf", [])));
  (("UseWienerCdf", []), (Saved, ("UseWienerCdf", [])));
  (("UseSgrprojCdf", []), (Saved, ("UseSgrprojCdf", [])));
  (("RestorationTypeCdf", []), (Saved, ("RestorationTypeCdf", [])));
  (("TxbSkipCdf", []), (Saved, ("TxbSkipCdf", [])));
  (("EobPt16Cdf", []), (Saved, ("EobPt16Cdf", [])));
  (("EobPt32Cdf", []), (Saved, ("EobPt32Cdf", [])));
  (("EobPt64Cdf", []), (Saved, ("EobPt64Cdf", [])));
  (("EobPt128Cdf", []), (Saved, ("EobPt128Cdf", [])));
  (("EobPt256Cdf", []), (Saved, ("EobPt256Cdf", [])));
  (("EobPt512Cdf", []), (Saved, ("EobPt512Cdf", [])));
  (("EobPt1024Cdf", []), (Saved, ("EobPt1024Cdf", [])));
  (("EobExtraCdf", []), (Saved, ("EobExtraCdf", [])));
  (("DcSignCdf", []), (Saved, ("DcSignCdf", [])));
  (("CoeffBaseEobCdf", []), (Saved, ("CoeffBaseEobCdf", [])));
  (("CoeffBaseCdf", []), (Saved, ("CoeffBaseCdf", [])));
  (("CoeffBrCdf", []), (Saved, ("CoeffBrCdf", [])))].

(** internal/uncompressedheader/cdf.go:137-239 SaveCdfs: the memory area of a slot from the current variables *)
Definition saveMoves : list (key * (area * key)) := [
  (("YModeCdf", []), (Cur, ("YModeCdf", [])));
  (("UVModeCflNotAllowedCdf", []), (Cur, ("UVModeCflNotAllowedCdf", [])));
  (("UVModeCflAllowedCdf", []), (Cur, ("UVModeCflAllowedCdf", [])));
  (("AngleDeltaCdf", []), (Cur, ("AngleDeltaCdf", [])));
  (("IntrabcCdf", []), (Cur, ("IntrabcCdf", [])));
  (("PartitionW8Cdf", []), (Cur, ("PartitionW8Cdf", [])));
  (("PartitionW16Cdf", []), (Cur, ("PartitionW16Cdf", [])));
  (("PartitionW32Cdf", []), (Cur, ("PartitionW32Cdf", [])));
  (("PartitionW64Cdf", []), (Cur, ("PartitionW64Cdf", [])));
  (("PartitionW128Cdf", []), (Cur, ("PartitionW128Cdf", [])));
  (("SegmentIdCdf", []), (Cur, ("SegmentIdCdf", [])));
  (("SegmentIdPredictedCdf", []), (Cur, ("SegmentIdPredictedCdf", [])));
  (("Tx8x8Cdf", []), (Cur, ("Tx8x8Cdf", [])));
  (("Tx16x16Cdf", []), (Cur, ("Tx16x16Cdf", [])));
  (("Tx32x32Cdf", []), (Cur, ("Tx32x32Cdf", [])));
  (("Tx64x64Cdf", []), (Cur, ("Tx64x64Cdf", [])));
  (("TxfmSplitCdf", []), (Cur, ("TxfmSplitCdf", [])));
  (("FilterIntraModeCdf", []), (Cur, ("FilterIntraModeCdf", [])));
  (("FilterIntraCdf", []), (Cur, ("FilterIntraCdf", [])));
  (("InterpFilterCdf", []), (Cur, ("InterpFilterCdf", [])));
  (("MotionModeCdf", []), (Cur, ("MotionModeCdf", [])));
  (("NewMvCdf", []), (Cur, ("NewMvCdf", [])));
  (("ZeroMvCdf", []), (Cur, ("ZeroMvCdf", [])));
  (("RefMvCdf", []), (Cur, ("RefMvCdf", [])));
  (("CompoundModeCdf", []), (Cur, ("CompoundModeCdf", [])));
  (("DrlModeCdf", []), (Cur, ("DrlModeCdf", [])));
  (("IsInterCdf", []), (Cur, ("IsInterCdf", [])));
  (("CompModeCdf", []), (Cur, ("CompModeCdf", [])));
  (("SkipModeCdf", []), (Cur, ("SkipModeCdf", [])));
  (("SkipCdf", []), (Cur, ("SkipCdf", [])));
  (("CompRefCdf", []), (Cur, ("CompRefCdf", [])));
  (("CompBwdRefCdf", []), (Cur, ("CompBwdRefCdf", [])));
  (("SingleRefCdf", []), (Cur, ("SingleRefCdf", [])));
  (("MvJointCdf", [0]), (Cur, ("MvJointCdf", [0])));
  (("MvJointCdf", [1]), (Cur, ("MvJointCdf", [1])));
  (("MvClassCdf", [0]), (Cur, ("MvClassCdf", [0])));
  (("MvClassCdf", [1]), (Cur, ("MvClassCdf", [1])));
  (("MvClass0BitCdf", [0; 0]), (Cur, ("MvClass0BitCdf", [0; 0])));
  (("MvClass0BitCdf", [0; 1]), (Cur, ("MvClass0BitCdf", [0; 1])));
  (("MvClass0BitCdf", [1; 0]), (Cur, ("MvClass0BitCdf", [1; 0])));
  (("MvClass0BitCdf", [1; 1]), (Cur, ("MvClass0BitCdf", [1; 1])));
  (("MvFrCdf", [0]), (Cur, ("MvFrCdf", [0])));
  (("MvFrCdf", [1]), (Cur, ("MvFrCdf", [1])));
  (("MvClass0FrCdf", [0]), (Cur, ("MvClass0FrCdf", [0])));
  (("MvClass0FrCdf", [1]), (Cur, ("MvClass0FrCdf", [1])));
  (("MvClass0HpCdf", [0; 0]), (Cur, ("MvClass0HpCdf", [0; 0])));
  (("MvClass0HpCdf", [0; 1]), (Cur, ("MvClass0HpCdf", [0; 1])));
  (("MvClass0HpCdf", [1; 0]), (Cur, ("MvClass0HpCdf", [1; 0])));
  (("MvClass0HpCdf", [1; 1]), (Cur, ("MvClass0HpCdf", [1; 1])));
  (("MvSignCdf", [0; 0]), (Cur, ("MvSignCdf", [0; 0])));
  (("MvSignCdf", [0; 1]), (Cur, ("MvSignCdf", [0; 1])));
  (("MvSignCdf", [1; 0]), (Cur, ("MvSignCdf", [1; 0])));
  (("MvSignCdf", [1; 1]), (Cur, ("MvSignCdf", [1; 1])));
  (("MvBitCdf", [0; 0]), (Cur, ("MvBitCdf", [0; 0])));
  (("MvBitCdf", [0; 1]), (Cur, ("MvBitCdf", [0; 1])));
  (("MvBitCdf", [1; 0]), (Cur, ("MvBitCdf", [1; 0])));
  (("MvBitCdf", [1; 1]), (Cur, ("MvBitCdf", [1; 1])));
  (("MvHpCdf", [0; 0]), (Cur, ("MvHpCdf", [0; 0])));
  (("MvHpCdf", [0; 1]), (Cur, ("MvHpCdf", [0; 1])));
  (("MvHpCdf", [1; 0]), (Cur, ("MvHpCdf", [1; 0])));
  (("MvHpCdf", [1; 1]), (Cur, ("MvHpCdf", [1; 1])));
  (("PaletteYModeCdf", []), (Cur, ("PaletteYModeCdf", [])));
  (("PaletteUVModeCdf", []), (Cur, ("PaletteUVModeCdf", [])));
  (("PaletteUVSizeCdf", []), (Cur, ("PaletteUVSizeCdf", [])));
  (("PaletteSize2YColorCdf", []), (Cur, ("PaletteSize2YColorCdf", [])));
  (("PaletteSize2UVColorCdf", []), (Cur, ("PaletteSize2UVColorCdf", [])));
  (("PaletteSize3YColorCdf", []), (Cur, ("PaletteSize3YColorCdf", [])));
  (("PaletteSize3UVColorCdf", []), (Cur, ("PaletteSize3UVColorCdf", [])));
  (("PaletteSize4YColorCdf", []), (Cur, ("PaletteSize4YColorCdf", [])));
  (("PaletteSize4UVColorCdf", []), (Cur, ("PaletteSize4UVColorCdf", [])));
  (("PaletteSize5YColorCdf", []), (Cur, ("PaletteSize5YColorCdf", [])));
  (("PaletteSize5UVColorCdf", []), (Cur, ("PaletteSize5UVColorCdf", [])));
  (("PaletteSize6YColorCdf", []), (Cur, ("PaletteSize6YColorCdf", [])));
  (("PaletteSize6UVColorCdf", []), (Cur, ("PaletteSize6UVColorCdf", [])));
  (("PaletteSize7YColorCdf", []), (Cur, ("PaletteSize7YColorCdf", [])));
  (("PaletteSize7UVColorCdf", []), (Cur, ("PaletteSize7UVColorCdf", [])));
  (("PaletteSize8YColorCdf", []), (Cur, ("PaletteSize8YColorCdf", [])));
  (("PaletteSize8UVColorCdf", []), (Cur, ("PaletteSize8UVColorCdf", [])));
  (("DeltaQCdf", []), (Cur, ("DeltaQCdf", [])));
  (("DeltaLFCdf", []), (Cur, ("DeltaLFCdf", [])));
  (("DeltaLFMultiCdf", [0]), (Cur, ("DeltaLFMultiCdf", [0])));
  (("DeltaLFMultiCdf", [1]), (Cur, ("DeltaLFMultiCdf", [1])));
  (("DeltaLFMultiCdf", [2]), (Cur, ("DeltaLFMultiCdf", [2])));
  (("DeltaLFMultiCdf", [3]), (Cur, ("DeltaLFMultiCdf", [3])));
  (("IntraTxTypeSet1Cdf", []), (Cur, ("IntraTxTypeSet1Cdf", [])));
  (("IntraTxTypeSet2Cdf", []), (Cur, ("IntraTxTypeSet2Cdf", [])));
  (("InterTxTypeSet1Cdf", []), (Cur, ("InterTxTypeSet1Cdf", [])));
  (("InterTxTypeSet2Cdf", []), (Cur, ("InterTxTypeSet2Cdf", [])));
  (("InterTxTypeSet3Cdf", []), (Cur, ("InterTxTypeSet3Cdf", [])));
  (("UseObmcCdf", []), (Cur, ("UseObmcCdf", [])));
  (("InterIntraCdf", []), (Cur, ("InterIntraCdf", [])));
  (("CompRefTypeCdf", []), (Cur, ("CompRefTypeCdf", [])));
  (("CflSignCdf", []), (Cur, ("CflSignCdf", [])));
  (("UniCompRefCdf", []), (Cur, ("UniCompRefCdf", [])));
  (("WedgeInterIntraCdf", []), (Cur, ("WedgeInterIntraCdf", [])));
  (("CompGroupIdxCdf", []), (Cur, ("CompGroupIdxCdf", [])));
  (("CompoundIdxCdf", []), (Cur, ("CompoundIdxCdf", [])));
  (("CompoundTypeCdf", []), (Cur, ("CompoundTypeCdf", [])));
  (("InterIntraModeCdf", []), (Cur, ("InterIntraModeCdf", [])));
  (("WedgeIndexCdf", []), (Cur, ("WedgeIndexCdf", [])));
  (("CflAlphaCdf", []), (Cur, ("CflAlphaCdf", [])));
  (("UseWienerCdf", []), (Cur, ("UseWienerCdf", [])));
  (("UseSgrprojCdf", []), (Cur, ("UseSgrprojCdf", [])));
  (("RestorationTypeCdf", []), (Cur, ("RestorationTypeCdf", [])));
  (("TxbSkipCdf", []), (Cur, ("TxbSkipCdf", [])));
  (("EobPt16Cdf", []), (Cur, ("EobPt16Cdf", [])));
  (("EobPt32Cdf", []), (Cur, ("EobPt32Cdf", [])));
  (("EobPt64Cdf", []), (Cur, ("EobPt64Cdf", [])));
  (("EobPt128Cdf", []), (Cur, ("EobPt128Cdf", [])));
  (("EobPt256Cdf", []), (Cur, ("EobPt256Cdf", [])));
  (("EobPt512Cdf", []), (Cur, ("EobPt512Cdf", [])));
  (("EobPt1024Cdf", []), (Cur, ("EobPt1024Cdf", [])));
  (("EobExtraCdf", []), (Cur, ("EobExtraCdf", [])));
  (("DcSignCdf", []), (Cur, ("DcSignCdf", [])));
  (("CoeffBaseEobCdf", []), (Cur, ("CoeffBaseEobCdf", [])));
  (("CoeffBaseCdf", []), (Cur, ("CoeffBaseCdf", [])));
  (("CoeffBrCdf", []), (Cur, ("CoeffBrCdf", [])))].

(** internal/uncompressedheader/cdf.go:241-343 LoadCdfs: current variables from the memory area of a slot (the source area Cur stands for that memory area) *)
Definition loadMoves : list (key * (area * key)) := [
  (("YModeCdf", []), (Cur, ("YModeCdf", [])));
  (("UVModeCflNotAllowedCdf", []), (Cur, ("UVModeCflNotAllowedCdf", [])));
  (("UVModeCflAllowedCdf", []), (Cur, ("UVModeCflAllowedCdf", [])));
  (("AngleDeltaCdf", []), (Cur, ("AngleDeltaCdf", [])));
  (("IntrabcCdf", []), (Cur, ("IntrabcCdf", [])));
  (("PartitionW8Cdf", []), (Cur, ("PartitionW8Cdf", [])));
  (("PartitionW16Cdf", []), (Cur, ("PartitionW16Cdf", [])));
  (("PartitionW32Cdf", []), (Cur, ("PartitionW32Cdf", [])));
  (("PartitionW64Cdf", []), (Cur, ("PartitionW64Cdf", [])));
  (("PartitionW128Cdf", []), (Cur, ("PartitionW128Cdf", [])));
  (("SegmentIdCdf", []), (Cur, ("SegmentIdCdf", [])));
  (("SegmentIdPredictedCdf", []), (Cur, ("SegmentIdPredictedCdf", [])));
  (("Tx8x8Cdf", []), (Cur, ("Tx8x8Cdf", [])));
  (("Tx16x16Cdf", []), (Cur, ("Tx16x16Cdf", [])));
  (("Tx32x32Cdf", []), (Cur, ("Tx32x32Cdf", [])));
  (("Tx64x64Cdf", []), (Cur, ("Tx64x64Cdf", [])));
  (("TxfmSplitCdf", []), (Cur, ("TxfmSplitCdf", [])));
  (("FilterIntraModeCdf", []), (Cur, ("FilterIntraModeCdf", [])));
  (("FilterIntraCdf", []), (Cur, ("FilterIntraCdf", [])));
  (("InterpFilterCdf", []), (Cur, ("InterpFilterCdf", [])));
  (("MotionModeCdf", []), (Cur, ("MotionModeCdf", [])));
  (("NewMvCdf", []), (Cur, ("NewMvCdf", [])));
  (("ZeroMvCdf", []), (Cur, ("ZeroMvCdf", [])));
  (("RefMvCdf", []), (Cur, ("RefMvCdf", [])));
  (("CompoundModeCdf", []), (Cur, ("CompoundModeCdf", [])));
  (("DrlModeCdf", []), (Cur, ("DrlModeCdf", [])));
  (("IsInterCdf", []), (Cur, ("IsInterCdf", [])));
  (("CompModeCdf", []), (Cur, ("CompModeCdf", [])));
  (("SkipModeCdf", []), (Cur, ("SkipModeCdf", [])));
  (("SkipCdf", []), (Cur, ("SkipCdf", [])));
  (("CompRefCdf", []), (Cur, ("CompRefCdf", [])));
  (("CompBwdRefCdf", []), (Cur, ("CompBwdRefCdf", [])));
  (("SingleRefCdf", []), (Cur, ("SingleRefCdf", [])));
  (("MvJointCdf", [0]), (Cur, ("MvJointCdf", [0])));
  (("MvJointCdf", [1]), (Cur, ("MvJointCdf", [1])));
  (("MvClassCdf", [0]), (Cur, ("MvClassCdf", [0])));
  (("MvClassCdf", [1]), (Cur, ("MvClassCdf", [1])));
  (("MvClass0BitCdf", [0; 0]), (Cur, ("MvClass0BitCdf", [0; 0])));
  (("MvClass0BitCdf", [0; 1]), (Cur, ("MvClass0BitCdf", [0; 1])));
  (("MvClass0BitCdf", [1; 0]), (Cur, ("MvClass0BitCdf", [1; 0])));
  (("MvClass0BitCdf", [1; 1]), (Cur, ("MvClass0BitCdf", [1; 1])));
  (("MvFrCdf", [0]), (Cur, ("MvFrCdf", [0])));
  (("MvFrCdf", [1]), (Cur, ("MvFrCdf", [1])));
  (("MvClass0FrCdf", [0]), (Cur, ("MvClass0FrCdf", [0])));
  (("MvClass0FrCdf", [1]), (Cur, ("MvClass0FrCdf", [1])));
  (("MvClass0HpCdf", [0; 0]), (Cur, ("MvClass0HpCdf", [0; 0])));
  (("MvClass0HpCdf", [0; 1]), (Cur, ("MvClass0HpCdf", [0; 1])));
  (("MvClass0HpCdf", [1; 0]), (Cur, ("MvClass0HpCdf", [1; 0])));
  (("MvClass0HpCdf", [1; 1]), (Cur, ("MvClass0HpCdf", [1; 1])));
  (("MvSignCdf", [0; 0]), (Cur, ("MvSignCdf", [0; 0])));
  (("MvSignCdf", [0; 1]), (Cur, ("MvSignCdf", [0; 1])));
  (("MvSignCdf", [1; 0]), (Cur, ("MvSignCdf", [1; 0])));
  (("MvSignCdf", [1; 1]), (Cur, ("MvSignCdf", [1; 1])));
  (("MvBitCdf", [0; 0]), (Cur, ("MvBitCdf", [0; 0])));
  (("MvBitCdf", [0; 1]), (Cur, ("MvBitCdf", [0; 1])));
  (("MvBitCdf", [1; 0]), (Cur, ("MvBitCdf", [1; 0])));
  (("MvBitCdf", [1; 1]), (Cur, ("MvBitCdf", [1; 1])));
  (("MvHpCdf", [0; 0]), (Cur, ("MvHpCdf", [0; 0])));
  (("MvHpCdf", [0; 1]), (Cur, ("MvHpCdf", [0; 1])));
  (("MvHpCdf", [1; 0]), (Cur, ("MvHpCdf", [1; 0])));
  (("MvHpCdf", [1; 1]), (Cur, ("MvHpCdf", [1; 1])));
  (("PaletteYModeCdf", []), (Cur, ("PaletteYModeCdf", [])));
  (("PaletteUVModeCdf", []), (Cur, ("PaletteUVModeCdf", [])));
  (("PaletteUVSizeCdf", []), (Cur, ("PaletteUVSizeCdf", [])));
  (("PaletteSize2YColorCdf", []), (Cur, ("PaletteSize2YColorCdf", [])));
  (("PaletteSize2UVColorCdf", []), (Cur, ("PaletteSize2UVColorCdf", [])));
  (("PaletteSize3YColorCdf", []), (Cur, ("PaletteSize3YColorCdf", [])));
  (("PaletteSize3UVColorCdf", []), (Cur, ("PaletteSize3UVColorCdf", [])));
  (("PaletteSize4YColorCdf", []), (Cur, ("PaletteSize4YColorCdf", [])));
  (("PaletteSize4UVColorCdf", []), (Cur, ("PaletteSize4UVColorCdf", [])));
  (("PaletteSize5YColorCdf", []), (Cur, ("PaletteSize5YColorCdf", [])));
  (("PaletteSize5UVColorCdf", []), (Cur, ("PaletteSize5UVColorCdf", [])));
  (("PaletteSize6YColorCdf", []), (Cur, ("PaletteSize6YColorCdf", [])));
  (("PaletteSize6UVColorCdf", []), (Cur, ("PaletteSize6UVColorCdf", [])));
  (("PaletteSize7YColorCdf", []), (Cur, ("PaletteSize7YColorCdf", [])));
  (("PaletteSize7UVColorCdf", []), (Cur, ("PaletteSize7UVColorCdf", [])));
  (("PaletteSize8YColorCdf", []), (Cur, ("PaletteSize8YColorCdf", [])));
  (("PaletteSize8UVColorCdf", []), (Cur, ("PaletteSize8UVColorCdf", [])));
  (("DeltaQCdf", []), (Cur, ("DeltaQCdf", [])));
  (("DeltaLFCdf", []), (Cur, ("DeltaLFCdf", [])));
  (("DeltaLFMultiCdf", [0]), (Cur, ("DeltaLFMultiCdf", [0])));
  (("DeltaLFMultiCdf", [1]), (Cur, ("DeltaLFMultiCdf", [1])));
  (("DeltaLFMultiCdf", [2]), (Cur, ("DeltaLFMultiCdf", [2])));
  (("DeltaLFMultiCdf", [3]), (Cur, ("DeltaLFMultiCdf", [3])));
  (("IntraTxTypeSet1Cdf", []), (Cur, ("IntraTxTypeSet1Cdf", [])));
  (("IntraTxTypeSet2Cdf", []), (Cur, ("IntraTxTypeSet2Cdf", [])));
  (("InterTxTypeSet1Cdf", []), (Cur, ("InterTxTypeSet1Cdf", [])));
  (("InterTxTypeSet2Cdf", []), (Cur, ("InterTxTypeSet2Cdf", [])));
  (("InterTxTypeSet3Cdf", []), (Cur, ("InterTxTypeSet3Cdf", [])));
  (("UseObmcCdf", []), (Cur, ("UseObmcCdf", [])));
  (("InterIntraCdf", []), (Cur, ("InterIntraCdf", [])));
  (("CompRefTypeCdf", []), (Cur, ("CompRefTypeCdf", [])));
  (("CflSignCdf", []), (Cur, ("CflSignCdf", [])));
  (("UniCompRefCdf", []), (Cur, ("UniCompRefCdf", [])));
  (("WedgeInterIntraCdf", []), (Cur, ("WedgeInterIntraCdf", [])));
  (("CompGroupIdxCdf", []), (Cur, ("CompGroupIdxCdf", [])));
  (("CompoundIdxCdf", []), (Cur, ("CompoundIdxCdf", [])));
  (("CompoundTypeCdf", []), (Cur, ("CompoundTypeCdf", [])));
  (("InterIntraModeCdf", []), (Cur, ("InterIntraModeCdf", [])));
  (("WedgeIndexCdf", []), (Cur, ("WedgeIndexCdf", [])));
  (("CflAlphaCdf", []), (Cur, ("CflAlphaCdf", [])));
  (("UseWienerCdf", []), (Cur, ("UseWienerCdf", [])));
  (("UseSgrprojCdf", []), (Cur, ("UseSgrprojCdf", [])));
  (("RestorationTypeCdf", []), (Cur, ("RestorationTypeCdf", [])));
  (("TxbSkipCdf", []), (Cur, ("TxbSkipCdf", [])));
  (("EobPt16Cdf", []), (Cur, ("EobPt16Cdf", [])));
  (("EobPt32Cdf", []), (Cur, ("EobPt32Cdf", [])));
  (("EobPt64Cdf", []), (Cur, ("EobPt64Cdf", [])));
  (("EobPt128Cdf", []), (Cur, ("EobPt128Cdf", [])));
  (("EobPt256Cdf", []), (Cur, ("EobPt256Cdf", [])));
  (("EobPt512Cdf", []), (Cur, ("EobPt512Cdf", [])));
  (("EobPt1024Cdf", []), (Cur, ("EobPt1024Cdf", [])));
  (("EobExtraCdf", []), (Cur, ("EobExtraCdf", [])));
  (("DcSignCdf", []), (Cur, ("DcSignCdf", [])));
  (("CoeffBaseEobCdf", []), (Cur, ("CoeffBaseEobCdf", [])));
  (("CoeffBaseCdf", []), (Cur, ("CoeffBaseCdf", [])));
  (("CoeffBrCdf", []), (Cur, ("CoeffBrCdf", [])))].

(** Nested slices. *)
Inductive tree := Leaf (cdf : list Z) | Node (sub : list tree).
Definition t2 (l : list (list Z)) := Node (map Leaf l).
Definition t3 l := Node (map t2 l).
Definition t4 l := Node (map t3 l).
Definition t5 l := Node (map t4 l).
(** The initial contents of the default tables (package variables). *)
Definition defaultTrees : list (string * tree) := [
  ("DEFAULT_ANGLE_DELTA_CDF", t2 DEFAULT_ANGLE_DELTA_CDF);
  ("DEFAULT_CFL_ALPHA_CDF", t2 DEFAULT_CFL_ALPHA_CDF);
  ("DEFAULT_CFL_SIGN_CDF", Leaf DEFAULT_CFL_SIGN_CDF);
  ("DEFAULT_COEFF_BASE_CDF", t5 DEFAULT_COEFF_BASE_CDF);
  ("DEFAULT_COEFF_BASE_EOB_CDF", t5 DEFAULT_COEFF_BASE_EOB_CDF);
  ("DEFAULT_COEFF_BR_CDF", t5 DEFAULT_COEFF_BR_CDF);
  ("DEFAULT_COMPOUND_IDX_CDF", t2 DEFAULT_COMPOUND_IDX_CDF);
  ("DEFAULT_COMPOUND_MODE_CDF", t2 DEFAULT_COMPOUND_MODE_CDF);
  ("DEFAULT_COMPOUND_TYPE_CDF", t2 DEFAULT_COMPOUND_TYPE_CDF);
  ("DEFAULT_COMP_BWD_REF_CDF", t3 DEFAULT_COMP_BWD_REF_CDF);
  ("DEFAULT_COMP_GROUP_IDX_CDF", t2 DEFAULT_COMP_GROUP_IDX_CDF);
  ("DEFAULT_COMP_MODE_CDF", t2 DEFAULT_COMP_MODE_CDF);
  ("DEFAULT_COMP_REF_CDF", t3 DEFAULT_COMP_REF_CDF);
  ("DEFAULT_COMP_REF_TYPE_CDF", t2 DEFAULT_COMP_REF_TYPE_CDF);
  ("DEFAULT_DC_SIGN_CDF", t4 DEFAULT_DC_SIGN_CDF);
  ("DEFAULT_DELTA_LF_CDF", Leaf DEFAULT_DELTA_LF_CDF);
  ("DEFAULT_DELTA_Q_CDF", Leaf DEFAULT_DELTA_Q_CDF);
  ("DEFAULT_DRL_MODE_CDF", t2 DEFAULT_DRL_MODE_CDF);
  ("DEFAULT_EOB_EXTRA_CDF", t5 DEFAULT_EOB_EXTRA_CDF);
  ("DEFAULT_EOB_PT_1024_CDF", t3 DEFAULT_EOB_PT_1024_CDF);
  ("DEFAULT_EOB_PT_128_CDF", t4 DEFAULT_EOB_PT_128_CDF);
  ("DEFAULT_EOB_PT_16_CDF", t4 DEFAULT_EOB_PT_16_CDF);
  ("DEFAULT_EOB_PT_256_CDF", t4 DEFAULT_EOB_PT_256_CDF);
  ("DEFAULT_EOB_PT_32_CDF", t4 DEFAULT_EOB_PT_32_CDF);
  ("DEFAULT_EOB_PT_512_CDF", t3 DEFAULT_EOB_PT_512_CDF);
  ("DEFAULT_EOB_PT_64_CDF", t4 DEFAULT_EOB_PT_64_CDF);
  ("DEFAULT_FILTER_INTRA_CDF", t2 DEFAULT_FILTER_INTRA_CDF);
  ("DEFAULT_FILTER_INTRA_MODE_CDF", Leaf DEFAULT_FILTER_INTRA_MODE_CDF);
  ("DEFAULT_INTERP_FILTER_CDF", t2 DEFAULT_INTERP_FILTER_CDF);
  ("DEFAULT_INTER_INTRA_CDF", t2 DEFAULT_INTER_INTRA_CDF);
  ("DEFAULT_INTER_INTRA_MODE_CDF", t2 DEFAULT_INTER_INTRA_MODE_CDF);
  ("DEFAULT_INTER_TX_TYPE_SET1_CDF", t2 DEFAULT_INTER_TX_TYPE_SET1_CDF);
  ("DEFAULT_INTER_TX_TYPE_SET2_CDF", Leaf DEFAULT_INTER_TX_TYPE_SET2_CDF);
  ("DEFAULT_INTER_TX_TYPE_SET3_CDF", t2 DEFAULT_INTER_TX_TYPE_SET3_CDF);
  ("DEFAULT_INTRABC_CDF", Leaf DEFAULT_INTRABC_CDF);
  ("DEFAULT_INTRA_FRAME_Y_MODE_CDF", t3 DEFAULT_INTRA_FRAME_Y_MODE_CDF);
  ("DEFAULT_INTRA_TX_TYPE_SET1_CDF", t3 DEFAULT_INTRA_TX_TYPE_SET1_CDF);
  ("DEFAULT_INTRA_TX_TYPE_SET2_CDF", t3 DEFAULT_INTRA_TX_TYPE_SET2_CDF);
  ("DEFAULT_IS_INTER_CDF", t2 DEFAULT_IS_INTER_CDF);
  ("DEFAULT_MOTION_MODE_CDF", t2 DEFAULT_MOTION_MODE_CDF);
  ("DEFAULT_MV_BIT_CDF", t2 DEFAULT_MV_BIT_CDF);
  ("DEFAULT_MV_CLASS0_BIT_CDF", Leaf DEFAULT_MV_CLASS0_BIT_CDF);
  ("DEFAULT_MV_CLASS0_FR_CDF", t3 DEFAULT_MV_CLASS0_FR_CDF);
  ("DEFAULT_MV_CLASS0_HP_CDF", Leaf DEFAULT_MV_CLASS0_HP_CDF);
  ("DEFAULT_MV_CLASS_CDF", t2 DEFAULT_MV_CLASS_CDF);
  ("DEFAULT_MV_FR_CDF", t2 DEFAULT_MV_FR_CDF);
  ("DEFAULT_MV_HP_CDF", Leaf DEFAULT_MV_HP_CDF);
  ("DEFAULT_MV_JOINT_CDF", Leaf DEFAULT_MV_JOINT_CDF);
  ("DEFAULT_MV_SIGN_CDF", Leaf DEFAULT_MV_SIGN_CDF);
  ("DEFAULT_NEW_MV_CDF", t2 DEFAULT_NEW_MV_CDF);
  ("DEFAULT_PALETTE_SIZE_2_UV_COLOR_CDF", t2 DEFAULT_PALETTE_SIZE_2_UV_COLOR_CDF);
  ("DEFAULT_PALETTE_SIZE_2_Y_COLOR_CDF", t2 DEFAULT_PALETTE_SIZE_2_Y_COLOR_CDF);
  ("DEFAULT_PALETTE_SIZE_3_UV_COLOR_CDF", t2 DEFAULT_PALETTE_SIZE_3_UV_COLOR_CDF);
  ("DEFAULT_PALETTE_SIZE_3_Y_COLOR_CDF", t2 DEFAULT_PALETTE_SIZE_3_Y_COLOR_CDF);
  ("DEFAULT_PALETTE_SIZE_4_UV_COLOR_CDF", t2 DEFAULT_PALETTE_SIZE_4_UV_COLOR_CDF);
  ("DEFAULT_PALETTE_SIZE_4_Y_COLOR_CDF", t2 DEFAULT_PALETTE_SIZE_4_Y_COLOR_CDF);
  ("DEFAULT_PALETTE_SIZE_5_UV_COLOR_CDF", t2 DEFAULT_PALETTE_SIZE_5_UV_COLOR_CDF);
  ("DEFAULT_PALETTE_SIZE_5_Y_COLOR_CDF", t2 DEFAULT_PALETTE_SIZE_5_Y_COLOR_CDF);
  ("DEFAULT_PALETTE_SIZE_6_UV_COLOR_CDF", t2 DEFAULT_PALETTE_SIZE_6_UV_COLOR_CDF);
  ("DEFAULT_PALETTE_SIZE_6_Y_COLOR_CDF", t2 DEFAULT_PALETTE_SIZE_6_Y_COLOR_CDF);
  ("DEFAULT_PALETTE_SIZE_7_UV_COLOR_CDF", t2 DEFAULT_PALETTE_SIZE_7_UV_COLOR_CDF);
  ("DEFAULT_PALETTE_SIZE_7_Y_COLOR_CDF", t2 DEFAULT_PALETTE_SIZE_7_Y_COLOR_CDF);
  ("DEFAULT_PALETTE_SIZE_8_UV_COLOR_CDF", t2 DEFAULT_PALETTE_SIZE_8_UV_COLOR_CDF);
  ("DEFAULT_PALETTE_SIZE_8_Y_COLOR_CDF", t2 DEFAULT_PALETTE_SIZE_8_Y_COLOR_CDF);
  ("DEFAULT_PALETTE_UV_MODE_CDF", t2 DEFAULT_PALETTE_UV_MODE_CDF);
  ("DEFAULT_PALETTE_UV_SIZE_CDF", t2 DEFAULT_PALETTE_UV_SIZE_CDF);
  ("DEFAULT_PALETTE_Y_MODE_CDF", t3 DEFAULT_PALETTE_Y_MODE_CDF);
  ("DEFAULT_PARTITION_W128_CDF", t2 DEFAULT_PARTITION_W128_CDF);
  ("DEFAULT_PARTITION_W16_CDF", t2 DEFAULT_PARTITION_W16_CDF);
  ("DEFAULT_PARTITION_W32_CDF", t2 DEFAULT_PARTITION_W32_CDF);
  ("DEFAULT_PARTITION_W64_CDF", t2 DEFAULT_PARTITION_W64_CDF);
  ("DEFAULT_PARTITION_W8_CDF", t2 DEFAULT_PARTITION_W8_CDF);
  ("DEFAULT_RESTORATION_TYPE_CDF", Leaf DEFAULT_RESTORATION_TYPE_CDF);
  ("DEFAULT_SEGMENT_ID_CDF", t2 DEFAULT_SEGMENT_ID_CDF);
  ("DEFAULT_SEGMENT_ID_PREDICTED_CDF", t2 DEFAULT_SEGMENT_ID_PREDICTED_CDF);
  ("DEFAULT_SINGLE_REF_CDF", t3 DEFAULT_SINGLE_REF_CDF);
  ("DEFAULT_SKIP_CDF", t2 DEFAULT_SKIP_CDF);
  ("DEFAULT_SKIP_MODE_CDF", t2 DEFAULT_SKIP_MODE_CDF);
  ("DEFAULT_TXB_SKIP_CDF", t4 DEFAULT_TXB_SKIP_CDF);
  ("DEFAULT_TXFM_SPLIT_CDF", t2 DEFAULT_TXFM_SPLIT_CDF);
  ("DEFAULT_TX_16X16_CDF", t2 DEFAULT_TX_16X16_CDF);
  ("DEFAULT_TX_32X32_CDF", t2 DEFAULT_TX_32X32_CDF);
  ("DEFAULT_TX_64X64_CDF", t2 DEFAULT_TX_64X64_CDF);
  ("DEFAULT_TX_8X8_CDF", t2 DEFAULT_TX_8X8_CDF);
  ("DEFAULT_UNI_COMP_REF_CDF", t3 DEFAULT_UNI_COMP_REF_CDF);
  ("DEFAULT_USE_OBMC_CDF", t2 DEFAULT_USE_OBMC_CDF);
  ("DEFAULT_USE_SGRPROJ_CDF", Leaf DEFAULT_USE_SGRPROJ_CDF);
  ("DEFAULT_USE_WIENER_CDF", Leaf DEFAULT_USE_WIENER_CDF);
  ("DEFAULT_UV_MODE_CFL_ALLOWED_CDF", t2 DEFAULT_UV_MODE_CFL_ALLOWED_CDF);
  ("DEFAULT_UV_MODE_CFL_NOT_ALLOWED_CDF", t2 DEFAULT_UV_MODE_CFL_NOT_ALLOWED_CDF);
  ("DEFAULT_WEDGE_INDEX_CDF", t2 DEFAULT_WEDGE_INDEX_CDF);
  ("DEFAULT_WEDGE_INTER_INTRA_CDF", t2 DEFAULT_WEDGE_INTER_INTRA_CDF);
  ("DEFAULT_Y_MODE_CDF", t2 DEFAULT_Y_MODE_CDF);
  ("DFEAULT_ZERO_MV_CDF", t2 DFEAULT_ZERO_MV_CDF)].
