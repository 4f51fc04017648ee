-Q theories Verif
theories/GoBase.v
theories/Bitstream.v
theories/SpecBits.v
theories/SpecStream.v
theories/BitstreamProofs.v
theories/ReaderOps.v
theories/Parses.v
theories/SpecSyntax.v
theories/Header.v
theories/HeaderProofs.v
theories/PropBitstream.v
theories/Constants.v
theories/Tables.v
theories/CdfTables.v
theories/QuantTables.v
theories/Util.v
theories/UtilProofs.v
theories/SpecMath.v
theories/PropUtil.v
theories/SequenceHeader.v
theories/SafeParse.v
theories/Yields.v
theories/SequenceHeaderProofs.v
theories/PropSequence.v
theories/Obu.v
theories/Parser.v
theories/ObuProofs.v
theories/ParserProofs.v
theories/SpecAnnexB.v
theories/AnnexBProofs.v
theories/PropObu.v
theories/Symbol.v
theories/SpecSymbol.v
theories/SymbolProofs.v
theories/PropSymbol.v
theories/TileInfo.v
theories/SpecTiles.v
theories/TileInfoProofs.v
theories/PropTiles.v
theories/UncompressedHeader.v
theories/SpecHeader.v
theories/UHeaderProofs.v
theories/UHeaderGood.v
theories/UHeaderWhole.v
theories/PropHeader.v
theories/Partition.v
theories/SpecPartition.v
theories/PartitionProofs.v
theories/PropPartition.v
theories/PropPartitionCtx.v
theories/SpecFrameHeader.v
theories/FrameHeaderProofs.v
theories/PropFrameHeader.v
theories/CdfDefaults.v
theories/PropCdf.v
theories/Frame.v
theories/LoopFilter.v
theories/SpecFilter.v
theories/LoopFilterProofs.v
theories/PropLoopFilter.v
theories/PropLoopFilterEdges.v
theories/Cdef.v
theories/SpecCdef.v
theories/CdefProofs.v
theories/CdefDirProofs.v
theories/CdefFrameProofs.v
theories/PropCdef.v
theories/Fill2.v
theories/Transform.v
theories/SpecTransform.v
theories/PropTransform.v
theories/MvStack.v
theories/MvStackProofs.v
theories/PropMvStack.v
theories/PropMvStackMore.v
theories/Intra.v
theories/IntraProofs.v
theories/PropIntra.v
theories/CdfMoves.v
theories/CdfMemory.v
theories/SpecCdfMemory.v
theories/CdfMemoryProofs.v
theories/PropCdfMemory.v
theories/Upscale.v
theories/Restoration.v
theories/Wrapup.v
theories/Writes.v
theories/SpecReference.v
theories/WrapupProofs.v
theories/UpscaleProofs.v
theories/RestorationProofs.v
theories/WrapupFrameProofs.v
theories/PropWrapup.v
theories/Coeffs.v
theories/SpecCoeffs.v
theories/CoeffsProofs.v
theories/CoeffRun.v
theories/CoeffsCtx.v
theories/CoeffsSim.v
theories/CoeffsWhole.v
theories/PropCoeffs.v
theories/Elements.v
theories/SpecBlock.v
theories/ModeInfo.v
theories/ElementsSim.v
theories/ElementsDemo.v
theories/ModeInfoProofs.v
theories/PropModeInfo.v
theories/Rect.v
theories/TxSize.v
theories/SpecTx.v
theories/TxSizeProofs.v
theories/PropTxSize.v
theories/Block.v
theories/PropBlock.v
theories/PropIntraMore.v
theories/PropBox.v
theories/PropPipeline.v
theories/SpecMv.v
theories/MvRead.v
theories/PropMvRead.v
theories/SpecLr.v
theories/LrRead.v
theories/PropLrRead.v
theories/SpecResidual.v
theories/Residual.v
theories/PropResidual.v
theories/PredictInter.v
theories/SpecInter.v
theories/PropPredictInter.v
theories/PropComputePrediction.v
theories/InterMode.v
theories/SpecInterMode.v
theories/PropInterMode.v
theories/PropInterSeg.v
theories/PropInterBlock.v
theories/TileGroup.v
theories/SpecTileGroup.v
theories/PropTileGroup.v
theories/Decoder.v
theories/PropDecoder.v
theories/PropSymbolAny.v
theories/PropTerminates.v
theories/Palette.v
theories/PropPalette.v
theories/Masks.v
theories/PropMasks.v
theories/Wedge.v
theories/PropWedge.v
theories/PropTileSyntax.v
theories/PropEdgeType.v
theories/PropFollowup.v
theories/PropFollowup2.v
