-Q theories Verif
theories/LayaModel.v
theories/LayaSpec.v
theories/LayaProofsStr.v
theories/LayaProofsF32.v
theories/LayaProofsParse.v
theories/LayaProofsIiif.v
theories/LayaProofsHttp.v
theories/LayaProofsBounds.v
theories/LayaProofsFinal.v
theories/LayaRuntimeModel.v
theories/LayaProofsRuntime.v
theories/LayaProps.v
theories/ZBits.v
theories/BioModel.v
theories/BioSpec.v
theories/BioProofs.v
theories/BioProps.v
theories/TgtModel.v
theories/TgtSpec.v
theories/BioStream.v
theories/TgtProofs.v
theories/TgtCoding.v
theories/TgtProps.v
theories/T2CodesModel.v
theories/T2CodesProofs.v
theories/T2CodesProps.v
theories/I32.v
theories/MctModel.v
theories/MctProps.v
theories/Mem.v
theories/DwtModel.v
theories/DwtSpec.v
theories/DwtProofs.v
theories/DwtLines.v
theories/DwtForward.v
theories/DwtColumns.v
theories/DwtTile.v
theories/DwtProps.v
theories/Ints.v
theories/SparseModel.v
theories/SparseProofs.v
theories/SparseProps.v
theories/MathModel.v
theories/MathProps.v
theories/CioModel.v
theories/CioProps.v
theories/StreamModel.v
theories/StreamProps.v
theories/InvertModel.v
theories/InvertProps.v
theories/ShiftModel.v
theories/ShiftProps.v
theories/GeomModel.v
theories/GeomProofs.v
theories/GeomCover.v
theories/GeomProps.v
theories/TileDataModel.v
theories/TileDataProps.v
theories/AssembleModel.v
theories/AssembleProps.v
theories/MqModel.v
theories/MqProofs.v
theories/MqSync.v
theories/MqEnd.v
theories/MqProps.v
theories/RawProofs.v
theories/RawProps.v
theories/PiModel.v
theories/PiRun.v
theories/PiLoops.v
theories/PiSpec.v
theories/PiMath.v
theories/PiProofs.v
theories/PiVisits.v
theories/PiDeliver.v
theories/PiProps.v
theories/T2PacketModel.v
theories/T2PacketSpec.v
theories/T2PacketSegs.v
theories/T2PacketProofs.v
theories/T2PacketBands.v
theories/T2PacketRoom.v
theories/T2PacketSkip.v
theories/T2PacketProps.v
theories/HdrModel.v
theories/HdrSpec.v
theories/HdrBytes.v
theories/HdrSegs.v
theories/HdrRun.v
theories/HdrMain.v
theories/HdrProps.v
theories/HdrSafe.v
theories/HdrSafeProps.v
theories/T1Luts.v
theories/T1Model.v
theories/T1Spec.v
theories/T1Bits.v
theories/T1Rel.v
theories/T1Enc.v
theories/T1Stage.v
theories/T1Dec.v
theories/T1Code.v
theories/T1Block.v
theories/T1Trip.v
theories/T1Total.v
theories/T1Shape.v
theories/T1Props.v
theories/Jp2Model.v
theories/Jp2Spec.v
theories/Jp2Read.v
theories/Jp2Trip.v
theories/Jp2Safe.v
theories/Jp2Order.v
theories/Jp2Post.v
theories/Jp2Setup.v
theories/Jp2Props.v
theories/CblkModel.v
theories/CblkTrip.v
theories/CblkSound.v
theories/PacketsModel.v
theories/PacketsProofs.v
theories/PacketsOrder.v
theories/PacketsRoom.v
theories/PacketsProps.v
theories/T1Length.v
theories/TileModel.v
theories/TileGeom.v
theories/TileProofs.v
theories/TileProps.v
theories/SampleModel.v
theories/SampleDwt.v
theories/SampleProofs.v
theories/SampleProps.v
theories/DivideModel.v
theories/DivideProofs.v
theories/DivideProps.v
theories/PartModel.v
theories/PartSpec.v
theories/PartProofs.v
theories/PartSafe.v
theories/PartWrite.v
theories/PartProps.v
theories/PltModel.v
theories/PltSpec.v
theories/PltProofs.v
theories/PltProps.v
theories/CodecModel.v
theories/CodecProofs.v
theories/CodecInput.v
theories/CodecTiles.v
theories/CodecGather.v
theories/CodecProps.v
theories/WindowModel.v
theories/WindowSpec.v
theories/WindowLine.v
theories/WindowAxis.v
theories/WindowProofs.v
theories/WindowTile.v
theories/WindowProps.v
theories/AreaModel.v
theories/AreaPackets.v
theories/AreaGeom.v
theories/AreaJobs.v
theories/AreaProofs.v
theories/AreaComp.v
theories/AreaTile.v
theories/AreaProps.v
theories/RegionModel.v
theories/RegionAxis.v
theories/RegionProps.v
theories/RegionTiles.v
theories/RegionGather.v
theories/RegionImage.v
theories/HtModel.v
theories/HtSpec.v
theories/HtBits.v
theories/HtForward.v
theories/HtBackward.v
theories/HtReadProps.v
theories/HtMel.v
theories/HtMelEvents.v
theories/HtMelProps.v
theories/HtUvlcProps.v
theories/HtAlignProps.v
theories/HtLuts.v
theories/HtLutsProps.v
theories/HtCupModel.v
theories/HtCupSpec.v
theories/HtCupVlc.v
theories/HtCupSamples.v
theories/HtCupPair.v
theories/HtCupLines.v
theories/HtCupTurn.v
theories/HtCupBlock.v
theories/HtCupProps.v
theories/PpxModel.v
theories/PpxSpec.v
theories/PpxMerge.v
theories/PpxRead.v
theories/PpxProps.v
theories/PackedModel.v
theories/PackedSpec.v
theories/PackedProofs.v
theories/PackedProps.v
theories/CmtModel.v
theories/CmtSpec.v
theories/CmtSafe.v
theories/CmtFloat.v
theories/CmtRound.v
theories/CmtProps.v
theories/RateModel.v
theories/RateProofs.v
theories/RateProps.v
theories/PocModel.v
theories/PocProofs.v
theories/PocProps.v
theories/TlmModel.v
theories/TlmProps.v
theories/WriterModel.v
theories/WriterProps.v
theories/SetupModel.v
theories/SetupProps.v
theories/TgtReuseModel.v
theories/TgtReuseProps.v
theories/BlockReuseModel.v
theories/BlockReuseProps.v
theories/ImageModel.v
theories/ImageProps.v
