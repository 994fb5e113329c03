-Q theories Verif
theories/SpecBits.v
theories/Base.v
theories/BitBuffer.v
theories/SpecReader.v
theories/BitsLemmas.v
theories/BitBufferProofs.v
theories/ReaderProofs.v
theories/PropsReader.v
theories/Writer.v
theories/SpecWriter.v
theories/WriterProofs.v
theories/WriterProofs2.v
theories/WriterProofs3.v
theories/PropsWriter.v
theories/Rbsp.v
theories/SpecRbsp.v
theories/RbspProofs.v
theories/ChecksumProofs.v
theories/PropsRbsp.v
theories/Framing.v
theories/SpecFraming.v
theories/FramingProofs.v
theories/FramingProofs2.v
theories/FramingProofs3.v
theories/PropsFraming.v
theories/Parser.v
theories/SpecSyntax.v
theories/ParserProofs.v
theories/TypesSps.v
theories/Vui.v
theories/SpecVui.v
theories/VuiProofs.v
theories/ScalingList.v
theories/SpecScaling.v
theories/ScalingProofs.v
theories/Sps.v
theories/SpecSps.v
theories/SpsProofs.v
theories/PropsSps.v
theories/TypesPps.v
theories/Pps.v
theories/SpecPps.v
theories/PpsProofs.v
theories/PropsPps.v
theories/TypesNal.v
theories/NalHeader.v
theories/SpecNalHeader.v
theories/NalHeaderProofs.v
theories/PropsNal.v
theories/TypesExt.v
theories/Ext.v
theories/SpecExt.v
theories/ExtProofs.v
theories/PropsExt.v
theories/TypesSlice.v
theories/SliceParts.v
theories/SpecSliceParts.v
theories/SlicePartsProofs.v
theories/PropsSliceParts.v
theories/TypesSliceHeader.v
theories/SliceHeader.v
theories/SpecSlice.v
theories/SliceProofs.v
theories/PropsSlice.v
theories/TypesSvcSlice.v
theories/SvcSlice.v
theories/SpecSvcSlice.v
theories/SvcSliceProofs.v
theories/PropsSvcSlice.v
theories/TypesNalUnit.v
theories/NalUnit.v
theories/NalUnitProofs.v
theories/SpecNalUnit.v
theories/NalUnitProofs2.v
theories/NalUnitProofs3.v
theories/Rtp.v
theories/RtpProofs.v
theories/PropsNalUnit.v
theories/PropsNalUnit2.v
theories/CodecProofs.v
theories/SpecMux.v
theories/MuxProofs.v
theories/PropsMux.v
theories/LocalProofs.v
theories/PropsLocal.v
theories/PropsRtp.v
theories/NalType.v
theories/Tool.v
theories/SpecTool.v
theories/ToolProofs.v
theories/PropsTool.v
theories/TestVectors.v
theories/Dump.v
theories/SpecDump.v
theories/DumpProofs.v
theories/DumpProofs2.v
theories/DumpProofs3.v
theories/SpecShown.v
theories/DumpProofs4.v
theories/DumpProofs5.v
theories/DumpProofs6.v
theories/SpecLabels.v
theories/DumpProofs7.v
theories/DumpProofs8.v
theories/PropsDump.v
theories/SpecConform.v
theories/ConformProofs.v
theories/PropsConform.v
theories/ToolText.v
theories/SpecToolText.v
theories/ToolTextProofs.v
theories/PropsToolText.v
theories/SpecReuse.v
theories/ReuseProofs.v
theories/PropsReuse.v
theories/TypesEntry.v
theories/Entry.v
theories/SpecEntry.v
theories/EntryProofs.v
theories/PropsEntry.v
theories/Overloads.v
theories/SpecState.v
theories/StateProofs.v
theories/PropsOverloads.v
theories/Framerate.v
theories/SpecFramerate.v
theories/FloatProofs.v
theories/PropsFramerate.v
theories/Files.v
theories/SpecFiles.v
theories/PropsFiles.v
theories/SpecCallers.v
theories/CallerProofs.v
theories/Fuzz.v
theories/PropsCallers.v
theories/PyText.v
theories/PyTextProofs.v
theories/Split.v
theories/SpecSplit.v
theories/SplitProofs.v
theories/SplitProofs2.v
theories/PropsSplit.v
theories/PyText2.v
theories/Conformance.v
theories/SpecConformance.v
theories/ConfProofs.v
theories/ConfProofs2.v
theories/ConfProofs3.v
theories/ConfProofs4.v
theories/ConfProofs5.v
theories/ConfProofs6.v
theories/ConfProofs7.v
theories/ConfProofs8.v
theories/PropsConformance.v
theories/Dpb.v
theories/DpbProofs.v
theories/DpbProofs2.v
theories/DpbProofs3.v
theories/DpbProofs4.v
theories/SpecDpb.v
theories/DpbProofs5.v
theories/DpbProofs6.v
theories/DpbProofs7.v
theories/SpecDpbText.v
theories/DpbProofs8.v
theories/PropsDpb.v
theories/Cmdline.v
theories/SpecCmdline.v
theories/CmdlineProofs.v
theories/PropsCmdline.v
theories/Lengths.v
theories/SpecLengths.v
theories/LengthsProofs.v
theories/LengthsProofs2.v
theories/PropsLengths.v
theories/Converter.v
theories/SpecConverter.v
theories/ConverterProofs.v
theories/ConverterProofs2.v
theories/ConverterProofs3.v
theories/ConverterProofs4.v
theories/PropsConverter.v
theories/SpecDpbB.v
theories/DpbProofs9.v
theories/PropsDpbB.v
theories/MediaVectors.v
theories/SpecDpbFields.v
theories/DpbProofs10.v
theories/PropsDpbF.v
theories/ConverterFiles.v
theories/SpecConverterFiles.v
theories/ConverterProofs5.v
theories/PropsConverterFiles.v
theories/SplitFiles.v
theories/SpecSplitFiles.v
theories/PropsSplitFiles.v
theories/ConfTable.v
theories/SpecConfTable.v
theories/PropsConfTable.v
theories/ConfSummary.v
theories/SpecConfSummary.v
theories/PropsConfSummary.v
theories/PropsSplitTwice.v
