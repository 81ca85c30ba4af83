-Q theories Verif
theories/PyBase.v
theories/Utf8.v
theories/CTypes.v
theories/S_shared.v
theories/S_1_26.v
theories/S_2_3.v
theories/S_2_4.v
theories/S_2_5.v
theories/S_2_6.v
theories/S_2_7.v
theories/S_2_8.v
theories/S_2_9.v
theories/S_2_10.v
theories/S_2_11.v
theories/S_2_12.v
theories/Model.v
theories/Parsers.v
theories/Json.v
theories/Inflate.v
theories/Gzip.v
theories/Reader.v
theories/Spec.v
theories/SpecDict.v
theories/BaseProofs.v
theories/LayoutProofs.v
theories/RepProofs.v
theories/DictProofs.v
theories/Utf8Proofs.v
theories/TableProofs.v
theories/HeaderProofs.v
theories/SpecLog.v
theories/GenProofs.v
theories/RunProofs.v
theories/InflateProofs.v
theories/SizedProofs.v
theories/LogBuild.v
theories/PropHeader.v
theories/PropLog.v
theories/PropStruct.v
theories/HeaderCache.v
theories/PropCache.v
theories/SpecRows.v
theories/ParserProofs.v
theories/PropRows.v
theories/SpecJson.v
theories/JsonProofs.v
theories/PropJson.v
theories/GzipProofs.v
theories/SpecReader.v
theories/ReaderProofs.v
theories/PropReader.v
theories/Args.v
theories/SpecArgs.v
theories/ArgsProofs.v
theories/PropArgs.v
theories/PropMain.v
theories/SpecFollow.v
theories/PropFollow.v
theories/FloatRepr.v
theories/SpecFloat.v
theories/FloatProofs.v
theories/FloatText.v
theories/PropFloat.v
theories/SpecDeflate.v
theories/DeflateProofs.v
theories/DeflateProofs2.v
theories/DeflateProofs3.v
theories/SpecGzip.v
theories/GzipExact.v
theories/PropDeflate.v
theories/PropGzip.v
theories/SpecFormat.v
theories/SpecFormatTables.v
theories/FormatProofs.v
theories/SpecDocument.v
theories/PropFormat.v
theories/Messages.v
theories/SpecMessage.v
theories/PropMessage.v
theories/SpecForward.v
theories/PropForward.v
theories/SpecBounds.v
theories/PropBounds.v
theories/Heap.v
theories/SpecHeap.v
theories/PropHeap.v
theories/SpecGroups.v
theories/PropGroups.v
theories/AnyFile.v
theories/SpecAnyFile.v
theories/PropAnyFile.v
theories/PyFloat.v
theories/PySyntax.v
theories/PyEval.v
theories/Source.v
theories/SourceReadme.v
theories/PyProgram.v
theories/PyGenerator.v
theories/SpecSource.v
theories/SrcBase.v
theories/SrcHeader.v
theories/SrcUtils.v
theories/SrcStat.v
theories/SrcCgroup.v
theories/SrcGen.v
theories/SrcGen2.v
theories/PropSource.v
theories/SrcDict.v
theories/PropSource2.v
theories/SpecSource2.v
theories/SrcParse.v
theories/PropSource3.v
theories/SpecSource3.v
theories/SrcReader.v
theories/SrcReader2.v
theories/SrcReader3.v
theories/PropSource4.v
theories/SpecDamage.v
theories/PropDamage.v
theories/PyClasses.v
theories/SourceClasses.v
theories/SpecClasses.v
theories/PropClasses.v
theories/SourceArgs.v
theories/PyArgs.v
theories/PropSource5.v
theories/SourcePackage.v
theories/PyPackage.v
theories/SpecPackage.v
theories/PackageProofs.v
theories/PropPackage.v
theories/PropTypes.v
theories/SpecUsage.v
theories/UsageProofs.v
theories/SpecClient.v
theories/SrcClient.v
theories/PropClient.v
theories/PropUsage.v
theories/GenMethods.v
theories/PropMethods.v
theories/PropMethods2.v
theories/PropOutput.v
theories/SpecShortest.v
theories/FloatShortest.v
theories/PropShortest.v
theories/SpecHand.v
theories/SrcHand.v
theories/PropHand.v
