-Q theories Verif
theories/Base.v
theories/F32.v
theories/Text.v
theories/Crc.v
theories/NetTypes.v
theories/SegArray.v
theories/Errors.v
theories/Core.v
theories/Header.v
theories/Body.v
theories/BitReader.v
theories/NetModels.v
theories/Attributes.v
theories/Data.v
theories/ObjectIndex.v
theories/FrameDecoder.v
theories/Network.v
theories/Parser.v
theories/Json.v
theories/JsonNet.v
theories/JsonReplay.v
theories/SpecText.v
theories/TextProofs.v
theories/BitLemmas.v
theories/Wire.v
theories/ReaderLogic.v
theories/LeafProofs.v
theories/VectorProofs.v
theories/TextWireProofs.v
theories/AttrProofs.v
theories/SpecBasic.v
theories/BasicProofs.v
theories/HierarchyProofs.v
theories/SpecReader.v
theories/WireFacts.v
theories/PropsWire.v
theories/PropsBasic.v
theories/SpecCrc.v
theories/CrcProofs.v
theories/PropsCrc.v
theories/SpecFile.v
theories/CoreLogic.v
theories/FormatProofs.v
theories/SpecReplay.v
theories/FileProofs.v
theories/AppendProofs.v
theories/FileFacts.v
theories/NestProofs.v
theories/Samples.v
theories/PropsFile.v
theories/AttrSame.v
theories/MapProofs.v
theories/SpecNet.v
theories/TableProofs.v
theories/CacheProofs.v
theories/SpecFrames.v
theories/FrameLogic.v
theories/TimeProofs.v
theories/FrameProofs.v
theories/RecordProofs.v
theories/StreamProofs.v
theories/NetworkProofs.v
theories/ParseProofs.v
theories/SpecFacts.v
theories/FrameFacts.v
theories/TableFacts.v
theories/PropsNet.v
theories/SpecJson.v
theories/SpecDecimal.v
theories/JsonLogic.v
theories/JsonProofs.v
theories/TypedProofs.v
theories/JsonFacts.v
theories/SpecAlike.v
theories/AlikeProofs.v
theories/PropsJson.v
theories/SpecRound.v
theories/RoundProofs.v
theories/ArithProofs.v
theories/SpecQuat.v
theories/QuatProofs.v
theories/FloatFacts.v
theories/PropsFloat.v
theories/SpecAttrErrors.v
theories/AttrErrors.v
theories/SpecErrors.v
theories/ErrorLogic.v
theories/ErrorProofs.v
theories/ErrorFacts.v
theories/ErrorUnique.v
theories/ErrorComplete.v
theories/PropsErrors.v
theories/Display.v
theories/SpecDisplay.v
theories/CauseProofs.v
theories/DisplayProofs.v
theories/DisplayFacts.v
theories/DisplayUnique.v
theories/PropsDisplay.v
theories/RepoData.v
theories/RepoTests.v
theories/SpecTruncate.v
theories/SpecSize.v
theories/SizeProofs.v
theories/TruncateProofs.v
theories/CrcOrder.v
theories/CrcThree.v
theories/OpaqueProofs.v
theories/SpecTable.v
theories/GrowthProofs.v
theories/PropsRobust.v
theories/SpecTail.v
theories/RunProofs.v
theories/TailProofs.v
theories/PropsTail.v
theories/SpecWrite.v
theories/WriteProofs.v
theories/PropsWrite.v
theories/ThreeProofs.v
theories/PropsThree.v
theories/SpecWrong.v
theories/CrcMany.v
theories/ManyProofs.v
theories/PropsMany.v
theories/SpecRange.v
theories/RangeProofs.v
theories/SendProofs.v
theories/PropsSend.v
theories/SpecDepth.v
theories/DepthProofs.v
theories/PropsDepth.v
theories/SpecFileErrors.v
theories/Utf8Errors.v
theories/FileErrorProofs.v
theories/SpecResult.v
theories/ResultProofs.v
theories/PropsFileErrors.v
theories/SamplesPlay.v
theories/Examples.v
theories/SpecExamples.v
theories/StableProofs.v
theories/ExampleFacts.v
theories/ExampleProofs.v
theories/ExampleCases.v
theories/PropsExamples.v
theories/SpecJsonText.v
theories/JsonText.v
theories/MagnitudeProofs.v
theories/FloatTextProofs.v
theories/NumberTextProofs.v
theories/JsonTextProofs.v
theories/SamplesText.v
theories/FloatBits.v
theories/PrinterProofs.v
theories/TextFacts.v
theories/PropsJsonText.v
theories/OverflowProofs.v
theories/SpecEq.v
theories/EqNet.v
theories/EqReplay.v
theories/SpecBlank.v
theories/SpecEqReplay.v
theories/EqLogic.v
theories/EqNetProofs.v
theories/EqReplayProofs.v
theories/SamplesLoose.v
theories/CompareFacts.v
theories/PropsCompare.v
theories/SpecSchema.v
theories/SpecSchemaNet.v
theories/SchemaLogic.v
theories/SchemaProofs.v
theories/SchemaFacts.v
theories/PropsSchema.v
theories/FloatDisplay.v
theories/SpecFloatDisplay.v
theories/FloatDisplayProofs.v
theories/PropsDecimal.v
theories/SpecWidth.v
theories/Width.v
theories/WidthCore.v
theories/WidthAttr.v
theories/WidthNet.v
theories/WidthProofs.v
theories/WidthText.v
theories/PropsWidth.v
theories/Debug.v
theories/DebugNet.v
theories/SpecNan.v
theories/SpecDebug.v
theories/DebugLogic.v
theories/DebugProofs.v
theories/DebugTextProofs.v
theories/DebugNetProofs.v
theories/SamplesForged.v
theories/DebugFacts.v
theories/PropsDebug.v
theories/EqErrors.v
theories/SpecEqErrors.v
theories/EqErrorProofs.v
theories/EqErrorFacts.v
theories/PropsEqErrors.v
theories/SpecData.v
theories/DataProofs.v
theories/PropsData.v
theories/TextLength.v
theories/WireBits.v
theories/JsonWeight.v
theories/JsonLength.v
theories/JsonHeight.v
theories/PropsLength.v
theories/Reserve.v
theories/SpecReserve.v
theories/ReserveProofs.v
theories/ReserveExact.v
theories/PropsReserve.v
theories/Added.v
theories/SpecAdded.v
theories/AddedCaches.v
theories/AddedProofs.v
theories/PropsAdded.v
theories/SpecMessage.v
theories/MessageProofs.v
theories/MessageTyped.v
theories/PropsMessage.v
theories/DebugReplay.v
theories/SpecDeclared.v
theories/DeclaredProofs.v
theories/DeclaredReplay.v
theories/DeclaredUnique.v
theories/DeclaredKinds.v
theories/PropsDeclared.v
theories/SpecShown.v
theories/ShownProofs.v
theories/ShownNumbers.v
theories/PropsShown.v
theories/SpecEra.v
theories/EraProofs.v
theories/EraSharp.v
theories/PropsEra.v
theories/SpecNames.v
theories/NamesProofs.v
theories/NamesSharp.v
theories/PropsNames.v
theories/SpecCost.v
theories/Cost.v
theories/CostNet.v
theories/CostFile.v
theories/CostProofs.v
theories/CostBound.v
theories/CostNetProofs.v
theories/CostLower.v
theories/CostFileProofs.v
theories/CostFileLower.v
theories/PropsCost.v
theories/CostTables.v
theories/CostTablesProofs.v
theories/PropsTables.v
theories/DebugLength.v
theories/MessageLength.v
theories/DebugReplayLength.v
theories/PropsBrief.v
theories/SpecMeaning.v
theories/MeaningProofs.v
theories/MeaningSharp.v
theories/PropsMeaning.v
theories/SpecReserveNet.v
theories/ReserveNet.v
theories/ReserveNetProofs.v
theories/ReserveNetExact.v
theories/PropsReserveNet.v
theories/HashId.v
theories/SpecHash.v
theories/HashProofs.v
theories/PropsHash.v
