-Q theories Verif
theories/Base.v
theories/Spec.v
theories/Varint.v
theories/VarintFacts.v
theories/AddrCache.v
theories/AddrCacheFacts.v
theories/CodeTable.v
theories/InstructionMap.v
theories/DecodeTable.v
theories/HeaderParser.v
theories/Adler.v
theories/Decoder.v
theories/Properties_Varint.v
theories/Properties_Addr.v
theories/CopyFacts.v
theories/BodyFacts.v
theories/BodyExt.v
theories/AdlerFacts.v
theories/WindowExt.v
theories/WindowHeader.v
theories/WindowStep.v
theories/WindowFacts.v
theories/Refine.v
theories/CodeTableFacts.v
theories/Abstract.v
theories/Totals.v
theories/FileHeader.v
theories/Chunk.v
theories/Sim.v
theories/Stream.v
theories/Session.v
theories/Calls.v
theories/Reuse.v
theories/Properties_Stream.v
theories/Usable.v
theories/Sound.v
theories/Complete.v
theories/Truncate.v
theories/Files.v
theories/Chunked.v
theories/Unique.v
theories/Fields.v
theories/Properties_Decode.v
theories/Standard.v
theories/EncodeTable.v
theories/InstructionMapFacts.v
theories/SpecEncode.v
theories/WriterFacts.v
theories/RollingHash.v
theories/RollingHashFacts.v
theories/ListFacts.v
theories/BlockHash.v
theories/Engine.v
theories/BlockHashFacts.v
theories/EngineFacts.v
theories/JsonWriter.v
theories/Encoder.v
theories/EncoderFacts.v
theories/SpecJson.v
theories/JsonFacts.v
theories/EncoderCalls.v
theories/Index.v
theories/Properties_Encode.v
theories/SpecInstr.v
theories/Reader.v
theories/Properties_Instr.v
theories/Cli.v
theories/CliFacts.v
theories/Properties_Cli.v
theories/Count.v
theories/Properties_Term.v
theories/NoTarget.v
theories/SpecFind.v
theories/Finds.v
theories/Properties_Find.v
theories/Shortest.v
theories/Properties_Short.v
theories/EncodeCount.v
theories/Properties_Work.v
theories/Properties_Live.v
theories/Held.v
theories/Properties_Held.v
theories/Empty.v
theories/Properties_Empty.v
theories/Properties_Detect.v
theories/Detect.v
theories/SpecMaximal.v
theories/Maximal.v
theories/Runs.v
theories/Properties_Maximal.v
theories/SpecParts.v
theories/Output.v
theories/OutputFacts.v
theories/OutputCalls.v
theories/Properties_Output.v
theories/More.v
theories/Windows.v
theories/Properties_More.v
theories/Stdio.v
theories/StdioFacts.v
theories/Properties_Stdio.v
theories/Platform.v
theories/PlatformFacts.v
theories/PlatformEnc.v
theories/PlatformEncFacts.v
theories/Properties_Platform.v
theories/Properties_Layout.v
theories/Fatal.v
theories/FatalFacts.v
theories/Properties_Fatal.v
theories/FatalEnc.v
theories/FatalEncFacts.v
theories/Properties_FatalEnc.v
theories/OutputEnc.v
theories/OutputEncFacts.v
theories/Properties_OutputEnc.v
theories/MapTotal.v
theories/Properties_Map.v
theories/Properties_Custom.v
theories/SpecShort.v
theories/ShortFacts.v
theories/Properties_Shortest.v
theories/Writers.v
theories/SpecWriters.v
theories/WritersFacts.v
theories/Properties_Writers.v
theories/Kept.v
theories/Properties_Kept.v
theories/AdlerMore.v
theories/Properties_Adler.v
theories/Properties_Memory.v
theories/SpecCut.v
theories/CutFacts.v
theories/Properties_Progress.v
theories/FailedFacts.v
theories/Properties_Unverified.v
theories/CliMain.v
theories/Properties_Main.v
theories/DecoderCalls.v
theories/Properties_AnyOrder.v
theories/RepoTests_Decoder.v
theories/RepoTests_Encoder.v
theories/RepoTests_Parts.v
theories/Stats.v
theories/Properties_Stats.v
theories/Template.v
theories/SpecTemplate.v
theories/TemplateSpec.v
theories/Properties_Template.v
theories/Properties_JsonSize.v
theories/SpecDamage.v
theories/DamageFacts.v
theories/Properties_Damage.v
theories/WriterArrays.v
theories/Properties_Arrays.v
theories/OutputFailed.v
theories/Properties_OutputFailed.v
theories/Properties_Limits.v
theories/EmptyFailed.v
theories/SpecBegun.v
theories/BegunFacts.v
theories/Properties_Agree.v
theories/Prompt.v
theories/SpecYield.v
theories/Properties_Prompt.v
theories/SpecStalled.v
theories/InTime.v
theories/Properties_InTime.v
theories/SpecLong.v
theories/LongStream.v
theories/LongEncode.v
theories/Properties_Long.v
theories/StalledFacts.v
theories/Properties_LongMore.v
theories/SpecEdits.v
theories/Edits.v
theories/Properties_Edits.v
theories/Properties_EditsStream.v
theories/LongCut.v
theories/Properties_LongCut.v
theories/Properties_LongTemplate.v
theories/SpecLongTemplate.v
theories/Properties_LongInTime.v
theories/Properties_DamageStream.v
theories/Properties_DamageRun.v
theories/Properties_PlatformStream.v
