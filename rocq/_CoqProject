-Q theories Verif
theories/Base.v
theories/Format.v
theories/Zlib.v
theories/RleZlib.v
theories/LLCompress.v
theories/CompressFacts.v
theories/CompressExamples.v
theories/Properties_Codec.v
theories/Properties_Compress.v
theories/Parser.v
theories/ParserProofs.v
theories/ParserFacts.v
theories/Decompress.v
theories/DecompressProofs.v
theories/DecompressFacts.v
theories/MidProofs.v
theories/MidFacts.v
theories/DecompressExamples.v
theories/Compress.v
theories/ArchiveSpec.v
theories/ArchiveFacts.v
theories/ArchiveDecode.v
theories/ArchiveEntry.v
theories/ArchiveProps.v
theories/ArchiveExamples.v
theories/Properties_Archive.v
theories/FS.v
theories/FSFacts.v
theories/HL.v
theories/HLSpec.v
theories/HLFacts.v
theories/HLDrive.v
theories/HLProps.v
theories/HLSafe.v
theories/MkdirFacts.v
theories/HLTame.v
theories/HLMkdir.v
theories/HLMore.v
theories/HLExamples.v
theories/Properties_Extract.v
theories/Properties_Decompress.v
theories/Properties_Parser.v
theories/ArgParser.v
theories/ArgSpec.v
theories/ArgFacts.v
theories/ArgMore.v
theories/ArgExamples.v
theories/ArgPlain.v
theories/Properties_Args.v
theories/Tools.v
theories/ToolsSpec.v
theories/ToolsFacts.v
theories/ToolsMore.v
theories/ToolsExamples.v
theories/Properties_Tools.v
theories/Conc.v
theories/ConcFacts.v
theories/ConcTame.v
theories/Sessions.v
theories/SessionsFacts.v
theories/ConcExamples.v
theories/Properties_Conc.v
theories/SelfRun.v
theories/SelfRunFacts.v
theories/SelfRunExamples.v
theories/Properties_Run.v
theories/HaltFacts.v
theories/RobustFacts.v
theories/RobustExamples.v
theories/Properties_Robust.v
theories/LinkFacts.v
theories/LinkExamples.v
theories/LinkMore.v
theories/LinkMoreExamples.v
theories/Properties_Links.v
theories/AptGet.v
theories/AptGetFacts.v
theories/AptGetExamples.v
theories/Icon.v
theories/IconFacts.v
theories/Properties_Win.v
theories/FlushFacts.v
theories/InitFacts.v
theories/InitExamples.v
theories/Properties_Session.v
theories/TestTools.v
theories/TestToolsFacts.v
theories/TestToolsProps.v
theories/TestToolsSafe.v
theories/TestToolsExamples.v
theories/Properties_Tests.v
theories/CutSpec.v
theories/CutFacts.v
theories/CutRun.v
theories/CutProps.v
theories/Unique.v
theories/CutExamples.v
theories/Properties_Cut.v
theories/Crash.v
theories/CrashExamples.v
theories/CopySpec.v
theories/CopyFacts.v
theories/CopyExamples.v
theories/ToolsCut.v
theories/CutTools.v
theories/SelfBoot.v
theories/SelfBootFacts.v
theories/Properties_Copy.v
theories/StackFacts.v
theories/BlockFacts.v
theories/ResourceFacts.v
theories/ResourceExamples.v
theories/Properties_Resources.v
theories/PathWalk.v
theories/PathFacts.v
theories/PathExamples.v
theories/Properties_Paths.v
theories/LiveWalk.v
theories/LiveFacts.v
theories/LiveProps.v
theories/LiveEndless.v
theories/LiveExamples.v
theories/Properties_Live.v
theories/FormatSpec.v
theories/FormatFacts.v
theories/FormatExamples.v
theories/Properties_Format.v
theories/WinTools.v
theories/WinFacts.v
theories/WinExamples.v
theories/Properties_WinDirs.v
theories/DamageFacts.v
theories/DamageExamples.v
theories/Properties_Damage.v
theories/MkdirMore.v
theories/MkdirMoreExamples.v
theories/Properties_Mkdir.v
theories/WinExtract.v
theories/WinExtractSpec.v
theories/WinExtractFacts.v
theories/WinExtractTame.v
theories/WinExtractExamples.v
theories/Properties_WinExtract.v
theories/Hostile.v
theories/HostileWin.v
theories/HostileExamples.v
theories/Properties_Hostile.v
theories/WinKeep.v
theories/Keep.v
theories/KeepExamples.v
theories/WellFormed.v
theories/WellFormedExamples.v
theories/Properties_Keep.v
theories/Fds.v
theories/WinFds.v
theories/Report.v
theories/ReportExamples.v
theories/Properties_Report.v
theories/WinArchive.v
theories/WinArchiveSpec.v
theories/WinArchiveFacts.v
theories/WinArchiveProps.v
theories/WinCopy.v
theories/WinArchiveExamples.v
theories/Properties_WinArchive.v
theories/Env.v
theories/EnvFacts.v
theories/EnvExamples.v
theories/Properties_Env.v
theories/WinCd.v
theories/WinCdSpec.v
theories/WinCdFacts.v
theories/WinCdExamples.v
theories/Properties_WinCd.v
theories/WinSelf.v
theories/WinSelfFacts.v
theories/WinSelfRunFacts.v
theories/WinSelfExamples.v
theories/Properties_WinSelf.v
theories/FuelFacts.v
theories/AgainFacts.v
theories/AgainExamples.v
theories/Properties_Again.v
theories/WinCase.v
theories/AptMore.v
theories/BothFacts.v
theories/BothExamples.v
theories/Properties_Both.v
theories/CrossFacts.v
theories/CrossExamples.v
theories/ReadFacts.v
theories/ReadExamples.v
theories/Properties_Read.v
theories/WinParents.v
theories/WinParentsExamples.v
theories/SameFacts.v
theories/SameExamples.v
theories/Properties_Same.v
theories/ReadCopy.v
theories/SameWin.v
theories/BehindFacts.v
theories/BehindExamples.v
theories/Properties_Behind.v
theories/LevelFacts.v
theories/Properties_Level.v
theories/NoneFacts.v
theories/Properties_None.v
theories/GrowFacts.v
theories/GrowExamples.v
theories/Properties_Grow.v
theories/WinMore.v
theories/Properties_WinMore.v
theories/ArgNames.v
theories/Properties_ArgNames.v
theories/WinReport.v
theories/Properties_WinReport.v
theories/JunkMore.v
theories/Properties_Junk.v
theories/WinCut.v
theories/Properties_WinCut.v
theories/WinCutDir.v
theories/Properties_WinCutDir.v
