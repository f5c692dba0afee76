-Q theories Verif
theories/PyBase.v
theories/Utf8.v
theories/Codecs.v
theories/Headers.v
theories/Streams.v
theories/TimeUtils.v
theories/Loader.v
theories/Iterator.v
theories/Writer.v
theories/Toy.v
theories/Tests.v
theories/Facts.v
theories/StreamSpec.v
theories/StreamProofs.v
theories/BufProofs.v
theories/FillProofs.v
theories/CallProofs.v
theories/Thm_Stream.v
theories/Props_Stream.v
theories/Thm_Buffered.v
theories/Props_Buffered.v
theories/HeaderSpec.v
theories/HeaderProofs.v
theories/Thm_Headers.v
theories/Props_Headers.v
theories/TimeSpec.v
theories/TimeProofs.v
theories/Thm_Time.v
theories/Props_Time.v
theories/CodecProofs.v
theories/DigestSpec.v
theories/DigestProofs.v
theories/Thm_Digest.v
theories/Props_Digest.v
theories/SimProofs.v
theories/WriterSpec.v
theories/WriterProofs.v
theories/Thm_Writer.v
theories/Props_Writer.v
theories/IterSpec.v
theories/IterProofs.v
theories/Thm_Iter.v
theories/Props_Iter.v
theories/GzProofs.v
theories/RoundSpec.v
theories/RoundProofs.v
theories/Thm_Round.v
theories/Props_Round.v
theories/ChunkSpec.v
theories/ChunkProofs.v
theories/Thm_Chunk.v
theories/Props_Chunk.v
theories/AllSpec.v
theories/AllProofs.v
theories/Thm_All.v
theories/Props_All.v
theories/DigStep.v
theories/Cli.v
theories/CliSpec.v
theories/CliProofs.v
theories/TraceProofs.v
theories/CheckProofs.v
theories/ExtractProofs.v
theories/Thm_Cli.v
theories/Props_Cli.v
theories/RewriteSpec.v
theories/RewriteProofs.v
theories/Thm_Rewrite.v
theories/Props_Rewrite.v
theories/ArcSpec.v
theories/ArcProofs.v
theories/Thm_Arc.v
theories/Props_Arc.v
theories/Capture.v
theories/CaptureSpec.v
theories/CaptureProofs.v
theories/CapturePair.v
theories/CaptureWorld.v
theories/CaptureToy.v
theories/Thm_Capture.v
theories/Props_Capture.v
theories/Locks.v
theories/Thm_Locks.v
theories/Props_Locks.v
theories/HttpDate.v
theories/Thm_Http.v
theories/Props_Http.v
theories/TermSpec.v
theories/TermProofs.v
theories/TermLoad.v
theories/TermIter.v
theories/Thm_Term.v
theories/Props_Term.v
theories/TermContent.v
theories/ReadSpec.v
theories/TermRead.v
theories/ToolsSpec.v
theories/TermTools.v
theories/Thm_Tools.v
theories/Props_Tools.v
theories/AdvProofs.v
theories/KeepProofs.v
theories/IndepProofs.v
theories/IndepIter.v
theories/IndepSpec.v
theories/Thm_Indep.v
theories/Props_Indep.v
theories/BlankProofs.v
theories/ReportSpec.v
theories/ReportProofs.v
theories/ModeSpec.v
theories/TwoRuns.v
theories/CheckModes.v
theories/Thm_Modes.v
theories/Props_Modes.v
theories/FrameSpec.v
theories/FrameProofs.v
theories/Thm_Frame.v
theories/Props_Frame.v
theories/SelfSpec.v
theories/Thm_Self.v
theories/Props_Self.v
theories/Thm_Enc.v
theories/Props_Enc.v
theories/EncSpec.v
theories/EnsureProofs.v
theories/Thm_Link.v
theories/Props_Link.v
theories/CutProofs.v
theories/Thm_ArcFrame.v
theories/Props_ArcFrame.v
theories/Thm_Uri.v
theories/Props_Uri.v
theories/ConvSpec.v
theories/Thm_Conv.v
theories/Props_Conv.v
theories/BuildSpec.v
theories/Thm_Build.v
theories/Props_Build.v
theories/Thm_Version.v
theories/Props_Version.v
theories/RfcSpec.v
theories/Thm_Rfc.v
theories/Props_Rfc.v
theories/Thm_AnyChunk.v
theories/Props_AnyChunk.v
theories/StrHeaders.v
theories/Thm_StrHdr.v
theories/Props_StrHdr.v
theories/AsciiSpec.v
theories/Thm_Ascii.v
theories/Props_Ascii.v
theories/Thm_IsoDate.v
theories/Props_IsoDate.v
theories/Commands.v
theories/Sinks.v
theories/Thm_Commands.v
theories/Props_Commands.v
theories/Thm_HdrTotal.v
theories/Props_HdrTotal.v
theories/Thm_CapHdr.v
theories/Props_CapHdr.v
theories/Thm_Sinks.v
theories/Props_Sinks.v
theories/Thm_CapLocal.v
theories/Props_CapLocal.v
theories/Thm_CapRaise.v
theories/Props_CapRaise.v
theories/Thm_LineLimit.v
theories/Props_LineLimit.v
theories/JunkProofs.v
theories/Thm_Junk.v
theories/Props_Junk.v
theories/Thm_JunkFrame.v
theories/Props_JunkFrame.v
theories/JunkGz.v
theories/Thm_JunkGzip.v
theories/Props_JunkGzip.v
theories/Thm_JunkWarn.v
theories/Props_JunkWarn.v
theories/Thm_JunkTwo.v
theories/Props_JunkTwo.v
theories/Thm_Late.v
theories/Props_Late.v
