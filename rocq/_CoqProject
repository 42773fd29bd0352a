-Q theories Verif
theories/Base.v
theories/UcdTables.v
theories/TextTables.v
theories/Ucd.v
theories/Norm.v
theories/Chars.v
theories/TextUtils.v
theories/UcdFacts.v
theories/NormFacts.v
theories/Utf8.v
theories/Input.v
theories/Output.v
theories/CharFacts.v
theories/DocTable.v
theories/SpecText.v
theories/TextFacts.v
theories/PipelineFacts.v
theories/DocFacts.v
theories/IsoFacts.v
theories/Utf8Facts.v
theories/ReadFacts.v
theories/ReadInv.v
theories/ReadSession.v
theories/SpecRead.v
theories/ScalarFacts.v
theories/ReadChunk.v
theories/SpecEscape.v
theories/EscapeFacts.v
theories/EscapeRun.v
theories/ReadProps.v
theories/KeepFacts.v
theories/ReadPieces.v
theories/SpecConv.v
theories/ConvFacts.v
theories/ReadMore.v
theories/EscapeCheck.v
theories/SpecWrite.v
theories/WriteFacts.v
theories/WriteProps.v
theories/WriteColour.v
theories/Strings.v
theories/StringFacts.v
theories/ConcatFacts.v
theories/EdgeFacts.v
theories/SpecString.v
theories/StringProps.v
theories/LossyProps.v
theories/JoinProps.v
theories/Copy.v
theories/CopyProps.v
theories/CopyPush.v
theories/ExactProps.v
theories/Lines.v
theories/LineProps.v
theories/Duplex.v
theories/SpecDuplex.v
theories/DuplexProps.v
theories/ExactBuf.v
theories/SpecExact.v
theories/ExactFull.v
theories/DuplexExact.v
theories/CopyAny.v
theories/RepoTests.v
theories/NfcTests.v
theories/Fidelity.v
theories/PropText.v
theories/PropRead.v
theories/PropWrite.v
theories/PropString.v
theories/PropMore.v
theories/Fuzz.v
theories/FuzzProps.v
theories/SpecMore.v
theories/CanonProps.v
theories/Arbitrary.v
theories/ArbitraryProps.v
theories/GuardFacts.v
theories/PropExtra.v
theories/GcbTable.v
theories/SpecDoc.v
theories/DocProps.v
theories/SpecUtf8.v
theories/Utf8Lossy.v
theories/DocErrors.v
theories/Errors.v
theories/SpecErrors.v
theories/ErrorProps.v
theories/PropDoc.v
theories/SpecCut.v
theories/CutProps.v
theories/PropCut.v
theories/Search.v
theories/SpecSearch.v
theories/SearchProps.v
theories/PropSearch.v
theories/StdIo.v
theories/SpecStd.v
theories/StdProps.v
theories/StdAny.v
theories/WriteInner.v
theories/Sizes.v
theories/SizeProps.v
theories/PropSizes.v
theories/PropStd.v
theories/SpecCat.v
theories/CatProps.v
theories/SpecPush.v
theories/PushProps.v
theories/CatPush.v
theories/PropCat.v
theories/SpecAscii.v
theories/AsciiProps.v
theories/SpecLayer.v
theories/OptionProps.v
theories/LayerProps.v
theories/LayerPush.v
theories/LayerAny.v
theories/Views.v
theories/SpecViews.v
theories/ViewProps.v
theories/PropViews.v
theories/SpecPrompt.v
theories/PromptProps.v
theories/LineEnd.v
theories/PropPrompt.v
theories/SeamProps.v
theories/Stack.v
theories/StackProps.v
theories/PropSeams.v
theories/SpecBound.v
theories/BoundProps.v
theories/BoundTables.v
theories/BoundWrite.v
theories/PropBound.v
theories/Examples.v
theories/SpecExamples.v
theories/ExampleProps.v
theories/PropExamples.v
theories/SpecCjk.v
theories/CjkProps.v
theories/PropCjk.v
theories/SpecColour.v
theories/ColourProps.v
theories/SpecFrag.v
theories/FragProps.v
theories/PropColour.v
theories/SpecLone.v
theories/LoneProps.v
theories/PropLone.v
theories/SpecValues.v
theories/ValuesProps.v
theories/PropValues.v
theories/SpecStream.v
theories/StreamProps.v
theories/PropStream.v
theories/LineIo.v
theories/SpecLine.v
theories/LineIoProps.v
theories/PropLine.v
theories/Future.v
theories/FutureProps.v
theories/NewerProps.v
theories/NewerPush.v
theories/NewerWrite.v
theories/PropFuture.v
theories/SpecGap.v
theories/GapProps.v
theories/SpecAsk.v
theories/AskProps.v
theories/PropAsk.v
theories/SpecUnicode.v
theories/UnicodeProps.v
theories/PropUnicode.v
theories/PropExact.v
theories/SpecCertain.v
theories/CertainFacts.v
theories/CertainProps.v
theories/PropCertain.v
theories/SpecDuplexColour.v
theories/DuplexColour.v
theories/PropDuplexColour.v
theories/Patterns.v
theories/PatternProps.v
theories/PropPatterns.v
theories/SpecNewlines.v
theories/NewlineProps.v
theories/PropNewlines.v
theories/SpecBytes.v
theories/ByteProps.v
theories/PropBytes.v
theories/NormIter.v
theories/NormIterProps.v
theories/SpecAhead.v
theories/NormAhead.v
theories/AheadProps.v
theories/HeldProps.v
theories/PropAhead.v
theories/StdBuf.v
theories/SpecBuf.v
theories/BufProps.v
theories/BufWrite.v
theories/PropBuf.v
theories/StdAdapt.v
theories/AdaptProps.v
theories/PropAdapt.v
theories/StdFmt.v
theories/SpecFmt.v
theories/FmtProps.v
theories/PropFmt.v
theories/StdRead.v
theories/SpecWhole.v
theories/WholeProps.v
theories/PropWhole.v
theories/SpecLineBuf.v
theories/LineBytes.v
theories/StdCopy.v
theories/LineCopy.v
theories/PropLineCopy.v
theories/StdDuplex.v
theories/DuplexAll.v
theories/PropDuplexAll.v
theories/SpecWellCut.v
theories/WellCut.v
theories/PropWellCut.v
theories/SpecGroup.v
theories/Group.v
theories/PropGroup.v
theories/SpecStatus.v
theories/StatusExact.v
theories/PropStatus.v
theories/ExtendProps.v
theories/PropExtend.v
theories/StoredCut.v
theories/PropStored.v
theories/ExactAny.v
theories/PropExactAny.v
theories/SpecArb.v
theories/ArbExact.v
theories/PropArb.v
theories/DuplexCopy.v
theories/SpecDuplexCopy.v
theories/CopyDuplex.v
theories/PropDuplexCopy.v
theories/TakeExact.v
theories/PropTake.v
theories/Talk.v
theories/SpecTalk.v
theories/TalkProps.v
theories/TalkHeard.v
theories/TalkLive.v
theories/TalkPush.v
theories/TalkColour.v
theories/PropTalk.v
theories/SpecLossyCut.v
theories/LossyCut.v
theories/PropLossyCut.v
theories/SpecRelay.v
theories/RelayProps.v
theories/PropRelay.v
theories/StdLines.v
theories/SpecLossyBuf.v
theories/LossyBuf.v
theories/PropLossyBuf.v
theories/StdDebug.v
theories/SpecDebug.v
theories/DebugProps.v
theories/PropDebug.v
theories/StdPad.v
theories/SpecPad.v
theories/PadProps.v
theories/PropPad.v
theories/SpecCrash.v
theories/CrashProps.v
theories/CrashDuplex.v
theories/CrashColour.v
theories/SpecCrashColour.v
theories/CrashFrag.v
theories/PropCrash.v
theories/SpecDamage.v
theories/DamageProps.v
theories/SeekProps.v
theories/DamageColour.v
theories/SeekColour.v
theories/AppendColour.v
theories/AppendOnce.v
theories/PropDamage.v
theories/Shared.v
theories/SpecShared.v
theories/SharedProps.v
theories/SharedCut.v
theories/SpecSharedColour.v
theories/SharedColour.v
theories/SharedColourCut.v
theories/PropShared.v
theories/Echo.v
theories/EchoProps.v
theories/EchoMore.v
theories/PropEcho.v
theories/DuplexBuf.v
theories/SpecDuplexBuf.v
theories/DuplexBufProps.v
theories/BufAccount.v
theories/PropDuplexBuf.v
theories/Serve.v
theories/SpecServe.v
theories/ServeProps.v
theories/ServeWait.v
theories/PropServe.v
