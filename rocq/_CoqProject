-Q theories Verif

theories/Machine.v
theories/Gen/Unicode7.v
theories/Gen/Unicode8.v
theories/Gen/Unicode9.v
theories/Gen/Unicode10.v
theories/Gen/Unicode11.v
theories/Gen/Unicode12.v
theories/Gen/Unicode13.v
theories/Gen/Unicode14.v
theories/Gen/Unicode15.v
theories/Gen/Unicode16.v
theories/Gen/Ucd7.v
theories/Gen/Ucd8.v
theories/Gen/Ucd9.v
theories/Gen/Ucd10.v
theories/Gen/Ucd11.v
theories/Gen/Ucd12.v
theories/Gen/Ucd13.v
theories/Gen/Ucd14.v
theories/Gen/Ucd15.v
theories/Gen/Ucd16.v
theories/Model/Internal.v
theories/Model/Decode.v
theories/Model/Tables.v
theories/Model/Predicate.v
theories/Model/Str.v
theories/Model/Lower.v
theories/Model/CodePage.v
theories/Model/SplitJoin.v
theories/Model/Trim.v
theories/Model/Wide.v
theories/Spec/Utf.v
theories/Proof/Bits.v
theories/Proof/Encode.v
theories/Proof/DecodeFacts.v
theories/Proof/TextFacts.v
theories/Spec/Target.v
theories/Spec/Result.v
theories/Proof/ToFuncs.v
theories/Proof/IsFuncs.v
theories/Proof/Lenient.v
theories/Proof/LengthFuncs.v
theories/Proof/Round.v
theories/Proof/Consequences.v
theories/Spec/Lex.v
theories/Proof/Order.v
theories/Proof/Calls.v
theories/Spec/Ucd.v
theories/Proof/Sweep.v
theories/Proof/Witness.v
theories/Props/Convert.v
theories/Props/RoundTrip.v
theories/Spec/Lowercase.v
theories/Spec/Case.v
theories/Spec/Chain.v
theories/Proof/Classes.v
theories/Proof/LowerTools.v
theories/Proof/Assigned7.v
theories/Proof/Assigned8.v
theories/Proof/Assigned9.v
theories/Proof/Assigned10.v
theories/Proof/Assigned11.v
theories/Proof/Assigned12.v
theories/Proof/Assigned13.v
theories/Proof/Assigned14.v
theories/Proof/Assigned15.v
theories/Proof/Assigned16.v
theories/Proof/Lower7.v
theories/Proof/Lower8.v
theories/Proof/Lower9.v
theories/Proof/Lower10.v
theories/Proof/Lower11.v
theories/Proof/Lower12.v
theories/Proof/Lower13.v
theories/Proof/Lower14.v
theories/Proof/Lower15.v
theories/Proof/Lower16.v
theories/Proof/TablesFacts.v
theories/Proof/CaseFacts.v
theories/Proof/CaseWitness.v
theories/Proof/Predicates.v
theories/Proof/PredicateWitness.v
theories/Props/Predicates.v
theories/Props/Case.v
theories/Proof/ValidateWitness.v
theories/Props/Validate.v
theories/Spec/Bounded.v
theories/Spec/Text.v
theories/Spec/CodePage.v
theories/Proof/BoundedStep.v
theories/Proof/Bounded8.v
theories/Proof/Bounded16.v
theories/Proof/MemoryWitness.v
theories/Proof/MemoryCases.v
theories/Proof/SplitFacts.v
theories/Proof/TrimFacts.v
theories/Proof/CodePageFacts.v
theories/Props/Memory.v
theories/Props/Length.v
theories/Props/Text.v
theories/Props/CodePage.v
theories/Model/Sugar.v
theories/Model/Tchar.v
theories/Spec/Version.v
theories/Proof/WideFacts.v
theories/Proof/TcharFacts.v
theories/Props/Wide.v
theories/Tests/Support.v
theories/Tests/encode_predicate_test.v
theories/Tests/string_decode_utf8_test.v
theories/Tests/string_splitjoin_test.v
theories/Tests/string_test.v
theories/Tests/string_tolower_test10.v
theories/Tests/string_tolower_test11.v
theories/Tests/string_tolower_test12.v
theories/Tests/string_tolower_test13.v
theories/Tests/string_tolower_test14.v
theories/Tests/string_tolower_test15.v
theories/Tests/string_tolower_test16.v
theories/Tests/string_tolower_test7.v
theories/Tests/string_tolower_test8.v
theories/Tests/string_tolower_test9.v
theories/Tests/string_trim_test.v
theories/Tests/string_wchar_tchar.v
theories/Tests/string_wide_tchar.v
theories/Tests/string_with_predicate_test.v
theories/Model/TestData.v
theories/Spec/TestData.v
theories/Proof/TestDataFacts.v
theories/Props/TestData.v
theories/Spec/Prefix.v
theories/Proof/PrefixFacts.v
theories/Props/Prefix.v
theories/Proof/LowerPairs.v
theories/Spec/Laws.v
theories/Proof/LowerMore.v
theories/Proof/VersionFacts.v
theories/Proof/Algebra.v
theories/Proof/LawsWitness.v
theories/Props/Laws.v
theories/Model/TestMain.v
theories/Proof/TestMainFacts.v
theories/Props/TestMain.v
theories/Cxx/Syntax.v
theories/Cxx/Semantics.v
theories/Gen/Source.v
theories/Gen/Bits7.v
theories/Gen/Bits8.v
theories/Gen/Bits9.v
theories/Gen/Bits10.v
theories/Gen/Bits11.v
theories/Gen/Bits12.v
theories/Gen/Bits13.v
theories/Gen/Bits14.v
theories/Gen/Bits15.v
theories/Gen/Bits16.v
theories/Cxx/Configurations.v
theories/Cxx/Program.v
theories/Cxx/Values.v
theories/Proof/CxxMono.v
theories/Proof/CxxTools.v
theories/Proof/CxxRaw.v
theories/Proof/CxxInternal.v
theories/Proof/CxxDecode.v
theories/Proof/CxxPred.v
theories/Proof/CxxHelpers.v
theories/Proof/CxxChecks.v
theories/Proof/CxxUtf8.v
theories/Proof/CxxSugar.v
theories/Proof/CxxAnswers.v
theories/Proof/CxxConvert.v
theories/Proof/CxxLength.v
theories/Proof/CxxLength8.v
theories/Proof/CxxLengths.v
theories/Proof/CxxResults.v
theories/Spec/Source.v
theories/Proof/CxxEndToEnd.v
theories/Props/Source.v
theories/Props/SourceResults.v
theories/Proof/CxxLower.v
theories/Proof/CxxRanges.v
theories/Proof/CxxLowers.v
theories/Proof/CxxCodePage.v
theories/Proof/CxxTrim.v
theories/Proof/CxxTrims.v
theories/Proof/CxxJoin.v
theories/Proof/CxxSplit.v
theories/Proof/CxxWide.v
theories/Proof/CxxMore.v
theories/Proof/CxxWide16.v
theories/Proof/CxxWides.v
theories/Proof/CxxWides16.v
theories/Proof/CxxRest.v
theories/Props/SourceMore.v
theories/Cxx/Linked.v
theories/Proof/CxxPure.v
theories/Proof/CxxLink.v
theories/Proof/CxxLinked.v
theories/Proof/CxxBits7.v
theories/Proof/CxxBits8.v
theories/Proof/CxxBits9.v
theories/Proof/CxxBits10.v
theories/Proof/CxxBits11.v
theories/Proof/CxxBits12.v
theories/Proof/CxxBits13.v
theories/Proof/CxxBits14.v
theories/Proof/CxxBits15.v
theories/Proof/CxxBits16.v
theories/Spec/Linked.v
theories/Proof/CxxWhole.v
theories/Props/SourceLinked.v
theories/Spec/WideSource.v
theories/Proof/CxxWideEnd.v
theories/Props/SourceWide.v
theories/Spec/Safe.v
theories/Proof/CxxSafe.v
theories/Props/SourceSafe.v
theories/Gen/Text.v
theories/Gen/Text7.v
theories/Gen/Text8.v
theories/Gen/Text9.v
theories/Gen/Text10.v
theories/Gen/Text11.v
theories/Gen/Text12.v
theories/Gen/Text13.v
theories/Gen/Text14.v
theories/Gen/Text15.v
theories/Gen/Text16.v
theories/Cxx/Lexer.v
theories/Cxx/Parser.v
theories/Cxx/Compile.v
theories/Cxx/FromText.v
theories/Proof/CxxText.v
theories/Proof/CxxTextEnd.v
theories/Props/SourceText.v
theories/Gen/TextTool.v
theories/Cxx/Tool.v
theories/Cxx/ToolParser.v
theories/Cxx/ToolText.v
theories/Proof/CxxTool.v
theories/Proof/CxxToolMain.v
theories/Proof/CxxToolEnd.v
theories/Props/SourceTool.v
theories/Model/Make.v
theories/Spec/Install.v
theories/Proof/InstallFacts.v
theories/Proof/InstallRun.v
theories/Proof/InstallDone.v
theories/Proof/InstallUndo.v
theories/Proof/InstallGather.v
theories/Proof/InstallRest.v
theories/Proof/InstallCase.v
theories/Props/Install.v
theories/Model/Stamps.v
theories/Model/Targets.v
theories/Spec/Fresh.v
theories/Proof/Stamps.v
theories/Proof/StampsUnix.v
theories/Proof/StampsCase.v
theories/Proof/Targets.v
theories/Proof/TargetsCase.v
theories/Props/Stamps.v
theories/Props/Targets.v
theories/Model/Unix.v
theories/Spec/Unix.v
theories/Proof/Unix.v
theories/Proof/UnixDone.v
theories/Proof/UnixUndo.v
theories/Proof/UnixRest.v
theories/Proof/UnixCase.v
theories/Props/Unix.v
theories/Model/Configure.v
theories/Spec/Configure.v
theories/Proof/Configure.v
theories/Props/Configure.v
theories/Model/Nsis.v
theories/Spec/Nsis.v
theories/Proof/Nsis.v
theories/Proof/NsisDone.v
theories/Proof/NsisCase.v
theories/Props/Nsis.v
theories/Model/Find.v
theories/Spec/Find.v
theories/Proof/Find.v
theories/Proof/FindCase.v
theories/Props/Find.v
theories/Gen/TextScripts.v
theories/Model/NsisText.v
theories/Proof/NsisText.v
theories/Props/NsisText.v
theories/Model/Cmake.v
theories/Model/FindText.v
theories/Proof/CmakePaths.v
theories/Proof/FindBlocks.v
theories/Proof/FindSearch.v
theories/Proof/FindPlace.v
theories/Proof/FindRest.v
theories/Proof/FindTextCase.v
theories/Props/FindText.v
theories/Gen/Files.v
theories/Gen/TextLists.v
theories/Model/Lists.v
theories/Model/ListsWanted.v
theories/Spec/Lists.v
theories/Proof/ListsRun.v
theories/Proof/ListsParts.v
theories/Proof/ListsBuild.v
theories/Proof/ListsPack.v
theories/Proof/ListsAll.v
theories/Proof/ListsCase.v
theories/Proof/ListsWorlds.v
theories/Props/Lists.v
theories/Proof/ListsAgree.v
theories/Props/ListsAgree.v
theories/Spec/ListsOrder.v
theories/Proof/ListsOrder.v
theories/Props/ListsOrder.v
theories/Spec/ListsInputs.v
theories/Proof/ListsInputs.v
theories/Props/ListsInputs.v
theories/Gen/TextSubmods.v
theories/Model/Submods.v
theories/Spec/Submods.v
theories/Proof/Submods.v
theories/Props/Submods.v
theories/Gen/TextCmd.v
theories/Model/Cmd.v
theories/Spec/Cmd.v
theories/Proof/Cmd.v
theories/Props/Cmd.v
theories/Gen/TextMakefile.v
theories/Model/Makefile.v
theories/Spec/Makefile.v
theories/Proof/Makefile.v
theories/Props/Makefile.v
theories/Proof/Configured.v
theories/Props/Configured.v
theories/Gen/TextAsan.v
theories/Model/Asan.v
theories/Spec/Asan.v
theories/Proof/Asan.v
theories/Props/Asan.v
