-Q theories Verif
theories/Words.v
theories/Spec.v
theories/Tables.v
theories/Transform.v
theories/Machine.v
theories/Vocab.v
theories/Context.v
theories/Hash.v
theories/WordFacts.v
theories/BlockFacts.v
theories/ShaFacts.v
theories/Sha2Facts.v
theories/MachineFacts.v
theories/TransformFacts.v
theories/ContextFacts.v
theories/DigestFacts.v
theories/ReprFacts.v
theories/HashFacts.v
theories/HmacFacts.v
theories/History.v
theories/HistoryFacts.v
theories/LibProofs.v
theories/LibTheorems.v
theories/ErrorVocab.v
theories/ErrorFacts.v
theories/ToolErrorFacts.v
theories/Demo.v
theories/ModelEval.v
theories/SpecTests.v
theories/Witness.v
theories/PropDigest.v
theories/PropHmac.v
theories/PropContext.v
theories/BuildFacts.v
theories/ByteStream.v
theories/ByteStreamFacts.v
theories/PropBuild.v
theories/PropByteStream.v
theories/TableFacts.v
theories/PropTables.v
theories/ToolStrings.v
theories/ToolVocab.v
theories/ToolStringsFacts.v
theories/ToolConvertFacts.v
theories/ToolProofs.v
theories/PropStrings.v
theories/SumHandle.v
theories/SumVocab.v
theories/SumFacts.v
theories/SumProcess.v
theories/SumMain.v
theories/SumSelect.v
theories/SumProgram.v
theories/SumTheorems.v
theories/PropSum.v
theories/Getopt.v
theories/GetoptVocab.v
theories/GetoptFacts.v
theories/PropGetopt.v
theories/Evp.v
theories/EvpVocab.v
theories/EvpFacts.v
theories/EvpTheorems.v
theories/PropEvp.v
theories/Py.v
theories/PyVocab.v
theories/PyFacts.v
theories/PyProgram.v
theories/PyTheorems.v
theories/PropPython.v
theories/Threads.v
theories/ThreadFacts.v
theories/ThreadVocab.v
theories/ThreadTheorems.v
theories/PropThreads.v
theories/Trace.v
theories/TraceVocab.v
theories/TraceErase.v
theories/TraceFacts.v
theories/TraceLow.v
theories/TraceBlocks.v
theories/TraceTheorems.v
theories/PropTrace.v
theories/CollVocab.v
theories/CollFacts.v
theories/PropCollision.v
theories/PyError.v
theories/PyErrorVocab.v
theories/PyErrorFacts.v
theories/PyModule.v
theories/PyModuleVocab.v
theories/PyModuleFacts.v
theories/PropPyModule.v
theories/Signal.v
theories/SignalVocab.v
theories/SignalFacts.v
theories/PropSignal.v
theories/Fuzz.v
theories/FuzzFacts.v
theories/PropFuzz.v
theories/PropErrors.v
theories/SumErrorVocab.v
theories/SumErrors.v
theories/SumEntry.v
theories/SumEntryFacts.v
theories/PropSumErrors.v
theories/EvpErrorVocab.v
theories/EvpErrors.v
theories/EvpMemory.v
theories/PropEvpErrors.v
theories/CText.v
theories/TextMd5.v
theories/TextSha1.v
theories/TextSha224.v
theories/TextSha256.v
theories/TextSha512.v
theories/TextAll.v
theories/TextFacts.v
theories/TextContext.v
theories/TextUpdate.v
theories/TextLoops.v
theories/TextMd5Facts.v
theories/TextSha1Facts.v
theories/TextSha224Facts.v
theories/TextSha256Facts.v
theories/TextSha512Facts.v
theories/TextWhile.v
theories/TextTransform.v
theories/TextBytes.v
theories/TextFinalize.v
theories/TextSteps.v
theories/TextHash.v
theories/TextHmac.v
theories/TextRun.v
theories/PropText.v
theories/TextTools.v
theories/ToolCalls.v
theories/TextDigest.v
theories/TextSizes.v
theories/TextCreate.v
theories/TextGetopt.v
theories/TextToolRun.v
theories/PropToolText.v
theories/TextSum.v
theories/SumCalls.v
theories/TextSumSteps.v
theories/TextSumSmall.v
theories/TextSumHash.v
theories/TextSumInit.v
theories/TextSumTypes.v
theories/TextSumEnd.v
theories/TextSumProcess.v
theories/TextSumRun.v
theories/PropSumText.v
theories/TextMain.v
theories/MainCalls.v
theories/TextMainRun.v
theories/PropMainText.v
theories/TextStart.v
theories/StartCalls.v
theories/OptionFacts.v
theories/TextStartRun.v
theories/PropStartText.v
theories/TextTests.v
theories/TextEvp.v
theories/EvpCalls.v
theories/TextEvpSteps.v
theories/TextEvpFree.v
theories/TextEvpInit.v
theories/TextEvpUpdate.v
theories/TextEvpFinalize.v
theories/TextEvpClient.v
theories/PropEvpText.v
theories/EvpHash.v
theories/TextEvpHash.v
theories/TextEvpAll.v
theories/TextEvpHashClient.v
theories/PropEvpHash.v
theories/TextEvpErrors.v
theories/PropEvpTextErrors.v
