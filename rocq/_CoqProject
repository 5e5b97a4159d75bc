-Q theories Verif
theories/TabSingle.v
theories/TabBig5.v
theories/TabSjis.v
theories/RefSingle.v
theories/RefBig5.v
theories/RefSjis.v
theories/Encodings.v
theories/Spec.v
theories/Prelude.v
theories/RustCore.v
theories/Types.v
theories/ModelUtf8.v
theories/ModelUtf16Le.v
theories/ModelUtf16Be.v
theories/EndianUtf16.v
theories/ModelUtf32Le.v
theories/ModelUtf32Be.v
theories/EndianUtf32.v
theories/ModelSingleByte.v
theories/ModelBig5.v
theories/ModelShiftJis.v
theories/ModelApi.v
theories/Tac.v
theories/ProofUtf8.v
theories/Engine.v
theories/Search.v
theories/NextEnc.v
theories/NextDec.v
theories/NextUtf8.v
theories/Trie.v
theories/Tables.v
theories/SpecErrors.v
theories/Units.v
theories/Decide.v
theories/Greedy.v
theories/ProofApi.v
theories/PropCalls.v
theories/Session.v
theories/ProofSession.v
theories/ProofMore.v
theories/ProofRound.v
theories/PropStream.v
theories/PropFill.v
theories/PropRound.v
theories/RefPython.v
theories/RefBig5_2003.v
theories/PropCodecs.v
theories/SpecWhatwg.v
theories/ProofWhatwg.v
theories/PropWhatwg.v
theories/PropEndian.v
theories/SpecRecover.v
theories/ProofRecover.v
theories/PropRecover.v
theories/ModelGen.v
theories/ProofGen.v
theories/PropGen.v
theories/TestData.v
theories/ModelTests.v
theories/ProofTests.v
theories/PropTests.v
theories/RepoTests.v
theories/FileText.v
theories/FileBig5.v
theories/FileSjis.v
theories/FileSingle.v
theories/SpecFiles.v
theories/ModelScripts.v
theories/ProofScripts.v
theories/ProofFiles.v
theories/PropScripts.v
theories/SpecSubst.v
theories/ProofSubst.v
theories/PropSubst.v
theories/PropSearch.v
theories/PropResync.v
theories/PropOrder.v
theories/ModelWord.v
theories/ProofWord.v
theories/PropWord.v
theories/SpecCalls.v
theories/ProofSpec.v
theories/PropSpec.v
theories/SpecConvert.v
theories/PropConvert.v
theories/ModelFiles.v
theories/SpecPaths.v
theories/ProofPaths.v
theories/PropPaths.v
theories/SpecLook.v
theories/ProofLook.v
theories/PropLook.v
theories/PropCore.v
theories/PropReencode.v
theories/FileSource.v
theories/RustSyntax.v
theories/RustLex.v
theories/RustParse.v
theories/RustEval.v
theories/RustProgram.v
theories/SourceCrate.v
theories/SourceWhatwg.v
theories/SourceAst.v
theories/SourceApi.v
theories/RustRules.v
theories/ProofSrc.v
theories/ProofSrcUtf.v
theories/ProofSrcDec.v
theories/ProofSrcUtfDec.v
theories/ProofSrcSb.v
theories/ProofSrcSjisEnc.v
theories/ProofSrcSjisDec.v
theories/ProofSrcBig5Enc.v
theories/ProofSrcBig5Dec.v
theories/ProofSrcUtf8.v
theories/ProofSrcTables.v
theories/ProofSrcAll.v
theories/PropSource.v
theories/RustLink.v
theories/SourceWrapper.v
theories/ProofSrcLink.v
theories/ProofSrcWrap.v
theories/PropWrapper.v
theories/FileScripts.v
theories/PySyntax.v
theories/PyLex.v
theories/PyParse.v
theories/PyEval.v
theories/SourceScripts.v
theories/ScriptAst.v
theories/ProofPy.v
theories/ProofPyLoad.v
theories/ProofPyDedup.v
theories/ProofPyTables.v
theories/ProofPyTables2.v
theories/ProofPyTest.v
theories/ProofPyWhatwg.v
theories/ProofPyAscii.v
theories/ProofPySingle.v
theories/PropPython.v
theories/FileTests.v
theories/SourceTests.v
theories/ProofSrcTests.v
theories/ProofSrcTestsRun.v
theories/ProofSrcTestsAll.v
theories/ProofSrcFiles.v
theories/ProofSrcUnits.v
theories/ProofSrcUnitsRun.v
theories/PropOwnTests.v
theories/ProofSrcBounds.v
theories/ProofPyBounds.v
theories/PropBounds.v
theories/SourceDocs.v
theories/ProofSrcDocs.v
theories/PropDocs.v
theories/ProofIter.v
theories/RustExports.v
theories/SourceExports.v
theories/ProofExports.v
theories/PropExports.v
theories/ProofIterMore.v
theories/PropIter.v
