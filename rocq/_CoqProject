-Q theories Verif
theories/GoStr.v
theories/TestLang.v
theories/Validate.v
theories/Trace.v
theories/Csv.v
theories/Stm.v
theories/Cpp.v
theories/Json.v
theories/Spec.v
theories/GoStrProofs.v
theories/SpecLang.v
theories/TestLangProofs.v
theories/TraceProofs.v
theories/PropText.v
theories/SpecTree.v
theories/ValidateProofs.v
theories/PropTree.v
theories/SpecTrace.v
theories/NamingProofs.v
theories/SpecCsv.v
theories/CsvProofs.v
theories/PropTrace.v
theories/SpecStm.v
theories/SpecCpp.v
theories/StmProofs.v
theories/MachineProofs.v
theories/TypeProofs.v
theories/AggProofs.v
theories/BuildProofs.v
theories/PropStm.v
theories/LitProofs.v
theories/CppProofs.v
theories/EraseProofs.v
theories/ChainProofs.v
theories/SpecRos.v
theories/CppCheck.v
theories/PropCpp.v
theories/PropCppTrace.v
theories/PropCppRun.v
theories/PropCppDecl.v
theories/PropRos.v
theories/Gen.v
theories/SpecGen.v
theories/PathProofs.v
theories/PropConfig.v
theories/PropGen.v
theories/SpecGenRun.v
theories/PropGenRun.v
theories/Tools.v
theories/SpecTools.v
theories/SpecJson.v
theories/JsonProofs.v
theories/MergeProofs.v
theories/CodecProofs.v
theories/BuiltProofs.v
theories/PropJson.v
theories/DecProofs.v
theories/PropEntry.v
theories/Text.v
theories/Xml.v
theories/MainText.v
theories/SpecText.v
theories/TextProofs.v
theories/PropBuild.v
theories/PropCmake.v
theories/SpecXml.v
theories/XmlProofs.v
theories/PropXml.v
theories/SpecHeader.v
theories/SpecCxx.v
theories/CxxProofs.v
theories/LexProofs.v
theories/MainAst.v
theories/MainLex.v
theories/MainLex2.v
theories/MainLex3.v
theories/SpecMain.v
theories/SpecRun.v
theories/SpecSession.v
theories/MainOk.v
theories/RunBase.v
theories/RunNames.v
theories/RunStm.v
theories/RunOk.v
theories/SpecStatic.v
theories/PropHeader.v
theories/StaticProofs.v
theories/StaticMain.v
theories/SpecTypes.v
theories/StaticTypes.v
theories/TypesMachine.v
theories/TypesMain.v
theories/TypesFile.v
theories/PropMainTypes.v
theories/PropMainExact.v
theories/SpecCompile.v
theories/PropCompile.v
theories/PropMain.v
theories/PropStatic.v
theories/SpecOrder.v
theories/PropOrder.v
theories/SpecJsonText.v
theories/JsonTextProofs.v
theories/PropJsonText.v
theories/SpecMerge.v
theories/MergeSays.v
theories/MergeOk.v
theories/PropMerge.v
theories/XmlRead.v
theories/SpecConfigText.v
theories/FillProofs.v
theories/XmlLexProofs.v
theories/XmlTextProofs.v
theories/XmlTagProofs.v
theories/XmlDocProofs.v
theories/PropConfigText.v
theories/PropTools.v
theories/SpecChain.v
theories/PropChain.v
theories/Nulls.v
theories/SpecNulls.v
theories/PropNulls.v
theories/Process.v
theories/SpecProcess.v
theories/PropProcess.v
theories/Prelude.v
theories/SpecPrelude.v
theories/PropPrelude.v
theories/SpecConvert.v
theories/PropConvert.v
theories/PropBmon.v
theories/PropTyped.v
theories/SpecLink.v
theories/PropLink.v
theories/Crash.v
theories/SpecCrash.v
theories/PropCrash.v
theories/SpecTruncate.v
theories/PropTruncate.v
theories/Faults.v
theories/SpecFaults.v
theories/PropFaults.v
theories/Conc.v
theories/SpecConc.v
theories/PropConc.v
