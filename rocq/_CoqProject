-Q theories Verif
theories/Base.v
theories/Utf8.v
theories/Num.v
theories/Rules.v
theories/Types.v
theories/Time.v
theories/Iface.v
theories/Checker.v
theories/GoIR.v
theories/GoGen.v
theories/Regex.v
theories/Known.v
theories/GoSem.v
theories/Spec.v
theories/SpecErr.v
theories/Sim.v
theories/Order.v
theories/BaseFacts.v
theories/Utf8Facts.v
theories/RegexFacts.v
theories/KnownFacts.v
theories/NumFacts.v
theories/TimeFacts.v
theories/Wt.v
theories/ExecFacts.v
theories/ExecLeaf.v
theories/ExecRule.v
theories/ExecField.v
theories/ExecMsg.v
theories/Main.v
theories/ValidSame.v
theories/WtDec.v
theories/Setting.v
theories/MainFacts.v
theories/Meaning.v
theories/MeaningFacts.v
theories/FieldFacts.v
theories/Example.v
theories/RuleFacts.v
theories/HostFacts.v
theories/Conflict.v
theories/ConflictFacts.v
theories/SatFacts.v
theories/ConflictEx.v
theories/PropMain.v
theories/PropField.v
theories/PropText.v
theories/PropChecker.v
theories/ErrText.v
theories/ErrTextFacts.v
theories/PropErr.v
theories/Harness.v
theories/HarnessSpec.v
theories/HarnessFacts.v
theories/HarnessRun.v
theories/PropHarness.v
theories/Lit.v
theories/LitSpec.v
theories/LitFacts.v
theories/PropLit.v
theories/Outcome.v
theories/Java.v
theories/Values.v
theories/Says.v
theories/Utf16Facts.v
theories/LangFacts.v
theories/JavaSpec.v
theories/JavaFacts.v
theories/JavaRunFacts.v
theories/JavaEx.v
theories/PropJava.v
theories/JavaGrpc.v
theories/JavaGrpcSpec.v
theories/JavaGrpcFacts.v
theories/PropGrpc.v
theories/Cc.v
theories/CcSpec.v
theories/CcFacts.v
theories/CcRunFacts.v
theories/WtMsgDec.v
theories/CcEx.v
theories/PropCc.v
theories/Py.v
theories/PySpec.v
theories/PyFacts.v
theories/PyRunFacts.v
theories/PyEx.v
theories/PropPy.v
theories/PyCache.v
theories/PyCacheSpec.v
theories/PyCacheFacts.v
theories/PropPyCache.v
theories/GoType.v
theories/GoFit.v
theories/GoTypeFacts.v
theories/GoFieldFacts.v
theories/GoDeclFacts.v
theories/GoCompile.v
theories/GoIdent.v
theories/GoEx.v
theories/PropIdent.v
theories/GoExact.v
theories/PropExact.v
theories/AllSpec.v
theories/AllFacts.v
theories/AllEx.v
theories/PropAll.v
theories/Plugin.v
theories/PluginFacts.v
theories/PropPlugin.v
theories/CcReg.v
theories/CcRegSpec.v
theories/CcRegFacts.v
theories/PropCcReg.v
theories/Tells.v
theories/LangSafe.v
theories/SafeSpec.v
theories/CcSafe.v
theories/JavaSafe.v
theories/PropSafe.v
theories/Report.v
theories/JavaReport.v
theories/CcReport.v
theories/ReportSpec.v
theories/ReportFacts.v
theories/ReportLang.v
theories/JavaReportFacts.v
theories/CcReportFacts.v
theories/ReportGo.v
theories/CcTextFacts.v
theories/PyReport.v
theories/PyReportSpec.v
theories/PyReportFacts.v
theories/PyLabelFacts.v
theories/PropReport.v
theories/ValuesSame.v
theories/HarnessMain.v
theories/HarnessMainSpec.v
theories/HarnessMainFacts.v
theories/PropConform.v
theories/SuiteData.v
theories/Suite.v
theories/SuiteFacts.v
theories/SuiteLangs.v
theories/PropSuite.v
theories/GoFile.v
theories/GoFileSpec.v
theories/GoFileFacts.v
theories/PropFile.v
theories/EvolveSpec.v
theories/EvolveFacts.v
theories/PropEvolve.v
theories/PropEvolveAll.v
theories/TableSpec.v
theories/TableFacts.v
theories/TableLangs.v
theories/TableEx.v
theories/PropTable.v
theories/JavaName.v
theories/JavaNameSpec.v
theories/JavaNameFacts.v
theories/JavaNameLookup.v
theories/JavaNameEx.v
theories/PropJavaName.v
theories/JavaConst.v
theories/JavaConstSpec.v
theories/JavaConstFacts.v
theories/PropJavaConst.v
theories/CcName.v
theories/CcNameSpec.v
theories/CcNameFacts.v
theories/CcTableFacts.v
theories/PropCcName.v
theories/PyLit.v
theories/PyLex.v
theories/PyLitSpec.v
theories/PyLitFacts.v
theories/PyLitMore.v
theories/PyReprFacts.v
theories/PropPyLit.v
theories/PyTemplates.v
theories/Jinja.v
theories/PyLines.v
theories/IndentSame.v
theories/PyLayout.v
theories/PyLayoutSpec.v
theories/PyReach.v
theories/PyReachAlts.v
theories/PyReachFacts.v
theories/PyLayoutFacts.v
theories/PyRuleSpec.v
theories/PyLayoutCases.v
theories/PyLayoutLink.v
theories/PyWrapSpec.v
theories/PyLayoutMore.v
theories/PyFieldSpec.v
theories/PyLayoutField.v
theories/PyLayoutEx.v
theories/PropPyLayout.v
