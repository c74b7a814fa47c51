-Q theories Verif
theories/ListC.v
theories/ListCSpec.v
theories/ListCFacts.v
theories/PropsList.v
theories/CInt.v
theories/Tree.v
theories/SpecResolver.v
theories/State.v
theories/Eval.v
theories/SpecTypes.v
theories/SpecTypesFacts.v
theories/PropsTypes.v
theories/TestEnv.v
theories/StepsFacts.v
theories/MonoFacts.v
theories/SpecScope.v
theories/EvalInv.v
theories/ScopeFacts.v
theories/SpecRun.v
theories/StuckFacts.v
theories/CIntFacts.v
theories/RunFacts.v
theories/SpecExpr.v
theories/RunRules.v
theories/ExprFacts.v
theories/SpecControl.v
theories/ControlFacts.v
theories/SpecStmt.v
theories/StmtFacts.v
theories/CallFacts.v
theories/TestRun.v
theories/TestReturn.v
theories/CondFacts.v
theories/PropsExpr.v
theories/LoopFacts.v
theories/KeepFacts.v
theories/OnceFacts.v
theories/BreakFacts.v
theories/PropsControl.v
theories/SpecNames.v
theories/NameFacts.v
theories/PropsScope.v
theories/SpecVars.v
theories/VarFacts.v
theories/PropsVars.v
theories/SpecCalls.v
theories/ParamFacts.v
theories/ArgFacts.v
theories/SpecStatic.v
theories/StaticFacts.v
theories/PropsCalls.v
theories/PropsStorage.v
theories/SpecPtr.v
theories/PtrFacts.v
theories/SpecEnum.v
theories/EnumFacts.v
theories/PropsPtr.v
theories/SpecStruct.v
theories/StructFacts.v
theories/ObjectFacts.v
theories/PropsStruct.v
theories/SpecExt.v
theories/ExtFacts.v
theories/PropsExt.v
theories/SpecExtern.v
theories/ExternFacts.v
theories/PropsExtern.v
theories/HashTable.v
theories/HashTableFacts.v
theories/PropsHash.v
theories/Typename.v
theories/SpecTypename.v
theories/TypenameFacts.v
theories/PropsTypename.v
theories/Lexer.v
theories/SpecLexer.v
theories/LexerFacts.v
theories/LexerFacts2.v
theories/LexerFacts3.v
theories/SpecScan.v
theories/ScanFacts.v
theories/TestScan.v
theories/PropsScan.v
theories/PropsLexer.v
theories/Gc.v
theories/SpecGc.v
theories/GcFacts.v
theories/GcFacts2.v
theories/PropsGc.v
theories/Lang.v
theories/SpecLang.v
theories/CLang.v
theories/LangFacts.v
theories/LangFacts2.v
theories/PropsLang.v
theories/Repl.v
theories/SpecRepl.v
theories/ReplFacts.v
theories/PropsRepl.v
theories/CScript.v
theories/SpecCScript.v
theories/CScriptFacts.v
theories/PropsCScript.v
theories/Grammar.v
theories/LR.v
theories/GrammarTables.v
theories/ParserFacts.v
theories/SpecSyntax.v
theories/SpecParser.v
theories/SyntaxFacts.v
theories/AdjacentFacts.v
theories/SyntaxProps.v
theories/PropsParser.v
theories/Session.v
theories/SpecSession.v
theories/SessionFacts.v
theories/SessionFacts2.v
theories/PropsSession.v
theories/SpecPrint.v
theories/PrintFacts.v
theories/PropsPrint.v
theories/Main.v
theories/SpecMain.v
theories/MainFacts.v
theories/PropsMain.v
theories/SpecAssign.v
theories/AssignFacts.v
theories/PropsAssign.v
theories/SpecInspect.v
theories/InspectFacts.v
theories/PropsInspect.v
theories/SpecBuiltin.v
theories/BuiltinFacts.v
theories/PropsBuiltin.v
theories/Startup.v
theories/SpecStartup.v
theories/StartupFacts.v
theories/PropsStartup.v
theories/Dump.v
theories/SpecDump.v
theories/DumpFacts.v
theories/PropsDump.v
theories/Dot.v
theories/SpecDot.v
theories/DotFacts.v
theories/PropsDot.v
