-Q theories Verif
theories/PyBase.v
theories/Regex.v
theories/Patterns.v
theories/Json.v
theories/Literal.v
theories/Props.v
theories/Checks.v
theories/Statements.v
theories/AsciiRt.v
theories/FS.v
theories/Data.v
theories/Store.v
theories/Make.v
theories/Find.v
theories/Query.v
theories/Gdbms.v
theories/BaseFacts.v
theories/RegexSpec.v
theories/RegexFacts.v
theories/SpecText.v
theories/RegexMore.v
theories/ChecksFacts.v
theories/Prop_Regex.v
theories/Prop_Text.v
theories/JsonFacts.v
theories/RtLaws.v
theories/PropsFacts.v
theories/FSFacts.v
theories/SpecStore.v
theories/StoreFacts.v
theories/StoreMore.v
theories/IndexText.v
theories/AsciiFacts.v
theories/SpecJson.v
theories/JsonMore.v
theories/Prop_Json.v
theories/Prop_Store.v
theories/SpecMake.v
theories/MakeFacts.v
theories/MakeRun.v
theories/MakeMore.v
theories/SpecHistory.v
theories/HistoryFacts.v
theories/MakeFinal.v
theories/Prop_Make.v
theories/Prop_History.v
theories/SpecPattern.v
theories/PatternFacts.v
theories/SpecGrammar.v
theories/GrammarFacts.v
theories/StatementFacts.v
theories/AcceptFacts.v
theories/AcceptMore.v
theories/Prop_Pattern.v
theories/SpecFind.v
theories/FindFacts.v
theories/QueryFacts.v
theories/SpecShell.v
theories/Confine.v
theories/ShellFacts.v
theories/OneLine.v
theories/Prop_Find.v
theories/Prop_Query.v
theories/SpecCrash.v
theories/Torn.v
theories/CrashFacts.v
theories/Prop_Crash.v
theories/SpecConc.v
theories/ConcFacts.v
theories/Prop_Conc.v
theories/SpecGdbms.v
theories/GdbmsFacts.v
theories/Prop_Gdbms.v
theories/SpecValue.v
theories/ValueFacts.v
theories/ListFacts.v
theories/ValueMore.v
theories/Prop_Value.v
theories/SpecWhole.v
theories/WholeFacts.v
theories/WholeMore.v
theories/WholeQuery.v
theories/Prop_Whole.v
theories/SpecSound.v
theories/SoundFacts.v
theories/Prop_Sound.v
theories/SpecChecks.v
theories/CheckMore.v
theories/Prop_Checks.v
theories/SpecProps.v
theories/PropsAny.v
theories/PropsCut.v
theories/Prop_Props.v
theories/Criteria.v
theories/SpecCriteria.v
theories/CriteriaFacts.v
theories/Prop_Criteria.v
theories/SpecDurable.v
theories/DurableFacts.v
theories/Prop_Durable.v
theories/SpecBeside.v
theories/BesideFacts.v
theories/Prop_Beside.v
theories/SpecMany.v
theories/ManyFacts.v
theories/Prop_Many.v
theories/SpecRuns.v
theories/RunsFacts.v
theories/Prop_Runs.v
theories/Messages.v
theories/SpecMessages.v
theories/MessagesFacts.v
theories/Prop_Messages.v
theories/SpecLines.v
theories/LinesFacts.v
theories/Prop_Lines.v
theories/MessagesRun.v
theories/SpecMessagesRun.v
theories/MessagesRunFacts.v
theories/SpecShown.v
theories/ShownFacts.v
theories/Prop_MessagesRun.v
theories/SpecSchema.v
theories/SchemaFacts.v
theories/SchemaMore.v
theories/Prop_Schema.v
theories/SpecPieces.v
theories/PiecesFacts.v
theories/Prop_Pieces.v
theories/SpecSplit.v
theories/SplitFacts.v
theories/Prop_Split.v
theories/Objects.v
theories/SpecObjects.v
theories/ObjectsFacts.v
theories/ObjectsPrint.v
theories/Prop_Objects.v
theories/SpecProc.v
theories/ProcFacts.v
theories/Prop_Proc.v
theories/SpecTwin.v
theories/TwinFacts.v
theories/Prop_Twin.v
theories/Log.v
theories/SpecLog.v
theories/LogFacts.v
theories/LogMore.v
theories/LogLevel.v
theories/Prop_Log.v
theories/OsNames.v
theories/SpecOsNames.v
theories/OsFacts.v
theories/OsMore.v
theories/OsEffects.v
theories/Prop_OsNames.v
theories/SpecAmid.v
theories/AmidFacts.v
theories/AmidMore.v
theories/AmidDelete.v
theories/Prop_Amid.v
theories/SpecCut.v
theories/CutFacts.v
theories/CutMore.v
theories/CutDelete.v
theories/CutKept.v
theories/Prop_Cut.v
theories/SpecUsers.v
theories/UsersFacts.v
theories/UsersMore.v
theories/Prop_Users.v
theories/SpecWild.v
theories/WildFacts.v
theories/WildDelete.v
theories/Prop_Wild.v
theories/SameFacts.v
theories/Prop_Same.v
theories/ShiftFacts.v
theories/SpecDepend.v
theories/DependFacts.v
theories/Prop_Depend.v
theories/SpecOrder.v
theories/OrderFacts.v
theories/Prop_Order.v
theories/Terminal.v
theories/SpecTerminal.v
theories/TerminalFacts.v
theories/Prop_Terminal.v
theories/WordTest.v
theories/SpecWords.v
theories/WordFacts.v
theories/Prop_Words.v
theories/SpecExamples.v
theories/ExampleFacts.v
theories/Prop_Examples.v
theories/PatternCount.v
theories/SpecCount.v
theories/CountFacts.v
theories/Prop_Count.v
theories/SpecLine.v
theories/LineFacts.v
theories/ObjectsRefuse.v
theories/SpecLogValue.v
theories/LogValue.v
theories/Prop_LogValue.v
