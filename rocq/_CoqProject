-Q theories Verif
theories/Word.v
theories/WordFacts.v
theories/Prog.v
theories/Tables.v
theories/Components.v
theories/Machine.v
theories/ZMachine.v
theories/ZWord.v
theories/ZRefine.v
theories/ZRefineB.v
theories/ZRefineC.v
theories/Rtl.v
theories/Isa.v
theories/Micro.v
theories/MicroIsa.v
theories/IsaOps.v
theories/LinkedList.v
theories/PubSub.v
theories/Api.v
theories/HeapSim.v
theories/Lifecycle.v
theories/Drive.v
theories/ApiFacts.v
theories/Usage.v
theories/Track.v
theories/Reach.v
theories/Front.v
theories/Runs.v
theories/IsaFacts.v
theories/PropsIsa.v
theories/PropsRun.v
theories/PropsApi.v
theories/PropsLife.v
theories/PubSubPtr.v
theories/PubSubSpec.v
theories/PropsBus.v
theories/Gates.v
theories/PropsUnits.v
theories/PropsGuard.v
theories/JsStr.v
theories/AsmTable.v
theories/Asm.v
theories/AsmSpec.v
theories/Source.v
theories/AsmRe.v
theories/AsmLine.v
theories/AsmFacts.v
theories/AsmExec.v
theories/AsmProg.v
theories/AsmErr.v
theories/PropsAsm.v
theories/Disasm.v
theories/DisasmFacts.v
theories/PropsDisasm.v
theories/PropsLoad.v
theories/Shown.v
theories/IsaRun.v
theories/IsaExamples.v
theories/PropsExamples.v
theories/BusSpec.v
theories/Buses.v
theories/PropsBuses.v
theories/View.v
theories/ViewSpec.v
theories/PropsView.v
theories/Buttons.v
theories/PropsButtons.v
theories/Editor.v
theories/PropsEditor.v
theories/NumBox.v
theories/PropsNumBox.v
theories/Connect.v
theories/PropsConnect.v
theories/DocRuns.v
theories/PropsDocs.v
theories/PropsMicro.v
theories/PropsSource.v
theories/Settings.v
theories/PropsSettings.v
theories/I18nTable.v
theories/I18n.v
theories/PropsI18n.v
theories/Logger.v
theories/PropsLogger.v
theories/Utils.v
theories/PropsUtils.v
theories/TextIo.v
theories/PropsTextIo.v
theories/Completer.v
theories/PropsCompleter.v
theories/Changelog.v
theories/PropsChangelog.v
theories/Highlight.v
theories/PropsHighlight.v
theories/Screen.v
theories/PropsScreen.v
theories/Exercises.v
theories/PropsExercises.v
theories/PropsTyped.v
theories/PropsFootprint.v
theories/PropsCount.v
theories/Runner.v
theories/PropsRunner.v
theories/Labels.v
theories/PropsLabels.v
theories/Access.v
theories/PropsRepro.v
theories/Marks.v
theories/PropsMarks.v
theories/PropsSpelling.v
theories/PropsEndless.v
theories/CycleTime.v
theories/PropsCycleTime.v
theories/PropsEdits.v
theories/AppStart.v
theories/PropsAppStart.v
theories/PropsListing.v
theories/DocsHighlight.v
theories/PropsDocsHighlight.v
theories/Whole.v
theories/PropsWhole.v
theories/DocsSite.v
theories/PropsDocsSite.v
theories/Alone.v
theories/PropsAlone.v
theories/Tabs.v
theories/PropsTabs.v
theories/PropsWide.v
theories/PropsBlanks.v
theories/Notify.v
theories/PropsNotify.v
theories/Floating.v
theories/PropsFloating.v
theories/DocLang.v
theories/PropsDocLang.v
theories/Relocate.v
theories/PropsRelocate.v
theories/PropsMoved.v
theories/PropsAnywhere.v
theories/PropsOwnLines.v
theories/PropsForward.v
theories/PropsDepends.v
theories/PropsBalanced.v
theories/PropsRoutines.v
theories/PropsReturns.v
theories/PropsRoutinesEnd.v
theories/PropsTight.v
theories/PropsKeepStack.v
theories/PropsTight2.v
theories/PropsStackBytes.v
theories/PropsRoutinesCase.v
theories/PropsPushPop.v
