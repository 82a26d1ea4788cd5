-Q theories Verif

theories/PyStr.v
theories/PyStrFacts.v
theories/Requirements.v
theories/RequirementsFacts.v
theories/Marker.v
theories/MarkerSpec.v
theories/MarkerFacts.v
theories/MaskSpec.v
theories/MaskFacts.v
theories/PropertiesText.v
theories/PyDict.v
theories/PyDictFacts.v
theories/UtilsFile.v
theories/UtilsSpec.v
theories/UtilsFacts.v
theories/RegistryFacts.v
theories/Names.v
theories/PropertiesUtils.v
theories/Scope.v
theories/ScopeSpec.v
theories/ScopeFacts.v
theories/PropertiesScope.v
theories/Args.v
theories/ArgsSpec.v
theories/ArgsFacts.v
theories/PropertiesArgs.v
theories/TablesData.v
theories/Lookup.v
theories/LookupSpec.v
theories/TableCheck.v
theories/LookupFacts.v
theories/PropertiesLookup.v
theories/Ast.v
theories/AstFacts.v
theories/ImportPass.v
theories/ImportSpec.v
theories/ImportFacts.v
theories/ImportFacts2.v
theories/ImportFacts3.v
theories/PropertiesImport.v
theories/Walk.v
theories/WalkFacts.v
theories/BasicPass.v
theories/BasicSpec.v
theories/BasicFacts.v
theories/CustomPass.v
theories/TextFile.v
theories/TextSpec.v
theories/TextFacts.v
theories/Converter.v
theories/ConverterFacts.v
theories/PropertiesConverter.v
theories/TraversalSpec.v
theories/WalkGuard.v
theories/WalkBridge.v
theories/TraversalFacts.v
theories/PropertiesTraversal.v
theories/WalkIdle.v
theories/QuietSpec.v
theories/QuietFacts.v
theories/PropertiesQuiet.v
theories/ConvSpec.v
theories/ConvFacts.v
theories/PropertiesBasic.v
theories/FileTree.v
theories/FileTreeSpec.v
theories/FileTreeFacts.v
theories/FileTreeMirror.v
theories/FileTreeRun.v
theories/FileTreeLoop.v
theories/FileTreeTotal.v
theories/PropertiesFiles.v
theories/Generate.v
theories/GenerateData.v
theories/GenerateSym.v
theories/GenerateRel.v
theories/GenerateSound.v
theories/GenerateRows.v
theories/GenerateSpec.v
theories/GenerateCheck.v
theories/GenerateCalls.v
theories/GenerateFacts.v
theories/GenerateExact.v
theories/GenerateMarks.v
theories/PropertiesGenerate.v
theories/Grammar.v
theories/GrammarCheck.v
theories/GrammarSound.v
theories/GrammarBalance.v
theories/GrammarRows.v
theories/PropertiesGrammar.v
theories/NodeEq.v
theories/Placed.v
theories/PlacedUniform.v
theories/PlacedFacts.v
theories/PlacedWalk.v
theories/PropertiesPlaced.v
theories/RecogniseSpec.v
theories/RecogniseFacts.v
theories/PropertiesRecognise.v
theories/EffectSpec.v
theories/EffectFacts.v
theories/PropertiesEffect.v
theories/CustomSpec.v
theories/CustomFacts.v
theories/PropertiesCustom.v
theories/Special.v
theories/SpecialSpec.v
theories/SpecialFacts.v
theories/PropertiesSpecial.v
theories/Helpers.v
theories/HelpersSpec.v
theories/HelpersFacts.v
theories/PropertiesHelpers.v
theories/GenericBridge.v
theories/GenericSpec.v
theories/GenericFacts.v
theories/PropertiesGeneric.v
theories/Shipped.v
theories/ShippedSpec.v
theories/ShippedFacts.v
theories/ShippedCalls.v
theories/ShippedRaise.v
theories/ShippedHelpers.v
theories/ShippedNames.v
theories/PropertiesShipped.v
theories/MeaningSpec.v
theories/MeaningCheck.v
theories/MeaningSound.v
theories/MeaningValue.v
theories/MeaningRows.v
theories/MeaningFacts.v
theories/MeaningAdapted.v
theories/PropertiesMeaning.v
theories/PropertiesNames.v
theories/OwnRules.v
theories/OwnRulesFacts.v
theories/PropertiesOwn.v
theories/NameUses.v
theories/NameUsesFacts.v
theories/PropertiesUses.v
theories/Program.v
theories/ProgramSpec.v
theories/ProgramFacts.v
theories/PropertiesProgram.v
theories/Dependence.v
theories/DependFacts.v
theories/PropertiesDepend.v
theories/FileTreeStop.v
theories/PropertiesStop.v
theories/Main.v
theories/MainFacts.v
theories/PropertiesMain.v
theories/Report.v
theories/ReportSpec.v
theories/ReportFacts.v
theories/ReportRun.v
theories/PropertiesReport.v
theories/MainProjects.v
theories/PropertiesProjects.v
theories/QuietProject.v
theories/PropertiesCopy.v
theories/PropertiesAlone.v
theories/PropertiesLocal.v
theories/Helpers2.v
theories/PropertiesHelpers2.v
theories/HelperTexts.v
theories/HelperScope.v
theories/HelperScopeFacts.v
theories/GeneratedNames.v
theories/GeneratedNamesFacts.v
theories/PropertiesHelperTexts.v
theories/Helpers3.v
theories/PropertiesHelpers3.v
theories/TwiceSpec.v
theories/PropertiesTwice.v
theories/Summary.v
theories/SummaryFacts.v
theories/PropertiesSummary.v
theories/FlagSpec.v
theories/FlagFacts.v
theories/PropertiesFlags.v
theories/LayoutSpec.v
theories/LayoutFacts.v
theories/PropertiesLayout.v
theories/DatasetSpec.v
theories/DatasetFacts.v
theories/DatasetCalls.v
theories/PropertiesDataset.v
theories/OutSpec.v
theories/OutFacts.v
theories/PropertiesOut.v
theories/LrSpec.v
theories/LrFacts.v
theories/PropertiesLr.v
theories/AdamSpec.v
theories/AdamFacts.v
theories/PropertiesAdam.v
theories/PrintSpec.v
theories/PrintFacts.v
theories/PropertiesPrint.v
theories/PairSpec.v
theories/PairFacts.v
theories/PropertiesPair.v
theories/VggSpec.v
theories/VggFacts.v
theories/PropertiesVgg.v
theories/HistSpec.v
theories/HistFacts.v
theories/PropertiesHist.v
theories/FlashSpec.v
theories/FlashFacts.v
theories/PropertiesFlash.v
theories/PoolSpec.v
theories/PoolFacts.v
theories/PropertiesPool.v
theories/VariableSpec.v
theories/PropertiesVariable.v
theories/InplaceSpec.v
theories/PropertiesInplace.v
theories/MethodSpec.v
theories/MethodFacts.v
theories/PropertiesMethod.v
theories/ParallelSpec.v
theories/PropertiesParallel.v
theories/BufferSpec.v
theories/PropertiesBuffer.v
theories/LoadSpec.v
theories/PropertiesLoad.v
theories/FormSpec.v
theories/PropertiesForm.v
theories/BilinearSpec.v
theories/PropertiesBilinear.v
theories/SparseSpec.v
theories/PropertiesSparse.v
theories/AskSpec.v
theories/PropertiesAsk.v
theories/HandSpec.v
theories/PropertiesHand.v
theories/SoftSpec.v
theories/PropertiesSoft.v
