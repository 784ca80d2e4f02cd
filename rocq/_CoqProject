-Q theories Verif
theories/Base.v
theories/TLookup.v
theories/TSmall.v
theories/TMap.v
theories/TStrings.v
theories/Hand.v
theories/FastDivide.v
theories/Range.v
theories/Combined.v
theories/Float64.v
theories/Sim.v
theories/Approx.v
theories/HandIndex.v
theories/BaseProofs.v
theories/FastDivideProofs.v
theories/SpecPoker.v
theories/EvalCheck.v
theories/ListFacts.v
theories/PokerFacts.v
theories/PropDivide.v
theories/HandProofs.v
theories/EvalProofs.v
theories/SpecHand.v
theories/HandExprProofs.v
theories/PropEval.v
theories/SpecNames.v
theories/IndexProofs.v
theories/SpecText.v
theories/TextProofs.v
theories/PropIndex.v
theories/PropText.v
theories/SpecRange.v
theories/RangeProofs.v
theories/ParserProofs.v
theories/NotationProofs.v
theories/RangeTextProofs.v
theories/PropRange.v
theories/SpecGrammar.v
theories/GrammarProofs.v
theories/PropGrammar.v
theories/SumFacts.v
theories/Ghost.v
theories/EnumProofs.v
theories/SpecEquity.v
theories/ShowdownProofs.v
theories/BoardProofs.v
theories/CombinedProofs.v
theories/PositionProofs.v
theories/MergeProofs.v
theories/MachineProofs.v
theories/SetupProofs.v
theories/DrawProofs.v
theories/WeightProofs.v
theories/FinalProofs.v
theories/ExactProofs.v
theories/SpecResults.v
theories/ResultProofs.v
theories/TraceProofs.v
theories/SpecRun.v
theories/CombineRunProofs.v
theories/DealProofs.v
theories/PropCombine.v
theories/RunProofs.v
theories/LaunchProofs.v
theories/ConsistProofs.v
theories/SeatProofs.v
theories/WitnessProofs.v
theories/CountProofs.v
theories/PropExact.v
theories/SpecFinal.v
theories/FinalRunProofs.v
theories/PropFinal.v
theories/SpecDraw.v
theories/DrawFlagProofs.v
theories/PropDraw.v
theories/FloatProofs.v
theories/ProgressProofs.v
theories/PropProgress.v
theories/SpecApprox.v
theories/WalkProofs.v
theories/ApproxProofs.v
theories/ApproxRunProofs.v
theories/ApproxResultProofs.v
theories/PropApprox.v
theories/FloatSumProofs.v
theories/ConvergeProofs.v
theories/ConvergeRunProofs.v
theories/ConvergeResultProofs.v
theories/PropConverge.v
theories/BatchProofs.v
theories/PropBatch.v
theories/EquityFloatProofs.v
theories/EquityProofs.v
theories/ProfileProofs.v
theories/SpecShare.v
theories/ShareProofs.v
theories/PropEquity.v
theories/PropProfile.v
theories/SpecFair.v
theories/FairProofs.v
theories/FairWalkProofs.v
theories/FairCountProofs.v
theories/FairBoardProofs.v
theories/FairRunProofs.v
theories/PropFair.v
theories/LimitProofs.v
theories/NeverProofs.v
theories/CrowdProofs.v
theories/PropLimits.v
theories/SpecRates.v
theories/RateProofs.v
theories/UnitProofs.v
theories/TableRateProofs.v
theories/PropRates.v
theories/MaskProofs.v
theories/PropHand.v
theories/DeviationProofs.v
theories/RootProofs.v
theories/SpecDeviation.v
theories/OneBatchProofs.v
theories/PropDeviation.v
theories/SpecSymmetry.v
theories/SymmetryProofs.v
theories/PropSymmetry.v
theories/SpecEven.v
theories/EvenProofs.v
theories/EvenSymmetryProofs.v
theories/PropEven.v
theories/SourceTests.v
theories/SpecSure.v
theories/SureProofs.v
theories/PropSure.v
theories/SpecScale.v
theories/QuotientProofs.v
theories/ScaleProofs.v
theories/SeatEvenProofs.v
theories/PropScale.v
theories/SpecWrite.v
theories/WriteProofs.v
theories/PropWrite.v
theories/SpecAdd.v
theories/AddProofs.v
theories/PropAdd.v
theories/SpecTurn.v
theories/TurnProofs.v
theories/PropTurn.v
theories/EmptyProofs.v
theories/PropEmpty.v
theories/SpecConflict.v
theories/ConflictProofs.v
theories/PropConflict.v
theories/NumberProofs.v
theories/PropNumber.v
theories/SpecFavourite.v
theories/SupportProofs.v
theories/FavouriteProofs.v
theories/PropFavourite.v
theories/SpecSettled.v
theories/SettledProofs.v
theories/PropSettled.v
theories/SpecStreet.v
theories/StreetProofs.v
theories/SpareProofs.v
theories/PropStreet.v
theories/SpecValue.v
theories/ValueProofs.v
theories/ValueCountProofs.v
theories/PropValue.v
theories/MessageProofs.v
theories/PropMessage.v
theories/SpecTable.v
theories/TableProofs.v
theories/TableRunProofs.v
theories/PropTable.v
theories/TableShareProofs.v
theories/PropTableShare.v
theories/SpecClash.v
theories/ClashProofs.v
theories/PropClash.v
theories/TableSampleProofs.v
theories/PropTableSample.v
theories/SpecKind.v
theories/KindProofs.v
theories/PropKind.v
theories/KindSumProofs.v
theories/PropKindSum.v
theories/KindRateProofs.v
theories/PropKindRate.v
theories/KindDuelProofs.v
theories/PropKindDuel.v
theories/ComboSumProofs.v
theories/PropComboSum.v
theories/HandWinProofs.v
theories/PropHandWin.v
theories/ComboWinProofs.v
theories/PropComboWin.v
theories/HandTieProofs.v
theories/PropHandTie.v
