-Q theories Verif
theories/PyBase.v
theories/PyFacts.v
theories/CardModel.v
theories/EvalModel.v
theories/EngineModel.v
theories/ConfigsModel.v
theories/CardSpec.v
theories/CardProofs.v
theories/DeckSpec.v
theories/DeckProofs.v
theories/PropCards.v
theories/PokerSpec.v
theories/EvalSpec.v
theories/EvalCheck.v
theories/EvalRank.v
theories/EvalSweep1.v
theories/EvalTable.v
theories/EvalHands.v
theories/EvalLists.v
theories/EvalRuns.v
theories/EvalCfg.v
theories/EvalMain.v
theories/EvalCount.v
theories/EvalRare.v
theories/EvalSweep2.v
theories/EvalFinal.v
theories/EvalEnd.v
theories/PropEval.v
theories/EngineSpec.v
theories/EngineFacts.v
theories/BetFacts.v
theories/EngineDemo.v
theories/MoneyFacts.v
theories/PropBetting.v
theories/PropRound.v
theories/PropReset.v
theories/PropConfig.v
theories/ShowSpec.v
theories/ShowFacts.v
theories/SideFacts.v
theories/SideExists.v
theories/HandEnd.v
theories/PropShow.v
theories/PropSide.v
theories/SolventSpec.v
theories/SolventFacts.v
theories/PropSolvent.v
theories/PropSession.v
theories/PropTerm.v
theories/PropHidden.v
theories/PropWin.v
theories/AsciiModel.v
theories/PropAscii.v
theories/PropText.v
theories/JsonModel.v
theories/PropJson.v
theories/EdgeModel.v
theories/PropEdge.v
theories/HeapModel.v
theories/HeapFacts.v
theories/PropHeap.v
theories/PropBetween.v
theories/SvgModel.v
theories/SvgFacts.v
theories/SvgIds.v
theories/SvgPage.v
theories/SvgShow.v
theories/PropSvg.v
theories/RenderModel.v
theories/PropRender.v
theories/EvalTextModel.v
theories/PropShares.v
theories/PaidSpec.v
theories/PaidFacts.v
theories/PropPaid.v
theories/LevelFacts.v
theories/PropLevel.v
theories/ExampleModel.v
theories/PropExample.v
theories/PropExact.v
theories/NumpyModel.v
theories/NumpySpec.v
theories/NumpyFacts.v
theories/PropNumpy.v
theories/PropNumpyWin.v
theories/NumpyRenderModel.v
theories/PropNumpyAfter.v
theories/PropNumpyCards.v
theories/NumpyExampleModel.v
theories/PropNumpyEnds.v
theories/NumpyPaidSpec.v
theories/PropNumpyPaid.v
theories/PropNumpySame.v
theories/FloatModel.v
theories/FloatSpec.v
theories/FloatFacts.v
theories/PropFloat.v
theories/PercentModel.v
theories/PropPercent.v
theories/NumpyHeapModel.v
theories/NumpyHeapFacts.v
theories/PropNumpyHeap.v
theories/CardOpsModel.v
theories/PropCardOps.v
theories/ScaleSpec.v
theories/PropScale.v
theories/SeatsSpec.v
theories/PropSeats.v
theories/PropBetter.v
theories/ReprModel.v
theories/PropRepr.v
theories/SpeedModel.v
theories/PropSpeed.v
theories/PropCover.v
theories/PropNumpyHidden.v
theories/PropNumpyBetter.v
theories/PropNumpyScale.v
theories/PropNumpySeats.v
theories/ViewerModel.v
theories/PropViewer.v
theories/PropNumpyBets.v
theories/PropNumpyRound.v
theories/PropDrawn.v
theories/ShuffleModel.v
theories/PropShuffle.v
theories/PropOrbit.v
theories/PropOut.v
theories/PropSeatFair.v
theories/PropAlike.v
theories/PropForget.v
theories/PropOrder.v
theories/PropWinAlike.v
theories/PropWinOrder.v
theories/PropSameBet.v
theories/SuiteChecks.v
theories/PropHeapPrograms.v
