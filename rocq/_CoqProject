-Q theories Verif
theories/CSem.v
theories/Spec.v
theories/ModelNtt.v
theories/ModelNaive.v
theories/ModelRed.v
theories/Loops.v
theories/Stages.v
theories/RedElem.v
theories/OuterLoops.v
theories/ModQ.v
theories/Tower.v
theories/TransformGen.v
theories/NttElem.v
theories/Forms.v
theories/NttTransforms.v
theories/NaiveElem.v
theories/NaiveTransforms.v
theories/RedBfly.v
theories/RedTransforms.v
theories/RedRange.v
theories/HeapElem.v
theories/Exlib.v
theories/ElemFinal.v
theories/PropElem.v
theories/NttFinal.v
theories/PropNtt.v
theories/NaiveFinal.v
theories/PropNaive.v
theories/FastArr.v
theories/RedFinal.v
theories/PropRed.v
theories/Conv.v
theories/ModelGen.v
theories/ModelProducts.v
theories/TableSpec.v
theories/ProdGen.v
theories/ProdNtt.v
theories/ProdNaive.v
theories/ProdRed.v
theories/GenElem.v
theories/Fermat.v
theories/GenTables.v
theories/GenMain.v
theories/ExTables.v
theories/GenFinal.v
theories/PropGen.v
theories/RoundTrip.v
theories/ProdFinal.v
theories/PropProd.v
theories/Shuffle.v
theories/CommittedTables.v
theories/ShuffleFinal.v
theories/PropShuffle.v
theories/ModelBounds.v
theories/BoundsElem.v
theories/BoundsRound.v
theories/BoundsNtt.v
theories/BoundsFinal.v
theories/PropBounds.v
theories/ModelInterval.v
theories/IntervalElem.v
theories/SpecInterval.v
theories/IntervalLoops.v
theories/IntervalSound.v
theories/IntervalFinal.v
theories/PropInterval.v
theories/ModelSort.v
theories/SortElem.v
theories/SortFinal.v
theories/PropSort.v
theories/AvxSem.v
theories/ModelAvx.v
theories/AvxElem.v
theories/AvxArrays.v
theories/PcLoops.v
theories/AvxRound.v
theories/AvxFinal.v
theories/PropAvx.v
theories/AvxPairs.v
theories/AvxExec.v
theories/AvxBlocks.v
theories/AvxCtR2s.v
theories/AvxCtS2r.v
theories/AvxGsR2s.v
theories/AvxGsS2r.v
theories/AvxNttFinal.v
theories/PropAvxNtt.v
theories/ModelAvxProd.v
theories/AvxProd.v
theories/AvxProdFinal.v
theories/PropAvxProd.v
theories/FineBounds.v
theories/AvxProd1024.v
theories/TraceSem.v
theories/TraceNtt.v
theories/TraceRed.v
theories/TraceNaive.v
theories/TraceProducts.v
theories/TraceAvxSem.v
theories/TraceAvx.v
theories/TraceAvxProd.v
theories/TraceElem.v
theories/TraceC.v
theories/TraceAvxP.v
theories/TraceProd.v
theories/TraceFinal.v
theories/PropTrace.v
theories/SpecRing.v
theories/RingElem.v
theories/RingFinal.v
theories/PropRing.v
theories/ModelCpu.v
theories/CpuFinal.v
theories/PropCpu.v
theories/SpecC.v
theories/SpecFiles.v
theories/ModelText.v
theories/CommittedText.v
theories/TextElem.v
theories/TextFinal.v
theories/PropText.v
theories/SpecRoots.v
theories/CommittedRoots.v
theories/RootsElem.v
theories/RootsFinal.v
theories/PropRoots.v
theories/SpecNotes.v
theories/NotesElem.v
theories/NotesFinal.v
theories/PropNotes.v
theories/HeadersElem.v
theories/HeadersFinal.v
theories/PropHeaders.v
theories/IntervalTotal.v
theories/IntervalRuns.v
theories/RunsFinal.v
theories/PropRuns.v
theories/ModelHarness.v
theories/HarnessElem.v
theories/HarnessFinal.v
theories/PaperElem.v
theories/PaperFinal.v
theories/PropHarness.v
theories/ModelTests.v
theories/TestsElem.v
theories/TestsRun.v
theories/TestsFinal.v
theories/TestsSound.v
theories/PropTests.v
theories/ModelTestMod.v
theories/TestModFinal.v
theories/PropTestMod.v
theories/ModelTestRed.v
theories/TestRedFinal.v
theories/PropTestRed.v
theories/IdealRed.v
theories/IdealProd.v
theories/IdealFinal.v
theories/Repeat.v
theories/RepeatFinal.v
theories/PropIdeal.v
theories/ModelSpeed.v
theories/FineGen.v
theories/FineRuns.v
theories/SpeedFinal.v
theories/PropSpeed.v
theories/ModelTestAvx.v
theories/TestAvxElem.v
theories/TestAvxRuns.v
theories/TestAvxFinal.v
theories/PropTestAvx.v
theories/ModelKat.v
theories/KatFinal.v
theories/SpecKat.v
theories/KatAny.v
theories/PropKat.v
theories/Gs2048Final.v
theories/PropGs2048.v
theories/LinRed.v
theories/ModelTestTables.v
theories/ModelTestNttRed.v
theories/BasisElem.v
theories/TestNttRedElem.v
theories/TestNttRedRight.v
theories/TabCheck.v
theories/TestNttRedFinal.v
theories/PropTestNttRed.v
theories/LinNtt.v
theories/ModelTestNtt.v
theories/TestNttElem.v
theories/TestNttRight.v
theories/TestNttFinal.v
theories/PropTestNtt.v
theories/FineAll.v
theories/FineTabs.v
theories/ModelTestNttAvx.v
theories/TestNttAvxElem.v
theories/Calm.v
theories/TestNttAvxFinal.v
theories/TestNttAvxOut.v
theories/PropTestNttAvx.v
theories/SpecRedBounds.v
theories/ModelTestRedBounds.v
theories/TestRedBoundsElem.v
theories/TestRedBoundsTabs.v
theories/TestRedBoundsFinal.v
theories/TestRedBoundsChecks.v
theories/PropTestRedBounds.v
theories/FrameElem.v
theories/FrameC.v
theories/FrameAvx.v
theories/FrameProd.v
theories/FrameShape.v
theories/FrameFinal.v
theories/PropFrame.v
theories/TestsLin.v
theories/TestsAll.v
theories/LinNaive.v
theories/TestsAllNaive.v
theories/TestsAllRed.v
theories/TestsAllAsm.v
theories/TestsAllFinal.v
theories/PropTestsAll.v
theories/SafeC.v
theories/SafeFinal.v
theories/PropSafe.v
theories/ModelHalves.v
theories/Accum.v
theories/AccumFinal.v
theories/PropAccum.v
theories/ModelCyclic.v
theories/Cyclic.v
theories/CyclicFinal.v
theories/PropCyclic.v
theories/ModelCyclicRed.v
theories/CyclicRed.v
theories/CyclicRedFinal.v
theories/PropCyclicRed.v
theories/Divide.v
theories/DivideFinal.v
theories/PropDivide.v
theories/SpecExact.v
theories/ExactFinal.v
theories/PropExact.v
theories/SpecRedBoundsTxt.v
theories/RedBoundsTxtElem.v
theories/RedBoundsTxtFinal.v
theories/PropRedBoundsTxt.v
