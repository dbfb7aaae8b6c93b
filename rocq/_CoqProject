-Q theories Verif
theories/Prelude.v
theories/PreludeFacts.v
theories/ArithM.v
theories/NdArray.v
theories/NdFacts.v
theories/Units.v
theories/DataArrayM.v
theories/Wildcard.v
theories/GetNp.v
theories/Restore.v
theories/GetNpFacts.v
theories/SpecArrays.v
theories/WildcardFacts.v
theories/ExtractFacts.v
theories/RestoreFacts.v
theories/RoundTripFacts.v
theories/InitNp.v
theories/InitFacts.v
theories/SpecUnits.v
theories/UnitsFacts.v
theories/ExampleRegistry.v
theories/Checks.v
theories/Ex_Arrays.v
theories/ArraysMain.v
theories/P_Arrays.v
theories/Tracers.v
theories/Components.v
theories/SpecComponents.v
theories/SpecCalls.v
theories/CheckerFacts.v
theories/ComponentFacts.v
theories/CallFacts.v
theories/StepperFacts.v
theories/TidFacts.v
theories/ClassState.v
theories/ClassFacts.v
theories/ComponentsMain.v
theories/Ex_Components.v
theories/P_Components.v
theories/SpecDa.v
theories/DaFacts.v
theories/Composite.v
theories/SpecComposite.v
theories/KeyedFold.v
theories/CompositeFacts.v
theories/CombineFacts.v
theories/CompositeMain.v
theories/Ex_Composite.v
theories/P_Composite.v
theories/Steppers.v
theories/SpecSteppers.v
theories/SteppersFacts.v
theories/ABFacts.v
theories/RKFacts.v
theories/LeapFacts.v
theories/StepAlgebra.v
theories/StepRuns.v
theories/StepExact.v
theories/StepSteady.v
theories/StepUnits.v
theories/StepDiag.v
theories/SteppersMain.v
theories/Ex_Steppers.v
theories/P_Steppers.v
theories/Basic.v
theories/SpecBasic.v
theories/BasicFacts.v
theories/BasicMain.v
theories/Differencing.v
theories/UpdateFreq.v
theories/ConstComp.v
theories/Ex_Basic.v
theories/P_Basic.v
theories/Heap.v
theories/SpecHeap.v
theories/HeapFacts.v
theories/HeapComposite.v
theories/HeapSteppers.v
theories/HeapLeap.v
theories/HeapScaling.v
theories/Ex_Heap.v
theories/P_Heap.v
theories/SpecTracers.v
theories/RestoreExtract.v
theories/TracersFacts.v
theories/TracersMain.v
theories/TracersInit.v
theories/TracersCalls.v
theories/Ex_Tracers.v
theories/P_Tracers.v
theories/StrFun.v
theories/Constants.v
theories/SpecConstants.v
theories/ConstantsFacts.v
theories/ConstantsList.v
theories/Ex_Constants.v
theories/P_Constants.v
theories/NetCDF.v
theories/SpecNetCDF.v
theories/NetCDFKeeps.v
theories/NetCDFFacts.v
theories/NetCDFMain.v
theories/NetCDFSucceeds.v
theories/NetCDFAlias.v
theories/NetCDFRestart.v
theories/HeapNetCDF.v
theories/SpecHeapNetCDF.v
theories/HeapNetCDFFacts.v
theories/Ex_NetCDF.v
theories/P_NetCDF.v
theories/UtilM.v
theories/SpecUtil.v
theories/UtilFacts.v
theories/UtilMain.v
theories/UtilAlias.v
theories/Duck.v
theories/SpecDuck.v
theories/DuckMain.v
theories/Calendar.v
theories/CalendarMain.v
theories/MonComp.v
theories/SpecMonComp.v
theories/MonCompMain.v
theories/Ex_Util.v
theories/P_Util.v
theories/HeapCalls.v
theories/SpecHeapCalls.v
theories/HeapCallsFacts.v
theories/HeapCallsViews.v
theories/HeapCallsMain.v
theories/HeapCallsShare.v
theories/HeapCallsSpare.v
theories/Ex_HeapCalls.v
theories/P_HeapCalls.v
theories/HeapPlot.v
theories/SpecHeapPlot.v
theories/HeapPlotMain.v
theories/Ex_HeapPlot.v
theories/P_HeapPlot.v
theories/Backend.v
theories/SpecBackend.v
theories/BackendMain.v
theories/Ex_Backend.v
theories/P_Backend.v
theories/SpecColumns.v
theories/ColumnsFacts.v
theories/ColumnsMain.v
theories/LayoutFacts.v
theories/Ex_Columns.v
theories/P_Columns.v
theories/MainLoop.v
theories/SpecMainLoop.v
theories/MainLoopFacts.v
theories/MainLoopMain.v
theories/Ex_MainLoop.v
theories/P_MainLoop.v
theories/Exact.v
theories/Ex_Exact.v
theories/P_Exact.v
theories/SpecNested.v
theories/NestedFacts.v
theories/Ex_Nested.v
theories/P_Nested.v
theories/SpecResume.v
theories/ResumeFacts.v
theories/ResumeMain.v
theories/Ex_Resume.v
theories/P_Resume.v
theories/TracerStep.v
theories/Ex_TracerStep.v
theories/P_TracerStep.v
theories/LeapLoop.v
theories/SpecLeapLoop.v
theories/LeapLoopMain.v
theories/Ex_LeapLoop.v
theories/P_LeapLoop.v
theories/SpecFailed.v
theories/FailedMain.v
theories/Ex_Failed.v
theories/P_Failed.v
theories/SpecLocal.v
theories/LocalFacts.v
theories/LocalRK.v
theories/LocalMain.v
theories/LocalRuns.v
theories/Ex_Local.v
theories/P_Local.v
theories/SpecInputs.v
theories/InputsFacts.v
theories/Ex_Inputs.v
theories/P_Inputs.v
theories/SpecReturns.v
theories/ReturnsFacts.v
theories/Ex_Returns.v
theories/P_Returns.v
theories/SpecLoopRun.v
theories/LoopRunMain.v
theories/Ex_LoopRun.v
theories/P_LoopRun.v
theories/UnitStr.v
theories/SpecUnitStr.v
theories/UnitStrFacts.v
theories/Ex_UnitStr.v
theories/P_UnitStr.v
theories/ReprM.v
theories/SpecRepr.v
theories/ReprFacts.v
theories/Ex_Repr.v
theories/P_Repr.v
theories/SpecRunFile.v
theories/RunFileFacts.v
theories/RunFileMain.v
theories/Ex_RunFile.v
theories/P_RunFile.v
theories/SpecDies.v
theories/DiesFacts.v
theories/DiesMain.v
theories/DiesRK.v
theories/Ex_Dies.v
theories/P_Dies.v
theories/Clock64.v
theories/SpecClock.v
theories/ClockMain.v
theories/Ex_Clock.v
theories/P_Clock.v
theories/SpecOrder.v
theories/OrderMain.v
theories/SpecOrderPoly.v
theories/OrderPoly.v
theories/Ex_Order.v
theories/Ex_OrderPoly.v
theories/P_Order.v
theories/SpecLeapOrder.v
theories/LeapOrder.v
theories/Ex_LeapOrder.v
theories/P_LeapOrder.v
theories/SpecDeclares.v
theories/DeclaresMain.v
theories/Ex_Declares.v
theories/P_Declares.v
theories/ClassGrow.v
theories/Ex_Classes.v
theories/P_Classes.v
theories/Wrapped.v
theories/SpecWrapped.v
theories/WrappedFacts.v
theories/WrappedMain.v
theories/Ex_Wrapped.v
theories/P_Wrapped.v
theories/HeapWrapped.v
theories/SpecHeapWrapped.v
theories/HeapWrappedMain.v
theories/Ex_HeapWrapped.v
theories/P_HeapWrapped.v
theories/SpecConverge.v
theories/ConvergeAlg.v
theories/ConvergeMain.v
theories/ConvergeAB.v
theories/ConvergeLeap.v
theories/ConvergeRate.v
theories/Ex_Converge.v
theories/P_Converge.v
theories/SpecRound.v
theories/RoundFacts.v
theories/RoundMain.v
theories/RoundRK.v
theories/Binary64.v
theories/Binary64Facts.v
theories/Ex_Round.v
theories/Ex_Binary64.v
theories/P_Round.v
theories/SpecRelax.v
theories/RKInv.v
theories/RelaxFacts.v
theories/RelaxMain.v
theories/RelaxAlg.v
theories/RelaxRuns.v
theories/RelaxAB.v
theories/RelaxLeap.v
theories/RelaxAway.v
theories/Ex_Relax.v
theories/P_Relax.v
theories/SpecRegion.v
theories/RegionFacts.v
theories/RegionMain.v
theories/RegionCalls.v
theories/Ex_Region.v
theories/P_Region.v
theories/HeapLoop.v
theories/SpecHeapLoop.v
theories/HeapLoopMain.v
theories/HeapLeapLoop.v
theories/Ex_HeapLoop.v
theories/P_HeapLoop.v
theories/RegionSym.v
theories/Ex_RegionSym.v
theories/P_RegionSym.v
theories/RunFacts.v
theories/SpecTurn.v
theories/TurnMain.v
theories/Ex_Turn.v
theories/P_Turn.v
theories/SpecConstruct.v
theories/ConstructFacts.v
theories/Ex_Construct.v
theories/P_Construct.v
theories/SpecAnswers.v
theories/AnswersMain.v
theories/Ex_Answers.v
theories/P_Answers.v
theories/SpecFrame.v
theories/FrameFacts.v
theories/FrameCalls.v
theories/FrameMain.v
theories/FrameWrap.v
theories/Ex_Frame.v
theories/P_Frame.v
theories/SpecTurnEnds.v
theories/TurnEnds.v
theories/Ex_TurnEnds.v
theories/P_TurnEnds.v
theories/SpecFollow.v
theories/FollowFacts.v
theories/FollowMain.v
theories/FollowEnds.v
theories/Ex_Follow.v
theories/P_Follow.v
theories/SpecServe.v
theories/FollowCalls.v
theories/Ex_FollowCalls.v
theories/P_FollowCalls.v
theories/SpecScale.v
theories/ScaleMain.v
theories/ScaleRuns.v
theories/Ex_Scale.v
theories/P_Scale.v
theories/ScaleEnds.v
theories/Ex_ScaleEnds.v
theories/P_ScaleEnds.v
theories/SpecScaleSteps.v
theories/ScaleSteps.v
theories/Ex_ScaleSteps.v
theories/P_ScaleSteps.v
theories/SpecScaleDiag.v
theories/ScaleDiag.v
theories/Ex_ScaleDiag.v
theories/P_ScaleDiag.v
theories/SpecScaleWrap.v
theories/ScaleWrap.v
theories/Ex_ScaleWrap.v
theories/P_ScaleWrap.v
