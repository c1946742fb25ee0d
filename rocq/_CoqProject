-Q theories Verif
theories/Base.v
theories/Mem.v
theories/Tables.v
theories/Spec.v
theories/KnownAnswers.v
theories/ModelClassical.v
theories/ClassicalBlock.v
theories/ClassicalKey.v
theories/ClassicalStream.v
theories/SpecLemmas.v
theories/ClassicalAlgo.v
theories/SpecFacts.v
theories/SpecMore.v
theories/ApiSpec.v
theories/ClassicalFacts.v
theories/ClassicalExamples.v
theories/Properties_Classical.v
theories/ModelBsWord.v
theories/ModelBsTranspose.v
theories/ModelBsStream.v
theories/ModelBsBlock.v
theories/ModelBsAlgo.v
theories/BsApiSpec.v
theories/BsRel.v
theories/BsWordFacts.v
theories/BsView.v
theories/BsTransposeFacts.v
theories/BsKernel.v
theories/BsKernelRun.v
theories/BsStream.v
theories/BsSbox.v
theories/BsRegister.v
theories/BsBlock.v
theories/BsBatch.v
theories/BsKey.v
theories/BsSlot.v
theories/BsAlgo.v
theories/BsFacts.v
theories/BsApiFacts.v
theories/BsMoreFacts.v
theories/BsAvx2.v
theories/BsReady.v
theories/BsAnyKey.v
theories/BsAltAvx2.v
theories/BsLanes.v
theories/Properties_Bitslice.v
theories/Properties_AnyKey.v
theories/PlanSpec.v
theories/Plans.v
theories/Properties_More.v
theories/ModelAlloc.v
theories/HistorySpec.v
theories/History.v
theories/ThreadSpec.v
theories/Threads.v
theories/Properties_History.v
theories/ModelSteps.v
theories/StepsFacts.v
theories/StepsSpec.v
theories/StepsMachine.v
theories/Steps.v
theories/StepsOrder.v
theories/Properties_Steps.v
theories/TraceSpec.v
theories/StepsTrace.v
theories/StepsOnce.v
theories/Properties_Trace.v
theories/ModelSwitches.v
theories/SwitchSpec.v
theories/Switches.v
theories/Properties_Switches.v
theories/OverlapSpec.v
theories/Overlap.v
theories/Properties_Overlap.v
theories/HeapSpec.v
theories/HeapProg.v
theories/Heap.v
theories/HeapMachine.v
theories/Properties_Heap.v
theories/BsMaxlen.v
theories/Properties_Maxlen.v
theories/MiniC.v
theories/MiniCFrame.v
theories/MiniCRun.v
theories/SourceClassical.v
theories/SourceSpec.v
theories/SourceRun.v
theories/SourceStream.v
theories/SourceAlgo.v
theories/SourceFacts.v
theories/Properties_Source.v
theories/BsC.v
theories/SourceBitslice.v
theories/BsCRun.v
theories/BsCKernel.v
theories/BsCTranspose.v
theories/BsCPack.v
theories/BsCRegister.v
theories/BsCRounds.v
theories/BsCBlock.v
theories/BsCStream.v
theories/BsCApi.v
theories/SourceBsSpec.v
theories/BsCKeySet.v
theories/SourceBsFacts.v
theories/Properties_SourceBs.v
theories/SourceHistorySpec.v
theories/SourceHistory.v
theories/Properties_SourceHistory.v
theories/Header.v
theories/HeaderSource.v
theories/HeaderSpec.v
theories/HeaderFacts.v
theories/HeaderAvx2.v
theories/Properties_Header.v
theories/Properties_SourceOverflow.v
