-Q theories Verif
theories/Model/Base.v
theories/Model/Float.v
theories/Model/DatasetM.v
theories/Proofs/FloatFacts.v
theories/Spec/DatasetSpec.v
theories/Proofs/MapFacts.v
theories/Proofs/KeyOrder.v
theories/Spec/DatasetClient.v
theories/Proofs/DatasetFacts.v
theories/Proofs/BestPolicy.v
theories/Proofs/EmaBounds.v
theories/Proofs/DatasetProps.v
theories/Model/Decimal.v
theories/Model/ParserM.v
theories/Model/DatasetIO.v
theories/Proofs/DecimalInt.v
theories/Spec/DecimalSpec.v
theories/Proofs/DecimalFloat.v
theories/Proofs/DecimalRead.v
theories/Spec/TokenSpec.v
theories/Proofs/ParserFacts.v
theories/Proofs/LoadFacts.v
theories/Spec/DatasetFileSpec.v
theories/Proofs/DatasetIOFacts.v
theories/Proofs/DatasetFileProps.v
theories/Proofs/DatasetFileDefects.v
theories/Proofs/TokenizerProps.v
theories/Props/Tokenizer.v
theories/Proofs/DatasetFileTheorems.v
theories/Proofs/DatasetFileExamples.v
theories/Props/DatasetFiles.v
theories/Model/ModelStringM.v
theories/Spec/ModelStringSpec.v
theories/Proofs/ModelStringFacts.v
theories/Model/TreeM.v
theories/Spec/TreeSpec.v
theories/Proofs/TreeFacts.v
theories/Proofs/TreeLabels.v
theories/Proofs/FloatConv.v
theories/Proofs/TreeThreshold.v
theories/Proofs/TreeGini.v
theories/Proofs/TreeTotal.v
theories/Spec/InsertionSort.v
theories/Proofs/InsertionSortFacts.v
theories/Proofs/TreeTraining.v
theories/Props/ModelStrings.v
theories/Proofs/TreeExamples.v
theories/Props/Trees.v
theories/Model/TreeIO.v
theories/Proofs/Feeds.v
theories/Spec/TreeFileSpec.v
theories/Proofs/TreeIOFacts.v
theories/Proofs/TreeFileProps.v
theories/Proofs/TreeFileExamples.v
theories/Props/TreeFiles.v
theories/Model/TreeJit.v
theories/Spec/JitSpec.v
theories/Proofs/TreeJitFacts.v
theories/Props/TreeJit.v
theories/Model/ForestM.v
theories/Model/NetM.v
theories/Model/PolicyNetM.v
theories/Model/PolicyModelsM.v
theories/Model/ConfigM.v
theories/Model/RuntimeM.v
theories/Model/KokkosM.v
theories/Model/MpiM.v
theories/Spec/ForestSpec.v
theories/Spec/NetSpec.v
theories/Spec/PolicyNetSpec.v
theories/Proofs/ForestFacts.v
theories/Proofs/NetFacts.v
theories/Proofs/NetReal.v
theories/Proofs/NetGradient.v
theories/Proofs/PolicyNetFacts.v
theories/Proofs/PolicyNetFiles.v
theories/Proofs/PolicyNetAverage.v
theories/Proofs/NetStep.v
theories/Proofs/PolicyNetSafety.v
theories/Proofs/PolicyNetStale.v
theories/Proofs/NetAdam.v
theories/Proofs/PolicyNetLearn.v
theories/Proofs/PolicyNetProps.v
theories/Proofs/ForestExamples.v
theories/Props/Forests.v
theories/Props/PolicyNet.v
theories/Spec/PolicyModelsSpec.v
theories/Proofs/PolicyModelsFacts.v
theories/Proofs/PolicyModelsExamples.v
theories/Proofs/DatasetExamples.v
theories/Proofs/DatasetDefects.v
theories/Props/Datasets.v
theories/Props/PolicyModels.v
theories/Spec/StartupSpec.v
theories/Proofs/StartupFacts.v
theories/Props/Startup.v
theories/Proofs/RuntimeFacts.v
theories/Proofs/RuntimeCollect.v
theories/Spec/RuntimeSpec.v
theories/Spec/FileNames.v
theories/Proofs/RuntimeMoves.v
theories/Proofs/RuntimePending.v
theories/Proofs/RuntimeOps.v
theories/Proofs/RuntimeSettled.v
theories/Proofs/RuntimeNew.v
theories/Proofs/RuntimeRegistry.v
theories/Proofs/RuntimeAccount.v
theories/Proofs/RuntimeRecords.v
theories/Proofs/RuntimeExamples.v
theories/Props/Runtime.v
theories/Props/RuntimePolicies.v
theories/Proofs/RuntimeClient.v
theories/Proofs/RuntimeCurrent.v
theories/Proofs/RuntimeProgress.v
theories/Proofs/RuntimeCreate.v
theories/Proofs/RuntimeUntouched.v
theories/Proofs/RuntimeTraining.v
theories/Proofs/RuntimeStored.v
theories/Proofs/RuntimeFiles.v
theories/Proofs/RuntimeData.v
theories/Proofs/RuntimeTraceDefects.v
theories/Proofs/RuntimePreserve.v
theories/Proofs/PolicyRange.v
theories/Proofs/RuntimeRange.v
theories/Proofs/RuntimeWatch.v
theories/Proofs/RuntimeLearn.v
theories/Proofs/RuntimePolicyExamples.v
theories/Spec/KokkosSpec.v
theories/Proofs/RuntimeStatic.v
theories/Proofs/KokkosCandidates.v
theories/Proofs/KokkosRuns.v
theories/Proofs/KokkosClient.v
theories/Proofs/KokkosTrain.v
theories/Proofs/KokkosStored.v
theories/Proofs/KokkosMeasured.v
theories/Proofs/KokkosDefects.v
theories/Proofs/KokkosDoubles.v
theories/Proofs/KokkosExamples.v
theories/Proofs/RuntimeFileExamples.v
theories/Props/RuntimeFiles.v
theories/Props/Kokkos.v
theories/Spec/MpiSpec.v
theories/Proofs/RuntimeNames.v
theories/Proofs/MpiPacking.v
theories/Proofs/MpiGather.v
theories/Proofs/MpiJobs.v
theories/Proofs/MpiSizes.v
theories/Proofs/MpiAgree.v
theories/Proofs/MpiExamples.v
theories/Props/Mpi.v
theories/Spec/SafeClient.v
theories/Proofs/SafeModels.v
theories/Proofs/SafeWorld.v
theories/Proofs/SafeCollect.v
theories/Proofs/SafeRuns.v
theories/Proofs/SafeSteps.v
theories/Proofs/SafeExamples.v
theories/Props/RuntimeSafety.v
theories/Proofs/RuntimePersist.v
theories/Proofs/RuntimePersistExamples.v
theories/Props/RuntimePersistence.v
theories/Model/TestM.v
theories/Proofs/TestProgram.v
theories/Proofs/TestVerdict.v
theories/Props/BundledTest.v
theories/Spec/GatherTrace.v
theories/Proofs/MpiTrace.v
theories/Proofs/MpiTraceExamples.v
theories/Props/MpiTraces.v
theories/Proofs/KokkosFences.v
theories/Proofs/KokkosFenceExamples.v
theories/Props/KokkosKernels.v
theories/Spec/ModelDocs.v
theories/Proofs/ModelDocsFacts.v
theories/Proofs/ModelDocsExamples.v
theories/Props/ModelDocs.v
theories/Spec/LearnedSpec.v
theories/Proofs/Measured.v
theories/Props/Learned.v
theories/Model/LoopM.v
theories/Spec/LoopSpec.v
theories/Proofs/LoopFacts.v
theories/Proofs/LoopExamples.v
theories/Props/Loop.v
theories/Spec/TraceSpec.v
theories/Proofs/Reports.v
theories/Proofs/ReportExamples.v
theories/Props/Traces.v
theories/Model/CInterfaceM.v
theories/Spec/CClient.v
theories/Proofs/CFacts.v
theories/Proofs/CExamples.v
theories/Props/CInterface.v
theories/Model/OpenCvM.v
theories/Spec/OpenCvSpec.v
theories/Proofs/OpenCvFacts.v
theories/Proofs/OpenCvExamples.v
theories/Props/OpenCv.v
theories/Spec/ModelFileSpec.v
theories/Proofs/ModelFileFacts.v
theories/Proofs/ModelFileExamples.v
theories/Props/ModelFiles.v
theories/Spec/GreedySpec.v
theories/Proofs/TreeGreedy.v
theories/Proofs/ForestGreedy.v
theories/Proofs/TreeGreedyExamples.v
theories/Props/Greedy.v
theories/Model/OverheadM.v
theories/Spec/OverheadSpec.v
theories/Proofs/OverheadFacts.v
theories/Proofs/OverheadExamples.v
theories/Props/Overhead.v
theories/Model/GpuTestM.v
theories/Proofs/GpuTestFacts.v
theories/Proofs/GpuTestExamples.v
theories/Props/GpuTest.v
theories/Proofs/TreeFileScan.v
theories/Spec/ForestFileSpec.v
theories/Proofs/ForestClasses.v
theories/Proofs/ForestFileExamples.v
theories/Props/ForestFiles.v
theories/Spec/NumeralSpec.v
theories/Proofs/Numerals.v
theories/Proofs/NumeralTokens.v
theories/Proofs/NumeralExamples.v
theories/Props/Numerals.v
theories/Model/JobM.v
theories/Spec/JobSpec.v
theories/Proofs/JobFacts.v
theories/Proofs/JobCalls.v
theories/Proofs/JobSim.v
theories/Proofs/JobOrder.v
theories/Proofs/JobExamples.v
theories/Props/Jobs.v
theories/Spec/TimerSpec.v
theories/Proofs/TimerFacts.v
theories/Props/Timers.v
theories/Spec/BlockedSpec.v
theories/Proofs/BlockedFacts.v
theories/Proofs/BlockedExamples.v
theories/Props/Blocked.v
theories/Model/SimpleTestM.v
theories/Proofs/SimpleTest.v
theories/Proofs/MpiLearn.v
theories/Proofs/MpiTest.v
theories/Proofs/MpiTestExamples.v
theories/Props/SmallTests.v
theories/Proofs/ForestLearn.v
theories/Proofs/ForestLearnExamples.v
theories/Proofs/RuntimeKept.v
theories/Proofs/RuntimeTwice.v
theories/Proofs/RuntimeKeptExamples.v
theories/Props/ForestAnswers.v
theories/Props/KeptData.v
theories/Props/TrainedTwice.v
theories/Proofs/NetBound.v
theories/Props/NetBounds.v
theories/Proofs/DeviceTimes.v
theories/Props/DeviceTimes.v
theories/Proofs/Separated.v
theories/Proofs/TestCoverage.v
theories/Props/TestCoverage.v
theories/Proofs/MinTraining.v
theories/Proofs/MinTrainingExamples.v
theories/Props/MinTraining.v
theories/Spec/EmptiedSpec.v
theories/Spec/RaggedSpec.v
theories/Proofs/RuntimeEmptied.v
theories/Proofs/RuntimeEmptiedExamples.v
theories/Props/RuntimeEmptied.v
theories/Proofs/TreeRagged.v
theories/Proofs/RuntimeRagged.v
theories/Proofs/RaggedExamples.v
theories/Props/Ragged.v
theories/Spec/ExplorerSpec.v
theories/Proofs/ExplorerFacts.v
theories/Proofs/ExplorerExamples.v
theories/Props/Explorers.v
theories/Spec/NetStillSpec.v
theories/Proofs/NetStill.v
theories/Proofs/NetStillExamples.v
theories/Props/NetStill.v
theories/Spec/SoftmaxSpec.v
theories/Spec/PoisonSpec.v
theories/Proofs/SoftmaxFloat.v
theories/Proofs/NetPoison.v
theories/Proofs/SoftmaxExamples.v
theories/Props/SoftmaxFloat.v
theories/Props/NetPoison.v
theories/Spec/FlushSpec.v
theories/Proofs/KokkosFlush.v
theories/Props/KokkosFlush.v
theories/Proofs/KokkosPrefix.v
theories/Proofs/KokkosPrefixExamples.v
theories/Props/KokkosPrefix.v
theories/Spec/BlindSpec.v
theories/Proofs/NetBlind.v
theories/Proofs/NetBlindExamples.v
theories/Props/NetBlind.v
theories/Spec/RouteSpec.v
theories/Proofs/RouteFacts.v
theories/Proofs/RouteExamples.v
theories/Props/Route.v
theories/Spec/RewardSpec.v
theories/Proofs/NetReward.v
theories/Proofs/NetRewardExamples.v
theories/Props/NetReward.v
theories/Model/CreateDatasetM.v
theories/Spec/CreateDatasetSpec.v
theories/Proofs/CreateDatasetFacts.v
theories/Proofs/CreateDatasetExamples.v
theories/Props/CreateDataset.v
theories/Proofs/CreateDatasetAll.v
theories/Proofs/CreateDatasetAllExamples.v
theories/Props/CreateDatasetDirs.v
theories/Model/AggregateM.v
theories/Spec/AggregateSpec.v
theories/Proofs/AggregateFacts.v
theories/Proofs/AggregateExamples.v
theories/Props/Aggregate.v
theories/Model/DotM.v
theories/Spec/DotSpec.v
theories/Proofs/DotFacts.v
theories/Proofs/DotTreeFacts.v
theories/Proofs/DotExamples.v
theories/Props/Dot.v
theories/Model/WriteOptM.v
theories/Spec/WriteOptSpec.v
theories/Proofs/WriteOptFacts.v
theories/Proofs/WriteOptExamples.v
theories/Props/WriteOpt.v
theories/Model/AnalyzeM.v
theories/Model/AccuracyM.v
theories/Spec/AnalyzeSpec.v
theories/Spec/AccuracySpec.v
theories/Proofs/AnalyzeFacts.v
theories/Proofs/AnalyzeRuns.v
theories/Proofs/AnalyzeExamples.v
theories/Spec/UntrainedSpec.v
theories/Proofs/AccuracyFacts.v
theories/Proofs/UntrainedFacts.v
theories/Proofs/RelaxedFloats.v
theories/Proofs/RelaxedWhole.v
theories/Proofs/RelaxedFacts.v
theories/Proofs/AccuracyExamples.v
theories/Props/Analyze.v
theories/Proofs/RelaxedExamples.v
theories/Props/Accuracy.v
theories/Props/Relaxed.v
theories/Spec/OptimalReportSpec.v
theories/Proofs/OptimalReportFacts.v
theories/Proofs/OptimalReportExamples.v
theories/Props/OptimalReport.v
theories/Proofs/UntrainedExamples.v
theories/Props/Untrained.v
theories/Model/TraceFileM.v
theories/Model/PlotTraceM.v
theories/Proofs/RuntimeGrows.v
theories/Spec/TraceFileSpec.v
theories/Spec/PlotTraceSpec.v
theories/Proofs/TraceFileFacts.v
theories/Proofs/TraceFileExamples.v
theories/Proofs/PlotTraceFacts.v
theories/Proofs/PlotTraceExamples.v
theories/Props/TraceFile.v
theories/Props/PlotTrace.v
theories/Model/LossGradM.v
theories/Spec/LossGradSpec.v
theories/Proofs/LossGradFacts.v
theories/Proofs/LossGradExamples.v
theories/Props/LossGrad.v
theories/Model/HistogramM.v
theories/Spec/HistogramSpec.v
theories/Proofs/HistogramFacts.v
theories/Proofs/HistogramExamples.v
theories/Props/Histogram.v
theories/Proofs/UnlearningFacts.v
theories/Proofs/UnlearningExamples.v
theories/Props/Unlearning.v
theories/Model/SpeedupM.v
theories/Spec/SpeedupSpec.v
theories/Proofs/SpeedupFacts.v
theories/Proofs/SpeedupExamples.v
theories/Props/Speedup.v
