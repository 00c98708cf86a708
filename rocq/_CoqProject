-Q theories Verif
theories/Base.v
theories/Containers.v
theories/ContainersFacts.v
theories/ContainersRefine.v
theories/Floats.v
theories/Rng.v
theories/Env.v
theories/CoinTosser.v
theories/Algo.v
theories/Params.v
theories/Estimator.v
theories/Wp.v
theories/Spec.v
theories/ClauseFacts.v
theories/FeedbackFacts.v
theories/BwFeedbackFacts.v
theories/CtFacts.v
theories/PropsContainers.v
theories/BwSparseFacts.v
theories/Laws.v
theories/LawsClassic.v
theories/LawsBitwise.v
theories/ParamFacts.v
theories/VoteFacts.v
theories/EstPredict.v
theories/EstTrain.v
theories/EstUpdate.v
theories/EstFit.v
theories/EstStep.v
theories/Reach.v
theories/HistFacts.v
theories/InvFacts.v
theories/SimUpdate.v
theories/SimFit.v
theories/SimRun.v
theories/SimFacts.v
theories/TrainFacts.v
theories/Trace.v
theories/OneStep.v
theories/PropFacts.v
theories/StepFacts.v
theories/Toy.v
theories/ToyFacts.v
theories/PropsPredict.v
theories/ToyTrain.v
theories/PropsInv.v
theories/PropsTrain.v
theories/FloatBase.v
theories/FloatFacts.v
theories/LossFacts.v
theories/TotalFacts.v
theories/FloatProps.v
theories/TotalProps.v
theories/ToyFloat.v
theories/BoxMullerFacts.v
theories/PropsFloat.v
theories/Mt.v
theories/MtFacts.v
theories/MtInst.v
theories/PropsRng.v
theories/DefectFacts.v
theories/InitFacts.v
theories/ToyDefects.v
theories/PropsDefects.v
theories/KwArgs.v
theories/KwFacts.v
theories/ParamSpec.v
theories/PropsParams.v
theories/Json.v
theories/JsonFacts.v
theories/JsonSpec.v
theories/JsonProps.v
theories/JsonFloat.v
theories/PropsJson.v
theories/StateJson.v
theories/StateFacts.v
theories/StateParams.v
theories/StateProps.v
theories/PropsState.v
theories/Aligned.v
theories/AlignedFacts.v
theories/PropsAligned.v
theories/Concurrency.v
theories/ConcurrencyFacts.v
theories/ConcurrencyProps.v
theories/PropsConcurrency.v
theories/ConcurrencyReg.v
theories/ConcurrencyRegFacts.v
theories/ConcurrencyRegProps.v
theories/PropsConcurrencyReg.v
theories/Equality.v
theories/EqualityFacts.v
theories/EqualityProps.v
theories/PropsEquality.v
theories/Objects.v
theories/ObjectSpec.v
theories/ObjectProps.v
theories/PropsObjects.v
theories/GenMemory.v
theories/GenMemoryFacts.v
theories/PropsGenMemory.v
theories/LoadState.v
theories/LoadFacts.v
theories/LoadProps.v
theories/LoadKind.v
theories/PropsLoad.v
theories/Parallel.v
theories/ParallelFacts.v
theories/ParallelBodies.v
theories/ParallelProps.v
theories/ParallelPacked.v
theories/PropsParallel.v
theories/Kernels.v
theories/KernelFacts.v
theories/KernelProps.v
theories/KernelToy.v
theories/PropsKernels.v
theories/Relevance.v
theories/PropsRelevance.v
theories/CachedTossers.v
theories/CachedTosserFacts.v
theories/CachedTosserProps.v
theories/FrandCache.v
theories/FrandFacts.v
theories/TosserToy.v
theories/PropsTossers.v
theories/Values.v
theories/ValueSpec.v
theories/ValueProps.v
theories/MemberFacts.v
theories/PropsValues.v
theories/Results.v
theories/ResultSpec.v
theories/ParamChain.v
theories/ResultProps.v
theories/PropsResults.v
theories/WideLaws.v
theories/WideUpdate.v
theories/WideRun.v
theories/WideProps.v
theories/ToyWide.v
theories/PropsWide.v
theories/Grisu.v
theories/JsonText.v
theories/JsonGrammar.v
theories/LexFacts.v
theories/DecFloat.v
theories/NumFacts.v
theories/ParseFacts.v
theories/ParseProps.v
theories/GrisuFacts.v
theories/GrisuDigits.v
theories/GrisuProps.v
theories/DumpFacts.v
theories/DumpNum.v
theories/DumpProps.v
theories/TextIO.v
theories/TextFacts.v
theories/TextState.v
theories/TextSpec.v
theories/TextProps.v
theories/PropsText.v
theories/Learned.v
theories/ToyLearned.v
theories/PropsLearned.v
theories/Progress.v
theories/ToyProgress.v
theories/PropsProgress.v
theories/Logging.v
theories/LogSpec.v
theories/LoggingFacts.v
theories/ToyLog.v
theories/PropsLog.v
theories/ScoreProps.v
theories/PropsScore.v
theories/Document.v
theories/DocProps.v
theories/PropsDoc.v
theories/HugeFacts.v
theories/PropsHuge.v
theories/EditProps.v
theories/EditInst.v
theories/EditSaved.v
theories/PropsEdit.v
