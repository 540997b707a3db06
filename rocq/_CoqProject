-Q theories Verif
theories/Prelude.v
theories/MatModel.v
theories/UtilsModel.v
theories/IndexModel.v
theories/KMModel.v
theories/MatFacts.v
theories/SpecKM.v
theories/MFacts.v
theories/KMFacts.v
theories/KMInv.v
theories/KMOps.v
theories/KMIndex.v
theories/KMHist.v
theories/KMTotal.v
theories/KMGet.v
theories/KMTrack.v
theories/KMLog.v
theories/KMHist2.v
theories/ToyModel.v
theories/KMProps.v
theories/Prop_KM.v
theories/XReal.v
theories/OpsModel.v
theories/SpecLinAlg.v
theories/RSum.v
theories/PSDFacts.v
theories/OpsFacts.v
theories/OpsProps.v
theories/OpsProps2.v
theories/Prop_Ops.v
theories/Prop_Ops2.v
theories/KernelsModel.v
theories/SpecKernels.v
theories/KernelFacts.v
theories/KernelProps.v
theories/Prop_Kernels.v
theories/KMXModel.v
theories/SpecKMX.v
theories/KMXProps.v
theories/Prop_KMX.v
theories/KMSteady.v
theories/Prop_KMSteady.v
theories/SetModel.v
theories/SpecSet.v
theories/SetFacts.v
theories/SetFacts2.v
theories/SetProps.v
theories/Prop_Set.v
theories/ContProps.v
theories/Prop_Cont.v
theories/FullFacts.v
theories/CompositeModel.v
theories/SpecComposite.v
theories/CompositeFacts.v
theories/CompositeProps.v
theories/Prop_Composite.v
theories/BucketModel.v
theories/SpecBucket.v
theories/BucketProps.v
theories/Prop_Bucket.v
theories/RankModel.v
theories/SpecRank.v
theories/RankFacts.v
theories/CorrFacts.v
theories/RankProps.v
theories/Prop_Rank.v
theories/AlgoModel.v
theories/SpecAlgo.v
theories/AlgoFacts.v
theories/AlgoProps.v
theories/Prop_Algo.v
theories/SpecOpt.v
theories/OptFacts.v
theories/SpecOptCases.v
theories/OptProps.v
theories/Prop_Opt.v
theories/IsPsdModel.v
theories/IsPsdProps.v
theories/Prop_IsPsd.v
theories/KMFreshProps.v
theories/Prop_KMFresh.v
theories/PinProps.v
theories/Prop_Pin.v
theories/FloatModel.v
theories/SpecFloats.v
theories/FloatProps.v
theories/Prop_Float.v
theories/FloatNormProps.v
theories/Prop_FloatNorm.v
theories/SpecFloatVal.v
theories/FloatRound.v
theories/FloatErrProps.v
theories/Prop_FloatErr.v
theories/AliasModel.v
theories/SpecAlias.v
theories/AliasFacts.v
theories/AliasProps.v
theories/Prop_Alias.v
theories/CallableModel.v
theories/SpecCallable.v
theories/CallableProps.v
theories/Prop_Callable.v
theories/PrintModel.v
theories/PrintProps.v
theories/Prop_Print.v
theories/LinCombModel.v
theories/SpecLinComb.v
theories/LinCombProps.v
theories/Prop_LinComb.v
theories/CategModel.v
theories/SpecCateg.v
theories/CategProps.v
theories/Prop_Categ.v
theories/IntModel.v
theories/SpecInt.v
theories/IntProps.v
theories/Prop_Int.v
theories/SpecRef.v
theories/RefFacts.v
theories/RefProps.v
theories/RefXProps.v
theories/Prop_Ref.v
theories/Prop_RefX.v
theories/SpecFloatErr.v
theories/FloatAny.v
theories/FloatSum.v
theories/FloatDotProps.v
theories/FloatChiProps.v
theories/Prop_FloatDot.v
theories/Prop_FloatChi.v
theories/VecModel.v
theories/SpecVec.v
theories/VecProps.v
theories/Prop_Vec.v
theories/FloatDiv.v
theories/FloatOpsModel.v
theories/SpecFloatOps.v
theories/FloatOpsFacts.v
theories/FloatOpsProps.v
theories/Prop_FloatOps.v
theories/SpecEval.v
theories/KMEval.v
theories/KMEvalProps.v
theories/Prop_KMEval.v
theories/FloatNearest.v
theories/FloatRankModel.v
theories/SpecFloatRank.v
theories/FloatRankProps.v
theories/Prop_FloatRank.v
theories/FloatCompositeModel.v
theories/SpecFloatComposite.v
theories/FloatCompositeProps.v
theories/Prop_FloatComposite.v
theories/FloatKMModel.v
theories/SpecFloatKM.v
theories/FloatKMFacts.v
theories/FloatKMProps.v
theories/Prop_FloatKM.v
theories/FloatPsdProps.v
theories/Prop_FloatPsd.v
theories/FloatCentreProps.v
theories/Prop_FloatCentre.v
theories/RejectProps.v
theories/Prop_Reject.v
theories/KMPart.v
theories/PartProps.v
theories/Prop_Part.v
theories/SpecSample.v
theories/SampleProps.v
theories/Prop_Sample.v
theories/SampleXProps.v
theories/Prop_SampleX.v
theories/InvarProps.v
theories/Prop_Invar.v
theories/SpecFailFit.v
theories/FailFitProps.v
theories/Prop_FailFit.v
theories/SpecFailMach.v
theories/FailMachProps.v
theories/Prop_FailMach.v
theories/AttrProps.v
theories/Prop_Attr.v
theories/LazyProps.v
theories/Prop_Lazy.v
theories/SpecFailOpt.v
theories/FailOptProps.v
theories/Prop_FailOpt.v
theories/SpecTable.v
theories/TableFacts.v
theories/TableProps.v
theories/Prop_Table.v
theories/SpecProduct.v
theories/ProductProps.v
theories/Prop_Product.v
theories/WarnModel.v
theories/SpecWarn.v
theories/WarnFacts.v
theories/WarnSilent.v
theories/WarnExact.v
theories/WarnProps.v
theories/Prop_Warn.v
theories/OptExact.v
theories/Prop_OptExact.v
theories/AlignExact.v
theories/Prop_AlignExact.v
theories/OpWarnModel.v
theories/OpWarnProps.v
theories/Prop_OpWarn.v
theories/CombExact.v
theories/Prop_CombExact.v
theories/NameModel.v
theories/NameProps.v
theories/Prop_Name.v
theories/PosDefProps.v
theories/Prop_PosDef.v
theories/ThreadModel.v
theories/SpecThread.v
theories/ThreadFacts.v
theories/ThreadProps.v
theories/Prop_Thread.v
theories/ThreadSeqProps.v
theories/Prop_ThreadSeq.v
theories/ArraySetProps.v
theories/Prop_ArraySet.v
theories/EdgeProps.v
theories/Prop_Edge.v
theories/SpecCost.v
theories/KMCount.v
theories/CostProps.v
theories/Prop_Cost.v
theories/MachCostProps.v
theories/Prop_MachCost.v
theories/IterModel.v
theories/IterProps.v
theories/Prop_Iter.v
theories/SpecFloatNan.v
theories/FloatNanProps.v
theories/Prop_FloatNan.v
theories/FloatSparseProps.v
theories/Prop_FloatSparse.v
theories/ImportModel.v
theories/SpecImport.v
theories/ImportProps.v
theories/Prop_Import.v
theories/StrictModel.v
theories/SpecStrict.v
theories/StrictFacts.v
theories/StrictRef.v
theories/StrictProps.v
theories/Prop_Strict.v
theories/SpecOptCost.v
theories/OptCostProps.v
theories/Prop_OptCost.v
theories/IntParamModel.v
theories/SpecIntParam.v
theories/IntParamProps.v
theories/Prop_IntParam.v
theories/ThreadDerivedModel.v
theories/SpecThreadDerived.v
theories/ThreadDerivedFacts.v
theories/ThreadDerivedProps.v
theories/Prop_ThreadDerived.v
theories/ConvModel.v
theories/SpecConv.v
theories/ConvFacts.v
theories/ConvSim.v
theories/ConvProps.v
theories/Prop_Conv.v
theories/OpStrictModel.v
theories/OpStrictProps.v
theories/Prop_OpStrict.v
theories/SpecSetCost.v
theories/SetCostProps.v
theories/Prop_SetCost.v
theories/DefiniteProps.v
theories/Prop_Definite.v
theories/MixModel.v
theories/SpecMix.v
theories/MixProps.v
theories/Prop_Mix.v
theories/PolyDefProps.v
theories/Prop_PolyDef.v
theories/HadDefProps.v
theories/Prop_HadDef.v
theories/MatchDefProps.v
theories/Prop_MatchDef.v
theories/HadNullProps.v
theories/Prop_HadNull.v
theories/ConstModel.v
theories/SpecConst.v
theories/ConstProps.v
theories/Prop_Const.v
theories/MatrixDefProps.v
theories/Prop_MatrixDef.v
theories/PolyExactProps.v
theories/Prop_PolyExact.v
theories/PreModel.v
theories/PreProps.v
theories/Prop_Pre.v
theories/OrderProps.v
theories/Prop_Order.v
theories/TakeOrderProps.v
theories/Prop_TakeOrder.v
theories/RecodeProps.v
theories/Prop_Recode.v
theories/CvOrderProps.v
theories/Prop_CvOrder.v
theories/SubTableProps.v
theories/Prop_SubTable.v
theories/ShuffleProps.v
theories/Prop_Shuffle.v
theories/PickCompProps.v
theories/Prop_PickComp.v
