-Q theories Verif
theories/GoSem.v
theories/Bytes.v
theories/GaloisTables.v
theories/ShamirTables.v
theories/Spec.v
theories/Galois.v
theories/GF.v
theories/GaloisFacts.v
theories/PolyFacts.v
theories/Vector.v
theories/GoFacts.v
theories/VectorFacts.v
theories/VectorMore.v
theories/Csprng.v
theories/Pool.v
theories/Polynomial.v
theories/Shamir.v
theories/PolynomialFacts.v
theories/SplitFacts.v
theories/CombineFacts.v
theories/RegenFacts.v
theories/Secrecy.v
theories/CsprngFacts.v
theories/Derived.v
theories/RandomizerFacts.v
theories/Randomizer.v
theories/SplitP.v
theories/SplitPFacts.v
theories/SplitPMore.v
theories/SplitPTop.v
theories/CountFacts.v
theories/ExData.v
theories/Pf1.v
theories/Props1.v
theories/Pf2.v
theories/Props2.v
theories/Pf3.v
theories/Props3.v
theories/Pf4.v
theories/Props4.v
theories/Pf5.v
theories/Props5.v
theories/SpecKr.v
theories/Libs.v
theories/AES.v
theories/Krawczyk.v
theories/KrawczykFacts.v
theories/KrawczykCombine.v
theories/KrawczykContract.v
theories/Pf6.v
theories/Props6.v
theories/Worker.v
theories/Pf7.v
theories/Props7.v
theories/Memory.v
theories/SpecMem.v
theories/AESFacts.v
theories/Pf8.v
theories/Props8.v
theories/Concurrency.v
theories/SpecConc.v
theories/ConcFacts.v
theories/ConcSplit.v
theories/Pf9.v
theories/Props9.v
theories/MathRand.v
theories/MathRandFacts.v
theories/SpecRand.v
theories/RandAttack.v
theories/Pf10.v
theories/Props10.v
theories/Asm.v
theories/SpecAsm.v
theories/AsmFacts.v
theories/AsmAmd.v
theories/AsmAvx.v
theories/AsmTop.v
theories/AsmArm.v
theories/Pf11.v
theories/Pf12.v
theories/Props11.v
theories/Props12.v
theories/SpecHist.v
theories/Pf13.v
theories/Props13.v
theories/Main.v
theories/SpecMain.v
theories/Pf14.v
theories/Props14.v
theories/MemCalls.v
theories/SpecMemCalls.v
theories/MemFacts.v
theories/MemSplit.v
theories/MemTop.v
theories/Pf15.v
theories/Props15.v
theories/KrMem.v
theories/SpecKrMem.v
theories/KrMemFacts.v
theories/KrSplitMem.v
theories/SpecKrSplitMem.v
theories/KrSplitMemFacts.v
theories/OldMemFacts.v
theories/Pf16.v
theories/Props16.v
theories/Pf17.v
theories/Props17.v
theories/SpecRemain.v
theories/RemainFacts.v
theories/Pf18.v
theories/Props18.v
theories/Trace.v
theories/SpecTrace.v
theories/TraceFacts.v
theories/CombineTrace.v
theories/AsmTrace.v
theories/Pf19.v
theories/Props19.v
theories/SpecJoint.v
theories/JointFacts.v
theories/Pf20.v
theories/Props20.v
theories/SpecWidth.v
theories/IntWidth.v
theories/IntWidthFacts.v
theories/IntWidthTop.v
theories/Pf21.v
theories/Props21.v
theories/Pf22.v
theories/Props22.v
theories/ConcAll.v
theories/SpecConcAll.v
theories/ConcAllFacts.v
theories/Pf23.v
theories/Props23.v
theories/ConcRand.v
theories/SpecConcRand.v
theories/ConcRandFacts.v
theories/ConcRandSecret.v
theories/ConcRandSafe.v
theories/ConcRandEnd.v
theories/Pf24.v
theories/Props24.v
theories/Pf25.v
theories/Props25.v
theories/TraceMore.v
theories/SpecTraceMore.v
theories/TraceMoreFacts.v
theories/TraceMoreP.v
theories/Pf26.v
theories/Props26.v
theories/SpecPools.v
theories/PoolFacts.v
theories/PoolMachine.v
theories/Pf27.v
theories/Props27.v
theories/SpecJointKr.v
theories/JointKrFacts.v
theories/Pf28.v
theories/Props28.v
theories/RemainKr.v
theories/Pf29.v
theories/Props29.v
theories/SpecRS.v
theories/RSFacts.v
theories/Pf30.v
theories/Props30.v
theories/RandomizerNew.v
theories/SpecRz.v
theories/Pf31.v
theories/Props31.v
theories/SpecConcKr.v
theories/ConcKrFacts.v
theories/Pf32.v
theories/Props32.v
theories/SpecPerm.v
theories/PermFacts.v
theories/Pf33.v
theories/Props33.v
theories/RandCalls.v
theories/SpecRandCalls.v
theories/Pf34.v
theories/Props34.v
theories/SpecRemainPkg.v
theories/RemainPkg.v
theories/Pf35.v
theories/Props35.v
theories/SpecDetect.v
theories/DetectFacts.v
theories/Pf36.v
theories/Props36.v
theories/SplitPMem.v
theories/SpecSplitPMem.v
theories/SplitPMemFacts.v
theories/Pf37.v
theories/Props37.v
theories/SpecAdaptive.v
theories/AdaptiveFacts.v
theories/Pf38.v
theories/Props38.v
theories/SpecFrequency.v
theories/FrequencyFacts.v
theories/Pf39.v
theories/Props39.v
theories/SpecMix.v
theories/MixFacts.v
theories/Pf40.v
theories/Props40.v
theories/KrTrace.v
theories/KrTraceFacts.v
theories/Pf41.v
theories/Props41.v
theories/SpecTree.v
theories/TreeFacts.v
theories/Pf42.v
theories/Props42.v
theories/SpecWidthMore.v
theories/IntWidthMore.v
theories/IntWidthMoreFacts.v
theories/Pf43.v
theories/Props43.v
theories/SpecSource.v
theories/SourceFacts.v
theories/Pf44.v
theories/Props44.v
theories/SpecBias.v
theories/BiasFacts.v
theories/Pf45.v
theories/Props45.v
theories/Pf46.v
theories/Props46.v
theories/Pf47.v
theories/Props47.v
theories/Pf48.v
theories/Props48.v
theories/Pf49.v
theories/Props49.v
theories/Pf50.v
theories/Props50.v
