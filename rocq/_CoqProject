-Q theories Verif
theories/Machine.v
theories/SpecDecimal.v
theories/SpecInt.v
theories/SpecString.v
theories/LibMachine.v
theories/ModelItoa.v
theories/ModelInt.v
theories/ModelString.v
theories/ModelText.v
theories/ProofItoa.v
theories/ProofInt.v
theories/ProofString.v
theories/ProofText.v
theories/ModelIeee.v
theories/ModelDiyfp.v
theories/ModelDtoa.v
theories/ProofDiyfp.v
theories/ProofCached.v
theories/ProofDigits.v
theories/SpecNumber.v
theories/SpecIeee.v
theories/SpecRead.v
theories/ModelFloat.v
theories/ModelLexi.v
theories/ModelPlatforms.v
theories/SpecApi.v
theories/SpecJson.v
theories/ProofGrisu.v
theories/ProofLayout.v
theories/ProofIeee.v
theories/ProofDtoa.v
theories/ProofNumber.v
theories/ProofApi.v
theories/ProofRound.v
theories/ProofStrict.v
theories/ProofUnique.v
theories/ProofShort.v
theories/ProofFloat.v
theories/ProofFloat2.v
theories/ProofFloat3.v
theories/ProofFloat4.v
theories/ProofClose.v
theories/ProofRead.v
theories/ProofRead2.v
theories/ProofRead3.v
theories/SpecBig.v
theories/ModelBigint.v
theories/ProofBig.v
theories/ProofBig2.v
theories/ProofBig3.v
theories/ProofBig4.v
theories/SpecBigProgram.v
theories/ProofBig5.v
theories/ProofBig6.v
theories/ProofBig7.v
theories/ModelStrtod.v
theories/ProofStrtod.v
theories/SpecStrtod.v
theories/ProofStrtod2.v
theories/ProofStrtod3.v
theories/ModelType.v
theories/SpecType.v
theories/ProofType.v
theories/ModelObj.v
theories/SpecObj.v
theories/ProofObj.v
theories/ProofObj2.v
theories/ProofObj3.v
theories/SpecLayout.v
theories/SpecMore.v
theories/SpecMeaning.v
theories/ProofMore.v
theories/ProofMore2.v
theories/ProofMore3.v
theories/ProofMore4.v
theories/ProofMore5.v
theories/ProofMore6.v
theories/SpecOverrun.v
theories/ProofOverrun.v
theories/ProofMeaning.v
theories/ProofMeaning2.v
theories/ProofMeaning3.v
theories/TestSuite.v
theories/PropInt.v
theories/PropText.v
theories/PropString.v
theories/PropFloat.v
theories/PropFloat2.v
theories/PropRead.v
theories/PropBig.v
theories/PropStrtod.v
theories/PropType.v
theories/PropObj.v
theories/PropMore.v
theories/PropMeaning.v
theories/PropOverrun.v
theories/ModelConfig.v
theories/SpecConfig.v
theories/ProofConfig.v
theories/PropConfig.v
theories/ModelCall.v
theories/ProofCall.v
theories/PropCall.v
theories/SpecJoin.v
theories/ProofJoin.v
theories/ProofJoin2.v
theories/ProofJoin3.v
theories/PropJoin.v
theories/ModelSigned.v
theories/ProofSigned.v
theories/PropSigned.v
theories/ModelRounding.v
theories/SpecRounding.v
theories/ProofRounding.v
theories/PropRounding.v
theories/ProofThrough.v
theories/PropThrough.v
theories/SpecTwice.v
theories/ProofTwice.v
theories/PropTwice.v
theories/ModelEval.v
theories/ProofEval.v
theories/PropEval.v
theories/ProofSettle.v
theories/PropSettle.v
theories/SpecAmount.v
theories/ProofAmount.v
theories/PropAmount.v
theories/ModelDirected.v
theories/SpecDirected.v
theories/ProofDirected.v
theories/ProofDirected2.v
theories/SpecWide.v
theories/ProofWide.v
theories/PropWide.v
theories/PropDirected.v
theories/ModelErrno.v
theories/SpecErrno.v
theories/ProofErrno.v
theories/PropErrno.v
theories/ModelMemory.v
theories/SpecMemory.v
theories/ProofMemory.v
theories/PropMemory.v
theories/SpecBlocks.v
theories/ProofBlocks.v
theories/PropBlocks.v
theories/ModelThrown.v
theories/SpecBigStore.v
theories/ModelBigStore.v
theories/ProofThrown.v
theories/ProofBigStore.v
theories/PropBigStore.v
theories/SpecGrisu.v
theories/ProofWindow.v
theories/ProofShown.v
theories/PropGrisu.v
theories/SpecBehind.v
theories/ProofAim.v
theories/PropBehind.v
theories/SpecLocale.v
theories/ModelLocale.v
theories/ProofLocale.v
theories/PropLocale.v
theories/SpecBigWords.v
theories/ProofBigWords.v
theories/ProofBigWords2.v
theories/PropBigWords.v
theories/SpecEnum.v
theories/ModelEnum.v
theories/ProofEnum.v
theories/PropEnum.v
theories/ModelPointer.v
theories/SpecPointer.v
theories/ProofPointer.v
theories/PropPointer.v
theories/SpecFlush.v
theories/ModelFlush.v
theories/ProofFlush.v
theories/PropFlush.v
theories/SpecPaired.v
theories/ModelPaired.v
theories/ProofPaired.v
theories/PropPaired.v
theories/SpecPosition.v
theories/ModelPosition.v
theories/ProofPosition.v
theories/PropPosition.v
theories/SpecWork.v
theories/ModelWork.v
theories/ProofWork.v
theories/PropWork.v
theories/SpecMachine.v
theories/ProofMachine.v
theories/PropMachine.v
theories/SpecBigWork.v
theories/ModelBigWork.v
theories/ProofBigWork.v
theories/PropBigWork.v
theories/SpecEncoding.v
theories/ModelEncoding.v
theories/ProofEncoding.v
theories/PropEncoding.v
theories/ModelBytes.v
theories/SpecBytes.v
theories/ProofBytes.v
theories/PropBytes.v
theories/ModelLiterals.v
theories/SpecLiterals.v
theories/ProofLiterals.v
theories/PropLiterals.v
theories/ModelReader.v
theories/SpecReader.v
theories/ProofReader.v
theories/PropReader.v
theories/ModelThreads.v
theories/SpecThreads.v
theories/ProofThreads.v
theories/PropThreads.v
theories/ModelParallel.v
theories/SpecParallel.v
theories/ProofParallel.v
theories/PropParallel.v
theories/SpecPieces.v
theories/ProofPieces.v
theories/PropPieces.v
theories/SpecShell.v
theories/ProofShell.v
theories/PropShell.v
theories/SpecDiy.v
theories/ProofDiy.v
theories/PropDiy.v
