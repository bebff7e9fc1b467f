-Q theories Verif
theories/VersionTable.v
theories/ModelBase.v
theories/ModelBinary.v
theories/ModelUtf8.v
theories/ModelMatrix.v
theories/ModelVersion.v
theories/ModelChardet.v
theories/ModelEncoder.v
theories/ModelRS.v
theories/ModelMask.v
theories/ModelKmp.v
theories/ModelEval.v
theories/ModelLayout.v
theories/ModelQRCode.v
theories/SpecIso.v
theories/SpecReader.v
theories/SpecSegment.v
theories/SpecMatrix.v
theories/ProofBase.v
theories/ProofMatrix.v
theories/ProofWalk.v
theories/ProofSweep.v
theories/ProofLayout.v
theories/ProofSymbol.v
theories/ProofBits.v
theories/ProofTables.v
theories/ProofStream.v
theories/SpecRS.v
theories/SpecPenalty.v
theories/ProofEncode.v
theories/ProofMode.v
theories/ProofKanji.v
theories/ProofSegment.v
theories/ProofGF.v
theories/ProofRS.v
theories/ProofInit.v
theories/ProofKmp.v
theories/ProofEval.v
theories/SpecAPI.v
theories/ProofMasking.v
theories/ProofVersion.v
theories/ProofBuild.v
theories/ProofAPI.v
theories/ProofNew.v
theories/SpecRecovery.v
theories/ProofRecovery.v
theories/SpecSymbol.v
theories/ProofSearch.v
theories/Samples.v
theories/PropsNew.v
theories/PropsSymbol.v
theories/ProofViews.v
theories/PropsEval.v
theories/ModelHeap.v
theories/ModelSave.v
theories/SpecSave.v
theories/ProofHeap.v
theories/PropsSave.v
theories/ModelFile.v
theories/SpecText.v
theories/ProofFile.v
theories/PropsFile.v
theories/ModelCompressed.v
theories/SpecImage.v
theories/ProofCompressed.v
theories/PropsCompressed.v
theories/ModelStandard.v
theories/SpecStandard.v
theories/ProofStandard.v
theories/PropsStandard.v
theories/ModelSearch.v
theories/SpecSearch.v
theories/ProofSearchVersion.v
theories/PropsVersion.v
theories/ModelCache.v
theories/SpecConcurrent.v
theories/ProofCache.v
theories/PropsConcurrent.v
theories/ModelTerminal.v
theories/SpecTerminal.v
theories/ProofTerminal.v
theories/PropsTerminal.v
theories/ModelWriters.v
theories/SpecMedium.v
theories/ProofMedium.v
theories/PropsSaved.v
theories/ModelCli.v
theories/SpecCli.v
theories/ProofCli.v
theories/PropsCli.v
theories/ModelWasm.v
theories/SpecWasm.v
theories/ProofWasm.v
theories/PropsWasm.v
theories/SpecScore.v
theories/ProofScore.v
theories/PropsMask.v
theories/SpecUtf8.v
theories/ProofUtf8.v
theories/PropsText.v
theories/SpecShape.v
theories/ProofShape.v
theories/PropsShape.v
theories/ModelImgkit.v
theories/SpecImgkit.v
theories/ProofImgkit.v
theories/PropsImgkit.v
theories/ModelGradient.v
theories/SpecGradient.v
theories/ProofGradient.v
theories/PropsGradient.v
theories/ProofLock.v
theories/ModelShapes.v
theories/SpecShapes.v
theories/ProofLinks.v
theories/ProofShapes.v
theories/PropsShapes.v
theories/PropsLossy.v
theories/SpecLogo.v
theories/ProofLogo.v
theories/PropsLogo.v
theories/PropsLogoLow.v
theories/SpecHistory.v
theories/PropsHistory.v
theories/SpecTypes.v
theories/ProofTypes.v
theories/PropsTypes.v
theories/ModelFs.v
theories/SpecFs.v
theories/PropsFs.v
theories/ModelDebug.v
theories/SpecDebug.v
theories/ProofDebug.v
theories/ProofDebug2.v
theories/PropsDebug.v
theories/SpecOptions.v
theories/ProofOptions.v
theories/PropsOptions.v
theories/ModelFloat.v
theories/SpecFloat64.v
theories/ProofFloat.v
theories/ModelGradient64.v
theories/SpecGradient64.v
theories/ProofGradient64.v
theories/PropsGradient64.v
theories/SpecLocate.v
theories/ProofLocate.v
theories/PropsLocate.v
theories/SpecCombine.v
theories/ProofCombine.v
theories/PropsCombine.v
theories/ProofFrame.v
theories/PropsFound.v
theories/SpecMonotone.v
theories/PropsMonotone.v
theories/SpecOrient.v
theories/ProofOrient.v
theories/PropsOrient.v
theories/ModelShare.v
theories/SpecShare.v
theories/ProofShare.v
theories/PropsShare.v
theories/ModelFine.v
theories/SpecFine.v
theories/ProofFine.v
theories/ProofFine2.v
theories/ProofFine3.v
theories/PropsFine.v
theories/SpecDirt.v
theories/ProofDirt.v
theories/PropsDirt.v
theories/ModelIntBits.v
theories/SpecIntBits.v
theories/PropsIntBits.v
theories/ProofHalftone.v
theories/PropsCliHalftone.v
theories/Conformance.v
theories/PropsColours.v
theories/PropsPanic.v
theories/SpecSheet.v
theories/ProofSheet.v
theories/PropsSheet.v
theories/ProofStill.v
theories/PropsStill.v
theories/PropsSheetCli.v
theories/PropsSheetWasm.v
theories/ModelExample.v
theories/ProofExample.v
theories/PropsExample.v
theories/ModelShapes64.v
theories/SpecShapes64.v
theories/ProofFloatNear.v
theories/ProofShapes64.v
theories/ProofShapes64b.v
theories/PropsShapes64.v
theories/ModelHalftone64.v
theories/ProofHalftone64.v
theories/ProofHalftone64b.v
theories/PropsHalftone64.v
theories/ModelCrash.v
theories/SpecCrash.v
theories/ProofCrash.v
theories/PropsCrash.v
theories/ModelAlias.v
theories/SpecAlias.v
theories/PropsAlias.v
theories/ModelOnce.v
theories/SpecOnce.v
theories/ProofOnce.v
theories/PropsOnce.v
theories/SpecMany.v
theories/PropsMany.v
theories/SpecKnown.v
theories/PropsStain.v
theories/ModelShared.v
theories/PropsShared.v
theories/SpecMostly.v
theories/PropsMostly.v
theories/SpecJisTable.v
theories/SpecJis.v
theories/PropsJis.v
theories/ModelInt.v
theories/ProofInt.v
theories/ProofIntNew.v
theories/PropsInt.v
theories/ModelPaint.v
theories/SpecPaint.v
theories/ProofPaint.v
theories/PropsPaint.v
theories/ModelExamples.v
theories/SpecExamples.v
theories/ProofExamples.v
theories/ProofHidden.v
theories/PropsExamples.v
theories/SpecHidden.v
theories/PropsHidden.v
theories/PropsCropped.v
theories/SpecTransparent.v
theories/ProofTransparent.v
theories/PropsTransparent.v
theories/ModelIssues.v
theories/SpecIssues.v
theories/PropsIssues.v
theories/ModelArgs.v
theories/SpecArgs.v
theories/PropsArgs.v
