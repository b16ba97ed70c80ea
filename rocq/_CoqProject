-Q theories Verif
theories/Base.v
theories/PyStr.v
theories/PyRe.v
theories/PyDict.v
theories/ModelParse.v
theories/SpecMech.v
theories/ParseText.v
theories/ParseItem.v
theories/ParseStruct.v
theories/ParseWritten.v
theories/ParseTables.v
theories/ParseShow.v
theories/PropsParse.v
theories/ModelLang.v
theories/ModelGen.v
theories/ModelRhs.v
theories/SpecKin.v
theories/LangFacts.v
theories/GenReact.v
theories/GenLossGain.v
theories/GenParsed.v
theories/GenSparse.v
theories/PropsKin.v
theories/PropsRhs.v
theories/GenJac.v
theories/GenJacParsed.v
theories/JacDeriv.v
theories/PropsJac.v
theories/ModelOmp.v
theories/OmpFacts.v
theories/PropsOmp.v
theories/ModelRate.v
theories/RateText.v
theories/RateBrackets.v
theories/SpecRate.v
theories/RateExpr.v
theories/RateNames.v
theories/ModelRateFile.v
theories/PropsRate.v
theories/ModelExpr.v
theories/ModelRateBody.v
theories/ModelRateRun.v
theories/SpecSun.v
theories/RateSym.v
theories/RateBody.v
theories/RateSun.v
theories/PropsBody.v
theories/SpecTroe.v
theories/PropsTroe.v
theories/SpecRateValue.v
theories/RateParse.v
theories/SpecMcmEnv.v
theories/PropsRateValue.v
theories/ModelRo2.v
theories/SpecRo2.v
theories/PropsRo2.v
theories/ModelSolver.v
theories/SpecSolver.v
theories/SolverFacts.v
theories/OdeFacts.v
theories/PropsSolver.v
theories/ModelPart.v
theories/SpecPart.v
theories/PartFacts.v
theories/PartValue.v
theories/PropsPart.v
theories/ModelAero.v
theories/AeroFacts.v
theories/SpecAero.v
theories/PropsAero.v
theories/PropsAeroRun.v
theories/ModelGas.v
theories/SpecGas.v
theories/PropsGas.v
theories/PropsAeroChem.v
theories/PropsSparse.v
theories/ModelSpecies.v
theories/SpecSpecies.v
theories/PropsSpecies.v
theories/ModelFiles.v
theories/SpecFiles.v
theories/PropsFiles.v
theories/ModelSplit.v
theories/SpecSplit.v
theories/PropsSplit.v
theories/ModelPlot.v
theories/SpecPlot.v
theories/PropsPlot.v
theories/ModelYield.v
theories/SpecMethod.v
theories/PropsMethod.v
theories/PropsYield.v
theories/ModelGasJac.v
theories/PropsGasJac.v
theories/SpecTraj.v
theories/OdeSign.v
theories/PropsTraj.v
theories/OdeNear.v
theories/PartBounds.v
theories/AeroPull.v
theories/ModelAeroRun.v
theories/GasFortran.v
theories/SpecAeroRun.v
theories/PropsAeroTraj.v
theories/PropsYieldTraj.v
theories/PropsAeroBatch.v
theories/PropsGasF2py.v
theories/ModelSource.v
theories/ModelWrite.v
theories/SpecSource.v
theories/SourceRead.v
theories/SourceGen.v
theories/PropsSource.v
theories/SourceRun.v
theories/PropsSourceRun.v
theories/SourceWidth.v
theories/PropsWidth.v
theories/SpecTame.v
theories/TameFacts.v
theories/PropsTame.v
theories/ModelRateText.v
theories/ModelRateWrite.v
theories/ModelRateRead.v
theories/RateTrail.v
theories/RateFileN.v
theories/RateFileF.v
theories/SpecRateText.v
theories/RateFileUse.v
theories/ModelGasFiles.v
theories/PropsRateText.v
theories/OdeClose.v
theories/OdeStay.v
theories/GasFlow.v
theories/PropsUnique.v
theories/OdeInt.v
theories/OdePicard.v
theories/OdeExist.v
theories/OdeBox.v
theories/PartLip.v
theories/AeroExist.v
theories/PropsAeroExist.v
theories/SpecError.v
theories/PropsError.v
theories/SunPieces.v
theories/TameFlow.v
theories/PropsExist.v
theories/ModelPartText.v
theories/ModelFort.v
theories/PartText.v
theories/PartRead.v
theories/PartProg.v
theories/PartRun.v
theories/PartCall.v
theories/PropsPartText.v
theories/PropsIntQuot.v
theories/SpecCsv.v
theories/ModelCsv.v
theories/PropsSaved.v
theories/ModelAeroFiles.v
theories/PropsAeroFiles.v
theories/SpecChem.v
theories/PropsChem.v
theories/PropsSigned.v
theories/SpecAeroChem.v
theories/PropsAeroEnd.v
theories/ModelGasEnd.v
theories/PropsGasEnd.v
theories/SpecYieldChem.v
theories/ModelYieldFiles.v
theories/PropsYieldEnd.v
theories/SpecRecord.v
theories/PropsRecord.v
theories/PropsSoaEnd.v
