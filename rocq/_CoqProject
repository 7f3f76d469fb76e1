-Q theories Verif
theories/Base.v
theories/B64.v
theories/SpecB64.v
theories/ProofB64.v
theories/CNum.v
theories/Stream.v
theories/ModelSatsys.v
theories/ModelObs.v
theories/ModelNvarstr.v
theories/ModelSatellite.v
theories/BaseLemmas.v
theories/CNumLemmas.v
theories/SpecText.v
theories/ProofText.v
theories/PropertiesText.v
theories/ModelAntenna.v
theories/ProofAntenna.v
theories/PropertiesAntenna.v
theories/ModelObsRnx.v
theories/SpecNum.v
theories/ProofNum.v
theories/ProofStream.v
theories/SpecObs.v
theories/SpecHeader.v
theories/ProofObsTypes.v
theories/ProofObsRec.v
theories/ProofCollect.v
theories/ProofEpoch.v
theories/ProofPlan.v
theories/ProofHeader.v
theories/ModelMove.v
theories/ProofMove.v
theories/ProofObsMisc.v
theories/PropertiesFreq.v
theories/PropertiesObs.v
theories/PropertiesObs2.v
theories/ModelSp3.v
theories/SpecSp3.v
theories/ProofSp3.v
theories/ProofSp3Epoch.v
theories/ProofSp3File.v
theories/ProofSp3Header.v
theories/PropertiesSp3.v
theories/ModelNav.v
theories/SpecNav.v
theories/ProofNav.v
theories/ProofNavBlock.v
theories/ProofNavFile.v
theories/ProofNavFind.v
theories/ProofNavList.v
theories/ProofNavHeader.v
theories/ProofNavMisc.v
theories/PropertiesNav.v
theories/ModelOrbit.v
theories/SpecOrbit.v
theories/ProofOrbit.v
theories/ProofGlo.v
theories/PropertiesOrbit.v
theories/ModelKalman.v
theories/SpecKalman.v
theories/RingAux.v
theories/ProofKalman.v
theories/PropertiesKalman.v
theories/ModelAntex.v
theories/ModelBern.v
theories/SpecAntex.v
theories/SpecAntexObj.v
theories/ProofAntex.v
theories/ProofAntexFind.v
theories/ProofAntexSkip.v
theories/ProofAntexHeader.v
theories/ProofAntexPco.v
theories/ProofAntexSat.v
theories/ProofAntexApi.v
theories/ProofAntexTerm.v
theories/PropertiesAntex.v
theories/SpecBern.v
theories/ProofBern.v
theories/ProofBernFile.v
theories/PropertiesBern.v
theories/SpecHeaderBad.v
theories/ProofHeaderBad.v
theories/PropertiesObs3.v
theories/ModelApp.v
theories/SpecApp.v
theories/ProofApp.v
theories/PropertiesApp.v
theories/PropertiesOrbit2.v
theories/ModelAntexObj.v
theories/PropertiesAntex2.v
theories/ModelObsText.v
theories/PropertiesText2.v
theories/ModelDebug.v
theories/SpecDebug.v
theories/ProofDebug.v
theories/PropertiesDebug.v
theories/PropertiesRewind.v
theories/ModelPP.v
theories/SpecPP.v
theories/ProofPP.v
theories/SpecPPRun.v
theories/ProofPPRun.v
theories/PropertiesPP.v
theories/SpecTropo.v
theories/PropertiesPP2.v
theories/PropertiesPP3.v
theories/PropertiesAntex3.v
theories/PropertiesApp2.v
theories/PropertiesAntex4.v
theories/ModelErrno.v
theories/SpecErrno.v
theories/ProofErrno.v
theories/PropertiesErrno.v
theories/ModelDebugObs.v
theories/ProofDebugObs.v
theories/PropertiesDebug2.v
theories/ModelDebugOrbit.v
theories/PropertiesDebug3.v
theories/ModelSp3Errno.v
theories/SpecSp3Errno.v
theories/ProofSp3Errno.v
theories/PropertiesSp3Errno.v
theories/SpecRound.v
theories/ProofRound.v
theories/PropertiesRound.v
theories/ModelMain.v
theories/PropertiesMain.v
theories/ModelGal.v
theories/PropertiesGal.v
theories/ModelFloat.v
theories/SpecFloat.v
theories/ProofFloat.v
theories/PropertiesFloat.v
theories/PropertiesFloat2.v
theories/PropertiesPP4.v
theories/ModelFloat2.v
theories/SpecGloD.v
theories/ProofGloD.v
theories/PropertiesGloD.v
theories/PropertiesGloD2.v
theories/ModelFloat3.v
theories/SpecKalD.v
theories/PropertiesKalD.v
