-Q theories Verif

theories/XR.v
theories/SpecDens.v
theories/ModelDens.v
theories/Lists.v
theories/ProofDens.v
theories/ProofDeriv.v
theories/ProofMol.v
theories/ProofInit.v
theories/ProofModelMisc.v
theories/GaussInt.v
theories/ProofNorm.v
theories/ModelGrid.v
theories/ProofErr4.v
theories/PropModel.v
theories/ModelMeas.v
theories/SpecMeas.v
theories/ProofMeas.v
theories/SpecGrid.v
theories/ProofGrid.v
theories/ProofCubic.v
theories/PyStr.v
theories/ModelFit.v
theories/SpecFit.v
theories/ModelSlater.v
theories/SpecSlater.v
theories/ProofSlater.v
theories/ProofFitView.v
theories/ProofFit.v
theories/ProofEM.v
theories/ProofFPI.v
theories/ProofFPI2.v
theories/ProofFPI3.v
theories/ProofScipy.v
theories/ProofScipy2.v
theories/ProofScipy3.v
theories/ProofErr2.v
theories/ModelMeas2.v
theories/SpecMeas2.v
theories/ProofMeas2.v
theories/PropMeas2.v
theories/SpecInertia.v
theories/ProofInertia.v
theories/PropGrid.v
theories/PropSlater.v
theories/ProofFPI4.v
theories/SpecStop.v
theories/ProofFPI5.v
theories/ProofFitEx.v
theories/PropFit.v
theories/SpecMask.v
theories/ProofMask.v
theories/PropMask.v
theories/ModelGreedy.v
theories/SpecGreedy.v
theories/ProofGreedy1.v
theories/ProofGreedy2.v
theories/ProofGreedy3.v
theories/ProofGreedy4.v
theories/ProofGreedy5.v
theories/ProofGreedy6.v
theories/ProofGreedyEx.v
theories/ProofGreedy7.v
theories/ProofGreedyEx2.v
theories/ModelChoice.v
theories/SpecChoice.v
theories/ProofChoice.v
theories/ProofGreedy10.v
theories/PropGreedy.v
theories/SpecSettings.v
theories/ProofGreedy8.v
theories/ProofGreedy9.v
theories/PyText.v
theories/ModelParse.v
theories/SpecParse.v
theories/SpecFile.v
theories/ProofText.v
theories/ProofConf.v
theories/ProofConf2.v
theories/ProofFile.v
theories/ProofFile2.v
theories/ProofFile3.v
theories/ProofFile4.v
theories/ProofNames.v
theories/SpecShipped.v
theories/ProofCheck.v
theories/DataSlater.v
theories/ProofShipped.v
theories/SpecElem.v
theories/ProofElem.v
theories/SpecErr.v
theories/ProofErr.v
theories/ProofErr3.v
theories/PropParse.v
theories/ModelLoad.v
theories/SpecLoad.v
theories/ProofLoad.v
theories/ProofOver.v
theories/SpecKin.v
theories/ProofKin.v
theories/ProofElec.v
theories/PropLoad.v
theories/DataUgbs.v
theories/SpecUgbs.v
theories/ProofUgbs.v
theories/PropUgbs.v
theories/SpecUgbs2.v
theories/ProofUgbs2.v
theories/PropUgbs2.v
theories/SpecConv.v
theories/ProofConv.v
theories/ProofConv2.v
theories/ProofConv3.v
theories/ProofConv4.v
theories/ProofConv5.v
theories/ProofConv6.v
theories/PropConv.v
theories/SpecRnd.v
theories/SpecBin.v
theories/ModelRnd.v
theories/ProofRnd.v
theories/ProofRnd2.v
theories/ProofRnd3.v
theories/ProofRnd4.v
theories/ProofRnd5.v
theories/ProofRnd6.v
theories/ProofRnd7.v
theories/ProofRnd12.v
theories/PropRnd.v
theories/SpecRnd2.v
theories/ModelRnd2.v
theories/ProofRnd8.v
theories/ProofRnd9.v
theories/ProofRnd10.v
theories/PropRnd2.v
theories/SpecRnd3.v
theories/ModelRnd3.v
theories/ProofRnd13.v
theories/ProofRnd14.v
theories/ProofRnd15.v
theories/PropRnd3.v
theories/SpecRnd4.v
theories/ModelRnd4.v
theories/ProofRnd16.v
theories/ProofRnd17.v
theories/ProofRnd18.v
theories/PropRnd4.v
theories/SpecBin64.v
theories/ModelBin64.v
theories/ProofBin64.v
theories/ProofBin64b.v
theories/PropBin64.v
theories/SpecBinModel.v
theories/ModelBinModel.v
theories/ProofBinModel.v
theories/ProofBinModel2.v
theories/ProofBinModel3.v
theories/ProofBinModel4.v
theories/PropBinModel.v
theories/SpecSlope.v
theories/ModelSlope.v
theories/ProofSlope.v
theories/ProofSlope2.v
theories/ProofSlope3.v
theories/PropSlope.v
theories/SpecBinSto.v
theories/ModelBinSto.v
theories/ProofBinSto.v
theories/ProofBinSto2.v
theories/ProofBinSto3.v
theories/ProofBinSto4.v
theories/PropBinSto.v
theories/SpecDescent.v
theories/ModelDescent.v
theories/ProofDescent.v
theories/ProofDescent2.v
theories/ProofDescent3.v
theories/ProofDescent4.v
theories/PropDescent.v
theories/SpecBinDescent.v
theories/ModelBinDescent.v
theories/ProofBinDescent.v
theories/ProofBinDescent2.v
theories/PropBinDescent.v
theories/ProofErr5.v
theories/ProofErr6.v
theories/ProofErr7.v
theories/SpecJson.v
theories/ModelJson.v
theories/ProofJson.v
theories/SpecFits.v
theories/DataFits.v
theories/ProofFits.v
theories/ProofFits2.v
theories/PropFits.v
theories/ModelNpz.v
theories/SpecNpz.v
theories/DataNpz.v
theories/ProofNpz.v
theories/ProofNpz2.v
theories/ProofNpz3.v
theories/SpecNpz2.v
theories/ProofNpz4.v
theories/PropNpz.v
theories/SpecZip.v
theories/ProofZip.v
theories/PropZip.v
theories/SpecZero.v
theories/ProofZero.v
theories/PropZero.v
theories/SpecSteps.v
theories/ProofSteps.v
theories/PropSteps.v
theories/ProofGridElec.v
theories/ProofGridElec2.v
theories/PropGridElec.v
theories/DataTar.v
theories/SpecTar.v
theories/ProofTar.v
theories/SpecScript.v
theories/ProofTar2.v
theories/PropTar.v
theories/ProofExpPoly.v
theories/ProofScript.v
theories/ProofTable.v
theories/ProofTable2.v
theories/SpecScript2.v
theories/ProofTable3.v
theories/PropScript2.v
theories/SpecFill.v
theories/ProofFill.v
theories/PropFill.v
theories/SpecScript3.v
theories/ProofTable4.v
theories/PropScript.v
theories/PropScript3.v
theories/SpecPts.v
theories/ProofMore.v
theories/PropMeas.v
theories/PropPts.v
theories/SpecLs.v
theories/ProofLs.v
theories/PropStrategy.v
theories/SpecLine.v
theories/ProofLine.v
theories/PropLine.v
theories/SpecScript4.v
theories/ProofNote1.v
theories/ProofNote2.v
theories/ProofNote3.v
theories/ProofNote4.v
theories/PropNote.v
theories/SpecScript5.v
theories/ProofTwin.v
theories/PropTwin.v
theories/ModelDisp.v
theories/SpecDisp.v
theories/ProofDisp.v
theories/ProofDisp2.v
theories/ProofDisp3.v
theories/ProofDisp4.v
theories/PropDisp.v
