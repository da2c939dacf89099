-Q theories Verif
theories/Base.v
theories/BaseProofs.v
theories/Bits.v
theories/ModelUtils.v
theories/SpecUtils.v
theories/ProofsUtils.v
theories/ModelTlp.v
theories/SpecTlp.v
theories/ProofsTlp.v
theories/ProofsTlpCodec.v
theories/ProofsTlpBe.v
theories/ModelDllp.v
theories/SpecDllp.v
theories/ProofsDllp.v
theories/PropertiesUtils.v
theories/PropertiesTlp.v
theories/PropertiesDllp.v
theories/ModelRegion.v
theories/ModelCompleter.v
theories/SpecMem.v
theories/ProofsMem.v
theories/ProofsMemE2e.v
theories/ProofsMemWrite.v
theories/ProofsIo.v
theories/PropertiesMem.v
theories/ModelPort.v
theories/SpecPort.v
theories/ProofsPort.v
theories/ProofsPortInv.v
theories/ProofsPortSys.v
theories/ProofsPortObs.v
theories/ProofsPortThms.v
theories/ProofsPortWin.v
theories/ProofsPortLive.v
theories/PropertiesPort.v
theories/ModelTags.v
theories/SpecTags.v
theories/ProofsTags.v
theories/PropertiesTags.v
theories/ModelAttrs.v
theories/ModelCaps.v
theories/ModelCapList.v
theories/ModelConfig.v
theories/SpecRegs.v
theories/SpecCaps.v
theories/ProofsRegs.v
theories/ProofsCaps.v
theories/ProofsCapsLayout.v
theories/PropertiesCaps.v
theories/SpecCapList.v
theories/ProofsCapList.v
theories/ModelFunction.v
theories/SpecCapFn.v
theories/ProofsCapFn.v
theories/ProofsCapWalk.v
theories/PropertiesCapList.v
theories/SpecConfig.v
theories/ProofsConfig.v
theories/ProofsConfigLow.v
theories/ProofsConfigTop.v
theories/PropertiesConfig.v
theories/ModelHost.v
theories/SpecHost.v
theories/ProofsHost.v
theories/PropertiesHost.v
theories/ModelPci.v
theories/SpecBar.v
theories/ProofsBar.v
theories/ProofsProbe.v
theories/PropertiesBar.v
theories/ModelMsi.v
theories/SpecMsi.v
theories/ProofsMsi.v
theories/ProofsMsiSys.v
theories/ProofsMsiCount.v
theories/PropertiesMsi.v
theories/SpecRoute.v
theories/ModelRoute.v
theories/SpecNumbers.v
theories/ProofsRoute.v
theories/ProofsRouteBr.v
theories/ProofsRouteNum.v
theories/PropertiesRoute.v
theories/SpecSwitch.v
theories/ProofsSwitch.v
theories/ProofsSwitchInv.v
theories/ProofsSwitchRun.v
theories/ProofsSwitchTarget.v
theories/ProofsRouteDev.v
theories/PropertiesSwitch.v
theories/ModelWords.v
theories/SpecWords.v
theories/ProofsWords.v
theories/ProofsWordsE2e.v
theories/PropertiesWords.v
theories/ModelFrames.v
theories/SpecParity.v
theories/ProofsParity.v
theories/PropertiesParity.v
theories/ModelUs.v
theories/SpecUs.v
theories/ProofsUs.v
theories/PropertiesUs.v
theories/ModelChan.v
theories/ModelUsStream.v
theories/SpecUsStream.v
theories/ProofsFields.v
theories/ProofsUsStream.v
theories/ProofsChan.v
theories/ProofsUsSink.v
theories/PropertiesUsStream.v
theories/ModelAvst.v
theories/ModelIntel.v
theories/SpecIntel.v
theories/ProofsAvst.v
theories/ProofsIntel.v
theories/ProofsIntelTlp.v
theories/PropertiesIntel.v
theories/ModelEnum.v
theories/SpecEnum.v
theories/ProofsEnum.v
theories/ProofsEnumFacts.v
theories/ProofsMps.v
theories/PropertiesEnum.v
theories/ModelAssign.v
theories/SpecAssign.v
theories/ProofsAssign.v
theories/ProofsAssignFacts.v
theories/PropertiesAssign.v
theories/ModelUsDev.v
theories/SpecUsDev.v
theories/SpecUsRoute.v
theories/ProofsUsDev.v
theories/ProofsUsCq.v
theories/ProofsUsRoute.v
theories/ProofsUsWit.v
theories/ProofsUsClient.v
theories/PropertiesUsDev.v
theories/PropertiesUsRoute.v
theories/ModelPciCaps.v
theories/SpecPciCaps.v
theories/ProofsPciCaps.v
theories/PropertiesPciCaps.v
theories/ModelVendorFn.v
theories/SpecVendorFn.v
theories/ProofsVendorFn.v
theories/PropertiesVendorFn.v
theories/ModelIntelDev.v
theories/SpecIntelDev.v
theories/ProofsIntelDev.v
theories/PropertiesIntelDev.v
theories/ModelTlCfg.v
theories/SpecTlCfg.v
theories/ProofsTlCfg.v
theories/PropertiesTlCfg.v
theories/ModelUsCfg.v
theories/SpecUsCfg.v
theories/ProofsUsCfg.v
theories/PropertiesUsCfg.v
theories/ModelIntelFc.v
theories/SpecIntelFc.v
theories/ProofsIntelFc.v
theories/PropertiesIntelFc.v
theories/ModelCrs.v
theories/SpecCrs.v
theories/ProofsCrs.v
theories/PropertiesCrs.v
theories/ModelVendorInt.v
theories/SpecVendorInt.v
theories/ProofsVendorInt.v
theories/PropertiesVendorInt.v
theories/ModelDriver.v
theories/SpecDriver.v
theories/ProofsDriver.v
theories/ProofsDriverTree.v
theories/ProofsDriverHist.v
theories/ProofsDriverCtl.v
theories/PropertiesDriver.v
theories/SpecUsLayout.v
theories/ProofsUsLayout.v
theories/ModelTree.v
theories/SpecTree.v
theories/ProofsTree.v
theories/ProofsTreeIds.v
theories/ProofsTreeSet.v
theories/ProofsTreeAll.v
theories/PropertiesTree.v
theories/ModelTreeUp.v
theories/SpecTreeUp.v
theories/ProofsTreeUp.v
theories/ProofsTreeUpAddr.v
theories/ProofsTreeUpIds.v
theories/ProofsTreeUpAll.v
theories/PropertiesTreeUp.v
theories/ModelFabric.v
theories/SpecFabric.v
theories/ProofsFabric.v
theories/ProofsFabricMem.v
theories/ProofsFabricIo.v
theories/PropertiesFabric.v
theories/ModelTreeCfg.v
theories/SpecTreeCfg.v
theories/ProofsTreeCfg.v
theories/ProofsTreeCfgAll.v
theories/PropertiesTreeCfg.v
theories/ModelScan.v
theories/SpecScan.v
theories/ProofsScan.v
theories/ProofsScanAll.v
theories/ProofsScanHw.v
theories/ProofsScanBus.v
theories/PropertiesScan.v
theories/ModelLink.v
theories/SpecLink.v
theories/ProofsLinkTable.v
theories/ProofsLink.v
theories/ProofsLinkPort.v
theories/ProofsLinkRegs.v
theories/PropertiesLink.v
theories/ModelEnumCfg.v
theories/SpecEnumCfg.v
theories/ProofsEnumPar.v
theories/ProofsEnumWr.v
theories/ProofsEnumVia.v
theories/ProofsEnumFn.v
theories/ProofsEnumTree.v
theories/ProofsEnumScan.v
theories/PropertiesEnumCfg.v
theories/ModelAssignCfg.v
theories/SpecAssignCfg.v
theories/ProofsAssignVia.v
theories/ProofsAssignCfg.v
theories/ProofsAssignTree.v
theories/PropertiesAssignCfg.v
theories/ProofsEnumWhole.v
theories/ProofsEnumCap.v
theories/ProofsEnumEnd.v
theories/PropertiesEnumerate.v
theories/SpecAfter.v
theories/ProofsAfter.v
theories/PropertiesAfter.v
theories/ModelReset.v
theories/SpecReset.v
theories/ProofsReset.v
theories/PropertiesReset.v
theories/ModelQueue.v
theories/SpecQueue.v
theories/ProofsQueue.v
theories/PropertiesQueue.v
theories/ModelIdle.v
theories/SpecIdle.v
theories/ProofsIdle.v
theories/PropertiesIdle.v
theories/ModelPause.v
theories/SpecPause.v
theories/ProofsPause.v
theories/PropertiesPause.v
