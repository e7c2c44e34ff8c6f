-Q theories Verif

theories/Base.v
theories/Types.v
theories/ModelEnc.v
theories/ModelDec.v
theories/ModelBits.v
theories/SpecWire.v
theories/SpecCodec.v
theories/ProofsWire.v
theories/ProofsTag.v
theories/ProofsApp.v
theories/ProofsBits.v
theories/ProofsTrunc.v
theories/ProofsCodec.v
theories/PropCodec.v
theories/ModelClient.v
theories/SpecLayers.v
theories/ProofsLayers.v
theories/ProofsLayerProps.v
theories/PropLayers.v
theories/SpecServices.v
theories/SpecObs.v
theories/ProofsServices.v
theories/ProofsMulti.v
theories/ProofsTerm.v
theories/ProofsServiceProps.v
theories/ProofsHang.v
theories/PropServices.v
theories/ProofsAccess.v
theories/SpecClient.v
theories/ProofsRecv.v
theories/ProofsCall.v
theories/ProofsRoute.v
theories/ProofsObjects.v
theories/ProofsCrash.v
theories/PropClient.v
theories/ModelTsm.v
theories/SpecTsm.v
theories/ProofsTsm.v
theories/ProofsTsmProps.v
theories/PropTsm.v
theories/ModelUtsm.v
theories/SpecUtsm.v
theories/ProofsUtsm.v
theories/ProofsUtsmProps.v
theories/ProofsFate.v
theories/PropUtsm.v
theories/ModelTypes.v
theories/ModelNet.v
theories/SpecNet.v
theories/ProofsPort.v
theories/ProofsTypes.v
theories/ProofsNet.v
theories/PropTypes.v
theories/PropNet.v
theories/ModelRun.v
theories/SpecRun.v
theories/ProofsRun.v
theories/PropRun.v
theories/ModelDiscover.v
theories/SpecDiscover.v
theories/ProofsDiscover.v
theories/PropDiscover.v
theories/ModelSystem.v
theories/SpecSystem.v
theories/ProofsSystem.v
theories/ProofsSystemProps.v
theories/ProofsSystemLive.v
theories/PropSystem.v
theories/ModelCmd.v
theories/SpecCmd.v
theories/ProofsCmd.v
theories/PropCmd.v
theories/SpecFind.v
theories/ProofsFind.v
theories/PropFind.v
theories/SpecExact.v
theories/ProofsTaking.v
theories/ProofsExact.v
theories/ProofsExactNet.v
theories/PropExact.v
theories/SpecOrder.v
theories/ProofsOrder.v
theories/PropOrder.v
theories/ModelScan.v
theories/SpecScan.v
theories/ProofsScan.v
theories/PropScan.v
theories/ModelNames.v
theories/SpecNames.v
theories/ProofsNames.v
theories/PropNames.v
theories/ModelMore.v
theories/SpecMore.v
theories/ProofsMore.v
theories/PropMore.v
theories/SpecDevice.v
theories/ProofsDevice.v
theories/PropDevice.v
theories/SpecSnapshot.v
theories/ProofsSnapshot.v
theories/PropSnapshot.v
theories/SpecLinear.v
theories/ProofsInject.v
theories/ProofsLinear.v
theories/PropLinear.v
theories/SpecInventory.v
theories/ProofsInventory.v
theories/PropInventory.v
theories/ModelWhole.v
theories/SpecWhole.v
theories/ProofsWhole.v
theories/PropWhole.v
theories/SpecFair.v
theories/ProofsFair.v
theories/ProofsFairWhole.v
theories/PropFair.v
theories/ProofsFairScan.v
theories/PropFairScan.v
theories/ModelTime.v
theories/SpecTime.v
theories/ProofsTime.v
theories/ProofsTimeAnswer.v
theories/ProofsTimeCheck.v
theories/PropTime.v
theories/SpecTimeScan.v
theories/ProofsTimeScan.v
theories/ProofsTimeHear.v
theories/ProofsTimeOne.v
theories/PropTimeScan.v
theories/SpecIpText.v
theories/ProofsIpText.v
theories/PropIpText.v
theories/ModelScript.v
theories/SpecScript.v
theories/ProofsScript.v
theories/PropScript.v
theories/SpecRace.v
theories/ProofsRace.v
theories/PropRace.v
theories/SpecClosed.v
theories/ProofsClosed.v
theories/PropClosed.v
theories/ModelNetScript.v
theories/SpecNetScript.v
theories/ProofsNetScript.v
theories/PropNetScript.v
theories/SpecObjectsCrash.v
theories/ProofsObjectsCrash.v
theories/PropObjectsCrash.v
theories/ModelOpts.v
theories/SpecOpts.v
theories/ProofsOpts.v
theories/PropOpts.v
theories/SpecLeak.v
theories/ProofsLeak.v
theories/PropLeak.v
theories/ModelCmdMulti.v
theories/SpecCmdMulti.v
theories/ProofsCmdMulti.v
theories/PropCmdMulti.v
theories/ModelFullScan.v
theories/SpecFullScan.v
theories/ProofsFullScan.v
theories/PropFullScan.v
theories/ModelLoops.v
theories/SpecLoops.v
theories/ProofsLoops.v
theories/PropLoops.v
theories/SpecAnswer.v
theories/ProofsAnswer.v
theories/PropAnswer.v
theories/SpecFrame.v
theories/ProofsFrame.v
theories/PropFrame.v
theories/SpecBits.v
theories/ProofsBitsUse.v
theories/PropBits.v
theories/ModelHome.v
theories/SpecHome.v
theories/ProofsHome.v
theories/PropHome.v
theories/ModelTables.v
theories/SpecTables.v
theories/ProofsTables.v
theories/PropTables.v
theories/ModelReading.v
theories/SpecReading.v
theories/ProofsReading.v
theories/PropReading.v
