-Q theories Verif
theories/Base.v
theories/F32.v
theories/Types.v
theories/Lib.v
theories/Util.v
theories/Digital.v
theories/Analog.v
theories/Fcnt.v
theories/Com.v
theories/Fbc.v
theories/Generic.v
theories/Defaults.v
theories/ModelTests.v
theories/ModelTests2.v
theories/Facts.v
theories/SpecCatalogue.v
theories/SpecAddr.v
theories/ProofsCatalogue.v
theories/ProofsAddr.v
theories/PropsCatalogue.v
theories/SpecParams.v
theories/ProofsParams.v
theories/ProofsNew.v
theories/PropsParams.v
theories/SpecCodec.v
theories/ProofsCodec.v
theories/ProofsFcnt.v
theories/ProofsSerialCodec.v
theories/PropsCodec.v
theories/SpecSerial.v
theories/ProofsSerial.v
theories/ProofsSerialSystem.v
theories/PropsSerial.v
theories/SpecRestart.v
theories/ProofsRestart.v
theories/PropsRestart.v
theories/SpecCoupler.v
theories/ProofsModule.v
theories/SpecImage.v
theories/ProofsImage.v
theories/ProofsLayout.v
theories/PropsImage.v
theories/ProofsLoop.v
theories/ProofsCycle.v
theories/ProofsCoupler.v
theories/ProofsOrder.v
theories/ProofsDigital.v
theories/ProofsWitness.v
theories/PropsCoupler.v
theories/SpecSystem.v
theories/ProofsSystem.v
theories/ProofsPlant.v
theories/PropsSystem.v
theories/SpecAnalog.v
theories/ProofsFloat.v
theories/ProofsAnalog.v
theories/ProofsReadback.v
theories/ProofsHertz.v
theories/PropsAnalog.v
theories/SpecIdle.v
theories/ProofsIdle.v
theories/PropsIdle.v
theories/SpecOutcome.v
theories/ProofsOutcome.v
theories/ProofsPanic.v
theories/PropsOutcome.v
theories/SpecStartup.v
theories/ProofsStartup.v
theories/PropsStartup.v
theories/SpecShown.v
theories/ProofsShown.v
theories/PropsShown.v
theories/SpecFeedback.v
theories/ProofsFeedback.v
theories/PropsFeedback.v
theories/SpecMemory.v
theories/ProofsMemory.v
theories/PropsMemory.v
theories/SpecGlitch.v
theories/ProofsGlitch.v
theories/PropsGlitch.v
theories/SpecIsolation.v
theories/ProofsIsolation.v
theories/PropsIsolation.v
theories/SpecDrift.v
theories/ProofsDrift.v
theories/PropsDrift.v
theories/SpecPlantRestart.v
theories/ProofsPlantRestart.v
theories/PropsPlantRestart.v
theories/SpecProfile.v
theories/ProofsProfile.v
theories/PropsProfile.v
theories/SpecEffect.v
theories/ProofsEffect.v
theories/PropsEffect.v
theories/ProofsMid.v
theories/PropsMid.v
theories/SpecExact.v
theories/ProofsExact.v
theories/PropsExact.v
theories/SpecFault.v
theories/ProofsFault.v
theories/PropsFault.v
theories/SpecKeep.v
theories/ProofsKeep.v
theories/PropsKeep.v
theories/SpecSteady.v
theories/ProofsSteady.v
theories/PropsSteady.v
theories/SpecBoot.v
theories/ProofsBoot.v
theories/PropsBoot.v
theories/SpecStore.v
theories/ProofsStore.v
theories/PropsStore.v
theories/SpecDefault.v
theories/ProofsDefault.v
theories/PropsDefault.v
theories/SpecErrors.v
theories/ProofsErrors.v
theories/PropsErrors.v
theories/SpecResolution.v
theories/ProofsResolution.v
theories/PropsResolution.v
theories/SpecShare.v
theories/ProofsShare.v
theories/PropsShare.v
theories/SpecRelevant.v
theories/ProofsRelevant.v
theories/PropsRelevant.v
theories/SpecEqual.v
theories/ProofsEqual.v
theories/PropsEqual.v
theories/SpecLossless.v
theories/ProofsLossless.v
theories/PropsLossless.v
theories/SpecHold.v
theories/ProofsHold.v
theories/PropsHold.v
theories/SpecTerminal.v
theories/ProofsTerminal.v
theories/ProofsOffsets.v
theories/PropsTerminal.v
theories/SpecProtocol.v
theories/ProofsProtocol.v
theories/PropsProtocol.v
theories/SpecWire.v
theories/ProofsWire.v
theories/PropsWire.v
theories/SpecLink.v
theories/ProofsLink.v
theories/PropsLink.v
theories/SpecMirror.v
theories/ProofsMirror.v
theories/PropsMirror.v
theories/SpecFrequency.v
theories/ProofsFrequency.v
theories/PropsFrequency.v
theories/SpecStdio.v
theories/ProofsStdio.v
theories/PropsStdio.v
theories/SpecSize.v
theories/ProofsSize.v
theories/PropsSize.v
theories/SpecRestore.v
theories/ProofsRestore.v
theories/PropsRestore.v
theories/SpecKinds.v
theories/ProofsKinds.v
theories/PropsKinds.v
theories/SpecBits.v
theories/ProofsBits.v
theories/PropsBits.v
theories/SpecDirect.v
theories/ProofsDirect.v
theories/PropsDirect.v
theories/SpecGeneric.v
theories/ProofsGeneric.v
theories/PropsGeneric.v
theories/SpecDiagnosis.v
theories/ProofsDiagnosis.v
theories/PropsDiagnosis.v
theories/SpecContract.v
theories/ProofsContract.v
theories/PropsContract.v
theories/SpecTraffic.v
theories/ProofsTraffic.v
theories/PropsTraffic.v
theories/SpecTogether.v
theories/ProofsTogether.v
theories/PropsTogether.v
theories/SpecInterrupt.v
theories/ProofsInterrupt.v
theories/PropsInterrupt.v
theories/SpecTorn.v
theories/ProofsTorn.v
theories/PropsTorn.v
theories/SpecOrdered.v
theories/ProofsOrdered.v
theories/PropsOrdered.v
theories/SpecEndure.v
theories/ProofsEndure.v
theories/PropsEndure.v
theories/SpecRough.v
theories/ProofsRough.v
theories/PropsRough.v
theories/SpecSlow.v
theories/ProofsSlow.v
theories/PropsSlow.v
theories/SpecFlush.v
theories/ProofsFlush.v
theories/PropsFlush.v
theories/SpecDelay.v
theories/ProofsDelay.v
theories/PropsDelay.v
theories/SpecThroughput.v
theories/ProofsThroughput.v
theories/PropsThroughput.v
theories/SpecFlow.v
theories/ProofsFlow.v
theories/PropsFlow.v
theories/SpecCreep.v
theories/ProofsCreep.v
theories/ProofsCreepOffset.v
theories/ProofsCreepAny.v
theories/PropsCreep.v
theories/SpecEveryCode.v
theories/ProofsEveryCode.v
theories/PropsEveryCode.v
theories/SpecEveryOutput.v
theories/ProofsEveryOutput.v
theories/PropsEveryOutput.v
theories/SpecHandover.v
theories/ProofsHandover.v
theories/PropsHandover.v
theories/SpecRelay.v
theories/ProofsRelay.v
theories/PropsRelay.v
theories/SpecHandles.v
theories/ProofsHandles.v
theories/PropsHandles.v
theories/SpecChain.v
theories/ProofsChain.v
theories/PropsChain.v
theories/SpecRow.v
theories/ProofsRow.v
theories/PropsRow.v
theories/SpecSetup.v
theories/ProofsSetup.v
theories/PropsSetup.v
theories/SpecRepeater.v
theories/ProofsRepeater.v
theories/PropsRepeater.v
theories/SpecMachine.v
theories/ProofsMachine.v
theories/PropsMachine.v
theories/SpecController.v
theories/ProofsController.v
theories/PropsController.v
theories/SpecOutage.v
theories/ProofsOutage.v
theories/PropsOutage.v
theories/SpecNetwork.v
theories/ProofsNetwork.v
theories/PropsNetwork.v
theories/SpecFaults.v
theories/ProofsFaults.v
theories/PropsFaults.v
