-Q theories Verif
theories/Num.v
theories/Particle.v
theories/Energy.v
theories/Interp.v
theories/TriCubCoefs.v
theories/TriCub.v
theories/BeamFields.v
theories/Elements.v
theories/EbeConfig.v
theories/Track.v
theories/TrackSpec.v
theories/TrackProofs.v
theories/DispatchProofs.v
theories/TrackInv.v
theories/ExampleNum.v
theories/TrackProps.v
theories/PropertiesTrack.v
theories/EbeSpec.v
theories/EbeProofs.v
theories/EbeHist.v
theories/PropertiesOutput.v
theories/Tac.v
theories/ParticleSet.v
theories/ParticleSetProofs.v
theories/ParticleIds.v
theories/ParticleSpec.v
theories/ParticleIdsProofs.v
theories/PropertiesParticles.v
theories/DebugReg.v
theories/DebugRegProofs.v
theories/Kernels.v
theories/KernelsProofs.v
theories/Threads.v
theories/ThreadsSpec.v
theories/ThreadsProofs.v
theories/ThreadsTrack.v
theories/ThreadsLaunch.v
theories/PropertiesKernels.v
theories/PropertiesControl.v
theories/MBuf.v
theories/Alignment.v
theories/MemPool.v
theories/Buffer.v
theories/MBufSpec.v
theories/MBufMem.v
theories/MBufAbs.v
theories/MBufRemap.v
theories/MBufReserve.v
theories/MBufInit.v
theories/BufferProofs.v
theories/BufferReserve.v
theories/BufferNew.v
theories/BufferSpec.v
theories/BufferAddMem.v
theories/BufferAdd.v
theories/BufferAddLoop.v
theories/BufferAddMain.v
theories/MBufApply.v
theories/BufferNorm.v
theories/BufferUser.v
theories/BufferReach.v
theories/BufferProps.v
theories/BufferExample.v
theories/PropertiesBuffer.v
theories/MemSpec.v
theories/AlignmentProofs.v
theories/MemPoolProofs.v
theories/PropertiesMemory.v
theories/Assign.v
theories/AssignSpec.v
theories/AssignProofs.v
theories/AssignProps.v
theories/AssignOrder.v
theories/PropertiesAssign.v
theories/Output.v
theories/MonitorSpec.v
theories/MonitorProofs.v
theories/Records.v
theories/MonitorRun.v
theories/OutputSpec.v
theories/PrepareProofs.v
theories/JobProofs.v
theories/EbeRun.v
theories/RecordCases.v
theories/PropertiesRecords.v
theories/MapsR.v
theories/OpticsSpec.v
theories/OpticsProofs.v
theories/MultipoleProofs.v
theories/EnergyRun.v
theories/PropertiesOptics.v
theories/SymplecticSpec.v
theories/SymplecticProofs.v
theories/SymplecticRun.v
theories/PropertiesSymplectic.v
theories/Aperture.v
theories/Binary64.v
theories/ApertureSpec.v
theories/ApertureProofs.v
theories/PropertiesAperture.v
theories/Strengths.v
theories/StrengthsSpec.v
theories/StrengthsProofs.v
theories/PropertiesStrengths.v
theories/NodeId.v
theories/NodeIdSpec.v
theories/NodeIdProofs.v
theories/PropertiesNodeId.v
theories/Transfer.v
theories/TransferSpec.v
theories/PropertiesTransfer.v
theories/BufferStore.v
theories/BufferStoreSpec.v
theories/BufferStoreProofs.v
theories/BufferStoreJobProofs.v
theories/PropertiesBufferStore.v
theories/TriCubSpec.v
theories/TriCubProofs.v
theories/PropertiesTriCub.v
theories/InterpSpec.v
theories/InterpProofs.v
theories/PropertiesInterp.v
theories/RfSpec.v
theories/RfProofs.v
theories/PropertiesRf.v
theories/Defaults.v
theories/PropertiesDefaults.v
theories/BeamSpec.v
theories/BeamProofs.v
theories/FieldProofs.v
theories/SigmaProofs.v
theories/PropertiesBeam.v
theories/Lines.v
theories/LinesSpec.v
theories/LinesProofs.v
theories/LinesCopy.v
theories/LinesCalc.v
theories/PropertiesLines.v
theories/JobLine.v
theories/BufferWrite.v
theories/Strings.v
theories/StringsSpec.v
theories/StringsProofs.v
theories/PropertiesStrings.v
theories/NodeCtrl.v
theories/NodeCtrlSpec.v
theories/NodeCtrlProofs.v
theories/PropertiesNodeCtrl.v
theories/JobTrack.v
theories/JobTrackSpec.v
theories/JobTrackProofs.v
theories/PropertiesJobTrack.v
theories/ParticlesBuf.v
theories/ParticlesBufSpec.v
theories/ParticlesBufProofs.v
theories/ParticlesBufTable.v
theories/PropertiesParticlesBuf.v
theories/ParticleDiff.v
theories/ParticleDiffSpec.v
theories/ParticleDiffProofs.v
theories/PropertiesParticleDiff.v
theories/DeviceArg.v
theories/DeviceArgSpec.v
theories/DeviceArgProofs.v
theories/PropertiesDeviceArg.v
theories/BufferAdded.v
theories/ParticlesBufPrepare.v
theories/OldJob.v
theories/OldJobProofs.v
theories/PropertiesOldJob.v
theories/LaunchConfig.v
theories/LaunchConfigSpec.v
theories/LaunchConfigProofs.v
theories/PropertiesLaunch.v
theories/DeviceJob.v
theories/DeviceJobSpec.v
theories/DeviceJobProofs.v
theories/PropertiesDeviceJob.v
theories/BufferArray.v
theories/BufferArraySpec.v
theories/BufferArrayProofs.v
theories/BufferArrayOps.v
theories/BufferArrayAdd.v
theories/PropertiesBufferArray.v
theories/ElementAdd.v
theories/ElementAddSpec.v
theories/ElementAddProofs.v
theories/FloatTests.v
theories/PropertiesElementAdd.v
theories/PropertiesFloatTests.v
theories/ElementNew.v
theories/ElementNewSpec.v
theories/ElementNewProofs.v
theories/PropertiesElementNew.v
theories/EndOfTurn.v
theories/EndOfTurnSpec.v
theories/EndOfTurnProofs.v
theories/PropertiesEndOfTurn.v
theories/LineClear.v
theories/LineClearSpec.v
theories/LineClearProofs.v
theories/PropertiesLineClear.v
theories/BufferPlanSpec.v
theories/BufferPlanProofs.v
theories/PropertiesPlan.v
theories/ComputeNode.v
theories/ComputeNodeSpec.v
theories/ComputeNodeProofs.v
theories/ComputeInfoProofs.v
theories/PropertiesComputeNode.v
theories/OclNodes.v
theories/OclNodesSpec.v
theories/OclTextProofs.v
theories/OclNodesProofs.v
theories/OclAvailProofs.v
theories/PropertiesOclNodes.v
theories/OclArg.v
theories/OclArgSpec.v
theories/OclArgProofs.v
theories/PropertiesOclArg.v
theories/OclContext.v
theories/OclContextSpec.v
theories/OclContextProofs.v
theories/OclContextHist.v
theories/OclContextTimes.v
theories/OclContextSelect.v
theories/PropertiesOclContext.v
theories/OclTrack.v
theories/OclTrackSpec.v
theories/OclTrackProofs.v
theories/PropertiesOclTrack.v
theories/OclSetup.v
theories/OclSetupSpec.v
theories/OclSetupProofs.v
theories/PropertiesOclSetup.v
