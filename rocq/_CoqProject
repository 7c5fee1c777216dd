-Q theories Verif
theories/Base.v
theories/Uid.v
theories/SpecUid.v
theories/UidProofs.v
theories/PropsUid.v
theories/Tree.v
theories/SpecTree.v
theories/TreeRefine.v
theories/TreeObs.v
theories/PropsTree.v
theories/Dump.v
theories/DumpProofs.v
theories/PropsDump.v
theories/Json.v
theories/JsonProofs.v
theories/Save.v
theories/SaveProofs.v
theories/PropsSave.v
theories/Date.v
theories/DateProofs.v
theories/Branch.v
theories/Ws.v
theories/BranchProofs.v
theories/SpecWs.v
theories/WsProofs.v
theories/PropsWs.v
theories/Fs.v
theories/Overlay.v
theories/Os.v
theories/Layers.v
theories/Mounts.v
theories/Space.v
theories/Manager.v
theories/Commands.v
theories/Sample.v
theories/FsProofs.v
theories/OsProofs.v
theories/LayerProofs.v
theories/PropsLayers.v
theories/MountProofs.v
theories/SpaceProofs.v
theories/ManagerProofs.v
theories/SpecWorld.v
theories/SpecOps.v
theories/SavedProofs.v
theories/FaultProofs.v
theories/ReadyProofs.v
theories/OpProofs.v
theories/CalmProofs.v
theories/SpecMachine.v
theories/SpecCmds.v
theories/MachineProofs.v
theories/OpenProofs.v
theories/CmdProofs.v
theories/SampleProofs.v
theories/PropsBranch.v
theories/PropsCommit.v
theories/PropsMounts.v
theories/ExpandProofs.v
theories/PropsCmds.v
theories/DetProofs.v
theories/SpecTidy.v
theories/TidyProofs.v
theories/Story.v
theories/StoryProofs.v
theories/PropsShow.v
theories/PropsCommitted.v
theories/UserProofs.v
theories/SpecLog.v
theories/LogProofs.v
theories/DatedProofs.v
theories/PropsFaults.v
theories/PropsLog.v
theories/PropsRace.v
theories/Errors.v
theories/PropsErrors.v
theories/Signal.v
theories/PropsSignal.v
theories/Locks.v
theories/SpecLocks.v
theories/LockProofs.v
theories/LinProofs.v
theories/PropsLocks.v
theories/Cli.v
theories/CliProofs.v
theories/PropsCli.v
theories/LongerProofs.v
theories/SpecUsable.v
theories/UsableProofs.v
theories/UsableCmdProofs.v
theories/UsableInitProofs.v
theories/UsableSeqProofs.v
theories/PropsUsable.v
theories/PropsOptions.v
theories/PropsRound.v
theories/SpecOwner.v
theories/OwnerProofs.v
theories/PropsOwner.v
theories/SpecNames.v
theories/NamesProofs.v
theories/PropsNames.v
theories/SpecOrder.v
theories/OrderProofs.v
theories/PropsOrder.v
theories/SpecRefused.v
theories/RefusedProofs.v
theories/PropsRefused.v
theories/SpecVcs.v
theories/VcsProofs.v
theories/PropsVcs.v
theories/PropsFiles.v
theories/PrintProofs.v
theories/SpecProcess.v
theories/ProcessProofs.v
theories/PropsProcess.v
theories/PropsPrint.v
theories/SpecHarm.v
theories/HarmProofs.v
theories/PropsHarm.v
theories/SpecWhole.v
theories/PropsWhole.v
theories/PropsRestart.v
theories/Edits.v
theories/SpecEdits.v
theories/EditProofs.v
theories/PropsEdits.v
theories/SpecSnap.v
theories/SnapProofs.v
theories/PropsSnap.v
theories/SpecSerial.v
theories/SerialProofs.v
theories/PropsSerial.v
theories/Deep.v
theories/SpecDeep.v
theories/DeepProofs.v
theories/DeepMoveProofs.v
theories/PropsDeep.v
theories/SpecDate.v
theories/PropsDate.v
theories/SpecNumber.v
theories/PropsNumber.v
theories/SpecInterleave.v
theories/PropsInterleave.v
theories/SpecResolve.v
theories/PropsResolve.v
theories/DeepStart.v
theories/SpecStart.v
theories/DeepStartProofs.v
theories/PropsStart.v
theories/SpecClean.v
theories/PropsClean.v
theories/ThroughProofs.v
theories/PropsThrough.v
theories/SpecKernel.v
theories/PropsKernel.v
theories/DeepProcess.v
theories/SpecJobs.v
theories/PropsJobs.v
theories/PropsTaken.v
theories/PropsNone.v
