-Q theories Verif
theories/AccessProofs.v
theories/Attached.v
theories/AttachedLenProofs.v
theories/AttachedProofs.v
theories/AttrCostProofs.v
theories/AttrList.v
theories/AttrListExamples.v
theories/AttrListIterProofs.v
theories/AttrListProofs.v
theories/AttrListValueProofs.v
theories/Attribute.v
theories/AttributeProofs.v
theories/BadListProofs.v
theories/Base.v
theories/BaseProofs.v
theories/BootSector.v
theories/BootSectorProofs.v
theories/BrokenProofs.v
theories/BufReader.v
theories/ClusterZeroProofs.v
theories/CostProofs.v
theories/CycleProofs.v
theories/DataRuns.v
theories/DataRunsProofs.v
theories/Dev.v
theories/DevProofs.v
theories/DirTotalProofs.v
theories/DirectoryProofs.v
theories/ErrorProofs.v
theories/EvolveProofs.v
theories/ExactProofs.v
theories/FaultExamples.v
theories/FaultProofs.v
theories/FaultSessionProofs.v
theories/File.v
theories/FileExamples.v
theories/FileProofs.v
theories/FlatProofs.v
theories/FlatSearchProofs.v
theories/FuelProofs.v
theories/GoodProofs.v
theories/Guid.v
theories/HoledProofs.v
theories/Host.v
theories/HostProofs.v
theories/Index.v
theories/IndexClaims.v
theories/IndexExamples.v
theories/IndexProofs.v
theories/IndexRecordProofs.v
theories/IndexTotalProofs.v
theories/InfoExamples.v
theories/ListDirExamples.v
theories/ListDirProofs.v
theories/ListHoledExamples.v
theories/ListHoledProofs.v
theories/ListPathProofs.v
theories/ListTotalProofs.v
theories/ListVolumeProofs.v
theories/ListedVolumeExamples.v
theories/LiveExamples.v
theories/LivePartsProofs.v
theories/LiveProofs.v
theories/LookupCostProofs.v
theories/MiscProofs.v
theories/MoreErrorProofs.v
theories/NameFindProofs.v
theories/NodeProofs.v
theories/NonResident.v
theories/NonResidentProofs.v
theories/PanicExamples.v
theories/PanicIndexProofs.v
theories/PanicProofs.v
theories/PanicShellProofs.v
theories/PathProofs.v
theories/PropsAccess.v
theories/PropsAttached.v
theories/PropsAttr.v
theories/PropsAttrList.v
theories/PropsAttrs.v
theories/PropsBroken.v
theories/PropsCost.v
theories/PropsErrors.v
theories/PropsFaults.v
theories/PropsFile.v
theories/PropsFlat.v
theories/PropsHoled.v
theories/PropsHost.v
theories/PropsHostile.v
theories/PropsIndex.v
theories/PropsInfo.v
theories/PropsListDir.v
theories/PropsListEntries.v
theories/PropsListHoled.v
theories/PropsListPath.v
theories/PropsLive.v
theories/PropsMisc.v
theories/PropsPanic.v
theories/PropsPath.v
theories/PropsRead.v
theories/PropsRecord.v
theories/PropsRecovery.v
theories/PropsRuns.v
theories/PropsShell.v
theories/PropsSizes.v
theories/PropsStack.v
theories/PropsStale.v
theories/PropsSteady.v
theories/PropsStream.v
theories/PropsTotal.v
theories/PropsValues.v
theories/ReadLenProofs.v
theories/ReaderProgProofs.v
theories/ReaderProofs.v
theories/ReaderUseProofs.v
theories/Record.v
theories/RecordProofs.v
theories/RecordsProofs.v
theories/RecoveryProofs.v
theories/Resident.v
theories/ResidentProofs.v
theories/SectorProofs.v
theories/SectorReader.v
theories/SessionProgProofs.v
theories/Shell.v
theories/ShellInfoProofs.v
theories/ShellInputProofs.v
theories/ShellProofs.v
theories/ShellSessionProofs.v
theories/ShellTotalProofs.v
theories/ShellVolumeProofs.v
theories/SizeProofs.v
theories/Spec.v
theories/SpecAttached.v
theories/SpecAttrList.v
theories/SpecBroken.v
theories/SpecCost.v
theories/SpecErrors.v
theories/SpecFaults.v
theories/SpecHoled.v
theories/SpecHost.v
theories/SpecIndex.v
theories/SpecInfo.v
theories/SpecInput.v
theories/SpecListDir.v
theories/SpecLive.v
theories/SpecMisc.v
theories/SpecPanic.v
theories/SpecPath.v
theories/SpecRecovery.v
theories/SpecStack.v
theories/SpecStale.v
theories/SpecSteady.v
theories/SpecTotal.v
theories/SpecValues.v
theories/SpecVolume.v
theories/StackProofs.v
theories/StackSessionProofs.v
theories/StaleListProofs.v
theories/StaleProofs.v
theories/SteadyProofs.v
theories/Stream.v
theories/StreamExamples.v
theories/StreamProofs.v
theories/Structured.v
theories/StructuredProofs.v
theories/TerminationProofs.v
theories/Time.v
theories/TruncProofs.v
theories/Types.v
theories/Upcase.v
theories/UpcaseProofs.v
theories/ValueExamples.v
theories/ValueProofs.v
theories/Volume.v
theories/VolumeExamples.v
