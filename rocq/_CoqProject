-Q theories Verif
theories/GoBase.v
theories/GoStr.v
theories/Json.v
theories/GoTime.v
theories/Types.v
theories/Marshal.v
theories/Keys.v
theories/Glob.v
theories/Metadata.v
theories/TrustedMetadata.v
theories/Fetcher.v
theories/Updater.v
theories/MultiRepo.v
theories/Repository.v
theories/Toy.v
theories/Examples.v
theories/SpecSig.v
theories/SigProofs.v
theories/PropertiesSig.v
theories/StrProofs.v
theories/SpecBasic.v
theories/BasicProofs.v
theories/PropertiesBasic.v
theories/SpecUtf8.v
theories/Utf8Proofs.v
theories/SpecDeleg.v
theories/GlobProofs.v
theories/DelegProofs.v
theories/PropertiesDeleg.v
theories/SpecKeys.v
theories/KeysProofs.v
theories/PropertiesKeys.v
theories/SpecTrusted.v
theories/TrustedProofs.v
theories/PropertiesTrusted.v
theories/SpecSerial.v
theories/JsonProofs.v
theories/SerialProofs.v
theories/PropertiesSerial.v
theories/PathProofs.v
theories/SpecUpdater.v
theories/EventProofs.v
theories/UpdaterProofs.v
theories/WalkProofs.v
theories/BlockProofs.v
theories/ApiProofs.v
theories/RootProofs.v
theories/RefreshProofs.v
theories/SearchProofs.v
theories/HonestProofs.v
theories/IndepProofs.v
theories/ClaimProofs.v
theories/ExamplesUpdater.v
theories/FinalProofs.v
theories/PropertiesUpdater.v
theories/ExamplesHonest.v
theories/PropertiesCache.v
theories/SpecMulti.v
theories/MultiProofs.v
theories/ExamplesMulti.v
theories/PropertiesMulti.v
theories/SpecText.v
theories/JsonText.v
theories/SpecRound.v
theories/RoundBase.v
theories/RoundProofs.v
theories/RoundStructs.v
theories/CanonProofs.v
theories/RoundKept.v
theories/PropertiesRound.v
theories/SpecExtra.v
theories/ExtraProofs.v
theories/PropertiesExtra.v
theories/SpecLoad.v
theories/LoadBase.v
theories/LoadProofs.v
theories/PropertiesLoad.v
theories/SpecResilience.v
theories/ResilienceProofs.v
theories/FedProofs.v
theories/ExamplesShown.v
theories/PropertiesResilience.v
theories/SpecPanic.v
theories/PanicProofs.v
theories/PropertiesRecover.v
theories/SpecPublish.v
theories/PublishProofs.v
theories/PlainProofs.v
theories/PropertiesPublish.v
theories/Files.v
theories/SpecFiles.v
theories/IndentProofs.v
theories/FilesProofs.v
theories/PropertiesFiles.v
theories/SpecHistory.v
theories/HistoryProofs.v
theories/CleanProofs.v
theories/Cli.v
theories/SpecCli.v
theories/CliProofs.v
theories/InitProofs.v
theories/PropertiesHistory.v
theories/PropertiesCli.v
theories/SpecReach.v
theories/ReachProofs.v
theories/SpecRepos.v
theories/ReposProofs.v
theories/PropertiesReach.v
theories/ServedProofs.v
theories/GenerateProofs.v
theories/RunsProofs.v
theories/TeamsProofs.v
theories/BasicRepoProofs.v
theories/BasicRunProofs.v
theories/BasicServedProofs.v
theories/PropertiesRepos.v
theories/PropertiesBasicRepo.v
theories/SpecShared.v
theories/SharedProofs.v
theories/PropertiesShared.v
theories/ExampleClients.v
theories/ExampleRepos.v
theories/SpecExamples.v
theories/ExampleProofs.v
theories/BootProofs.v
theories/MainProofs.v
theories/SpecLive.v
theories/LiveProofs.v
theories/LifeProofs.v
theories/PropertiesExamples.v
theories/PropertiesLive.v
theories/Simulator.v
theories/SpecSimulator.v
theories/SimulatorProofs.v
theories/LockoutProofs.v
theories/SpecReturn.v
theories/ReturnProofs.v
theories/PropertiesSimulator.v
theories/PropertiesReturn.v
theories/SpecSimRoles.v
theories/SimRolesProofs.v
theories/PropertiesSimRoles.v
theories/SpecOrder.v
theories/OrderProofs.v
theories/PropertiesOrder.v
theories/SpecOffline.v
theories/OfflineProofs.v
theories/PropertiesOffline.v
theories/SpecCut.v
theories/CutProofs.v
theories/PropertiesCut.v
theories/SpecGet.v
theories/GetProofs.v
theories/PropertiesGet.v
theories/SpecFields.v
theories/FieldsProofs.v
theories/PropertiesFields.v
theories/SpecRotate.v
theories/RotateProofs.v
theories/PropertiesRotate.v
theories/SpecEra.v
theories/EraProofs.v
theories/PropertiesEra.v
theories/SpecRough.v
theories/RoughProofs.v
theories/PropertiesRough.v
