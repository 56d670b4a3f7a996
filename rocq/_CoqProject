-Q theories Verif
theories/Base.v
theories/Text.v
theories/Keys.v
theories/Trust.v
theories/Certificate.v
theories/Relation.v
theories/Storage.v
theories/Graph.v
theories/Service.v
theories/Aqua.v
theories/Instance.v
theories/Boot.v
theories/Tools.v
theories/Sched.v
theories/Convert.v
theories/Distro.v
theories/DistroData.v
theories/Spec.v
theories/Toy.v
theories/BaseFacts.v
theories/TextFacts.v
theories/KeysFacts.v
theories/TrustFacts.v
theories/CertFacts.v
theories/ParsedThms.v
theories/SpecFacts.v
theories/StorageFacts.v
theories/SearchFacts.v
theories/PathFacts.v
theories/GraphFacts.v
theories/StateFacts.v
theories/ChainFacts.v
theories/AlikeFacts.v
theories/ImportFacts.v
theories/AddFacts.v
theories/HistFacts.v
theories/ToyFacts.v
theories/Witness.v
theories/GraphThms.v
theories/MoreThms.v
theories/ServiceSpec.v
theories/ServiceFacts.v
theories/ServiceWitness.v
theories/ServiceThms.v
theories/AquaSpec.v
theories/AquaFacts.v
theories/AquaThms.v
theories/AquaTrace.v
theories/AquaWitness.v
theories/AquaEx.v
theories/AquaMore.v
theories/SchedSpec.v
theories/SchedFacts.v
theories/SchedSim.v
theories/SchedThms.v
theories/SchedEx.v
theories/InstanceSpec.v
theories/InstanceThms.v
theories/BootSpec.v
theories/BootFacts.v
theories/BootThms.v
theories/BootEx.v
theories/ToolsSpec.v
theories/ToolsThms.v
theories/ToolsEx.v
theories/TextSpec.v
theories/TextThms.v
theories/TextEx.v
theories/ConvertSpec.v
theories/ConvertFacts.v
theories/ConvertThms.v
theories/ConvertEx.v
theories/ExactThms.v
theories/DistroSpec.v
theories/DistroFacts.v
theories/DistroThms.v
theories/PropsKeys.v
theories/PropsTrust.v
theories/PropsCert.v
theories/PropsGraph.v
theories/PropsService.v
theories/PropsMore.v
theories/PropsAqua.v
theories/PropsText.v
theories/PropsInstance.v
theories/PropsBoot.v
theories/PropsTools.v
theories/PropsSched.v
theories/PropsConvert.v
theories/PropsExact.v
theories/PropsDistro.v
theories/ReadmeSpec.v
theories/ReadmeThms.v
theories/PropsReadme.v
theories/InfluenceSpec.v
theories/InfluenceThms.v
theories/PropsInfluence.v
theories/MachineSpec.v
theories/MachineThms.v
theories/ServiceMachine.v
theories/ServiceMachineThms.v
theories/VisitorSpec.v
theories/VisitorThms.v
theories/PropsMachine.v
theories/BlowupSpec.v
theories/BlowupThms.v
theories/PropsBlowup.v
theories/ErrorText.v
theories/ErrorTextSpec.v
theories/ErrorTextFacts.v
theories/ErrorTextThms.v
theories/PropsErrorText.v
theories/DisguiseSpec.v
theories/DisguiseThms.v
theories/TestsSpec.v
theories/TestsThms.v
theories/PropsTests.v
theories/DamageSpec.v
theories/DamageFacts.v
theories/DamageThms.v
theories/PropsDamage.v
theories/CopySpec.v
theories/CopyThms.v
theories/CopyServiceSpec.v
theories/CopyServiceThms.v
theories/PropsCopy.v
theories/X509.v
theories/X509Thms.v
theories/PropsX509.v
theories/GossipSpec.v
theories/GossipThms.v
theories/GossipServiceSpec.v
theories/GossipServiceThms.v
theories/PropsGossip.v
theories/Scan.v
theories/ScanSpec.v
theories/ScanFacts.v
theories/ScanThms.v
theories/ScanServiceThms.v
theories/PropsScan.v
theories/PeerId.v
theories/PeerIdSpec.v
theories/PeerIdFacts.v
theories/PeerIdThms.v
theories/PeerIdServiceThms.v
theories/ErrorString.v
theories/ErrorStringThms.v
theories/PropsPeerId.v
theories/GuestsSpec.v
theories/GuestsThms.v
theories/GuestsEx.v
theories/PropsGuests.v
theories/AnyStore.v
theories/AnyStoreSpec.v
theories/AnyStoreFacts.v
theories/AnyStoreThms.v
theories/PropsAnyStore.v
theories/Bincode.v
theories/BincodeSpec.v
theories/BincodeThms.v
theories/PropsBincode.v
theories/FillSpec.v
theories/FillThms.v
theories/PropsFill.v
theories/ClockSpec.v
theories/ClockThms.v
theories/PropsClock.v
theories/FailTextThms.v
theories/PropsFailText.v
theories/CountSpec.v
theories/CountThms.v
theories/PropsCount.v
theories/MoreTrustSpec.v
theories/MoreTrustThms.v
theories/PropsMoreTrust.v
theories/RenewSpec.v
theories/RenewThms.v
theories/PropsRenew.v
theories/SigTextSpec.v
theories/SigTextThms.v
theories/PropsSigText.v
theories/CutSpec.v
theories/CutThms.v
theories/PropsCut.v
theories/ServedSpec.v
theories/ServedThms.v
theories/PropsServed.v
theories/LifeSpec.v
theories/LifeThms.v
theories/PropsLife.v
theories/JumpSpec.v
theories/JumpThms.v
theories/PropsJump.v
theories/BackSpec.v
theories/BackThms.v
theories/RotateSpec.v
theories/RotateThms.v
theories/PropsBack.v
theories/FactorSpec.v
theories/FactorThms.v
theories/PropsFactor.v
theories/ServedBackSpec.v
theories/ServedBackThms.v
theories/PropsServedBack.v
theories/PartsThms.v
theories/PropsParts.v
theories/PartsServedThms.v
theories/PropsPartsServed.v
theories/ExtendThms.v
theories/PropsExtend.v
theories/ExtendSpec.v
theories/ExtendServedThms.v
theories/PropsExtendServed.v
theories/PanicThms.v
theories/PropsPanic.v
theories/SignedSpec.v
theories/SignedThms.v
theories/PropsSigned.v
theories/JumpServedSpec.v
theories/JumpServedThms.v
theories/PropsJumpServed.v
theories/LapseSpec.v
theories/LapseThms.v
theories/PropsLapse.v
theories/SeverSpec.v
theories/SeverThms.v
theories/PropsSever.v
theories/CheckServedThms.v
theories/PropsCheckServed.v
theories/AnewSpec.v
theories/AnewThms.v
theories/PropsAnew.v
theories/CrownSpec.v
theories/CrownThms.v
theories/PropsCrown.v
theories/JoinSpec.v
theories/JoinThms.v
theories/PropsJoin.v
theories/ThroughThms.v
theories/PropsThrough.v
theories/ServedWeightsThms.v
theories/PropsServedWeights.v
theories/RootOrderSpec.v
theories/RootOrderThms.v
theories/PropsRootOrder.v
theories/EarlySpec.v
theories/EarlyThms.v
theories/PropsEarly.v
