-Q theories Verif
theories/AgreeProofs.v
theories/ArriveCases.v
theories/ArriveModel.v
theories/ArriveProofs.v
theories/ArriveSpec.v
theories/AttackB.v
theories/AttackCases.v
theories/AttackModel.v
theories/AttackProofs.v
theories/Base.v
theories/Base64Model.v
theories/Base64Proofs.v
theories/BaseProofs.v
theories/BlockLemmas.v
theories/BlockingModel.v
theories/CliModel.v
theories/ClientModel.v
theories/ClientWaitModel.v
theories/ConfigModel.v
theories/ConnModel.v
theories/ConnProofs.v
theories/ConnSpec.v
theories/CoreProofs.v
theories/CryptoModel.v
theories/CryptoProofs.v
theories/CryptoSpec.v
theories/DiskB.v
theories/DiskC.v
theories/DiskCases.v
theories/DiskModel.v
theories/DiskProofs.v
theories/DiskSpec.v
theories/DownloadProofs.v
theories/ExtModel.v
theories/ExtProofs.v
theories/ExtSpec.v
theories/F32Proofs.v
theories/FetchCases.v
theories/FetchSpec.v
theories/FlowLossSpec.v
theories/FlowModel.v
theories/FlowProofs.v
theories/FlowSpec.v
theories/FsModel.v
theories/FsProofs.v
theories/FsServerModel.v
theories/FsSpec.v
theories/HandshakeModel.v
theories/HandshakeProofs.v
theories/KeyFileModel.v
theories/ListingCases.v
theories/LiveModel.v
theories/LiveProofs.v
theories/MapModel.v
theories/MapperModel.v
theories/MapperProofs.v
theories/MirrorCases.v
theories/MirrorModel.v
theories/PacketModel.v
theories/PacketProofs.v
theories/PacketSpec.v
theories/PathModel.v
theories/PathProofs.v
theories/PathSpec.v
theories/PollCases.v
theories/PollModel.v
theories/PollProofs.v
theories/ProgressB.v
theories/ProgressCases.v
theories/ProgressModel.v
theories/ProgressProofs.v
theories/PropAgree.v
theories/PropArrive.v
theories/PropAttack.v
theories/PropBlocking.v
theories/PropCli.v
theories/PropConn.v
theories/PropCrypto.v
theories/PropDisk.v
theories/PropEnd.v
theories/PropExt.v
theories/PropFair.v
theories/PropFetch.v
theories/PropFlow.v
theories/PropFlowLoss.v
theories/PropFs.v
theories/PropFsServer.v
theories/PropGiveUp.v
theories/PropHandshake.v
theories/PropKeyFile.v
theories/PropLife.v
theories/PropListing.v
theories/PropLocal.v
theories/PropMap.v
theories/PropMapper.v
theories/PropMirror.v
theories/PropPacket.v
theories/PropPath.v
theories/PropPoll.v
theories/PropProgress.v
theories/PropReader.v
theories/PropRefusal.v
theories/PropRfc.v
theories/PropRfcDisk.v
theories/PropRfcLoss.v
theories/PropRfcSmooth.v
theories/PropRun.v
theories/PropSealed.v
theories/PropServer.v
theories/PropServes.v
theories/PropSmooth.v
theories/PropStack.v
theories/PropStackKey.v
theories/PropStore.v
theories/PropStream.v
theories/PropSync.v
theories/PropTransfer.v
theories/PropUtf8.v
theories/PropWait.v
theories/PropWhole.v
theories/PropWorld.v
theories/PropWriter.v
theories/ReaderModel.v
theories/ReaderProofs.v
theories/ReaderSpec.v
theories/ReplayProofs.v
theories/RfcCases.v
theories/RfcDiskCases.v
theories/RfcDiskSpec.v
theories/RfcLossCases.v
theories/RfcLossSpec.v
theories/RfcProofs.v
theories/RfcSmooth.v
theories/RfcSmoothCases.v
theories/RfcSmoothSpec.v
theories/RfcSpec.v
theories/RunB.v
theories/RunC.v
theories/RunCases.v
theories/RunModel.v
theories/RunProofs.v
theories/RunSpec.v
theories/SealProofs.v
theories/SealSpec.v
theories/SealedCases.v
theories/SealedSpec.v
theories/ServerCases.v
theories/ServerModel.v
theories/ServerProofs.v
theories/ServerSpec.v
theories/SmoothA.v
theories/SmoothB.v
theories/SmoothC.v
theories/SmoothCases.v
theories/SmoothD.v
theories/SmoothE.v
theories/SmoothModel.v
theories/SmoothSpec.v
theories/StackKeyModel.v
theories/StackModel.v
theories/StackProofs.v
theories/StackSpec.v
theories/StoreCases.v
theories/StoreProofs.v
theories/StoreSpec.v
theories/StreamModel.v
theories/StreamProofs.v
theories/StreamSpec.v
theories/SyncModel.v
theories/SystemModel.v
theories/UploadProofs.v
theories/WholeCases.v
theories/WholeSpec.v
theories/WorldB.v
theories/WorldC.v
theories/WorldCases.v
theories/WorldModel.v
theories/WorldProofs.v
theories/WriterProofs.v
theories/WriterSpec.v
