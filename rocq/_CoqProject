-Q theories Verif

theories/Base.v
theories/WireModel.v
theories/WireSpec.v
theories/WireProofs.v
theories/WireProps.v
theories/NameTable.v
theories/NegoModel.v
theories/NegoSpec.v
theories/NegoProofs.v
theories/NegoAgree.v
theories/NegoProps.v
theories/BufModel.v
theories/BufSpec.v
theories/BufProofs.v
theories/BufProps.v
theories/PacketModel.v
theories/IoModel.v
theories/IoSpec.v
theories/IoProofs.v
theories/IoProps.v
theories/PacketSpec.v
theories/PacketProofs.v
theories/PacketSafe.v
theories/PacketTx.v
theories/PacketTrip.v
theories/PacketRuns.v
theories/PacketMore.v
theories/PacketProps.v
theories/ChanModel.v
theories/ChanSpec.v
theories/ChanProofs.v
theories/ChanInv.v
theories/ChanStep.v
theories/ChanMore.v
theories/ChanProps.v
theories/ChanProps2.v
theories/AuthModel.v
theories/AuthSpec.v
theories/AuthProofs.v
theories/AuthStep.v
theories/AuthProps.v
theories/AuthProps2.v
theories/HsModel.v
theories/HsSpec.v
theories/HsProofs.v
theories/HsStep.v
theories/HsStep2.v
theories/HsStep3.v
theories/HsRun.v
theories/HsAccept.v
theories/HsConnect.v
theories/HsMain.v
theories/HsProps.v
theories/DhTable.v
theories/KexModel.v
theories/KexSpec.v
theories/KexProofs.v
theories/KexProofs2.v
theories/KexProofs3.v
theories/KexProps.v
theories/PathModel.v
theories/PathSpec.v
theories/PathProofs.v
theories/PathProps.v
theories/ReqModel.v
theories/ReqSpec.v
theories/ReqProofs.v
theories/ReqProofs2.v
theories/ReqProofs3.v
theories/ReqProps.v
theories/ReqProps2.v
theories/SftpModel.v
theories/SftpSpec.v
theories/SftpProofs.v
theories/SftpProofs2.v
theories/SftpProofs3.v
theories/SftpProofs4.v
theories/SftpProofs5.v
theories/SftpProofs6.v
theories/SftpProofs7.v
theories/SftpProofs8.v
theories/SftpProps.v
theories/SftpProofs9.v
theories/SftpProps2.v
theories/SftpProofs10.v
theories/SftpProofs11.v
theories/SftpProps3.v
theories/SftpSpec2.v
theories/SftpProofs12.v
theories/SftpProps4.v
theories/ScpModel.v
theories/ScpSpec.v
theories/ScpProofs.v
theories/ScpProofs2.v
theories/ScpProofs3.v
theories/ScpProofs4.v
theories/ScpProofs5.v
theories/ScpProps.v
theories/ScpSpec2.v
theories/ScpProofs6.v
theories/ScpProps2.v
theories/ScpSrcModel.v
theories/ScpSrcSpec.v
theories/ScpSrcProofs.v
theories/ScpSrcProofs2.v
theories/ScpSrcProofs3.v
theories/ScpSrcProps.v
theories/ScpTreeSpec.v
theories/ScpTreeProofs.v
theories/ScpTreeProofs2.v
theories/ScpTreeProps.v
theories/ScpWalkSpec.v
theories/ScpWalkProofs.v
theories/ScpWalkProofs2.v
theories/ScpWalkProofs3.v
theories/ScpWalkProps.v
theories/SshdConfModel.v
theories/SshdConfSpec.v
theories/SshdConfProofs.v
theories/SshdConfProofs2.v
theories/SshdConfProofs3.v
theories/SshdConfProofs4.v
theories/SshdConfProofs5.v
theories/SshdConfProofs6.v
theories/SshdConfProps.v
theories/SshdKeysModel.v
theories/SshdKeysSpec.v
theories/SshdKeysProofs.v
theories/SshdKeysProofs2.v
theories/SshdKeysProofs3.v
theories/SshdKeysProps.v
theories/SshdLoginModel.v
theories/SshdLoginSpec.v
theories/SshdLoginProofs.v
theories/SshdLoginProofs2.v
theories/SshdLoginProps.v
theories/SshdSessionModel.v
theories/SshdSessionSpec.v
theories/SshdSessionProofs.v
theories/SshdSessionProps.v
theories/SshdRelayModel.v
theories/SshdRelaySpec.v
theories/SshdRelayProofs.v
theories/SshdRelayProps.v
theories/OsshModel.v
theories/OsshSpec.v
theories/OsshProofs.v
theories/OsshProofs2.v
theories/OsshProofs3.v
theories/OsshProps.v
theories/SftpClientModel.v
theories/SftpClientSpec.v
theories/SftpClientProofs.v
theories/SftpClientProofs2.v
theories/SftpClientProofs3.v
theories/SftpClientProofs4.v
theories/SftpClientProps.v
theories/ClientAuthModel.v
theories/ClientAuthSpec.v
theories/ClientAuthProofs.v
theories/ClientAuthProofs2.v
theories/ClientAuthProofs3.v
theories/ClientAuthProofs4.v
theories/ClientAuthProps.v
theories/ClientFit.v
theories/ClientFitProps.v
theories/AuthKeysSpec.v
theories/AuthKeys.v
theories/AuthKeysProps.v
theories/OpenKeyModel.v
theories/OpenKeySpec.v
theories/OpenKeyProofs.v
theories/OpenKeyProofs2.v
theories/OpenKeyProps.v
theories/SftpListModel.v
theories/SftpListSpec.v
theories/SftpListProofs.v
theories/SftpListProofs2.v
theories/SftpListProps.v
theories/SftpListProps2.v
theories/SftpGetProps.v
theories/SftpPutProps.v
