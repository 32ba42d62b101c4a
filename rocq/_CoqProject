-Q theories Verif
theories/Base.v
theories/BaseLemmas.v
theories/PacketIDModel.v
theories/PacketIDSpec.v
theories/PacketIDProofs.v
theories/PacketIDRun.v
theories/PacketIDProps.v
theories/MessageModel.v
theories/CodecSpec.v
theories/CodecProofs.v
theories/CodecProps.v
theories/PendingChainModel.v
theories/BitCount.v
theories/FragSpec.v
theories/PendingChainProofs.v
theories/FragRun.v
theories/ReaderModel.v
theories/ReaderSpec.v
theories/ReaderProofs.v
theories/ReaderLoopModel.v
theories/ReaderRun.v
theories/ReaderProps.v
theories/FragmentSendModel.v
theories/FragSession.v
theories/FragFamily.v
theories/FragProps.v
theories/PacketModel.v
theories/PacketSpec.v
theories/PacketProofs.v
theories/PacketProps.v
theories/TS.v
theories/QueueModel.v
theories/QueueProofs.v
theories/QueueProps.v
theories/StateModel.v
theories/StateProps.v
theories/PauseModel.v
theories/PauseProofs.v
theories/PauseProps.v
theories/BatchModel.v
theories/BatchProofs.v
theories/BatchRun.v
theories/BatchTrace.v
theories/BatchProps.v
theories/SendModel.v
theories/SendProps.v
theories/PoolModel.v
theories/PoolProofs.v
theories/PoolProps.v
theories/X25519Model.v
theories/X25519Proofs.v
theories/KxModel.v
theories/KxSpec.v
theories/KxProofs.v
theories/KxProps.v
theories/KxRunProofs.v
theories/KxRunProps.v
theories/KxPairModel.v
theories/KxPairProps.v
theories/SessionIDModel.v
theories/SessionIDProps.v
theories/NegoModel.v
theories/NegoProps.v
theories/IdentityModel.v
theories/IdentityProofs.v
theories/IdentityProps.v
theories/MiscModel.v
theories/MiscProps.v
theories/RegistryModel.v
theories/RegistryProps.v
theories/IntegModel.v
theories/IntegProofs.v
theories/IntegSpec.v
theories/IntegAuth.v
theories/IntegSafe.v
theories/IntegProps.v
theories/ApiModel.v
theories/ApiProps.v
theories/KxKeepProps.v
theories/ClosureModel.v
theories/ClosureProps.v
theories/SendOrderModel.v
theories/SendOrderProps.v
theories/PacketMoreProps.v
theories/KxMoreProps.v
theories/MoreProps.v
theories/IntegReplay.v
theories/KxFineModel.v
theories/KxFineSpec.v
theories/KxFineProofs.v
theories/KxFineSim.v
theories/KxFineProps.v
theories/KxProvProps.v
theories/KeyWaitModel.v
theories/KeyWaitProps.v
theories/ConnectModel.v
theories/ConnectProps.v
theories/PongModel.v
theories/PongProps.v
theories/KxRetryModel.v
theories/KxRetryProps.v
theories/BindProps.v
theories/TrafficProps.v
theories/PskProps.v
theories/LogModel.v
theories/LogProps.v
theories/DuoModel.v
theories/DuoSpec.v
theories/DuoProofs.v
theories/DuoProps.v
theories/DuoOnceProps.v
theories/X25519Vector.v
theories/KnownValues.v
theories/UtilModel.v
theories/UtilProps.v
theories/KxRetryEndProps.v
theories/CloseWaitModel.v
theories/CloseWaitProps.v
theories/CallbackModel.v
theories/CallbackProps.v
theories/SendNowModel.v
theories/SendNowProps.v
theories/DuoReach.v
theories/DuoReachHalf.v
theories/DuoReachProps.v
theories/StreamProps.v
theories/SizeProps.v
theories/TooBigProps.v
theories/DetachModel.v
theories/DetachProps.v
theories/DelayModel.v
theories/DelayProps.v
theories/DuoAttackModel.v
theories/DuoAttackSpec.v
theories/DuoAttackProofs.v
theories/DuoAttackProps.v
theories/KxEndProps.v
theories/DuoRekeySpec.v
theories/DuoRekeyProofs.v
theories/DuoRekeyProps.v
theories/DuoRenew.v
theories/DuoRenewHalf.v
theories/DuoRenewProps.v
theories/NegoWireModel.v
theories/NegoWireProps.v
theories/DuoSteadyProps.v
theories/ShortReadProps.v
theories/FailReportProps.v
theories/DuoOrderProps.v
theories/ShortProps.v
theories/NegoUseProps.v
theories/HdrPoolModel.v
theories/HdrPoolProps.v
theories/SidRaceModel.v
theories/SidRaceProps.v
theories/KxRandModel.v
theories/KxRandProps.v
theories/KxTickModel.v
theories/KxTickProps.v
theories/WgModel.v
theories/WgProps.v
theories/EarlyModel.v
theories/EarlyProps.v
theories/LayoutModel.v
theories/LayoutProps.v
theories/KxHeardProps.v
theories/WordModel.v
theories/WordProps.v
theories/CreateModel.v
theories/CreateProps.v
theories/UnstartedModel.v
theories/UnstartedProps.v
theories/PacketIDWordModel.v
theories/PacketIDWordProps.v
theories/IdentityUseModel.v
theories/IdentityUseProps.v
theories/FailSilentProps.v
theories/EphemeralModel.v
theories/EphemeralProps.v
theories/ExactProps.v
theories/UnreadProps.v
theories/FragExactProps.v
theories/ProbeFailModel.v
theories/ProbeFailProps.v
