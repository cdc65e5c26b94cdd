-Q theories Verif
theories/Aim.v
theories/AimProps.v
theories/AimSpec.v
theories/AnewProps.v
theories/AnewSpec.v
theories/Ann.v
theories/AnnProps.v
theories/AnnSpec.v
theories/ApiProofs.v
theories/AsyncModel.v
theories/AsyncProofs.v
theories/AsyncProps.v
theories/AsyncSpec.v
theories/BackupProps.v
theories/BackupSpec.v
theories/Bits.v
theories/CommProps.v
theories/CommSpec.v
theories/ConvModel.v
theories/ConvProofs.v
theories/ConvProps.v
theories/ConvSpec.v
theories/CtlAim.v
theories/CtlAimProps.v
theories/CycProps.v
theories/CycSpec.v
theories/DlQueue.v
theories/DlQueueModel.v
theories/DlQueueProps.v
theories/DlQueueSpec.v
theories/DrainModel.v
theories/DrainProps.v
theories/DrainSpec.v
theories/Dual.v
theories/DualModel.v
theories/DualProps.v
theories/DualSpec.v
theories/Echo.v
theories/EchoNr.v
theories/EchoProps.v
theories/EchoSpec.v
theories/ErrIrq.v
theories/ErrIrqModel.v
theories/ErrIrqProps.v
theories/ErrIrqSpec.v
theories/ErrModel.v
theories/ErrProofs.v
theories/ErrProps.v
theories/ErrSpec.v
theories/Feed.v
theories/FeedProps.v
theories/FeedSpec.v
theories/InfoModel.v
theories/InfoProofs.v
theories/InfoProps.v
theories/InfoSpec.v
theories/InitModel.v
theories/InitProofs.v
theories/InitProps.v
theories/InitSpec.v
theories/IoCfg.v
theories/IoCfgModel.v
theories/IoCfgProps.v
theories/IoCfgSpec.v
theories/Lock.v
theories/LockModel.v
theories/LockProps.v
theories/LockSpec.v
theories/LookModel.v
theories/LookProofs.v
theories/LookProps.v
theories/LookSpec.v
theories/MonCfg.v
theories/MonCfgModel.v
theories/MonCfgProps.v
theories/MonCfgSpec.v
theories/MonClr.v
theories/MonClrModel.v
theories/MonClrProps.v
theories/MonInit.v
theories/MonInitModel.v
theories/MonInitProps.v
theories/MonInitSpec.v
theories/MonModel.v
theories/MonProofs.v
theories/MonProps.v
theories/MonSpec.v
theories/NodeBusProps.v
theories/NodeBusSpec.v
theories/NodeCalm.v
theories/NodeCalmSpec.v
theories/NodeCfg.v
theories/NodeCfgProps.v
theories/NodeCnt.v
theories/NodeCont.v
theories/NodeContProps.v
theories/NodeContSpec.v
theories/NodeCrit.v
theories/NodeCritProps.v
theories/NodeCritSpec.v
theories/NodeEx.v
theories/NodeFirst.v
theories/NodeHooks.v
theories/NodeHooksProps.v
theories/NodeHooksSpec.v
theories/NodeHw.v
theories/NodeImage.v
theories/NodeInv.v
theories/NodeLib.v
theories/NodeLoad.v
theories/NodeLoadProps.v
theories/NodeLoadSpec.v
theories/NodeMo.v
theories/NodeModel.v
theories/NodeNotify.v
theories/NodeNotifyProps.v
theories/NodeNotifySpec.v
theories/NodeNr.v
theories/NodeNum.v
theories/NodePres.v
theories/NodeRestart.v
theories/NodeRestartProps.v
theories/NodeReturnProps.v
theories/NodeRx.v
theories/NodeSafe.v
theories/NodeSafeProps.v
theories/NodeSafeSpec.v
theories/NodeSend.v
theories/NodeServ.v
theories/NodeServModel.v
theories/NodeServProps.v
theories/NodeServSpec.v
theories/NodeSilent.v
theories/NodeSpec.v
theories/NodeSync.v
theories/NodeSyncProps.v
theories/NodeSysP.v
theories/NodeSysProps.v
theories/NodeTimeModel.v
theories/NodeTun.v
theories/NodeTunModel.v
theories/NodeTunProps.v
theories/NodeTunSpec.v
theories/NodeTx.v
theories/NodeTxP.v
theories/NodeTxProps.v
theories/NodeType.v
theories/NodeTypeProps.v
theories/NodeTypeSpec.v
theories/NodeUkwn.v
theories/NodeUkwnModel.v
theories/NodeUkwnProps.v
theories/NodeUkwnSpec.v
theories/NodeUse.v
theories/NodeUseProps.v
theories/NodeUseSpec.v
theories/NumIrqModel.v
theories/NumIrqProps.v
theories/NumIrqSpec.v
theories/PerIrqModel.v
theories/PerIrqProps.v
theories/Rand.v
theories/RandModel.v
theories/RandProps.v
theories/Rate.v
theories/RateModel.v
theories/RateProps.v
theories/RateSetProps.v
theories/RateSpec.v
theories/ReconBegin.v
theories/ReconBeginProps.v
theories/ReconHook.v
theories/ReconHookProps.v
theories/ReconHookSpec.v
theories/ReconInv.v
theories/ReconModel.v
theories/ReconProofs.v
theories/ReconProps.v
theories/ReconSpec.v
theories/Ring.v
theories/RollProps.v
theories/RollSpec.v
theories/RoundProps.v
theories/RoundSpec.v
theories/RxPauseModel.v
theories/RxPauseProps.v
theories/RxPauseSpec.v
theories/SnapModel.v
theories/SnapProofs.v
theories/Stale.v
theories/StaleProps.v
theories/StaleSpec.v
theories/StrayProps.v
theories/StraySpec.v
theories/SwIrq.v
theories/SwIrqModel.v
theories/SwIrqProps.v
theories/SwIrqSpec.v
theories/TunLis.v
theories/TunnelModel.v
theories/TunnelProofs.v
theories/TunnelProps.v
theories/TunnelSpec.v
theories/TxSw.v
theories/TxSwCalmProps.v
theories/TxSwLast.v
theories/TxSwModel.v
theories/TxSwProps.v
theories/TxSwSpec.v
theories/ValueProps.v
theories/ValueSpec.v
theories/Words.v
theories/WordsFacts.v
theories/XAct.v
theories/XActProps.v
theories/XActSpec.v
theories/XBufIrqModel.v
theories/XBufIrqProps.v
theories/XBufIrqSpec.v
theories/XBufModel.v
theories/XBufProofs.v
theories/XBufProps.v
theories/XBufSpec.v
theories/XloadAnsProps.v
theories/XloadModel.v
theories/XloadNames.v
theories/XloadProofs.v
theories/XloadProps.v
theories/XloadRun.v
theories/XloadSpec.v
