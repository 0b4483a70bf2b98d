-Q theories Verif
theories/Base.v
theories/CrcModel.v
theories/CrcSpec.v
theories/CrcLin.v
theories/CrcProofs.v
theories/FrameModel.v
theories/FrameSpec.v
theories/FrameProofs.v
theories/FrameProps.v
theories/SecureModel.v
theories/SecureSpec.v
theories/SecureProps.v
theories/SecureProofs.v
theories/SecureRawProps.v
theories/EepromModel.v
theories/EepromProofs.v
theories/EepromProps.v
theories/AssocProps.v
theories/TxCtrModel.v
theories/TxCtrProofs.v
theories/TxCtrWindow.v
theories/TxCtrSix.v
theories/TxCtrProps.v
theories/RxCtrModel.v
theories/RxCtrProofs.v
theories/RxCtrNormal.v
theories/RxCtrProps.v
theories/RxCtrCrash.v
theories/SecureRxModel.v
theories/SecureRxProps.v
theories/SecureTxModel.v
theories/SecureTxProps.v
theories/BoilerModel.v
theories/BoilerProps.v
theories/ScheduleModel.v
theories/ScheduleProps.v
theories/ScheduleApply.v
theories/OccModel.v
theories/OccProps.v
theories/RtcModel.v
theories/RtcProps.v
theories/TempModel.v
theories/TempProps.v
theories/DialProps.v
theories/ValveModel.v
theories/ValveProps.v
theories/ValveSettle.v
theories/ValveFrost.v
theories/ValveHover.v
theories/WholeValve.v
theories/RxQueueModel.v
theories/RxQueueProps.v
theories/RxQueueCap.v
theories/RxQueueRobust.v
theories/RxFilter.v
theories/FhtModel.v
theories/FhtEnc.v
theories/FhtDec.v
theories/FhtTop.v
theories/FhtSyncModel.v
theories/FhtSyncProps.v
theories/FhtSyncTop.v
theories/MotorModel.v
theories/MotorCal.v
theories/MotorProps.v
theories/MotorStep.v
theories/MotorTop.v
theories/MotorMore.v
theories/MotorMoves.v
theories/JsonFrame.v
theories/JsonModel.v
theories/JsonBuf.v
theories/JsonSpec.v
theories/JsonWrite.v
theories/JsonMain.v
theories/JsonThm.v
theories/JsonMap.v
theories/JsonFair.v
theories/JsonEx.v
theories/BinStatsModel.v
theories/BinStatsSpec.v
theories/BinStatsProofs.v
theories/BinStatsEnc.v
theories/BinStatsErr.v
theories/StatsModel.v
theories/StatsSmooth.v
theories/StatsQuart.v
theories/StatsUpdate.v
theories/StatsEeprom.v
theories/LightModel.v
theories/LightProps.v
theories/LightTop.v
theories/MsgModel.v
theories/MsgProps.v
theories/MsgTop.v
theories/UiModel.v
theories/UiProps.v
theories/UiPress.v
theories/UiFlash.v
theories/UiClicks.v
theories/CliModel.v
theories/CliProps.v
theories/CliCmds.v
theories/CliMore.v
theories/CliFrame.v
theories/Sim900Model.v
theories/Sim900Props.v
theories/Sim900Hist.v
theories/Sim900Bounds.v
theories/Sim900Timing.v
theories/Sim900Live.v
theories/Sim900Flaws.v
theories/Sim900Gate.v
theories/OwModel.v
theories/OwProps.v
theories/OwSearch.v
theories/DsModel.v
theories/DsProps.v
theories/DsTop.v
theories/JeeModel.v
theories/JeeCrc.v
theories/JeeProps.v
theories/RfmModel.v
theories/RfmProps.v
theories/RfmLink.v
theories/RfmRx.v
theories/RfmPoll.v
theories/RfmHist.v
theories/RfmEx.v
theories/ErrModel.v
theories/ErrProps.v
theories/PrngModel.v
theories/PrngProps.v
theories/EntropyProps.v
theories/I2cModel.v
theories/I2cProps.v
theories/SoftModel.v
theories/SoftProps.v
theories/SoftAsync.v
theories/SoftOld.v
theories/RnModel.v
theories/RnProps.v
theories/StatsLine.v
theories/SleepModel.v
theories/SleepProps.v
theories/OscProps.v
theories/AdcModel.v
theories/AdcProps.v
theories/BridgeProps.v
theories/SpinProps.v
theories/UtilModel.v
theories/UtilProps.v
theories/ScratchProps.v
theories/PowerModel.v
theories/PowerProps.v
theories/SmallModel.v
theories/SmallProps.v
theories/ConcProps.v
theories/HubLine.v
theories/SerialModel.v
theories/SerialProps.v
theories/BaseLinkModel.v
theories/BaseLinkProps.v
theories/FhtFrameModel.v
theories/FhtFrameProps.v
theories/WearModel.v
theories/WearProps.v
theories/JitterModel.v
theories/JitterProps.v
theories/PinModel.v
theories/PinProps.v
theories/ParamProps.v
theories/NoiseModel.v
theories/NoiseProps.v
theories/EndStopProps.v
theories/FhtStats.v
theories/MotorCurrent.v
theories/LeafProps.v
theories/FrameKinds.v
theories/SoftPrint.v
theories/DialPath.v
theories/ClockPath.v
