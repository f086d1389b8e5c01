-Q theories Verif
theories/Mem.v
theories/VecModel.v
theories/VecSpec.v
theories/VecProofs.v
theories/VecRefine.v
theories/VecMore.v
theories/VecProps.v
theories/StrModel.v
theories/StrSpec.v
theories/StrProofs.v
theories/StrMore.v
theories/StrProps.v
theories/IntStrModel.v
theories/IntStrSpec.v
theories/IntStrProofs.v
theories/IntStrProps.v
theories/XorshiftModel.v
theories/XorshiftProofs.v
theories/XorshiftProps.v
theories/MapModel.v
theories/MapSpec.v
theories/MapProofs.v
theories/MapRefine.v
theories/MapMore.v
theories/MapProps.v
theories/AlgoModel.v
theories/AlgoProofs.v
theories/AlgoProps.v
theories/SipModel.v
theories/SipSpec.v
theories/SipProofs.v
theories/SipProps.v
theories/FpModel.v
theories/FpProofs.v
theories/RoundModel.v
theories/RoundProofs.v
theories/FpProps.v
theories/UptrModel.v
theories/UptrProofs.v
theories/UptrProps.v
theories/SsModel.v
theories/SsSpec.v
theories/SsProofs.v
theories/SsProps.v
theories/ThrModel.v
theories/ThrProps.v
theories/LitModel.v
theories/LitProofs.v
theories/LimModel.v
theories/LimProps.v
theories/ValModel.v
theories/ValProps.v
theories/RyuTables.v
theories/RyuModel.v
theories/RyuArith.v
theories/RyuTab.v
theories/RyuProps.v
theories/RyuCert.v
theories/RyuCertData.v
theories/RyuCertOk.v
theories/RyuShort.v
theories/RyuOpt.v
theories/RyuStep.v
theories/RyuF2d.v
theories/RyuD2d.v
theories/RyuRound.v
theories/RyuDec.v
theories/RyuFmtModel.v
theories/RyuFmt.v
theories/RyuText.v
theories/RyuTextProps.v
theories/RyuParseModel.v
theories/RyuConv.v
theories/RyuMul.v
theories/RyuCvt.v
theories/RyuScan.v
theories/RyuParse.v
theories/RyuParseProps.v
theories/FmathModel.v
theories/FmathReal.v
theories/FmathStep.v
theories/FmathExp.v
theories/FmathLog.v
theories/FmathExpProps.v
theories/FmathReduce.v
theories/FmathFast.v
theories/FmathTrig.v
theories/FmathTrig2.v
theories/FmathTan.v
theories/FmathTrigProps.v
theories/FmathHyp.v
theories/FmathHypProps.v
theories/FmathSqrt.v
theories/FmathCbrt.v
theories/FmathRootProps.v
theories/FmathErfRef.v
theories/FmathErf.v
theories/FmathErfProps.v
theories/FmathPow.v
theories/FmathPowProps.v
theories/FmathIerfRef.v
theories/FmathIerf.v
theories/FmathIerfProps.v
theories/LifeModel.v
theories/OptModel.v
theories/OptSpec.v
theories/OptProofs.v
theories/OptProps.v
theories/ExpModel.v
theories/ExpSpec.v
theories/ExpProofs.v
theories/ExpVoidProofs.v
theories/ExpProps.v
theories/VarModel.v
theories/VarSpec.v
theories/VarProofs.v
theories/VarVisit.v
theories/VarProps.v
theories/QueueModel.v
theories/QueueSpec.v
theories/QueueProofs.v
theories/QueueProps.v
theories/SignalModel.v
theories/SignalProofs.v
theories/SignalProps.v
theories/AnyModel.v
theories/AnySpec.v
theories/AnyProofs.v
theories/AnyProps.v
theories/FfTable.v
theories/FfModel.v
theories/FfWord.v
theories/FfRound.v
theories/FfPow.v
theories/FfApprox.v
theories/FfCompute.v
theories/FfProps.v
theories/FfBig.v
theories/FfScan.v
theories/FfScanProps.v
theories/FfMant.v
theories/FfDigit.v
theories/FfComp.v
theories/FfSlow.v
theories/FfNumProps.v
theories/SeqModel.v
theories/SeqProofs.v
theories/TupModel.v
theories/TupProofs.v
theories/TupProps.v
theories/TyModel.v
theories/TraitModel.v
theories/TraitSpec.v
theories/TraitProofs.v
theories/TraitCommon.v
theories/TraitMore.v
theories/TraitProps.v
theories/TraitProps2.v
theories/TinfoModel.v
theories/TinfoProps.v
theories/OsModel.v
theories/OsProps.v
theories/OsProps2.v
theories/UgModel.v
theories/UgProofs.v
theories/UgStep.v
theories/UgProps.v
theories/QueueWait.v
theories/SdcTable.v
theories/SdcModel.v
theories/SdcProofs.v
theories/SdcRound.v
theories/SdcCompute.v
theories/SdcProps.v
theories/FfAgree.v
theories/OstrModel.v
theories/OstrProps.v
theories/OstrBack.v
theories/MtxModel.v
theories/MtxProps.v
theories/FwdModel.v
theories/FwdProps.v
theories/UcModel.v
theories/UcProps.v
theories/UrModel.v
theories/UrProps.v
theories/WrtModel.v
theories/WrtProps.v
theories/IlModel.v
theories/IlProps.v
theories/UdModel.v
theories/UdProps.v
theories/TcModel.v
theories/TcSpec.v
theories/TcProofs.v
theories/TcProps.v
theories/IcModel.v
theories/IcProps.v
theories/UoModel.v
theories/UoProps.v
theories/SwModel.v
theories/SwProps.v
