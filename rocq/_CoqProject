-Q theories Verif
theories/BootModel.v
theories/BootProof.v
theories/BootProps.v
theories/BootSpec.v
theories/CStr.v
theories/CStrLib.v
theories/CgModel.v
theories/CgProof.v
theories/CgProofB.v
theories/CgProps.v
theories/CgSpec.v
theories/CondModel.v
theories/CondProof.v
theories/CondProps.v
theories/CondSpec.v
theories/ConfModel.v
theories/ConfProof.v
theories/ConfProps.v
theories/ConfSpec.v
theories/CoreAct.v
theories/CoreAny.v
theories/CoreBoot.v
theories/CoreBootB.v
theories/CoreBootC.v
theories/CoreCalm.v
theories/CoreConf.v
theories/CoreCrash.v
theories/CoreEx.v
theories/CoreExec.v
theories/CoreGone.v
theories/CoreGrow.v
theories/CoreHalt.v
theories/CoreIdent.v
theories/CoreKeep.v
theories/CoreKill.v
theories/CoreLib.v
theories/CoreLive.v
theories/CoreLog.v
theories/CoreMem.v
theories/CoreMicro.v
theories/CoreModel.v
theories/CoreMoment.v
theories/CoreOne.v
theories/CoreProc.v
theories/CoreProof.v
theories/CoreProofB.v
theories/CoreProofC.v
theories/CoreProofD.v
theories/CoreProps.v
theories/CorePropsB.v
theories/CorePropsC.v
theories/CorePropsD.v
theories/CorePropsE.v
theories/CorePropsF.v
theories/CorePropsG.v
theories/CorePropsH.v
theories/CorePropsI.v
theories/CorePropsJ.v
theories/CorePropsK.v
theories/CorePropsL.v
theories/CorePropsM.v
theories/CoreReap.v
theories/CoreReapB.v
theories/CoreReload.v
theories/CoreReloadB.v
theories/CoreReloadC.v
theories/CoreReloadD.v
theories/CoreReq.v
theories/CoreRun.v
theories/CoreSettle.v
theories/CoreSettleB.v
theories/CoreSide.v
theories/CoreSlice.v
theories/CoreSpec.v
theories/CoreSpecB.v
theories/CoreSpecC.v
theories/CoreSpecD.v
theories/CoreSpecE.v
theories/CoreSpecF.v
theories/CoreSpecG.v
theories/CoreSpecH.v
theories/CoreStay.v
theories/CoreTame.v
theories/CoreTask.v
theories/CoreTaskB.v
theories/CoreTypes.v
theories/DepModel.v
theories/DepProof.v
theories/DepProps.v
theories/DepSpec.v
theories/DevModel.v
theories/DevProof.v
theories/DevProps.v
theories/DevSpec.v
theories/EndModel.v
theories/EndProof.v
theories/EndProps.v
theories/EndSpec.v
theories/GetModel.v
theories/GetProof.v
theories/GetProps.v
theories/GetSpec.v
theories/HookModel.v
theories/HookProof.v
theories/HookProps.v
theories/HookSpec.v
theories/KevModel.v
theories/KevProof.v
theories/KevProps.v
theories/KevSpec.v
theories/LogModel.v
theories/LogProof.v
theories/LogProps.v
theories/LogSpec.v
theories/ModModel.v
theories/ModProof.v
theories/ModProps.v
theories/ModSpec.v
theories/NameModel.v
theories/NameProof.v
theories/NameProps.v
theories/NameSpec.v
theories/NetModel.v
theories/NetProof.v
theories/NetProps.v
theories/NetSpec.v
theories/ParseModel.v
theories/ParseProof.v
theories/ParseProofB.v
theories/ParseProofC.v
theories/ParseProofD.v
theories/ParseProofE.v
theories/ParseProps.v
theories/ParseSpec.v
theories/PartModel.v
theories/PartProof.v
theories/PartProps.v
theories/PartSpec.v
theories/PlugModel.v
theories/PlugProof.v
theories/PlugProps.v
theories/PlugSpec.v
theories/RebModel.v
theories/RebProof.v
theories/RebProps.v
theories/RebSpec.v
theories/RotModel.v
theories/RotProof.v
theories/RotProps.v
theories/RotSpec.v
theories/SctlModel.v
theories/SctlProof.v
theories/SctlProps.v
theories/SctlSpec.v
theories/SulModel.v
theories/SulProof.v
theories/SulProps.v
theories/SulSpec.v
theories/TmpEx.v
theories/TmpModel.v
theories/TmpProof.v
theories/TmpProofB.v
theories/TmpProofC.v
theories/TmpProps.v
theories/TmpSpec.v
theories/TtyModel.v
theories/TtyProof.v
theories/TtyProps.v
theories/TtySpec.v
theories/UtmModel.v
theories/UtmProof.v
theories/UtmProps.v
theories/UtmSpec.v
theories/WdtModel.v
theories/WdtProof.v
theories/WdtProps.v
theories/WdtSpec.v
