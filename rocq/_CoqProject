-Q theories Verif
theories/Base.v
theories/Types.v
theories/Channels.v
theories/Mac.v
theories/Stack.v
theories/ClockSync.v
theories/Api.v
theories/Hal.v
theories/Sx127x.v
theories/Sx126x.v
theories/Wp.v
theories/PChan.v
theories/PMac.v
theories/Spec.v
theories/PFrame.v
theories/PUp.v
theories/PDown.v
theories/PIrq.v
theories/PClock.v
theories/PClock2.v
theories/PApi.v
theories/PStrict.v
theories/SpecApi.v
theories/Demo.v
theories/LStep.v
theories/LUp.v
theories/LUp2.v
theories/LUp3.v
theories/LIrq.v
theories/LUp4.v
theories/Prop_Uplink.v
theories/SpecMac.v
theories/LMac.v
theories/SpecDown.v
theories/LDown.v
theories/SpecChan.v
theories/LChan.v
theories/Prop_Chan.v
theories/LRx.v
theories/SpecRx.v
theories/LJoin.v
theories/LJoin2.v
theories/Prop_Join.v
theories/LDown2.v
theories/LDown3.v
theories/Prop_Down.v
theories/SpecCmd.v
theories/LCmd.v
theories/Prop_Mac.v
theories/SpecWin.v
theories/LPhase.v
theories/LUb.v
theories/LTime.v
theories/Prop_Mac2.v
theories/Prop_Safe.v
theories/SpecTx.v
theories/LWin.v
theories/LWin2.v
theories/Prop_Win.v
theories/Prop_Live.v
theories/SpecCfg.v
theories/LCfg.v
theories/Prop_Cfg.v
theories/SpecAdr.v
theories/LAdr.v
theories/Prop_Adr.v
theories/Prop_Init.v
theories/SpecCs.v
theories/PClock3.v
theories/LClock.v
theories/Prop_Clock.v
theories/SpecRadio.v
theories/Drv.v
theories/SpecDrv.v
theories/PDrv.v
theories/PDrv7.v
theories/PDrv6.v
theories/LDrv7.v
theories/LDrv6.v
theories/LRun7.v
theories/LWant7.v
theories/LAir7.v
theories/DemoRadio.v
theories/Prop_Radio7.v
theories/LRun6.v
theories/LWant6.v
theories/Prop_Radio6.v
theories/SpecBoard.v
theories/Prop_Board7.v
theories/Prop_Board6.v
theories/SpecApp.v
theories/Prop_App.v
theories/SpecIrq.v
theories/SpecFront.v
theories/Prop_Irq7.v
theories/Prop_Front7.v
theories/Prop_Irq6.v
theories/Prop_Front6.v
theories/SpecOwn.v
theories/Prop_Own7.v
theories/Prop_Own6.v
theories/SpecCred.v
theories/Prop_Cred.v
theories/SpecSys.v
theories/LSys.v
theories/DemoSys.v
theories/Prop_Sys6.v
theories/Prop_Sys7.v
theories/SpecLink.v
theories/LLink.v
theories/DemoLink.v
theories/Prop_Link6.v
theories/Prop_Link7.v
theories/SpecKey.v
theories/LLocal.v
theories/Prop_Key.v
theories/SpecRep.v
theories/Prop_Rep.v
theories/SpecNet.v
theories/Prop_Net.v
theories/Prop_Net2.v
theories/SpecJoin.v
theories/Prop_Act.v
theories/Prop_Long.v
theories/Reent.v
theories/SpecReent.v
theories/LReent.v
theories/Prop_Reent.v
theories/Preempt.v
theories/SpecIsr.v
theories/LIsr.v
theories/Prop_Isr.v
theories/SpecConf.v
theories/Prop_Conf.v
theories/Prop_Conf2.v
theories/SpecEnd.v
theories/LEnd.v
theories/DemoEnd.v
theories/Prop_End6.v
theories/Prop_End7.v
theories/Prop_Rx2.v
theories/Prop_Start.v
theories/Prop_Rest.v
theories/SpecBus.v
theories/Prop_Bus.v
theories/Prop_Bus6.v
theories/Prop_Bus7.v
theories/SpecLang.v
theories/Prop_Lang6.v
theories/Prop_Lang7.v
theories/Prop_Lang.v
theories/DemoRest.v
theories/Prop_Rest6.v
theories/Prop_Rest7.v
theories/Preempt2.v
theories/SpecSet.v
theories/LSplit.v
theories/LSet.v
theories/LSet2.v
theories/Prop_Set.v
theories/SpecAssign.v
theories/Prop_Assign.v
theories/SpecHide.v
theories/SpecHide2.v
theories/LHide.v
theories/Prop_Hide.v
theories/SpecLeft.v
theories/LLeft.v
theories/Prop_Left.v
