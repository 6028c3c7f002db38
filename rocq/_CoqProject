-Q theories Verif
theories/Base.v
theories/MUtil.v
theories/MFixpt.v
theories/MScale.v
theories/MRing.v
theories/MBitmap.v
theories/MFilter.v
theories/MTimer.v
theories/MPid.v
theories/MPwm.v
theories/MTempMap.v
theories/MCurr.v
theories/MSens.v
theories/SpecNum.v
theories/SpecPid.v
theories/SpecSmall.v
theories/PBase.v
theories/PNum.v
theories/PSmall.v
theories/PScale.v
theories/PPid.v
theories/PropArith.v
theories/SpecCurr.v
theories/PCurr.v
theories/PropCurr.v
theories/MConf.v
theories/MSettings.v
theories/SpecSettings.v
theories/PSettings.v
theories/PSettingsEx.v
theories/PropSettings.v
theories/MSseg.v
theories/MDisplay.v
theories/MText.v
theories/MState.v
theories/MTemp.v
theories/MMeas.v
theories/MMenu.v
theories/MMain.v
theories/SpecDisplay.v
theories/PDisplay.v
theories/PropDisplay.v
theories/SpecSys.v
theories/SpecRun.v
theories/SpecUI.v
theories/Trace.v
theories/PSysSet.v
theories/PSys.v
theories/PSysMeas.v
theories/PSysMenu.v
theories/PSysDisp.v
theories/PSysBtn.v
theories/PSysStep.v
theories/PSysRun.v
theories/PSysCC.v
theories/PSysSafe.v
theories/PSysProp.v
theories/PSysTrace.v
theories/PropSys.v
theories/PSysWin.v
theories/PSysLog.v
theories/PSysTrace2.v
theories/PropMeas.v
theories/PSysUI.v
theories/PSysUI2.v
theories/PSysUI3.v
theories/PSysUI4.v
theories/PSysUI5.v
theories/PSysUI6.v
theories/PSysUI7.v
theories/PSysTrace3.v
theories/PropMenu.v
theories/MInt24.v
theories/MDebug.v
theories/SpecHost.v
theories/PHost.v
theories/PDebug.v
theories/PropHost.v
theories/SpecLive.v
theories/PLive.v
theories/PLive2.v
theories/PLive3.v
theories/TraceLive.v
theories/PLiveEx.v
theories/PropLive.v
theories/PStore.v
theories/SpecLoop.v
theories/PLoop.v
theories/PLoop2.v
theories/PLoop3.v
theories/PLoop4.v
theories/TraceLoop.v
theories/PLoopEx.v
theories/PropLoop.v
theories/SpecControl.v
theories/PControl.v
theories/PMem.v
theories/PDemand.v
theories/PControlEx.v
theories/SpecEye.v
theories/PEye.v
theories/PEyeEx.v
theories/PropControl.v
theories/SpecMix.v
theories/PMix.v
theories/PMixEx.v
theories/MTele.v
theories/PTele.v
theories/SpecTele.v
theories/PTele2.v
theories/PTele3.v
theories/PTele4.v
theories/PTele5.v
theories/PTele6.v
theories/PTele7.v
theories/PTeleEx.v
theories/PropTele.v
theories/UnitTests.v
theories/MFine.v
theories/SpecFine.v
theories/PFine.v
theories/PFine2.v
theories/PFine3.v
theories/PFine4.v
theories/PFine5.v
theories/PFine6.v
theories/PFine7.v
theories/PFine8.v
theories/PFineEx.v
theories/PropFine.v
theories/MHeat.v
theories/SpecHeat.v
theories/PHeat.v
theories/PHeat2.v
theories/PHeatEx.v
theories/PropHeat.v
theories/SpecWarm.v
theories/PWarm.v
theories/PCool.v
theories/PWarmEx.v
theories/PropWarm.v
theories/MAdc.v
theories/SpecAdc.v
theories/PAdc.v
theories/PAdcEx.v
theories/PropAdc.v
theories/MSim.v
theories/SpecSim.v
theories/PSim.v
theories/PSim2.v
theories/PSim3.v
theories/PSimEx.v
theories/PropSim.v
theories/MSimSet.v
theories/SpecSimSet.v
theories/PSimSet.v
theories/PSimSetEx.v
theories/PropSimSet.v
theories/MEep.v
theories/SpecEep.v
theories/PEep.v
theories/PEepEx.v
theories/PropEep.v
theories/SpecSense.v
theories/PSense.v
theories/PSense2.v
theories/PropSense.v
theories/SpecDrift.v
theories/PDrift.v
theories/PDrift2.v
theories/PDrift3.v
theories/PropDrift.v
theories/SpecFineLive.v
theories/PFineT.v
theories/PFineT2.v
theories/PFineT3.v
theories/PFineT4.v
theories/PFineT5.v
theories/PFineT6.v
theories/PropFineLive.v
theories/MHostFix.v
theories/PHostFix.v
theories/PropHostFix.v
theories/SpecFineUI.v
theories/PFineU.v
theories/PFineU2.v
theories/PFineU3.v
theories/PFineU4.v
theories/PFineU5.v
theories/PFineU6.v
theories/PFineU7.v
theories/PFineU8.v
theories/PFineU9.v
theories/PropFineUI.v
theories/MUart.v
theories/SpecUart.v
theories/PUart.v
theories/PropUart.v
theories/SpecTip.v
theories/PTip.v
theories/PTipEx.v
theories/PropTip.v
theories/MPins.v
theories/SpecPins.v
theories/PPins.v
theories/PropPins.v
theories/MCircuits.v
theories/SpecCircuits.v
theories/PCircuits.v
theories/PropCircuits.v
theories/MSimIrq.v
theories/SpecSimIrq.v
theories/PSimIrq.v
theories/PropSimIrq.v
theories/MSimHw.v
theories/SpecSimHw.v
theories/PSimHw.v
theories/PropSimHw.v
theories/SpecStor.v
theories/PStor.v
theories/PStor2.v
theories/PStor3.v
theories/PStor4.v
theories/PropStor.v
theories/SpecStorT.v
theories/PStorT.v
theories/PStorTEx.v
theories/PropStorT.v
theories/MCsv.v
theories/SpecCsv.v
theories/PCsv.v
theories/PCsv2.v
theories/PCsv3.v
theories/PCsvEx.v
theories/PropCsv.v
theories/SpecFineSense.v
theories/PFineS.v
theories/PFineS2.v
theories/PropFineSense.v
theories/SpecFineWarm.v
theories/PFineW.v
theories/PFineW2.v
theories/PFineW3.v
theories/PropFineWarm.v
theories/PFineD.v
theories/PFineC.v
theories/PFineC2.v
theories/PFineC3.v
theories/PropFineCold.v
