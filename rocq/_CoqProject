-Q theories Verif
theories/Bits.v
theories/S2tte.v
theories/S2tteFacts.v
theories/Arch.v
theories/SpecCodec.v
theories/ArchFacts.v
theories/Prop_S2tte.v
theories/State.v
theories/Granule.v
theories/Wp.v
theories/RecFields.v
theories/Measure.v
theories/RmiGranule.v
theories/RmiRtt.v
theories/RmiRealm.v
theories/Psci.v
theories/RmiRec.v
theories/Gic.v
theories/Esr.v
theories/Rsi.v
theories/RecRun.v
theories/Mmu.v
theories/Machine.v
theories/Spec.v
theories/SpecExit.v
theories/ExitFacts.v
theories/Prop_Exit.v
theories/Inv.v
theories/InvTree.v
theories/MmuFacts.v
theories/InvStep.v
theories/InvStep2.v
theories/InvStep3.v
theories/Effects.v
theories/CmdLib.v
theories/CmdGranule.v
theories/CmdRtt.v
theories/CmdFold.v
theories/CmdRtt2.v
theories/CmdNs.v
theories/CmdData.v
theories/CmdRipas.v
theories/CmdList.v
theories/CmdRealm.v
theories/CmdRec.v
theories/CmdRsi.v
theories/CmdRsi2.v
theories/CmdRun.v
theories/CmdRun2.v
theories/Frames.v
theories/CmdAll.v
theories/MInv.v
theories/MStep.v
theories/View.v
theories/Demo.v
theories/Mpidr.v
theories/Own.v
theories/Prop_Own.v
theories/StepView.v
theories/SpecStep.v
theories/Demo2.v
theories/Demo3.v
theories/Step.v
theories/Step2.v
theories/Prop_Step.v
theories/Step3.v
theories/Step4.v
theories/Step5.v
theories/SpecRec.v
theories/Step6.v
theories/Step7.v
theories/Step8.v
theories/Step9.v
theories/Step10.v
theories/Prop_Page.v
theories/Prop_Rec.v
theories/Act.v
theories/SpecSafe.v
theories/Safe.v
theories/Prop_Safe.v
theories/SpecRsi.v
theories/SpecRun.v
theories/Step11.v
theories/Step12.v
theories/Step13.v
theories/Step14.v
theories/Prop_Rsi.v
theories/Prop_Run.v
theories/SpecTlb.v
theories/Tlb.v
theories/Prop_Tlb.v
theories/Conc.v
theories/SpecConc.v
theories/Disc.v
theories/ConcFacts.v
theories/Prop_Conc.v
theories/SpecTables.v
theories/Tables.v
theories/Tables2.v
theories/Tables3.v
theories/Prop_Tables.v
theories/Platform.v
theories/SpecPlatform.v
theories/SpecBoot.v
theories/PlatformFacts.v
theories/PlatformBoot.v
theories/Prop_Platform.v
theories/Dispatch.v
theories/SpecDispatch.v
theories/DispatchFacts.v
theories/Prop_Dispatch.v
theories/Desc.v
theories/SpecDesc.v
theories/DescFacts.v
theories/Prop_Desc.v
theories/SpecRim.v
theories/Rim.v
theories/Prop_Rim.v
theories/Simd.v
theories/SpecSimd.v
theories/SimdFacts.v
theories/SimdInv.v
theories/Prop_Simd.v
theories/SpecTear.v
theories/Tear.v
theories/Prop_Tear.v
theories/Heap.v
theories/SpecHeap.v
theories/HeapList.v
theories/HeapFacts.v
theories/HeapOps.v
theories/HeapFree.v
theories/HeapRun.v
theories/HeapInv.v
theories/HeapHist.v
theories/Prop_Heap.v
theories/SpecAgree.v
theories/Ni.v
theories/NiCmd.v
theories/NiFacts.v
theories/Prop_Agree.v
theories/SpecAgree2.v
theories/NiEnter.v
theories/NiEnter2.v
theories/NiExit.v
theories/NiOut.v
theories/Prop_Agree2.v
theories/Xlat.v
theories/SpecXlat.v
theories/XlatDesc.v
theories/XlatTree.v
theories/XlatMap.v
theories/XlatInit.v
theories/XlatCfg.v
theories/Prop_Xlat.v
theories/XlatDyn.v
theories/XlatDyn2.v
theories/SpecSlots.v
theories/XlatSlots.v
theories/Prop_XlatDyn.v
theories/El3Sign.v
theories/SpecEl3Sign.v
theories/El3SignFacts.v
theories/El3SignFacts2.v
theories/El3SignFacts3.v
theories/Prop_El3Sign.v
theories/Printf.v
theories/SpecPrintf.v
theories/PrintfFacts.v
theories/PrintfFacts2.v
theories/PrintfFacts3.v
theories/PrintfFacts4.v
theories/Prop_Printf.v
theories/Pmu.v
theories/SpecPmu.v
theories/PmuFacts.v
theories/PmuFacts2.v
theories/Prop_Pmu.v
theories/Libc.v
theories/SpecLibc.v
theories/LibcFacts.v
theories/Prop_Libc.v
theories/PlatToken.v
theories/SpecPlatToken.v
theories/PlatTokenFacts.v
theories/Prop_PlatToken.v
theories/Cca.v
theories/SpecCbor.v
theories/SpecCca.v
theories/CcaFacts.v
theories/Prop_Cca.v
theories/Pauth.v
theories/SpecPauth.v
theories/PauthFacts.v
theories/Prop_Pauth.v
theories/Backtrace.v
theories/SpecBacktrace.v
theories/BacktraceFacts.v
theories/Prop_Backtrace.v
theories/PlatMap.v
theories/SpecPlatMap.v
theories/PlatMapFacts.v
theories/Prop_PlatMap.v
theories/AttestInit.v
theories/SpecAttestInit.v
theories/AttestInitFacts.v
theories/Prop_AttestInit.v
