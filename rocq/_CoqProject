-Q theories Verif
theories/Model/Base.v
theories/Model/LockFifo.v
theories/Model/State.v
theories/Model/LockObj.v
theories/Model/LockSys.v
theories/Model/Sched.v
theories/Model/Kernel.v
theories/Spec/LockSpec.v
theories/Proof/Tac.v
theories/Proof/LockFifoProof.v
theories/Proof/LockSafe.v
theories/Spec/SemSpec.v
theories/Proof/LockValue.v
theories/Proof/WaitOrder.v
theories/Proof/LockSysProof.v
theories/Proof/LockTrace.v
theories/Proof/LockRun.v
theories/Proof/LockPost.v
theories/Proof/LockClaims.v
theories/Spec/SchedSpec.v
theories/Proof/SchedProof.v
theories/Proof/FairProof.v
theories/Spec/KernelSpec.v
theories/Spec/Demo.v
theories/Proof/KernelBasic.v
theories/Proof/ClockProof.v
theories/Proof/SlotProof.v
theories/Proof/KernelInv.v
theories/Proof/ElectProof.v
theories/Proof/ServiceProof.v
theories/Proof/PlaceProof.v
theories/Proof/ThreadUpd.v
theories/Proof/ChoiceProof.v
theories/Proof/RmsProof.v
theories/Proof/PartStep.v
theories/Proof/ObjStep.v
theories/Proof/CreateStep.v
theories/Proof/QueueProof.v
theories/Proof/ThreadFrame.v
theories/Proof/EffectProof.v
theories/Proof/ActivationProof.v
theories/Props/C01_FifoOrder.v
theories/Props/C02_PriorityOrder.v
theories/Props/C03_SemaphoreRange.v
theories/Props/C04_NoIdleResource.v
theories/Props/C05_MutualExclusion.v
theories/Props/C06_ReleaseNotLost.v
theories/Props/C07_Events.v
theories/Props/C10_RoundRobin.v
theories/Props/C11_RoundRobinFair.v
theories/Props/C12_StaticPriority.v
theories/Props/C13_RateMonotonic.v
theories/Props/C14_RmsTable.v
theories/Props/C15_SlotTable.v
theories/Props/C16_TemporalIsolation.v
theories/Props/C08_LockIsolation.v
theories/Props/C09_LockCreation.v
theories/Props/C20_ThreadServices.v
theories/Props/C21_PartitionModes.v
theories/Props/C22_NoLateCreation.v
theories/Props/C23_ThreadIds.v
theories/Props/C54_ThreadIsolation.v
theories/Props/C17_Activation.v
theories/Props/C18_Budget.v
theories/Props/C19_Blocked.v
theories/Props/C24_Sleep.v
theories/Model/Port.v
theories/Spec/PortSpec.v
theories/Spec/PortDemo.v
theories/Spec/ChanSpec.v
theories/Proof/PortRing.v
theories/Proof/PortInv.v
theories/Proof/PortWait.v
theories/Proof/PortChan.v
theories/Proof/SampChan.v
theories/Proof/PortFlush.v
theories/Props/C25_QueueingStream.v
theories/Props/C26_Sampling.v
theories/Props/C27_PortBuffers.v
theories/Props/C28_OwnPorts.v
theories/Props/C29_Channels.v
theories/Props/C32_Lengths.v
theories/Props/C33_PortLocks.v
theories/Model/Mem.v
theories/Spec/MemSpec.v
theories/Spec/SpaceSpec.v
theories/Proof/MemProof.v
theories/Proof/MemKernel.v
theories/Proof/MemBoot.v
theories/Props/C30_Pointers.v
theories/Props/C34_Segments.v
theories/Props/C35_PartitionMemory.v
theories/Props/C36_PresentSegments.v
theories/Props/C37_Caller.v
theories/Props/C38_Stacks.v
theories/Model/Libc.v
theories/Model/CryptoTables.v
theories/Model/Crypto.v
theories/Model/Timer.v
theories/Model/Smp.v
theories/Model/Middleware.v
theories/Model/Alloc.v
theories/Model/Loader.v
theories/Model/Syscall.v
theories/Model/Arinc.v
theories/Model/ArincSync.v
theories/Model/ArincPart.v
theories/Model/Float.v
theories/Model/Libm.v
theories/Model/LibmRoot.v
theories/Model/Ppc.v
theories/Model/Sparc.v
theories/Model/X86Entry.v
theories/Model/X86Idt.v
theories/Model/X86Reset.v
theories/Model/Console.v
theories/Model/ErrorHm.v
theories/Model/ArincPort.v
theories/Model/PpcEntry.v
theories/Model/PpcThread.v
theories/Model/BoardTimer.v
theories/Model/SparcEntry.v
theories/Model/SparcTrap.v
theories/Model/Rtl8029.v
theories/Model/MpBoot.v
theories/Model/Pic.v
theories/Model/Pci.v
theories/Model/ArincBuffer.v
theories/Model/Abi.v
theories/Model/Rand.v
theories/Model/LibmScalb.v
theories/Model/LibmElem.v
theories/Model/LibmPow.v
theories/Model/LibmAtan2.v
theories/Spec/LibcSpec.v
theories/Spec/CryptoSpec.v
theories/Spec/SmpSpec.v
theories/Spec/MiddlewareSpec.v
theories/Spec/AllocSpec.v
theories/Spec/LoaderSpec.v
theories/Spec/SyscallSpec.v
theories/Spec/DesSpec.v
theories/Spec/BlowfishSpec.v
theories/Spec/FlushSpec.v
theories/Spec/DelaySpec.v
theories/Spec/ArincNameSpec.v
theories/Spec/ArincProcSpec.v
theories/Spec/ApexWaitSpec.v
theories/Spec/ApexNameSpec.v
theories/Spec/Ieee.v
theories/Spec/LibmSpec.v
theories/Spec/PpcMmu.v
theories/Spec/SparcMmu.v
theories/Spec/X86Cpu.v
theories/Spec/X86Threads.v
theories/Spec/X86Gates.v
theories/Spec/X86Start.v
theories/Spec/Terminal.v
theories/Spec/ConsoleSpec.v
theories/Spec/HealthMonitor.v
theories/Spec/ArincPorts.v
theories/Spec/PpcCpu.v
theories/Spec/GpTimer.v
theories/Spec/SparcCpu.v
theories/Spec/SparcWindows.v
theories/Spec/SparcThreads.v
theories/Spec/Ne2000.v
theories/Spec/NetSpec.v
theories/Spec/MpTable.v
theories/Spec/Pic8259.v
theories/Spec/Pci.v
theories/Spec/ArincBuffer.v
theories/Spec/CLayout.v
theories/Spec/RandSpec.v
theories/Spec/ScalbSpec.v
theories/Spec/ElemSpec.v
theories/Spec/PowSpec.v
theories/Spec/Atan2Spec.v
theories/Proof/DivProof.v
theories/Proof/MemFnProof.v
theories/Proof/NumProof.v
theories/Proof/PrintProof.v
theories/Proof/StrCopyProof.v
theories/Proof/WordProof.v
theories/Proof/CipherProof.v
theories/Proof/CbcProof.v
theories/Proof/CodecProof.v
theories/Proof/ProtocolProof.v
theories/Proof/TimerProof.v
theories/Proof/SpinProof.v
theories/Proof/RendezvousProof.v
theories/Proof/MiddlewareProof.v
theories/Proof/AllocProof.v
theories/Proof/LoaderProof.v
theories/Proof/SyscallProof.v
theories/Proof/DesLinear.v
theories/Proof/DesKeys.v
theories/Proof/DesStdProof.v
theories/Proof/BlowfishStdProof.v
theories/Proof/FlushProof.v
theories/Proof/DelayProof.v
theories/Proof/ArincNameProof.v
theories/Proof/ArincProcProof.v
theories/Proof/ApexWaitProof.v
theories/Proof/FloatProof.v
theories/Proof/FloatRound.v
theories/Proof/LibmfProof.v
theories/Proof/LibmfRint.v
theories/Proof/LibmfRound.v
theories/Proof/LibmdProof.v
theories/Proof/LibmdRound.v
theories/Proof/LibmdRint.v
theories/Proof/LibmSign.v
theories/Proof/LibmNext.v
theories/Proof/FloatScale.v
theories/Proof/FloatParts.v
theories/Proof/LibmScale.v
theories/Proof/LibmParts.v
theories/Proof/FloatRoot.v
theories/Proof/LibmSqrtf.v
theories/Proof/LibmSqrtd.v
theories/Proof/LibmSqrtOther.v
theories/Proof/LibmModf.v
theories/Proof/LibmModd.v
theories/Proof/FloatRem.v
theories/Proof/LibmRem.v
theories/Proof/PpcProof.v
theories/Proof/SparcProof.v
theories/Proof/X86EntryProof.v
theories/Proof/X86ThreadsProof.v
theories/Proof/X86IdtProof.v
theories/Proof/ConsoleProof.v
theories/Proof/ErrorHmProof.v
theories/Proof/PpcEntryProof.v
theories/Proof/PpcThreadProof.v
theories/Proof/SparcWinProof.v
theories/Proof/SparcProgProof.v
theories/Proof/SparcTrapProof.v
theories/Proof/SparcLeaveProof.v
theories/Proof/SparcThreadProof.v
theories/Proof/SparcSwitchProof.v
theories/Proof/NicProof.v
theories/Proof/RtlWriteProof.v
theories/Proof/RtlReadProof.v
theories/Proof/RtlPollProof.v
theories/Proof/MpProof.v
theories/Proof/PicProof.v
theories/Proof/PciProof.v
theories/Proof/ArincBufferProof.v
theories/Proof/AbiProof.v
theories/Proof/RandProof.v
theories/Proof/ScalbProof.v
theories/Proof/ScalbInst.v
theories/Proof/ElemProof.v
theories/Proof/PowProof.v
theories/Proof/Atan2Proof.v
theories/Props/C40_Division.v
theories/Props/C41_MemoryStrings.v
theories/Props/C42_Decimal.v
theories/Props/C50_Printf.v
theories/Props/C55_PrintfResult.v
theories/Props/C56_StringCopy.v
theories/Props/C43_Caesar.v
theories/Props/C44_Des.v
theories/Props/C45_Blowfish.v
theories/Props/C57_ProtocolLength.v
theories/Props/C58_DesKeys.v
theories/Props/C46_Processors.v
theories/Props/C49_Timer.v
theories/Props/C52_Rendezvous.v
theories/Props/C53_SpinLock.v
theories/Props/C47_Buffers.v
theories/Props/C48_Blackboards.v
theories/Props/C59_Names.v
theories/Props/C39_Allocator.v
theories/Props/C51_Loader.v
theories/Props/C60_AllocatorReuse.v
theories/Props/C31_Syscalls.v
theories/Props/C61_IoPorts.v
theories/Props/C62_DesStandard.v
theories/Props/C63_BlowfishStandard.v
theories/Props/C64_FlushSchedule.v
theories/Props/C65_DelayedStart.v
theories/Props/C66_ProcessNames.v
theories/Props/C67_ProcessServices.v
theories/Props/C68_TimeOuts.v
theories/Props/C69_Events.v
theories/Props/C70_ObjectNames.v
theories/Props/C71_PartitionServices.v
theories/Props/C72_RoundFloat.v
theories/Props/C73_RoundDouble.v
theories/Props/C74_Classify.v
theories/Props/C75_NextAfter.v
theories/Props/C76_Scale.v
theories/Props/C77_Parts.v
theories/Props/C78_Sqrt.v
theories/Props/C79_Fmod.v
theories/Props/C80_Remainder.v
theories/Props/C81_PpcMemory.v
theories/Props/C82_SparcMemory.v
theories/Props/C83_Interrupts.v
theories/Props/C84_Threads.v
theories/Props/C85_Gates.v
theories/Props/C86_Start.v
theories/Props/C87_Console.v
theories/Props/C88_Errors.v
theories/Props/C89_PortServices.v
theories/Props/C90_PpcExceptions.v
theories/Props/C91_PpcThreads.v
theories/Props/C92_BoardTimers.v
theories/Props/C93_SparcWindows.v
theories/Props/C94_SparcTraps.v
theories/Props/C95_NetSend.v
theories/Props/C96_NetReceive.v
theories/Props/C97_Processors.v
theories/Props/C98_Pic.v
theories/Props/C99_Pci.v
theories/Props/C100_ArincBuffers.v
theories/Props/C101_Boundary.v
theories/Props/C102_Rand.v
theories/Props/C103_Scalb.v
theories/Props/C104_Elementary.v
theories/Props/C105_Pow.v
theories/Props/C106_Atan2.v
theories/Props/C107_Hypot.v
