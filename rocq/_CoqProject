-Q theories Verif

theories/Base.v
theories/Enums.v
theories/Buffer.v
theories/Ether.v
theories/Ipv4.v
theories/Ip.v
theories/Udp.v
theories/Tcp.v
theories/Icmp.v
theories/Builders.v
theories/Generic.v
theories/Debug.v
theories/Mutable.v
theories/Spec.v
theories/Lemmas.v
theories/ParseProofs.v
theories/SliceProofs.v
theories/AccessProofs.v
theories/FieldProofs.v
theories/SizeProofs.v
theories/ChecksumLemmas.v
theories/ChecksumProofs.v
theories/SpecCalls.v
theories/SpecNumbers.v
theories/SpecMut.v
theories/SpecEdit.v
theories/GuardProofs.v
theories/OptionProofs.v
theories/BufferProofs.v
theories/EnumProofs.v
theories/SpecBuild.v
theories/SpecUser.v
theories/BuildLemmas.v
theories/FinalLemmas.v
theories/ChainLemmas.v
theories/ReadLemmas.v
theories/BuilderProofs.v
theories/MessageProofs.v
theories/PayloadProofs.v
theories/MisuseProofs.v
theories/SliceBuildProofs.v
theories/DebugProofs.v
theories/MutableProofs.v
theories/EditProofs.v
theories/StateLemmas.v
theories/AsPacketProofs.v
theories/HookProofs.v
theories/SpecUnchecked.v
theories/UncheckedProofs.v
theories/SpecCopy.v
theories/CopyProofs.v
theories/SpecFrame.v
theories/FrameProofs.v
theories/SpecOrder.v
theories/OrderProofs.v
theories/RefreshProofs.v
theories/Sizes.v
theories/SpecSize.v
theories/BoundProofs.v
theories/SpecOptions.v
theories/TileProofs.v
theories/SpecVia.v
theories/ViaProofs.v
theories/SpecProfile.v
theories/ProfileProofs.v
theories/SpecShift.v
theories/ShiftProofs.v
theories/SpecOwnIp.v
theories/OwnIpProofs.v
theories/SpecGeneric.v
theories/GenericProofs.v
theories/IpProofs.v
theories/TrailProofs.v
theories/SpecHooks.v
theories/ProgramHookProofs.v
theories/SpecReference.v
theories/ReferenceProofs.v
theories/SpecSucceed.v
theories/SucceedProofs.v
theories/InUseProofs.v
theories/WidthProofs.v
theories/SpecCorrupt.v
theories/CorruptProofs.v
theories/SpecForward.v
theories/ForwardProofs.v
theories/FrameAnswerProofs.v
theories/SpecIncremental.v
theories/IncrementalProofs.v
theories/SpecMachine.v
theories/MachineProofs.v
theories/SpecMachineIcmp.v
theories/FrameMachineProofs.v
theories/IcmpMachineProofs.v
theories/SpecReceiver.v
theories/ReceiverProofs.v
theories/BuiltProofs.v
theories/SpecBlock.v
theories/BlockProofs.v
theories/Memory.v
theories/SpecMemory.v
theories/MemoryProofs.v
theories/SpecStore.v
theories/StoreProofs.v
theories/SpecRoute.v
theories/RouteProofs.v
theories/SpecNat.v
theories/NatProofs.v
theories/SpecHost.v
theories/HostProofs.v
theories/SpecDump.v
theories/DumpProofs.v
theories/SpecFind.v
theories/FindProofs.v
theories/SpecBlame.v
theories/BlameProofs.v
theories/SpecShake.v
theories/ShakeProofs.v
theories/SpecStream.v
theories/StreamProofs.v
theories/SpecTrace.v
theories/TraceProofs.v
theories/AlikeProofs.v
theories/AnyServiceProofs.v
theories/AnyNatProofs.v
theories/Witness.v
theories/WitnessProofs.v
theories/Tests.v
theories/Props.v
