-Q theories Verif
theories/Base.v
theories/BaseFacts.v
theories/EnumModel.v
theories/Enums.v
theories/EnumFacts.v
theories/Fixed.v
theories/Header.v
theories/HeaderFacts.v
theories/PduMacro.v
theories/MacroHeader.v
theories/PduMacroFacts.v
theories/DataTypes.v
theories/DataTypesFacts.v
theories/Bitflags.v
theories/BitflagsFacts.v
theories/Pdus.v
theories/PduFields.v
theories/SpecTables.v
theories/Spec.v
theories/RecordFacts.v
theories/HeaderProofs.v
theories/Prop_Header.v
theories/PdusFacts.v
theories/ClassFacts.v
theories/PduProofs.v
theories/Prop_Pdu.v
theories/Prop_Dispatch.v
theories/Prop_Accept.v
theories/ErrorText.v
theories/Prop_Error.v
theories/SpecHistory.v
theories/Prop_History.v
theories/Wire.v
theories/WireMaps.v
theories/WireProofs.v
theories/WireFacts.v
theories/WireClass.v
theories/Prop_Wire.v
theories/SpecEnums.v
theories/SpecRecords.v
theories/Prop_Types.v
theories/SpecDatum.v
theories/DatumFacts.v
theories/Prop_Records.v
theories/Constructors.v
theories/Prop_New.v
theories/SpecSpecial.v
theories/SpecialFacts.v
theories/SizeFacts.v
theories/Prop_Size.v
theories/SpecialExtent.v
theories/SpecialDecode.v
theories/SpecialAggregate.v
theories/SpecialTransmitter.v
theories/SpecialOthers.v
theories/Prop_Special.v
theories/Prop_Aggregate.v
theories/Prop_Transmitter.v
theories/Prop_Relay.v
theories/Prop_Specs.v
theories/Crash.v
theories/Prop_Crash.v
theories/Prop_Needed.v
theories/Examples.v
theories/NewFacts.v
theories/Prop_Examples.v
theories/EmptyEnums.v
theories/SpecInform.v
theories/InformFacts.v
theories/Prop_Inform.v
theories/SpecFresh.v
theories/Prop_Fresh.v
theories/SpecProfiles.v
theories/Prop_Profiles.v
theories/SpecFaults.v
theories/Prop_Faults.v
theories/SpecMacro.v
theories/MacroFacts.v
theories/Prop_Macro.v
theories/SpecLayout.v
theories/TailFacts.v
theories/LayoutFacts.v
theories/RecLayoutFacts.v
theories/Prop_Layout.v
theories/DecodeFacts.v
theories/DecodeSpecial.v
theories/SpecDecode.v
theories/DecodeTail.v
theories/Prop_Decode.v
theories/Prop_DecodeSized.v
theories/Prop_Misc.v
theories/Floats.v
theories/FloatFacts.v
theories/Prop_Clock.v
theories/Prop_Vector.v
theories/Equality.v
theories/EqualityFacts.v
theories/SpecEquality.v
theories/Prop_Equality.v
theories/Prop_Operators.v
theories/SpecTests.v
theories/Prop_Tests.v
theories/Clock.v
theories/Prop_ClockUse.v
theories/Memory.v
theories/Prop_Memory.v
theories/Guide.v
theories/Prop_Guide.v
theories/Prop_Twins.v
theories/Prop_Defaults.v
theories/Buf.v
theories/Prop_Buf.v
theories/ErrorSource.v
theories/Prop_Source.v
theories/Prop_Instances.v
theories/SpecRecover.v
theories/Prop_Recover.v
theories/Prop_RecoverTx.v
theories/Prop_RecoverMine.v
theories/Prop_ZeroFilled.v
theories/Prop_Lengths.v
theories/SpecOwnHeader.v
theories/Prop_OwnHeader.v
theories/Prop_Local.v
theories/SpecExercise.v
theories/Prop_Numbers.v
theories/Prop_Exercise.v
theories/SpecRelays.v
theories/RelaysFacts.v
theories/Prop_Relays.v
theories/SpecIeee.v
theories/Prop_Ieee.v
theories/SpecBundle.v
theories/Prop_Bundle.v
theories/SpecStream.v
theories/Prop_Stream.v
theories/SpecTries.v
theories/Prop_Tries.v
theories/EnumNames.v
theories/SpecEnumNames.v
theories/Prop_EnumNames.v
theories/DynPdu.v
theories/SpecDyn.v
theories/Prop_Dyn.v
theories/Flags.v
theories/SpecFlags.v
theories/Prop_Flags.v
theories/SpecStale.v
theories/Prop_Stale.v
theories/Threads.v
theories/SpecThreads.v
theories/Prop_Threads.v
theories/SpecQueue.v
theories/Prop_Queue.v
theories/SpecLog.v
theories/Prop_Log.v
theories/Status.v
theories/SpecStatus.v
theories/Prop_Status.v
theories/SpecHandshake.v
theories/Prop_Handshake.v
