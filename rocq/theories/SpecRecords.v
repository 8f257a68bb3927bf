(** * The fixed-size record types and the enumerations with field traits, as lists.

    Generated by tools/gen_spec_records.py. [rt_size] is the size on the wire in bytes;
    [rt_map] the wire map of the type ([WireMaps]). *)
From Verif Require Import Base EnumModel Enums Header PduMacro DataTypes Wire WireMaps.

(** A record type: its inherent [serialize]/[deserialize] and its field traits, if any. *)
Record record_type := mk_record_type {
  rt_name : string;
  rt_type : Type;
  rt_size : nat;
  rt_serialize : rt_type -> bytes;
  rt_deserialize : reader rt_type;
  rt_field : option (codec rt_type);
  rt_map : list (entry rt_type)
}.

Definition fixed_records : list record_type := [
  mk_record_type "AcousticBeamFundamentalParameter"%string AcousticBeamFundamentalParameter 20 AcousticBeamFundamentalParameter_serialize AcousticBeamFundamentalParameter_deserialize None AcousticBeamFundamentalParameter_map;
  mk_record_type "AcousticBeamData"%string AcousticBeamData 25 AcousticBeamData_serialize AcousticBeamData_deserialize None AcousticBeamData_map;
  mk_record_type "AcousticEmitterSystem"%string AcousticEmitterSystem 4 AcousticEmitterSystem_serialize AcousticEmitterSystem_deserialize (Some AcousticEmitterSystem_codec) AcousticEmitterSystem_map;
  mk_record_type "Vector3Float"%string Vector3Float 12 Vector3Float_serialize Vector3Float_deserialize (Some Vector3Float_codec) Vector3Float_map;
  mk_record_type "AggregateId"%string AggregateId 6 AggregateId_serialize AggregateId_deserialize (Some AggregateId_codec) AggregateId_map;
  mk_record_type "AggregateMarking"%string AggregateMarking 32 AggregateMarking_serialize AggregateMarking_deserialize (Some AggregateMarking_codec) AggregateMarking_map;
  mk_record_type "AngularVelocity"%string AngularVelocity 12 AngularVelocity_serialize AngularVelocity_deserialize None AngularVelocity_map;
  mk_record_type "ApaData"%string ApaData 4 ApaData_serialize ApaData_deserialize (Some ApaData_codec) ApaData_map;
  mk_record_type "SimulationAddress"%string SimulationAddress 4 SimulationAddress_serialize SimulationAddress_deserialize (Some SimulationAddress_codec) SimulationAddress_map;
  mk_record_type "EntityId"%string EntityId 6 EntityId_serialize EntityId_deserialize (Some EntityId_codec) EntityId_map;
  mk_record_type "BeamData"%string BeamData 20 BeamData_serialize BeamData_deserialize (Some BeamData_codec) BeamData_map;
  mk_record_type "ClockTime"%string ClockTime 8 ClockTime_serialize ClockTime_deserialize (Some ClockTime_codec) ClockTime_map;
  mk_record_type "FixedDatumRecord"%string FixedDatumRecord 8 FixedDatumRecord_serialize FixedDatumRecord_deserialize (Some FixedDatumRecord_codec) FixedDatumRecord_map;
  mk_record_type "LinearAcceleration"%string LinearAcceleration 12 LinearAcceleration_serialize LinearAcceleration_deserialize (Some LinearAcceleration_codec) LinearAcceleration_map;
  mk_record_type "EntityCoordinateVector"%string EntityCoordinateVector 12 EntityCoordinateVector_serialize EntityCoordinateVector_deserialize (Some EntityCoordinateVector_codec) EntityCoordinateVector_map;
  mk_record_type "EventId"%string EventId 6 EventId_serialize EventId_deserialize (Some EventId_codec) EventId_map;
  mk_record_type "DirectedEnergyDamage"%string DirectedEnergyDamage 40 DirectedEnergyDamage_serialize DirectedEnergyDamage_deserialize (Some DirectedEnergyDamage_codec) DirectedEnergyDamage_map;
  mk_record_type "FundamentalParameterData"%string FundamentalParameterData 40 FundamentalParameterData_serialize FundamentalParameterData_deserialize (Some FundamentalParameterData_codec) FundamentalParameterData_map;
  mk_record_type "TrackJamTarget"%string TrackJamTarget 8 TrackJamTarget_serialize TrackJamTarget_deserialize (Some TrackJamTarget_codec) TrackJamTarget_map;
  mk_record_type "EmitterSystem"%string EmitterSystem 4 EmitterSystem_serialize EmitterSystem_deserialize None EmitterSystem_map;
  mk_record_type "EntityType"%string EntityType 8 EntityType_serialize EntityType_deserialize (Some EntityType_codec) EntityType_map;
  mk_record_type "Environment"%string Environment 8 Environment_serialize Environment_deserialize (Some Environment_codec) Environment_map;
  mk_record_type "EulerAngles"%string EulerAngles 12 EulerAngles_serialize EulerAngles_deserialize (Some EulerAngles_codec) EulerAngles_map;
  mk_record_type "FundamentalOperationalData"%string FundamentalOperationalData 16 FundamentalOperationalData_serialize FundamentalOperationalData_deserialize (Some FundamentalOperationalData_codec) FundamentalOperationalData_map;
  mk_record_type "IFFFundamentalParameterData"%string IFFFundamentalParameterData 24 IFFFundamentalParameterData_serialize IFFFundamentalParameterData_deserialize (Some IFFFundamentalParameterData_codec) IFFFundamentalParameterData_map;
  mk_record_type "IntercomCommunicationsParameters"%string IntercomCommunicationsParameters 8 IntercomCommunicationsParameters_serialize IntercomCommunicationsParameters_deserialize (Some IntercomCommunicationsParameters_codec) IntercomCommunicationsParameters_map;
  mk_record_type "LayerHeader"%string LayerHeader 4 LayerHeader_serialize LayerHeader_deserialize (Some LayerHeader_codec) LayerHeader_map;
  mk_record_type "WorldCoordinate"%string WorldCoordinate 24 WorldCoordinate_serialize WorldCoordinate_deserialize (Some WorldCoordinate_codec) WorldCoordinate_map;
  mk_record_type "LinearSegmentParameter"%string LinearSegmentParameter 66 LinearSegmentParameter_serialize LinearSegmentParameter_deserialize (Some LinearSegmentParameter_codec) LinearSegmentParameter_map;
  mk_record_type "LinearVelocity"%string LinearVelocity 12 LinearVelocity_serialize LinearVelocity_deserialize (Some LinearVelocity_codec) LinearVelocity_map;
  mk_record_type "MinefieldIdentifier"%string MinefieldIdentifier 6 MinefieldIdentifier_serialize MinefieldIdentifier_deserialize (Some MinefieldIdentifier_codec) MinefieldIdentifier_map;
  mk_record_type "ModulationType"%string ModulationType 8 ModulationType_serialize ModulationType_deserialize (Some ModulationType_codec) ModulationType_map;
  mk_record_type "MunitionDescriptor"%string MunitionDescriptor 16 MunitionDescriptor_serialize MunitionDescriptor_deserialize (Some MunitionDescriptor_codec) MunitionDescriptor_map;
  mk_record_type "NamedLocation"%string NamedLocation 4 NamedLocation_serialize NamedLocation_deserialize (Some NamedLocation_codec) NamedLocation_map;
  mk_record_type "ObjectIdentifier"%string ObjectIdentifier 6 ObjectIdentifier_serialize ObjectIdentifier_deserialize (Some ObjectIdentifier_codec) ObjectIdentifier_map;
  mk_record_type "ObjectType"%string ObjectType 4 ObjectType_serialize ObjectType_deserialize (Some ObjectType_codec) ObjectType_map;
  mk_record_type "Point"%string Point 8 Point_serialize Point_deserialize (Some Point_codec) Point_map;
  mk_record_type "PropulsionSystemData"%string PropulsionSystemData 8 PropulsionSystemData_serialize PropulsionSystemData_deserialize (Some PropulsionSystemData_codec) PropulsionSystemData_map;
  mk_record_type "RadioEntityType"%string RadioEntityType 8 RadioEntityType_serialize RadioEntityType_deserialize (Some RadioEntityType_codec) RadioEntityType_map;
  mk_record_type "Relationship"%string Relationship 4 Relationship_serialize Relationship_deserialize (Some Relationship_codec) Relationship_map;
  mk_record_type "SecondaryOperationalData"%string SecondaryOperationalData 4 SecondaryOperationalData_serialize SecondaryOperationalData_deserialize (Some SecondaryOperationalData_codec) SecondaryOperationalData_map;
  mk_record_type "ShaftRPMs"%string ShaftRPMs 8 ShaftRPMs_serialize ShaftRPMs_deserialize (Some ShaftRPMs_codec) ShaftRPMs_map;
  mk_record_type "SupplyQuantity"%string SupplyQuantity 12 SupplyQuantity_serialize SupplyQuantity_deserialize (Some SupplyQuantity_codec) SupplyQuantity_map;
  mk_record_type "SystemId"%string SystemId 6 SystemId_serialize SystemId_deserialize (Some SystemId_codec) SystemId_map;
  mk_record_type "VariableParameter"%string VariableParameter 16 VariableParameter_serialize VariableParameter_deserialize (Some VariableParameter_codec) VariableParameter_map;
  mk_record_type "Vector3Double"%string Vector3Double 24 Vector3Double_serialize Vector3Double_deserialize None Vector3Double_map;
  mk_record_type "VectoringNozzleSystemData"%string VectoringNozzleSystemData 8 VectoringNozzleSystemData_serialize VectoringNozzleSystemData_deserialize (Some VectoringNozzleSystemData_codec) VectoringNozzleSystemData_map;
  mk_record_type "VelocityVector"%string VelocityVector 12 VelocityVector_serialize VelocityVector_deserialize None VelocityVector_map].

(** An enumeration with field traits: wire width, [serialize_field], [field_len]
    ([deserialize_field] is its [deserialize]). *)
Record enum_field := mk_enum_field {
  ef_enum : enum_spec;
  ef_serialize_field : enum ef_enum -> bytes;
  ef_field_len : enum ef_enum -> N
}.
Definition enum_fields : list enum_field := [
  mk_enum_field ForceId_spec ForceId_serialize_field ForceId_field_len;
  mk_enum_field DeadReckoningAlgorithm_spec DeadReckoningAlgorithm_serialize_field DeadReckoningAlgorithm_field_len;
  mk_enum_field EntityCapabilities_spec EntityCapabilities_serialize_field EntityCapabilities_field_len;
  mk_enum_field DetonationResult_spec DetonationResult_serialize_field DetonationResult_field_len;
  mk_enum_field ServiceRequestServiceTypeRequested_spec ServiceRequestServiceTypeRequested_serialize_field ServiceRequestServiceTypeRequested_field_len;
  mk_enum_field RepairCompleteRepair_spec RepairCompleteRepair_serialize_field RepairCompleteRepair_field_len;
  mk_enum_field RepairResponseRepairResult_spec RepairResponseRepairResult_serialize_field RepairResponseRepairResult_field_len;
  mk_enum_field VariableRecordTypes_spec VariableRecordTypes_serialize_field VariableRecordTypes_field_len;
  mk_enum_field Reason_spec Reason_serialize_field Reason_field_len;
  mk_enum_field AcknowledgeFlag_spec AcknowledgeFlag_serialize_field AcknowledgeFlag_field_len;
  mk_enum_field AcknowledgeResponseFlag_spec AcknowledgeResponseFlag_serialize_field AcknowledgeResponseFlag_field_len;
  mk_enum_field ActionResponseRequestStatus_spec ActionResponseRequestStatus_serialize_field ActionResponseRequestStatus_field_len;
  mk_enum_field EventType_spec EventType_serialize_field EventType_field_len;
  mk_enum_field RequiredReliabilityService_spec RequiredReliabilityService_serialize_field RequiredReliabilityService_field_len;
  mk_enum_field DesignatorSystemName_spec DesignatorSystemName_serialize_field DesignatorSystemName_field_len;
  mk_enum_field DesignatorCode_spec DesignatorCode_serialize_field DesignatorCode_field_len;
  mk_enum_field UAStateChangeUpdateIndicator_spec UAStateChangeUpdateIndicator_serialize_field UAStateChangeUpdateIndicator_field_len;
  mk_enum_field UAAcousticSystemName_spec UAAcousticSystemName_serialize_field UAAcousticSystemName_field_len;
  mk_enum_field UAAcousticEmitterSystemFunction_spec UAAcousticEmitterSystemFunction_serialize_field UAAcousticEmitterSystemFunction_field_len;
  mk_enum_field UAPassiveParameterIndex_spec UAPassiveParameterIndex_serialize_field UAPassiveParameterIndex_field_len;
  mk_enum_field TransmitterTransmitState_spec TransmitterTransmitState_serialize_field TransmitterTransmitState_field_len;
  mk_enum_field TransmitterInputSource_spec TransmitterInputSource_serialize_field TransmitterInputSource_field_len;
  mk_enum_field TransmitterCryptoSystem_spec TransmitterCryptoSystem_serialize_field TransmitterCryptoSystem_field_len;
  mk_enum_field TransmitterAntennaPatternType_spec TransmitterAntennaPatternType_serialize_field TransmitterAntennaPatternType_field_len;
  mk_enum_field TransmitterAntennaPatternReferenceSystem_spec TransmitterAntennaPatternReferenceSystem_serialize_field TransmitterAntennaPatternReferenceSystem_field_len;
  mk_enum_field SignalTDLType_spec SignalTDLType_serialize_field SignalTDLType_field_len;
  mk_enum_field ReceiverReceiverState_spec ReceiverReceiverState_serialize_field ReceiverReceiverState_field_len;
  mk_enum_field IntercomControlControlType_spec IntercomControlControlType_serialize_field IntercomControlControlType_field_len;
  mk_enum_field IntercomControlCommand_spec IntercomControlCommand_serialize_field IntercomControlCommand_field_len;
  mk_enum_field IntercomControlTransmitLineState_spec IntercomControlTransmitLineState_serialize_field IntercomControlTransmitLineState_field_len;
  mk_enum_field MinefieldSensorTypes_spec MinefieldSensorTypes_serialize_field MinefieldSensorTypes_field_len;
  mk_enum_field AggregateStateAggregateState_spec AggregateStateAggregateState_serialize_field AggregateStateAggregateState_field_len;
  mk_enum_field AggregateStateFormation_spec AggregateStateFormation_serialize_field AggregateStateFormation_field_len;
  mk_enum_field IsGroupOfGroupedEntityCategory_spec IsGroupOfGroupedEntityCategory_serialize_field IsGroupOfGroupedEntityCategory_field_len;
  mk_enum_field TransferControlTransferType_spec TransferControlTransferType_serialize_field TransferControlTransferType_field_len;
  mk_enum_field GriddedDataCoordinateSystem_spec GriddedDataCoordinateSystem_serialize_field GriddedDataCoordinateSystem_field_len;
  mk_enum_field GriddedDataConstantGrid_spec GriddedDataConstantGrid_serialize_field GriddedDataConstantGrid_field_len;
  mk_enum_field GriddedDataSampleType_spec GriddedDataSampleType_serialize_field GriddedDataSampleType_field_len;
  mk_enum_field GriddedDataDataRepresentation_spec GriddedDataDataRepresentation_serialize_field GriddedDataDataRepresentation_field_len;
  mk_enum_field RepairGroups_spec RepairGroups_serialize_field RepairGroups_field_len;
  mk_enum_field IOActionIOWarfareType_spec IOActionIOWarfareType_serialize_field IOActionIOWarfareType_field_len;
  mk_enum_field IOActionIOSimulationSource_spec IOActionIOSimulationSource_serialize_field IOActionIOSimulationSource_field_len;
  mk_enum_field IOActionIOActionType_spec IOActionIOActionType_serialize_field IOActionIOActionType_field_len;
  mk_enum_field IOActionIOActionPhase_spec IOActionIOActionPhase_serialize_field IOActionIOActionPhase_field_len;
  mk_enum_field IOReportIOReportType_spec IOReportIOReportType_serialize_field IOReportIOReportType_field_len;
  mk_enum_field DISAttributeActionCode_spec DISAttributeActionCode_serialize_field DISAttributeActionCode_field_len;
  mk_enum_field EEAttributeStateIndicator_spec EEAttributeStateIndicator_serialize_field EEAttributeStateIndicator_field_len;
  mk_enum_field DEFirePulseShape_spec DEFirePulseShape_serialize_field DEFirePulseShape_field_len;
  mk_enum_field ComponentIdentification_spec ComponentIdentification_serialize_field ComponentIdentification_field_len;
  mk_enum_field ComponentDamageStatus_spec ComponentDamageStatus_serialize_field ComponentDamageStatus_field_len;
  mk_enum_field ComponentVisualSmokeColor_spec ComponentVisualSmokeColor_serialize_field ComponentVisualSmokeColor_field_len;
  mk_enum_field RecordQueryREventType_spec RecordQueryREventType_serialize_field RecordQueryREventType_field_len;
  mk_enum_field MinefieldStateProtocolMode_spec MinefieldStateProtocolMode_serialize_field MinefieldStateProtocolMode_field_len;
  mk_enum_field GridAxisDescriptorAxisType_spec GridAxisDescriptorAxisType_serialize_field GridAxisDescriptorAxisType_field_len].
