(** * The 66 PDU classes ([define_pdu!] invocations in [src/*.rs]).
    Generated by tools/gen_pdus.py from the source text. The two classes that contain
    a [RecordSpecification] depend on the build profile (overflow checks). *)
From Verif Require Import Base EnumModel Enums Header PduMacro DataTypes Bitflags.
Local Open Scope string_scope.

(** ** Field traits of the enumerations used as PDU fields
    ([FieldDeserialize::deserialize_field] forwards to [deserialize]). *)
(** enums.rs:196-212. *)
Definition ForceId_codec : codec ForceId := mk_codec (fun v => Ok (ForceId_serialize_field v)) (enum_deserialize ForceId_spec) ForceId_field_len.
(** enums.rs:1421-1437. *)
Definition DeadReckoningAlgorithm_codec : codec DeadReckoningAlgorithm := mk_codec (fun v => Ok (DeadReckoningAlgorithm_serialize_field v)) (enum_deserialize DeadReckoningAlgorithm_spec) DeadReckoningAlgorithm_field_len.
(** enums.rs:1482-1498. *)
Definition EntityCapabilities_codec : codec EntityCapabilities := mk_codec (fun v => Ok (EntityCapabilities_serialize_field v)) (enum_deserialize EntityCapabilities_spec) EntityCapabilities_field_len.
(** enums.rs:2124-2140. *)
Definition DetonationResult_codec : codec DetonationResult := mk_codec (fun v => Ok (DetonationResult_serialize_field v)) (enum_deserialize DetonationResult_spec) DetonationResult_field_len.
(** enums.rs:2160-2176. *)
Definition ServiceRequestServiceTypeRequested_codec : codec ServiceRequestServiceTypeRequested := mk_codec (fun v => Ok (ServiceRequestServiceTypeRequested_serialize_field v)) (enum_deserialize ServiceRequestServiceTypeRequested_spec) ServiceRequestServiceTypeRequested_field_len.
(** enums.rs:2275-2291. *)
Definition RepairCompleteRepair_codec : codec RepairCompleteRepair := mk_codec (fun v => Ok (RepairCompleteRepair_serialize_field v)) (enum_deserialize RepairCompleteRepair_spec) RepairCompleteRepair_field_len.
(** enums.rs:2311-2327. *)
Definition RepairResponseRepairResult_codec : codec RepairResponseRepairResult := mk_codec (fun v => Ok (RepairResponseRepairResult_serialize_field v)) (enum_deserialize RepairResponseRepairResult_spec) RepairResponseRepairResult_field_len.
(** enums.rs:3590-3606. *)
Definition VariableRecordTypes_codec : codec VariableRecordTypes := mk_codec (fun v => Ok (VariableRecordTypes_serialize_field v)) (enum_deserialize VariableRecordTypes_spec) VariableRecordTypes_field_len.
(** enums.rs:3630-3646. *)
Definition Reason_codec : codec Reason := mk_codec (fun v => Ok (Reason_serialize_field v)) (enum_deserialize Reason_spec) Reason_field_len.
(** enums.rs:3713-3729. *)
Definition AcknowledgeFlag_codec : codec AcknowledgeFlag := mk_codec (fun v => Ok (AcknowledgeFlag_serialize_field v)) (enum_deserialize AcknowledgeFlag_spec) AcknowledgeFlag_field_len.
(** enums.rs:3748-3764. *)
Definition AcknowledgeResponseFlag_codec : codec AcknowledgeResponseFlag := mk_codec (fun v => Ok (AcknowledgeResponseFlag_serialize_field v)) (enum_deserialize AcknowledgeResponseFlag_spec) AcknowledgeResponseFlag_field_len.
(** enums.rs:3858-3874. *)
Definition ActionResponseRequestStatus_codec : codec ActionResponseRequestStatus := mk_codec (fun v => Ok (ActionResponseRequestStatus_serialize_field v)) (enum_deserialize ActionResponseRequestStatus_spec) ActionResponseRequestStatus_field_len.
(** enums.rs:3908-3924. *)
Definition EventType_codec : codec EventType := mk_codec (fun v => Ok (EventType_serialize_field v)) (enum_deserialize EventType_spec) EventType_field_len.
(** enums.rs:3941-3957. *)
Definition RequiredReliabilityService_codec : codec RequiredReliabilityService := mk_codec (fun v => Ok (RequiredReliabilityService_serialize_field v)) (enum_deserialize RequiredReliabilityService_spec) RequiredReliabilityService_field_len.
(** enums.rs:7029-7045. *)
Definition DesignatorSystemName_codec : codec DesignatorSystemName := mk_codec (fun v => Ok (DesignatorSystemName_serialize_field v)) (enum_deserialize DesignatorSystemName_spec) DesignatorSystemName_field_len.
(** enums.rs:7062-7078. *)
Definition DesignatorCode_codec : codec DesignatorCode := mk_codec (fun v => Ok (DesignatorCode_serialize_field v)) (enum_deserialize DesignatorCode_spec) DesignatorCode_field_len.
(** enums.rs:7842-7858. *)
Definition UAStateChangeUpdateIndicator_codec : codec UAStateChangeUpdateIndicator := mk_codec (fun v => Ok (UAStateChangeUpdateIndicator_serialize_field v)) (enum_deserialize UAStateChangeUpdateIndicator_spec) UAStateChangeUpdateIndicator_field_len.
(** enums.rs:7984-8000. *)
Definition UAPassiveParameterIndex_codec : codec UAPassiveParameterIndex := mk_codec (fun v => Ok (UAPassiveParameterIndex_serialize_field v)) (enum_deserialize UAPassiveParameterIndex_spec) UAPassiveParameterIndex_field_len.
(** enums.rs:8199-8215. *)
Definition TransmitterTransmitState_codec : codec TransmitterTransmitState := mk_codec (fun v => Ok (TransmitterTransmitState_serialize_field v)) (enum_deserialize TransmitterTransmitState_spec) TransmitterTransmitState_field_len.
(** enums.rs:8245-8261. *)
Definition TransmitterInputSource_codec : codec TransmitterInputSource := mk_codec (fun v => Ok (TransmitterInputSource_serialize_field v)) (enum_deserialize TransmitterInputSource_spec) TransmitterInputSource_field_len.
(** enums.rs:8291-8307. *)
Definition TransmitterCryptoSystem_codec : codec TransmitterCryptoSystem := mk_codec (fun v => Ok (TransmitterCryptoSystem_serialize_field v)) (enum_deserialize TransmitterCryptoSystem_spec) TransmitterCryptoSystem_field_len.
(** enums.rs:8328-8344. *)
Definition TransmitterAntennaPatternType_codec : codec TransmitterAntennaPatternType := mk_codec (fun v => Ok (TransmitterAntennaPatternType_serialize_field v)) (enum_deserialize TransmitterAntennaPatternType_spec) TransmitterAntennaPatternType_field_len.
(** enums.rs:8657-8673. *)
Definition SignalTDLType_codec : codec SignalTDLType := mk_codec (fun v => Ok (SignalTDLType_serialize_field v)) (enum_deserialize SignalTDLType_spec) SignalTDLType_field_len.
(** enums.rs:8691-8707. *)
Definition ReceiverReceiverState_codec : codec ReceiverReceiverState := mk_codec (fun v => Ok (ReceiverReceiverState_serialize_field v)) (enum_deserialize ReceiverReceiverState_spec) ReceiverReceiverState_field_len.
(** enums.rs:8728-8744. *)
Definition IntercomControlControlType_codec : codec IntercomControlControlType := mk_codec (fun v => Ok (IntercomControlControlType_serialize_field v)) (enum_deserialize IntercomControlControlType_spec) IntercomControlControlType_field_len.
(** enums.rs:8784-8800. *)
Definition IntercomControlCommand_codec : codec IntercomControlCommand := mk_codec (fun v => Ok (IntercomControlCommand_serialize_field v)) (enum_deserialize IntercomControlCommand_spec) IntercomControlCommand_field_len.
(** enums.rs:8818-8834. *)
Definition IntercomControlTransmitLineState_codec : codec IntercomControlTransmitLineState := mk_codec (fun v => Ok (IntercomControlTransmitLineState_serialize_field v)) (enum_deserialize IntercomControlTransmitLineState_spec) IntercomControlTransmitLineState_field_len.
(** enums.rs:8907-8923. *)
Definition MinefieldSensorTypes_codec : codec MinefieldSensorTypes := mk_codec (fun v => Ok (MinefieldSensorTypes_serialize_field v)) (enum_deserialize MinefieldSensorTypes_spec) MinefieldSensorTypes_field_len.
(** enums.rs:9087-9103. *)
Definition AggregateStateAggregateState_codec : codec AggregateStateAggregateState := mk_codec (fun v => Ok (AggregateStateAggregateState_serialize_field v)) (enum_deserialize AggregateStateAggregateState_spec) AggregateStateAggregateState_field_len.
(** enums.rs:9124-9140. *)
Definition AggregateStateFormation_codec : codec AggregateStateFormation := mk_codec (fun v => Ok (AggregateStateFormation_serialize_field v)) (enum_deserialize AggregateStateFormation_spec) AggregateStateFormation_field_len.
(** enums.rs:9311-9327. *)
Definition IsGroupOfGroupedEntityCategory_codec : codec IsGroupOfGroupedEntityCategory := mk_codec (fun v => Ok (IsGroupOfGroupedEntityCategory_serialize_field v)) (enum_deserialize IsGroupOfGroupedEntityCategory_spec) IsGroupOfGroupedEntityCategory_field_len.
(** enums.rs:9373-9389. *)
Definition TransferControlTransferType_codec : codec TransferControlTransferType := mk_codec (fun v => Ok (TransferControlTransferType_serialize_field v)) (enum_deserialize TransferControlTransferType_spec) TransferControlTransferType_field_len.
(** enums.rs:9492-9508. *)
Definition GriddedDataCoordinateSystem_codec : codec GriddedDataCoordinateSystem := mk_codec (fun v => Ok (GriddedDataCoordinateSystem_serialize_field v)) (enum_deserialize GriddedDataCoordinateSystem_spec) GriddedDataCoordinateSystem_field_len.
(** enums.rs:9525-9541. *)
Definition GriddedDataConstantGrid_codec : codec GriddedDataConstantGrid := mk_codec (fun v => Ok (GriddedDataConstantGrid_serialize_field v)) (enum_deserialize GriddedDataConstantGrid_spec) GriddedDataConstantGrid_field_len.
(** enums.rs:9948-9964. *)
Definition IOActionIOWarfareType_codec : codec IOActionIOWarfareType := mk_codec (fun v => Ok (IOActionIOWarfareType_serialize_field v)) (enum_deserialize IOActionIOWarfareType_spec) IOActionIOWarfareType_field_len.
(** enums.rs:9980-9996. *)
Definition IOActionIOSimulationSource_codec : codec IOActionIOSimulationSource := mk_codec (fun v => Ok (IOActionIOSimulationSource_serialize_field v)) (enum_deserialize IOActionIOSimulationSource_spec) IOActionIOSimulationSource_field_len.
(** enums.rs:10016-10032. *)
Definition IOActionIOActionType_codec : codec IOActionIOActionType := mk_codec (fun v => Ok (IOActionIOActionType_serialize_field v)) (enum_deserialize IOActionIOActionType_spec) IOActionIOActionType_field_len.
(** enums.rs:10054-10070. *)
Definition IOActionIOActionPhase_codec : codec IOActionIOActionPhase := mk_codec (fun v => Ok (IOActionIOActionPhase_serialize_field v)) (enum_deserialize IOActionIOActionPhase_spec) IOActionIOActionPhase_field_len.
(** enums.rs:10089-10105. *)
Definition IOReportIOReportType_codec : codec IOReportIOReportType := mk_codec (fun v => Ok (IOReportIOReportType_serialize_field v)) (enum_deserialize IOReportIOReportType_spec) IOReportIOReportType_field_len.
(** enums.rs:10208-10224. *)
Definition DISAttributeActionCode_codec : codec DISAttributeActionCode := mk_codec (fun v => Ok (DISAttributeActionCode_serialize_field v)) (enum_deserialize DISAttributeActionCode_spec) DISAttributeActionCode_field_len.
(** enums.rs:10306-10322. *)
Definition EEAttributeStateIndicator_codec : codec EEAttributeStateIndicator := mk_codec (fun v => Ok (EEAttributeStateIndicator_serialize_field v)) (enum_deserialize EEAttributeStateIndicator_spec) EEAttributeStateIndicator_field_len.
(** enums.rs:10616-10632. *)
Definition DEFirePulseShape_codec : codec DEFirePulseShape := mk_codec (fun v => Ok (DEFirePulseShape_serialize_field v)) (enum_deserialize DEFirePulseShape_spec) DEFirePulseShape_field_len.
(** enums.rs:11136-11152. *)
Definition RecordQueryREventType_codec : codec RecordQueryREventType := mk_codec (fun v => Ok (RecordQueryREventType_serialize_field v)) (enum_deserialize RecordQueryREventType_spec) RecordQueryREventType_field_len.
(** enums.rs:11189-11205. *)
Definition MinefieldStateProtocolMode_codec : codec MinefieldStateProtocolMode := mk_codec (fun v => Ok (MinefieldStateProtocolMode_serialize_field v)) (enum_deserialize MinefieldStateProtocolMode_spec) MinefieldStateProtocolMode_field_len.

(** ** Classes *)

(** src/distributed_emissions.rs:35-51. *)
Definition ElectromagneticEmissionsPdu : pdu_class := mk_class "ElectromagneticEmissionsPdu" PduType_ElectromagneticEmission ProtocolFamily_DistributedEmissionRegeneration [
  plain "emitting_entity_id" EntityId_codec EntityId_default;
  plain "event_id" EventId_codec EventId_default;
  plain "state_update_indicator" EEAttributeStateIndicator_codec (enum_default EEAttributeStateIndicator_spec);
  u8_field "number_of_systems";
  plain "padding" u16_codec (as_uint 2 0);
  plain "systems" (vec_codec ElectromagneticEmissionSystemData_codec) []
].

(** src/distributed_emissions.rs:53-75. *)
Definition DesignatorPdu : pdu_class := mk_class "DesignatorPdu" PduType_Designator ProtocolFamily_DistributedEmissionRegeneration [
  plain "designating_entity_id" EntityId_codec EntityId_default;
  plain "code_name" DesignatorSystemName_codec (enum_default DesignatorSystemName_spec);
  plain "designated_entity_id" EntityId_codec EntityId_default;
  plain "designator_code" DesignatorCode_codec (enum_default DesignatorCode_spec);
  plain "designator_power" f32_codec (as_uint 4 0);
  plain "designator_wavelength" f32_codec (as_uint 4 0);
  plain "designator_spot_wrt_designated" EntityCoordinateVector_codec EntityCoordinateVector_default;
  plain "designator_spot_location" WorldCoordinate_codec WorldCoordinate_default;
  plain "dead_reckoning_algorithm" DeadReckoningAlgorithm_codec (enum_default DeadReckoningAlgorithm_spec);
  u8_field "padding";
  plain "padding2" u16_codec (as_uint 2 0);
  plain "entity_linear_acceleration" LinearAcceleration_codec LinearAcceleration_default
].

(** src/distributed_emissions.rs:77-99. *)
Definition UnderwaterAcousticPdu : pdu_class := mk_class "UnderwaterAcousticPdu" PduType_UnderwaterAcoustic ProtocolFamily_DistributedEmissionRegeneration [
  plain "emitting_entity_id" EntityId_codec EntityId_default;
  plain "event_id" EventId_codec EventId_default;
  plain "state_change_update_indicator" UAStateChangeUpdateIndicator_codec (enum_default UAStateChangeUpdateIndicator_spec);
  u8_field "padding";
  plain "passive_parameter_index" UAPassiveParameterIndex_codec (enum_default UAPassiveParameterIndex_spec);
  u8_field "propulsion_plant_configuration";
  u8_field "number_of_shafts";
  u8_field "number_of_apas";
  u8_field "number_of_ua_emitter_systems";
  plain "shaft_rpms" (vec_codec ShaftRPMs_codec) [];
  plain "apa_data" (vec_codec ApaData_codec) [];
  plain "emitter_systems" (vec_codec AcousticEmitterSystem_codec) []
].

(** src/distributed_emissions.rs:101-122. *)
Definition IFFPdu : pdu_class := mk_class "IFFPdu" PduType_IFF ProtocolFamily_DistributedEmissionRegeneration [
  plain "emitting_entity_id" EntityId_codec EntityId_default;
  plain "event_id" EventId_codec EventId_default;
  plain "relative_antenna_location" EntityCoordinateVector_codec EntityCoordinateVector_default;
  plain "system_id" SystemId_codec SystemId_default;
  u8_field "system_designator";
  u8_field "system_specific_data";
  plain "fundamental_operational_data" FundamentalOperationalData_codec FundamentalOperationalData_default;
  plain "layer_header" LayerHeader_codec LayerHeader_default;
  plain "beam_data" BeamData_codec BeamData_default;
  plain "secondary_operational_data" SecondaryOperationalData_codec SecondaryOperationalData_default;
  plain "iff_parameters" (vec_codec IFFFundamentalParameterData_codec) []
].

(** src/distributed_emissions.rs:124-142. *)
Definition SupplementalEmissionPdu : pdu_class := mk_class "SupplementalEmissionPdu" PduType_SupplementalEmission ProtocolFamily_DistributedEmissionRegeneration [
  plain "originating_entity_id" EntityId_codec EntityId_default;
  plain "infrared_signature_representation_index" u16_codec (as_uint 2 0);
  plain "acoustic_signature_representation_index" u16_codec (as_uint 2 0);
  plain "radar_cross_section_signature_representation_index" u16_codec (as_uint 2 0);
  plain "number_of_propulsion_systems" u16_codec (as_uint 2 0);
  plain "number_of_vectoring_nozzle_systems" u16_codec (as_uint 2 0);
  plain "propulsion_system_data" (vec_codec PropulsionSystemData_codec) [];
  plain "vectoring_nozzle_system_data" (vec_codec VectoringNozzleSystemData_codec) []
].

(** src/entity_information.rs:29-52. *)
Definition EntityStatePdu : pdu_class := mk_class "EntityStatePdu" PduType_EntityState ProtocolFamily_EntityInformation [
  plain "entity_id" EntityId_codec EntityId_default;
  plain "force_id" ForceId_codec (enum_default ForceId_spec);
  u8_field "number_of_articulation_parameters";
  plain "entity_type" EntityType_codec EntityType_default;
  plain "alternative_entity_type" EntityType_codec EntityType_default;
  plain "entity_linear_velocity" LinearVelocity_codec LinearVelocity_default;
  plain "entity_location" WorldCoordinate_codec WorldCoordinate_default;
  plain "entity_orientation" EulerAngles_codec EulerAngles_default;
  plain "entity_appearance" u32_codec (as_uint 4 0);
  plain "dead_reckoning_parameters" DeadReckoningParameters_codec DeadReckoningParameters_default;
  plain "entity_marking" EntityMarking_codec EntityMarking_default;
  plain "entity_capabilities" EntityCapabilities_codec (enum_default EntityCapabilities_spec);
  plain "articulation_parameter" (vec_codec VariableParameter_codec) []
].

(** src/entity_information.rs:54-72. *)
Definition CollisionPdu : pdu_class := mk_class "CollisionPdu" PduType_Collision ProtocolFamily_EntityInformation [
  plain "issuing_entity_id" EntityId_codec EntityId_default;
  plain "colliding_entity_id" EntityId_codec EntityId_default;
  plain "event_id" EventId_codec EventId_default;
  u8_field "collision_type";
  u8_field "padding";
  plain "velocity" LinearVelocity_codec LinearVelocity_default;
  plain "mass" f32_codec (as_uint 4 0);
  plain "location_wrt_entity" EntityCoordinateVector_codec EntityCoordinateVector_default
].

(** src/entity_information.rs:74-99. *)
Definition CollisionElasticPdu : pdu_class := mk_class "CollisionElasticPdu" PduType_CollisionElastic ProtocolFamily_EntityInformation [
  plain "issuing_entity_id" EntityId_codec EntityId_default;
  plain "colliding_entity_id" EntityId_codec EntityId_default;
  plain "event_id" EventId_codec EventId_default;
  plain "padding" u16_codec (as_uint 2 0);
  plain "contact_velocity" LinearVelocity_codec LinearVelocity_default;
  plain "mass" f32_codec (as_uint 4 0);
  plain "location_of_impact" EntityCoordinateVector_codec EntityCoordinateVector_default;
  plain "collision_intermediate_result_xx" f32_codec (as_uint 4 0);
  plain "collision_intermediate_result_xy" f32_codec (as_uint 4 0);
  plain "collision_intermediate_result_xz" f32_codec (as_uint 4 0);
  plain "collision_intermediate_result_yy" f32_codec (as_uint 4 0);
  plain "collision_intermediate_result_yz" f32_codec (as_uint 4 0);
  plain "collision_intermediate_result_zz" f32_codec (as_uint 4 0);
  plain "unit_surface_normal" EntityCoordinateVector_codec EntityCoordinateVector_default;
  plain "coefficient_of_restitution" f32_codec (as_uint 4 0)
].

(** src/entity_information.rs:101-119. *)
Definition EntityStateUpdatePdu : pdu_class := mk_class "EntityStateUpdatePdu" PduType_EntityStateUpdate ProtocolFamily_EntityInformation [
  plain "entity_id" EntityId_codec EntityId_default;
  u8_field "padding";
  u8_field "number_of_variable_parameters";
  plain "entity_linear_velocity" LinearVelocity_codec LinearVelocity_default;
  plain "entity_location" WorldCoordinate_codec WorldCoordinate_default;
  plain "entity_orientation" EulerAngles_codec EulerAngles_default;
  plain "entity_appearance" u32_codec (as_uint 4 0);
  plain "variable_parameter_records" (vec_codec VariableParameter_codec) []
].

(** src/entity_information.rs:121-141. *)
Definition AttributePdu : pdu_class := mk_class "AttributePdu" PduType_Attribute ProtocolFamily_EntityInformation [
  plain "originating_simulation_address" SimulationAddress_codec SimulationAddress_default;
  plain "padding" u32_codec (as_uint 4 0);
  plain "padding2" u16_codec (as_uint 2 0);
  u8_field "attribute_record_pdu_type";
  u8_field "attribute_record_protocol_version";
  plain "master_attribute_record_type" u32_codec (as_uint 4 0);
  plain "action_code" DISAttributeActionCode_codec (enum_default DISAttributeActionCode_spec);
  u8_field "padding3";
  plain "number_of_attribute_record_sets" u16_codec (as_uint 2 0);
  plain "attribute_record_sets" (vec_codec AttributeRecordSet_codec) []
].

(** src/entity_management.rs:30-61. *)
Definition AggregateStatePdu : pdu_class := mk_class "AggregateStatePdu" PduType_AggregateState ProtocolFamily_EntityManagement [
  plain "aggregate_id" AggregateId_codec AggregateId_default;
  plain "force_id" ForceId_codec (enum_default ForceId_spec);
  plain "aggregate_state" AggregateStateAggregateState_codec (enum_default AggregateStateAggregateState_spec);
  plain "aggregate_type" EntityType_codec EntityType_default;
  plain "formation" AggregateStateFormation_codec (enum_default AggregateStateFormation_spec);
  plain "aggregate_marking" AggregateMarking_codec AggregateMarking_default;
  plain "dimensions" Vector3Float_codec Vector3Float_default;
  plain "orientation" EulerAngles_codec EulerAngles_default;
  plain "center_of_mass" WorldCoordinate_codec WorldCoordinate_default;
  plain "velocity" LinearVelocity_codec LinearVelocity_default;
  plain "number_of_dis_aggregates" u16_codec (as_uint 2 0);
  plain "number_of_dis_entities" u16_codec (as_uint 2 0);
  plain "number_of_silent_aggregate_types" u16_codec (as_uint 2 0);
  plain "number_of_silent_entity_types" u16_codec (as_uint 2 0);
  plain "aggregate_id_list" (vec_codec AggregateId_codec) [];
  plain "entity_id_list" (vec_codec EntityId_codec) [];
  plain "padding" (vec_codec u8_codec) [];
  plain "silent_aggregate_system_list" (vec_codec EntityType_codec) [];
  plain "silent_entity_system_list" (vec_codec EntityType_codec) [];
  plain "number_of_variable_datum_records" u32_codec (as_uint 4 0);
  plain "variable_datum_list" (vec_codec VariableDatumRecord_codec) []
].

(** src/entity_management.rs:63-80. *)
Definition IsGroupOfPdu : pdu_class := mk_class "IsGroupOfPdu" PduType_IsGroupOf ProtocolFamily_EntityManagement [
  plain "group_entity_id" EntityId_codec EntityId_default;
  plain "grouped_entity_category" IsGroupOfGroupedEntityCategory_codec (enum_default IsGroupOfGroupedEntityCategory_spec);
  u8_field "number_of_grouped_entities";
  plain "padding" u32_codec (as_uint 4 0);
  plain "latitude" f64_codec (as_uint 8 0);
  plain "longitude" f64_codec (as_uint 8 0);
  plain "grouped_entity_descriptions" (vec_codec u64_codec) []
].

(** src/entity_management.rs:82-99. *)
Definition TransferOwnershipPdu (m : profile) : pdu_class := mk_class "TransferOwnershipPdu" PduType_TransferOwnership ProtocolFamily_EntityManagement [
  plain "originating_id" SimulationIdentifier_codec SimulationIdentifier_default;
  plain "receiving_id" SimulationIdentifier_codec SimulationIdentifier_default;
  plain "request_id" u32_codec (as_uint 4 0);
  plain "required_reliability_service" RequiredReliabilityService_codec (enum_default RequiredReliabilityService_spec);
  plain "transfer_type" TransferControlTransferType_codec (enum_default TransferControlTransferType_spec);
  plain "transfer_entity_id" EntityId_codec EntityId_default;
  plain "record_information" (RecordSpecification_codec m) RecordSpecification_default
].

(** src/entity_management.rs:101-117. *)
Definition IsPartOfPdu : pdu_class := mk_class "IsPartOfPdu" PduType_IsPartOf ProtocolFamily_EntityManagement [
  plain "originating_entity_id" EntityId_codec EntityId_default;
  plain "receiving_entity_id" EntityId_codec EntityId_default;
  plain "relationship" Relationship_codec Relationship_default;
  plain "part_location" Vector3Float_codec Vector3Float_default;
  plain "named_location_id" NamedLocation_codec NamedLocation_default;
  plain "part_entity_type" EntityType_codec EntityType_default
].

(** src/information_operations.rs:25-44. *)
Definition InformationOperationsReportPdu : pdu_class := mk_class "InformationOperationsReportPdu" PduType_InformationOperationsReport ProtocolFamily_InformationOperations [
  plain "originating_simulation_id" SimulationIdentifier_codec SimulationIdentifier_default;
  plain "io_simulation_source" IOActionIOSimulationSource_codec (enum_default IOActionIOSimulationSource_spec);
  plain "io_report_type" IOReportIOReportType_codec (enum_default IOReportIOReportType_spec);
  u8_field "padding";
  plain "io_attacker_entity_id" EntityId_codec EntityId_default;
  plain "primary_target_entity_id" EntityId_codec EntityId_default;
  plain "padding2" u16_codec (as_uint 2 0);
  plain "padding3" u16_codec (as_uint 2 0);
  plain "io_records" StandardVariableSpecification_codec StandardVariableSpecification_default
].

(** src/information_operations.rs:46-68. *)
Definition InformationOperationsActionPdu : pdu_class := mk_class "InformationOperationsActionPdu" PduType_InformationOperationsAction ProtocolFamily_InformationOperations [
  plain "originating_simulation_id" SimulationIdentifier_codec SimulationIdentifier_default;
  plain "receiving_simulation_id" SimulationIdentifier_codec SimulationIdentifier_default;
  plain "request_id" u32_codec (as_uint 4 0);
  plain "io_warfare_type" IOActionIOWarfareType_codec (enum_default IOActionIOWarfareType_spec);
  plain "io_simulation_source" IOActionIOSimulationSource_codec (enum_default IOActionIOSimulationSource_spec);
  plain "io_action_type" IOActionIOActionType_codec (enum_default IOActionIOActionType_spec);
  plain "io_action_phase" IOActionIOActionPhase_codec (enum_default IOActionIOActionPhase_spec);
  plain "padding" u32_codec (as_uint 4 0);
  plain "io_attacker_entity_id" EntityId_codec EntityId_default;
  plain "io_primary_target_entity_id" EntityId_codec EntityId_default;
  plain "padding2" u16_codec (as_uint 2 0);
  plain "io_records" StandardVariableSpecification_codec StandardVariableSpecification_default
].

(** src/logistics.rs:22-38. *)
Definition ServiceRequestPdu : pdu_class := mk_class "ServiceRequestPdu" PduType_ServiceRequest ProtocolFamily_Logistics [
  plain "receiving_entity_id" EntityId_codec EntityId_default;
  plain "servicing_entity_id" EntityId_codec EntityId_default;
  plain "service_type_requested" ServiceRequestServiceTypeRequested_codec (enum_default ServiceRequestServiceTypeRequested_spec);
  u8_field "number_of_supply_types";
  plain "padding" u16_codec (as_uint 2 0);
  plain "supplies" (vec_codec SupplyQuantity_codec) []
].

(** src/logistics.rs:40-56. *)
Definition ResupplyOfferPdu : pdu_class := mk_class "ResupplyOfferPdu" PduType_ResupplyOffer ProtocolFamily_Logistics [
  plain "receiving_entity_id" EntityId_codec EntityId_default;
  plain "supplying_entity_id" EntityId_codec EntityId_default;
  u8_field "number_of_supply_types";
  u8_field "padding";
  plain "padding2" u16_codec (as_uint 2 0);
  plain "supplies" (vec_codec SupplyQuantity_codec) []
].

(** src/logistics.rs:58-74. *)
Definition ResupplyReceivedPdu : pdu_class := mk_class "ResupplyReceivedPdu" PduType_ResupplyReceived ProtocolFamily_Logistics [
  plain "receiving_entity_id" EntityId_codec EntityId_default;
  plain "supplying_entity_id" EntityId_codec EntityId_default;
  u8_field "number_of_supply_types";
  u8_field "padding";
  plain "padding2" u16_codec (as_uint 2 0);
  plain "supplies" (vec_codec SupplyQuantity_codec) []
].

(** src/logistics.rs:76-88. *)
Definition ResupplyCancelPdu : pdu_class := mk_class "ResupplyCancelPdu" PduType_ResupplyCancel ProtocolFamily_Logistics [
  plain "receiving_entity_id" EntityId_codec EntityId_default;
  plain "supplying_entity_id" EntityId_codec EntityId_default
].

(** src/logistics.rs:90-104. *)
Definition RepairCompletePdu : pdu_class := mk_class "RepairCompletePdu" PduType_RepairComplete ProtocolFamily_Logistics [
  plain "receiving_entity_id" EntityId_codec EntityId_default;
  plain "repairing_entity_id" EntityId_codec EntityId_default;
  plain "repair" RepairCompleteRepair_codec (enum_default RepairCompleteRepair_spec);
  plain "padding" u16_codec (as_uint 2 0)
].

(** src/logistics.rs:106-121. *)
Definition RepairResponsePdu : pdu_class := mk_class "RepairResponsePdu" PduType_RepairResponse ProtocolFamily_Logistics [
  plain "receiving_entity_id" EntityId_codec EntityId_default;
  plain "repairing_entity_id" EntityId_codec EntityId_default;
  plain "repair_result" RepairResponseRepairResult_codec (enum_default RepairResponseRepairResult_spec);
  u8_field "padding";
  plain "padding2" u16_codec (as_uint 2 0)
].

(** src/minefield.rs:23-45. *)
Definition MinefieldStatePdu : pdu_class := mk_class "MinefieldStatePdu" PduType_MinefieldState ProtocolFamily_Minefield [
  plain "minefield_id" MinefieldIdentifier_codec MinefieldIdentifier_default;
  plain "minefield_sequence" u16_codec (as_uint 2 0);
  plain "force_id" ForceId_codec (enum_default ForceId_spec);
  u8_field "number_of_perimeter_points";
  plain "minefield_type" EntityType_codec EntityType_default;
  plain "number_of_mine_types" u16_codec (as_uint 2 0);
  plain "minefield_location" WorldCoordinate_codec WorldCoordinate_default;
  plain "minefield_orientation" EulerAngles_codec EulerAngles_default;
  plain "appearance" u16_codec (as_uint 2 0);
  plain "protocol_mode" MinefieldStateProtocolMode_codec (enum_default MinefieldStateProtocolMode_spec);
  plain "perimeter_points" (vec_codec Point_codec) [];
  plain "mine_type" (vec_codec EntityType_codec) []
].

(** src/minefield.rs:47-67. *)
Definition MinefieldQueryPdu : pdu_class := mk_class "MinefieldQueryPdu" PduType_MinefieldQuery ProtocolFamily_Minefield [
  plain "minefield_id" MinefieldIdentifier_codec MinefieldIdentifier_default;
  plain "requesting_entity_id" EntityId_codec EntityId_default;
  u8_field "request_id";
  u8_field "number_of_perimeter_points";
  u8_field "padding";
  u8_field "number_of_sensor_types";
  plain "data_filter" u32_codec (as_uint 4 0);
  plain "requested_mine_type" EntityType_codec EntityType_default;
  plain "requested_perimeter_points" (vec_codec Point_codec) [];
  plain "sensor_types" (vec_codec MinefieldSensorTypes_codec) []
].

(** src/minefield.rs:69-106. *)
Definition MinefieldDataPdu : pdu_class := mk_class "MinefieldDataPdu" PduType_MinefieldData ProtocolFamily_Minefield [
  plain "minefield_id" MinefieldIdentifier_codec MinefieldIdentifier_default;
  plain "requesting_entity_id" EntityId_codec EntityId_default;
  plain "minefield_sequence_number" u16_codec (as_uint 2 0);
  u8_field "request_id";
  u8_field "pdu_sequence_number";
  u8_field "number_of_pdus";
  u8_field "number_of_mines_in_this_pdu";
  u8_field "number_of_sensor_types";
  u8_field "padding";
  plain "data_filter" u32_codec (as_uint 4 0);
  plain "mine_type" EntityType_codec EntityType_default;
  plain "sensor_types" (vec_codec MinefieldSensorTypes_codec) [];
  plain "mine_location" (vec_codec EntityCoordinateVector_codec) [];
  plain "ground_burial_depth_offset" (vec_codec (option_codec f32_codec)) [];
  plain "water_burial_depth_offset" (vec_codec (option_codec f32_codec)) [];
  plain "snow_burial_depth_offset" (vec_codec (option_codec f32_codec)) [];
  plain "mine_orientation" (vec_codec (option_codec EulerAngles_codec)) [];
  plain "thermal_contrast" (vec_codec (option_codec f32_codec)) [];
  plain "reflectance" (vec_codec (option_codec f32_codec)) [];
  plain "mine_emplacement_time" (vec_codec (option_codec ClockTime_codec)) [];
  plain "mine_entity_id" (vec_codec (option_codec u16_codec)) [];
  plain "fusing" (vec_codec (option_codec u16_codec)) [];
  plain "scalar_detection_coefficient" (vec_codec (option_codec u8_codec)) [];
  plain "paint_scheme" (vec_codec (option_codec u8_codec)) [];
  plain "number_of_trip_wires" (vec_codec (option_codec u8_codec)) [];
  plain "number_of_vertices" (vec_codec (option_codec u8_codec)) [];
  plain "vertices" (vec_codec (option_codec (vec_codec EntityCoordinateVector_codec))) []
].

(** src/minefield.rs:108-123. *)
Definition MinefieldResponseNackPdu : pdu_class := mk_class "MinefieldResponseNackPdu" PduType_MinefieldResponseNack ProtocolFamily_Minefield [
  plain "minefield_id" EntityId_codec EntityId_default;
  plain "requesting_entity_id" EntityId_codec EntityId_default;
  u8_field "request_id";
  u8_field "number_of_missing_pdus";
  plain "missing_pdu_sequence_numbers" (vec_codec u64_codec) []
].

(** src/radio_communications.rs:32-65. *)
Definition TransmitterPdu : pdu_class := mk_class "TransmitterPdu" PduType_Transmitter ProtocolFamily_RadioCommunications [
  plain "entity_id" EntityId_codec EntityId_default;
  plain "radio_id" u16_codec (as_uint 2 0);
  plain "radio_entity_type" RadioEntityType_codec RadioEntityType_default;
  plain "transmit_state" TransmitterTransmitState_codec (enum_default TransmitterTransmitState_spec);
  plain "input_source" TransmitterInputSource_codec (enum_default TransmitterInputSource_spec);
  plain "number_of_variable_transmitter_parameters_records" u16_codec (as_uint 2 0);
  plain "antenna_location" WorldCoordinate_codec WorldCoordinate_default;
  plain "relative_antenna_location" EntityCoordinateVector_codec EntityCoordinateVector_default;
  plain "antenna_pattern_type" TransmitterAntennaPatternType_codec (enum_default TransmitterAntennaPatternType_spec);
  plain "antenna_pattern_length" u16_codec (as_uint 2 0);
  plain "frequency" u64_codec (as_uint 8 0);
  plain "transmit_frequency_bandwidth" f32_codec (as_uint 4 0);
  plain "power" f32_codec (as_uint 4 0);
  plain "modulation_type" ModulationType_codec ModulationType_default;
  plain "crypto_system" TransmitterCryptoSystem_codec (enum_default TransmitterCryptoSystem_spec);
  plain "crypto_key_id" u16_codec (as_uint 2 0);
  u8_field "modulation_parameter_length";
  u8_field "padding";
  plain "padding2" u16_codec (as_uint 2 0);
  len_field "modulation_parameters" (option_codec ModulationParameters_codec) None "modulation_parameter_length"
    (option_deserialize_with_len ModulationParameters_deserialize_with_len);
  plain "antenna_pattern" (option_codec AntennaPattern_codec) None;
  plain "variable_transmitter_parameters" (vec_codec VariableTransmitterParameters_codec) []
].

(** src/radio_communications.rs:67-85. *)
Definition SignalPdu : pdu_class := mk_class "SignalPdu" PduType_Signal ProtocolFamily_RadioCommunications [
  plain "entity_id" EntityId_codec EntityId_default;
  plain "radio_id" u16_codec (as_uint 2 0);
  plain "encoding_scheme" u16_codec (as_uint 2 0);
  plain "tdl_type" SignalTDLType_codec (enum_default SignalTDLType_spec);
  plain "sample_rate" u32_codec (as_uint 4 0);
  plain "data_length" u16_codec (as_uint 2 0);
  plain "samples" u16_codec (as_uint 2 0);
  plain "data" (vec_codec u8_codec) []
].

(** src/radio_communications.rs:87-104. *)
Definition ReceiverPdu : pdu_class := mk_class "ReceiverPdu" PduType_Receiver ProtocolFamily_RadioCommunications [
  plain "entity_id" EntityId_codec EntityId_default;
  plain "radio_id" u16_codec (as_uint 2 0);
  plain "receiver_state" ReceiverReceiverState_codec (enum_default ReceiverReceiverState_spec);
  plain "padding" u16_codec (as_uint 2 0);
  plain "received_power" f32_codec (as_uint 4 0);
  plain "transmitter_radio_reference_id" EntityId_codec EntityId_default;
  plain "transmitter_radio_id" u16_codec (as_uint 2 0)
].

(** src/radio_communications.rs:106-124. *)
Definition IntercomSignalPdu : pdu_class := mk_class "IntercomSignalPdu" PduType_IntercomSignal ProtocolFamily_RadioCommunications [
  plain "intercom_reference_id" EntityId_codec EntityId_default;
  plain "intercom_number" u16_codec (as_uint 2 0);
  plain "encoding_scheme" u16_codec (as_uint 2 0);
  plain "tdl_type" SignalTDLType_codec (enum_default SignalTDLType_spec);
  plain "sample_rate" u32_codec (as_uint 4 0);
  plain "data_length" u16_codec (as_uint 2 0);
  plain "samples" u16_codec (as_uint 2 0);
  plain "data" (vec_codec u8_codec) []
].

(** src/radio_communications.rs:126-149. *)
Definition IntercomControlPdu : pdu_class := mk_class "IntercomControlPdu" PduType_IntercomControl ProtocolFamily_RadioCommunications [
  plain "control_type" IntercomControlControlType_codec (enum_default IntercomControlControlType_spec);
  u8_field "communications_channel_type";
  plain "source_intercom_reference_id" EntityId_codec EntityId_default;
  plain "source_intercom_number" u16_codec (as_uint 2 0);
  u8_field "source_line_id";
  u8_field "transmit_priority";
  plain "transmit_line_state" IntercomControlTransmitLineState_codec (enum_default IntercomControlTransmitLineState_spec);
  plain "command" IntercomControlCommand_codec (enum_default IntercomControlCommand_spec);
  plain "master_intercom_reference_id" EntityId_codec EntityId_default;
  plain "master_intercom_number" u16_codec (as_uint 2 0);
  plain "master_channel_id" u16_codec (as_uint 2 0);
  plain "intercom_parameters_length" u32_codec (as_uint 4 0);
  plain "intercom_parameters" (vec_codec IntercomCommunicationsParameters_codec) []
].

(** src/simulation_management.rs:24-37. *)
Definition CreateEntityPdu : pdu_class := mk_class "CreateEntityPdu" PduType_CreateEntity ProtocolFamily_SimulationManagement [
  plain "originating_entity_id" EntityId_codec EntityId_default;
  plain "receiving_entity_id" EntityId_codec EntityId_default;
  plain "request_id" u32_codec (as_uint 4 0)
].

(** src/simulation_management.rs:39-52. *)
Definition RemoveEntityPdu : pdu_class := mk_class "RemoveEntityPdu" PduType_RemoveEntity ProtocolFamily_SimulationManagement [
  plain "originating_entity_id" EntityId_codec EntityId_default;
  plain "receiving_entity_id" EntityId_codec EntityId_default;
  plain "request_id" u32_codec (as_uint 4 0)
].

(** src/simulation_management.rs:54-69. *)
Definition StartResumePdu : pdu_class := mk_class "StartResumePdu" PduType_StartResume ProtocolFamily_SimulationManagement [
  plain "originating_entity_id" EntityId_codec EntityId_default;
  plain "receiving_entity_id" EntityId_codec EntityId_default;
  plain "real_world_time" ClockTime_codec ClockTime_default;
  plain "simulation_time" ClockTime_codec ClockTime_default;
  plain "request_id" u32_codec (as_uint 4 0)
].

(** src/simulation_management.rs:71-88. *)
Definition StopFreezePdu : pdu_class := mk_class "StopFreezePdu" PduType_StopFreeze ProtocolFamily_SimulationManagement [
  plain "originating_entity_id" EntityId_codec EntityId_default;
  plain "receiving_entity_id" EntityId_codec EntityId_default;
  plain "real_world_time" ClockTime_codec ClockTime_default;
  plain "reason" Reason_codec (enum_default Reason_spec);
  plain "frozen_behavior" FrozenBehavior_codec FrozenBehavior_default;
  plain "padding" u16_codec (as_uint 2 0);
  plain "request_id" u32_codec (as_uint 4 0)
].

(** src/simulation_management.rs:90-105. *)
Definition AcknowledgePdu : pdu_class := mk_class "AcknowledgePdu" PduType_Acknowledge ProtocolFamily_SimulationManagement [
  plain "originating_entity_id" EntityId_codec EntityId_default;
  plain "receiving_entity_id" EntityId_codec EntityId_default;
  plain "acknowledge_flag" AcknowledgeFlag_codec (enum_default AcknowledgeFlag_spec);
  plain "response_flag" AcknowledgeResponseFlag_codec (enum_default AcknowledgeResponseFlag_spec);
  plain "request_id" u32_codec (as_uint 4 0)
].

(** src/simulation_management.rs:107-125. *)
Definition ActionRequestPdu : pdu_class := mk_class "ActionRequestPdu" PduType_ActionRequest ProtocolFamily_SimulationManagement [
  plain "originating_entity_id" EntityId_codec EntityId_default;
  plain "receiving_entity_id" EntityId_codec EntityId_default;
  plain "request_id" u32_codec (as_uint 4 0);
  plain "action_id" u32_codec (as_uint 4 0);
  plain "number_of_fixed_datum_records" u32_codec (as_uint 4 0);
  plain "number_of_variable_datum_records" u32_codec (as_uint 4 0);
  plain "fixed_datum_records" (vec_codec FixedDatumRecord_codec) [];
  plain "variable_datum_records" (vec_codec VariableDatumRecord_codec) []
].

(** src/simulation_management.rs:127-145. *)
Definition ActionResponsePdu : pdu_class := mk_class "ActionResponsePdu" PduType_ActionResponse ProtocolFamily_SimulationManagement [
  plain "originating_entity_id" EntityId_codec EntityId_default;
  plain "receiving_entity_id" EntityId_codec EntityId_default;
  plain "request_id" u32_codec (as_uint 4 0);
  plain "request_status" ActionResponseRequestStatus_codec (enum_default ActionResponseRequestStatus_spec);
  plain "number_of_fixed_datum_records" u32_codec (as_uint 4 0);
  plain "number_of_variable_datum_records" u32_codec (as_uint 4 0);
  plain "fixed_datum_records" (vec_codec FixedDatumRecord_codec) [];
  plain "variable_datum_records" (vec_codec VariableDatumRecord_codec) []
].

(** src/simulation_management.rs:147-165. *)
Definition DataQueryPdu : pdu_class := mk_class "DataQueryPdu" PduType_DataQuery ProtocolFamily_SimulationManagement [
  plain "originating_entity_id" EntityId_codec EntityId_default;
  plain "receiving_entity_id" EntityId_codec EntityId_default;
  plain "request_id" u32_codec (as_uint 4 0);
  plain "time_interval" u32_codec (as_uint 4 0);
  plain "number_of_fixed_datum_records" u32_codec (as_uint 4 0);
  plain "number_of_variable_datum_records" u32_codec (as_uint 4 0);
  plain "fixed_datum_records" (vec_codec FixedDatumRecord_codec) [];
  plain "variable_datum_records" (vec_codec VariableDatumRecord_codec) []
].

(** src/simulation_management.rs:167-185. *)
Definition SetDataPdu : pdu_class := mk_class "SetDataPdu" PduType_SetData ProtocolFamily_SimulationManagement [
  plain "originating_entity_id" EntityId_codec EntityId_default;
  plain "receiving_entity_id" EntityId_codec EntityId_default;
  plain "request_id" u32_codec (as_uint 4 0);
  plain "padding" u32_codec (as_uint 4 0);
  plain "number_of_fixed_datum_records" u32_codec (as_uint 4 0);
  plain "number_of_variable_datum_records" u32_codec (as_uint 4 0);
  plain "fixed_datum_records" (vec_codec FixedDatumRecord_codec) [];
  plain "variable_datum_records" (vec_codec VariableDatumRecord_codec) []
].

(** src/simulation_management.rs:187-205. *)
Definition DataPdu : pdu_class := mk_class "DataPdu" PduType_Data ProtocolFamily_SimulationManagement [
  plain "originating_entity_id" EntityId_codec EntityId_default;
  plain "receiving_entity_id" EntityId_codec EntityId_default;
  plain "request_id" u32_codec (as_uint 4 0);
  plain "padding" u32_codec (as_uint 4 0);
  plain "number_of_fixed_datum_records" u32_codec (as_uint 4 0);
  plain "number_of_variable_datum_records" u32_codec (as_uint 4 0);
  plain "fixed_datum_records" (vec_codec FixedDatumRecord_codec) [];
  plain "variable_datum_records" (vec_codec VariableDatumRecord_codec) []
].

(** src/simulation_management.rs:207-225. *)
Definition EventReportPdu : pdu_class := mk_class "EventReportPdu" PduType_EventReport ProtocolFamily_SimulationManagement [
  plain "originating_entity_id" EntityId_codec EntityId_default;
  plain "receiving_entity_id" EntityId_codec EntityId_default;
  plain "event_type" EventType_codec (enum_default EventType_spec);
  plain "padding" u32_codec (as_uint 4 0);
  plain "number_of_fixed_datum_records" u32_codec (as_uint 4 0);
  plain "number_of_variable_datum_records" u32_codec (as_uint 4 0);
  plain "fixed_datum_records" (vec_codec FixedDatumRecord_codec) [];
  plain "variable_datum_records" (vec_codec VariableDatumRecord_codec) []
].

(** src/simulation_management.rs:227-243. *)
Definition CommentPdu : pdu_class := mk_class "CommentPdu" PduType_Comment ProtocolFamily_SimulationManagement [
  plain "originating_entity_id" EntityId_codec EntityId_default;
  plain "receiving_entity_id" EntityId_codec EntityId_default;
  plain "number_of_fixed_datum_records" u32_codec (as_uint 4 0);
  plain "number_of_variable_datum_records" u32_codec (as_uint 4 0);
  plain "fixed_datum_records" (vec_codec FixedDatumRecord_codec) [];
  plain "variable_datum_records" (vec_codec VariableDatumRecord_codec) []
].

(** src/simulation_management_with_reliability.rs:29-45. *)
Definition CreateEntityReliablePdu : pdu_class := mk_class "CreateEntityReliablePdu" PduType_CreateEntityReliable ProtocolFamily_SimulationManagementWithReliability [
  plain "originating_entity_id" EntityId_codec EntityId_default;
  plain "receiving_entity_id" EntityId_codec EntityId_default;
  plain "required_reliability_service" RequiredReliabilityService_codec (enum_default RequiredReliabilityService_spec);
  u8_field "padding";
  plain "padding2" u16_codec (as_uint 2 0);
  plain "request_id" u32_codec (as_uint 4 0)
].

(** src/simulation_management_with_reliability.rs:47-63. *)
Definition RemoveEntityReliablePdu : pdu_class := mk_class "RemoveEntityReliablePdu" PduType_RemoveEntityReliable ProtocolFamily_SimulationManagementWithReliability [
  plain "originating_entity_id" EntityId_codec EntityId_default;
  plain "receiving_entity_id" EntityId_codec EntityId_default;
  plain "required_reliability_service" RequiredReliabilityService_codec (enum_default RequiredReliabilityService_spec);
  u8_field "padding";
  plain "padding2" u16_codec (as_uint 2 0);
  plain "request_id" u32_codec (as_uint 4 0)
].

(** src/simulation_management_with_reliability.rs:65-83. *)
Definition StartResumeReliablePdu : pdu_class := mk_class "StartResumeReliablePdu" PduType_StartResumeReliable ProtocolFamily_SimulationManagementWithReliability [
  plain "originating_entity_id" EntityId_codec EntityId_default;
  plain "receiving_entity_id" EntityId_codec EntityId_default;
  plain "real_world_time" ClockTime_codec ClockTime_default;
  plain "simulation_time" ClockTime_codec ClockTime_default;
  plain "required_reliability_service" RequiredReliabilityService_codec (enum_default RequiredReliabilityService_spec);
  u8_field "padding";
  plain "padding2" u16_codec (as_uint 2 0);
  plain "request_id" u32_codec (as_uint 4 0)
].

(** src/simulation_management_with_reliability.rs:85-103. *)
Definition StopFreezeReliablePdu : pdu_class := mk_class "StopFreezeReliablePdu" PduType_StopFreezeReliable ProtocolFamily_SimulationManagementWithReliability [
  plain "originating_entity_id" EntityId_codec EntityId_default;
  plain "receiving_entity_id" EntityId_codec EntityId_default;
  plain "real_world_time" ClockTime_codec ClockTime_default;
  plain "reason" Reason_codec (enum_default Reason_spec);
  plain "frozen_behavior" FrozenBehavior_codec FrozenBehavior_default;
  u8_field "required_reliability_service";
  u8_field "padding";
  plain "request_id" u32_codec (as_uint 4 0)
].

(** src/simulation_management_with_reliability.rs:105-120. *)
Definition AcknowledgeReliablePdu : pdu_class := mk_class "AcknowledgeReliablePdu" PduType_AcknowledgeReliable ProtocolFamily_SimulationManagementWithReliability [
  plain "originating_entity_id" EntityId_codec EntityId_default;
  plain "receiving_entity_id" EntityId_codec EntityId_default;
  plain "acknowledge_flag" AcknowledgeFlag_codec (enum_default AcknowledgeFlag_spec);
  plain "response_flag" AcknowledgeResponseFlag_codec (enum_default AcknowledgeResponseFlag_spec);
  plain "request_id" u32_codec (as_uint 4 0)
].

(** src/simulation_management_with_reliability.rs:122-144. *)
Definition ActionRequestReliablePdu : pdu_class := mk_class "ActionRequestReliablePdu" PduType_ActionRequestReliable ProtocolFamily_SimulationManagementWithReliability [
  plain "originating_entity_id" EntityId_codec EntityId_default;
  plain "receiving_entity_id" EntityId_codec EntityId_default;
  plain "required_reliability_service" RequiredReliabilityService_codec (enum_default RequiredReliabilityService_spec);
  u8_field "padding";
  plain "padding2" u16_codec (as_uint 2 0);
  plain "request_id" u32_codec (as_uint 4 0);
  plain "action_id" u32_codec (as_uint 4 0);
  plain "padding3" u32_codec (as_uint 4 0);
  plain "number_of_fixed_datum_records" u32_codec (as_uint 4 0);
  plain "number_of_variable_datum_records" u32_codec (as_uint 4 0);
  plain "fixed_datum_records" (vec_codec FixedDatumRecord_codec) [];
  plain "variable_datum_records" (vec_codec VariableDatumRecord_codec) []
].

(** src/simulation_management_with_reliability.rs:146-164. *)
Definition ActionResponseReliablePdu : pdu_class := mk_class "ActionResponseReliablePdu" PduType_ActionResponseReliable ProtocolFamily_SimulationManagementWithReliability [
  plain "originating_entity_id" EntityId_codec EntityId_default;
  plain "receiving_entity_id" EntityId_codec EntityId_default;
  plain "request_id" u32_codec (as_uint 4 0);
  plain "request_status" ActionResponseRequestStatus_codec (enum_default ActionResponseRequestStatus_spec);
  plain "number_of_fixed_datum_records" u32_codec (as_uint 4 0);
  plain "number_of_variable_datum_records" u32_codec (as_uint 4 0);
  plain "fixed_datum_records" (vec_codec FixedDatumRecord_codec) [];
  plain "variable_datum_records" (vec_codec VariableDatumRecord_codec) []
].

(** src/simulation_management_with_reliability.rs:166-187. *)
Definition DataQueryReliablePdu : pdu_class := mk_class "DataQueryReliablePdu" PduType_DataQueryReliable ProtocolFamily_SimulationManagementWithReliability [
  plain "originating_entity_id" EntityId_codec EntityId_default;
  plain "receiving_entity_id" EntityId_codec EntityId_default;
  plain "required_reliability_service" RequiredReliabilityService_codec (enum_default RequiredReliabilityService_spec);
  u8_field "padding";
  plain "padding2" u16_codec (as_uint 2 0);
  plain "request_id" u32_codec (as_uint 4 0);
  plain "time_interval" u32_codec (as_uint 4 0);
  plain "number_of_fixed_datum_records" u32_codec (as_uint 4 0);
  plain "number_of_variable_datum_records" u32_codec (as_uint 4 0);
  plain "fixed_datum_ids" (vec_codec VariableRecordTypes_codec) [];
  plain "variable_datum_ids" (vec_codec VariableRecordTypes_codec) []
].

(** src/simulation_management_with_reliability.rs:189-209. *)
Definition SetDataReliablePdu : pdu_class := mk_class "SetDataReliablePdu" PduType_SetDataReliable ProtocolFamily_SimulationManagementWithReliability [
  plain "originating_entity_id" EntityId_codec EntityId_default;
  plain "receiving_entity_id" EntityId_codec EntityId_default;
  plain "required_reliability_service" RequiredReliabilityService_codec (enum_default RequiredReliabilityService_spec);
  u8_field "padding";
  plain "padding2" u16_codec (as_uint 2 0);
  plain "request_id" u32_codec (as_uint 4 0);
  plain "number_of_fixed_datum_records" u32_codec (as_uint 4 0);
  plain "number_of_variable_datum_records" u32_codec (as_uint 4 0);
  plain "fixed_datum_records" (vec_codec FixedDatumRecord_codec) [];
  plain "variable_datum_records" (vec_codec VariableDatumRecord_codec) []
].

(** src/simulation_management_with_reliability.rs:211-231. *)
Definition DataReliablePdu : pdu_class := mk_class "DataReliablePdu" PduType_DataReliable ProtocolFamily_SimulationManagementWithReliability [
  plain "originating_entity_id" EntityId_codec EntityId_default;
  plain "receiving_entity_id" EntityId_codec EntityId_default;
  plain "request_id" u32_codec (as_uint 4 0);
  plain "required_reliability_service" RequiredReliabilityService_codec (enum_default RequiredReliabilityService_spec);
  u8_field "padding";
  plain "padding2" u16_codec (as_uint 2 0);
  plain "number_of_fixed_datum_records" u32_codec (as_uint 4 0);
  plain "number_of_variable_datum_records" u32_codec (as_uint 4 0);
  plain "fixed_datum_records" (vec_codec FixedDatumRecord_codec) [];
  plain "variable_datum_records" (vec_codec VariableDatumRecord_codec) []
].

(** src/simulation_management_with_reliability.rs:233-251. *)
Definition EventReportReliablePdu : pdu_class := mk_class "EventReportReliablePdu" PduType_EventReportReliable ProtocolFamily_SimulationManagementWithReliability [
  plain "originating_entity_id" EntityId_codec EntityId_default;
  plain "receiving_entity_id" EntityId_codec EntityId_default;
  plain "event_type" EventType_codec (enum_default EventType_spec);
  plain "padding" u32_codec (as_uint 4 0);
  plain "number_of_fixed_datum_records" u32_codec (as_uint 4 0);
  plain "number_of_variable_datum_records" u32_codec (as_uint 4 0);
  plain "fixed_datum_records" (vec_codec FixedDatumRecord_codec) [];
  plain "variable_datum_records" (vec_codec VariableDatumRecord_codec) []
].

(** src/simulation_management_with_reliability.rs:253-269. *)
Definition CommentReliablePdu : pdu_class := mk_class "CommentReliablePdu" PduType_CommentReliable ProtocolFamily_SimulationManagementWithReliability [
  plain "originating_entity_id" EntityId_codec EntityId_default;
  plain "receiving_entity_id" EntityId_codec EntityId_default;
  plain "number_of_fixed_datum_records" u32_codec (as_uint 4 0);
  plain "number_of_variable_datum_records" u32_codec (as_uint 4 0);
  plain "fixed_datum_records" (vec_codec FixedDatumRecord_codec) [];
  plain "variable_datum_records" (vec_codec VariableDatumRecord_codec) []
].

(** src/simulation_management_with_reliability.rs:271-290. *)
Definition RecordQueryReliablePdu : pdu_class := mk_class "RecordQueryReliablePdu" PduType_RecordQueryReliable ProtocolFamily_SimulationManagementWithReliability [
  plain "originating_entity_id" EntityId_codec EntityId_default;
  plain "receiving_entity_id" EntityId_codec EntityId_default;
  plain "request_id" u32_codec (as_uint 4 0);
  plain "required_reliability_service" RequiredReliabilityService_codec (enum_default RequiredReliabilityService_spec);
  u8_field "padding";
  plain "event_type" RecordQueryREventType_codec (enum_default RecordQueryREventType_spec);
  plain "time" u32_codec (as_uint 4 0);
  plain "number_of_records" u32_codec (as_uint 4 0);
  plain "record_ids" (vec_codec u32_codec) []
].

(** src/simulation_management_with_reliability.rs:292-310. *)
Definition SetRecordReliablePdu (m : profile) : pdu_class := mk_class "SetRecordReliablePdu" PduType_SetRecordReliable ProtocolFamily_SimulationManagementWithReliability [
  plain "originating_entity_id" EntityId_codec EntityId_default;
  plain "receiving_entity_id" EntityId_codec EntityId_default;
  plain "request_id" u32_codec (as_uint 4 0);
  plain "required_reliability_service" RequiredReliabilityService_codec (enum_default RequiredReliabilityService_spec);
  u8_field "padding";
  plain "padding2" u16_codec (as_uint 2 0);
  plain "padding3" u32_codec (as_uint 4 0);
  plain "record_sets" (RecordSpecification_codec m) RecordSpecification_default
].

(** src/synthetic_environment.rs:29-46. *)
Definition EnvironmentalProcessPdu : pdu_class := mk_class "EnvironmentalProcessPdu" PduType_EnvironmentalProcess ProtocolFamily_SyntheticEnvironment [
  plain "environmental_process_id" EntityId_codec EntityId_default;
  plain "environment_type" EntityType_codec EntityType_default;
  u8_field "model_type";
  u8_field "environment_status";
  plain "number_of_environment_records" u16_codec (as_uint 2 0);
  plain "sequence_number" u16_codec (as_uint 2 0);
  plain "environment_records" (vec_codec Environment_codec) []
].

(** src/synthetic_environment.rs:48-74. *)
Definition GriddedDataPdu : pdu_class := mk_class "GriddedDataPdu" PduType_GriddedData ProtocolFamily_SyntheticEnvironment [
  plain "environmental_simulation_id" EntityId_codec EntityId_default;
  plain "field_number" u16_codec (as_uint 2 0);
  plain "pdu_number" u16_codec (as_uint 2 0);
  plain "pdu_total" u16_codec (as_uint 2 0);
  plain "coordinate_system" GriddedDataCoordinateSystem_codec (enum_default GriddedDataCoordinateSystem_spec);
  u8_field "number_of_grid_axes";
  plain "constant_grid" GriddedDataConstantGrid_codec (enum_default GriddedDataConstantGrid_spec);
  plain "environment_type" EntityType_codec EntityType_default;
  plain "orientation" EulerAngles_codec EulerAngles_default;
  plain "sample_time" ClockTime_codec ClockTime_default;
  plain "total_values" u32_codec (as_uint 4 0);
  u8_field "vector_dimension";
  u8_field "padding";
  plain "padding2" u16_codec (as_uint 2 0);
  plain "grid_axis_descriptors" (vec_codec GridAxisDescriptor_codec) [];
  plain "grid_data_list" (vec_codec GridDataRecord_codec) []
].

(** src/synthetic_environment.rs:76-100. *)
Definition PointObjectStatePdu : pdu_class := mk_class "PointObjectStatePdu" PduType_PointObjectState ProtocolFamily_SyntheticEnvironment [
  plain "object_id" EntityId_codec EntityId_default;
  plain "referenced_object_id" EntityId_codec EntityId_default;
  plain "update_number" u16_codec (as_uint 2 0);
  plain "force_id" ForceId_codec (enum_default ForceId_spec);
  u8_field "modifications";
  plain "object_type" ObjectType_codec ObjectType_default;
  plain "object_location" WorldCoordinate_codec WorldCoordinate_default;
  plain "object_orientation" EulerAngles_codec EulerAngles_default;
  plain "specific_object_appearance" u32_codec (as_uint 4 0);
  plain "general_object_appearance" u16_codec (as_uint 2 0);
  plain "padding" u16_codec (as_uint 2 0);
  plain "requester_id" SimulationAddress_codec SimulationAddress_default;
  plain "receiving_id" SimulationAddress_codec SimulationAddress_default;
  plain "padding2" u32_codec (as_uint 4 0)
].

(** src/synthetic_environment.rs:102-121. *)
Definition LinearObjectStatePdu : pdu_class := mk_class "LinearObjectStatePdu" PduType_LinearObjectState ProtocolFamily_SyntheticEnvironment [
  plain "object_id" ObjectIdentifier_codec ObjectIdentifier_default;
  plain "referenced_object_id" ObjectIdentifier_codec ObjectIdentifier_default;
  plain "update_number" u16_codec (as_uint 2 0);
  plain "force_id" ForceId_codec (enum_default ForceId_spec);
  u8_field "number_of_segments";
  plain "requester_id" SimulationAddress_codec SimulationAddress_default;
  plain "receiving_id" SimulationAddress_codec SimulationAddress_default;
  plain "object_type" ObjectType_codec ObjectType_default;
  plain "linear_segment_parameters" (vec_codec LinearSegmentParameter_codec) []
].

(** src/synthetic_environment.rs:123-145. *)
Definition ArealObjectStatePdu : pdu_class := mk_class "ArealObjectStatePdu" PduType_ArealObjectState ProtocolFamily_SyntheticEnvironment [
  plain "object_id" ObjectIdentifier_codec ObjectIdentifier_default;
  plain "referenced_object_id" ObjectIdentifier_codec ObjectIdentifier_default;
  plain "update_number" u16_codec (as_uint 2 0);
  plain "force_id" ForceId_codec (enum_default ForceId_spec);
  u8_field "modifications";
  plain "object_type" ObjectType_codec ObjectType_default;
  plain "specific_object_appearance" u32_codec (as_uint 4 0);
  plain "general_object_appearance" ObjectStateAppearanceGeneral_codec ObjectStateAppearanceGeneral_default;
  plain "number_of_points" u16_codec (as_uint 2 0);
  plain "requester_id" SimulationAddress_codec SimulationAddress_default;
  plain "receiving_id" SimulationAddress_codec SimulationAddress_default;
  plain "object_location" (vec_codec WorldCoordinate_codec) []
].

(** src/warfare.rs:23-42. *)
Definition FirePdu : pdu_class := mk_class "FirePdu" PduType_Fire ProtocolFamily_Warfare [
  plain "firing_entity_id" EntityId_codec EntityId_default;
  plain "target_entity_id" EntityId_codec EntityId_default;
  plain "munition_expendable_id" EntityId_codec EntityId_default;
  plain "event_id" EventId_codec EventId_default;
  plain "fire_mission_index" u32_codec (as_uint 4 0);
  plain "location_in_world_coordinates" WorldCoordinate_codec WorldCoordinate_default;
  plain "descriptor" MunitionDescriptor_codec MunitionDescriptor_default;
  plain "velocity" LinearVelocity_codec LinearVelocity_default;
  plain "range" f32_codec (as_uint 4 0)
].

(** src/warfare.rs:44-66. *)
Definition DetonationPdu : pdu_class := mk_class "DetonationPdu" PduType_Detonation ProtocolFamily_Warfare [
  plain "firing_entity_id" EntityId_codec EntityId_default;
  plain "target_entity_id" EntityId_codec EntityId_default;
  plain "exploding_entity_id" EntityId_codec EntityId_default;
  plain "event_id" EventId_codec EventId_default;
  plain "velocity" LinearVelocity_codec LinearVelocity_default;
  plain "location_in_world_coordinates" WorldCoordinate_codec WorldCoordinate_default;
  plain "descriptor" MunitionDescriptor_codec MunitionDescriptor_default;
  plain "location_in_entitys_coordinates" EntityCoordinateVector_codec EntityCoordinateVector_default;
  plain "detonation_result" DetonationResult_codec (enum_default DetonationResult_spec);
  u8_field "number_of_variable_parameters";
  plain "padding" u16_codec (as_uint 2 0);
  plain "variable_parameters" (vec_codec VariableParameter_codec) []
].

(** src/warfare.rs:68-96. *)
Definition DirectedEnergyFirePdu : pdu_class := mk_class "DirectedEnergyFirePdu" PduType_DirectedEnergyFire ProtocolFamily_Warfare [
  plain "firing_entity_id" EntityId_codec EntityId_default;
  plain "event_id" EventId_codec EventId_default;
  plain "munition_type" EntityType_codec EntityType_default;
  plain "shot_start_time" ClockTime_codec ClockTime_default;
  plain "cumulative_shot_time" f32_codec (as_uint 4 0);
  plain "aperture_emitter_location" EntityCoordinateVector_codec EntityCoordinateVector_default;
  plain "aperture_diameter" f32_codec (as_uint 4 0);
  plain "wavelength" f32_codec (as_uint 4 0);
  plain "padding" u32_codec (as_uint 4 0);
  plain "pulse_repetition_frequency" f32_codec (as_uint 4 0);
  plain "pulse_width" f32_codec (as_uint 4 0);
  plain "flags" u16_codec (as_uint 2 0);
  plain "pulse_shape" DEFirePulseShape_codec (enum_default DEFirePulseShape_spec);
  u8_field "padding2";
  plain "padding3" u32_codec (as_uint 4 0);
  plain "padding4" u16_codec (as_uint 2 0);
  plain "number_of_de_records" u16_codec (as_uint 2 0);
  plain "damage_descriptions" (vec_codec DirectedEnergyDamage_codec) []
].

(** src/warfare.rs:98-113. *)
Definition EntityDamageStatusPdu : pdu_class := mk_class "EntityDamageStatusPdu" PduType_EntityDamageStatus ProtocolFamily_Warfare [
  plain "damaged_entity_id" EntityId_codec EntityId_default;
  plain "padding" u16_codec (as_uint 2 0);
  plain "padding2" u16_codec (as_uint 2 0);
  plain "number_of_damage_descriptions" u16_codec (as_uint 2 0);
  plain "damage_descriptions" (vec_codec DirectedEnergyDamage_codec) []
].

(** All 66 classes. *)
Definition all_pdus (m : profile) : list pdu_class := [
  ElectromagneticEmissionsPdu;
  DesignatorPdu;
  UnderwaterAcousticPdu;
  IFFPdu;
  SupplementalEmissionPdu;
  EntityStatePdu;
  CollisionPdu;
  CollisionElasticPdu;
  EntityStateUpdatePdu;
  AttributePdu;
  AggregateStatePdu;
  IsGroupOfPdu;
  TransferOwnershipPdu m;
  IsPartOfPdu;
  InformationOperationsReportPdu;
  InformationOperationsActionPdu;
  ServiceRequestPdu;
  ResupplyOfferPdu;
  ResupplyReceivedPdu;
  ResupplyCancelPdu;
  RepairCompletePdu;
  RepairResponsePdu;
  MinefieldStatePdu;
  MinefieldQueryPdu;
  MinefieldDataPdu;
  MinefieldResponseNackPdu;
  TransmitterPdu;
  SignalPdu;
  ReceiverPdu;
  IntercomSignalPdu;
  IntercomControlPdu;
  CreateEntityPdu;
  RemoveEntityPdu;
  StartResumePdu;
  StopFreezePdu;
  AcknowledgePdu;
  ActionRequestPdu;
  ActionResponsePdu;
  DataQueryPdu;
  SetDataPdu;
  DataPdu;
  EventReportPdu;
  CommentPdu;
  CreateEntityReliablePdu;
  RemoveEntityReliablePdu;
  StartResumeReliablePdu;
  StopFreezeReliablePdu;
  AcknowledgeReliablePdu;
  ActionRequestReliablePdu;
  ActionResponseReliablePdu;
  DataQueryReliablePdu;
  SetDataReliablePdu;
  DataReliablePdu;
  EventReportReliablePdu;
  CommentReliablePdu;
  RecordQueryReliablePdu;
  SetRecordReliablePdu m;
  EnvironmentalProcessPdu;
  GriddedDataPdu;
  PointObjectStatePdu;
  LinearObjectStatePdu;
  ArealObjectStatePdu;
  FirePdu;
  DetonationPdu;
  DirectedEnergyFirePdu;
  EntityDamageStatusPdu
].
