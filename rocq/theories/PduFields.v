(** * The public fields [p.field] of the structs generated by [define_pdu!]
    (pdu_macro.rs:231-237). Generated by tools/gen_pfields.py; the field list of each
    class is at the lines cited for it in [Pdus.v]. *)
From Verif Require Import Base EnumModel Enums Header PduMacro DataTypes Bitflags Pdus.

(** src/distributed_emissions.rs:35-51. *)
Definition ElectromagneticEmissionsPdu_emitting_entity_id (p : pdu ElectromagneticEmissionsPdu) : EntityId := fst (body p).
Definition ElectromagneticEmissionsPdu_event_id (p : pdu ElectromagneticEmissionsPdu) : EventId := fst (snd (body p)).
Definition ElectromagneticEmissionsPdu_state_update_indicator (p : pdu ElectromagneticEmissionsPdu) : EEAttributeStateIndicator := fst (snd (snd (body p))).
Definition ElectromagneticEmissionsPdu_number_of_systems (p : pdu ElectromagneticEmissionsPdu) : u8 := fst (snd (snd (snd (body p)))).
Definition ElectromagneticEmissionsPdu_padding (p : pdu ElectromagneticEmissionsPdu) : u16 := fst (snd (snd (snd (snd (body p))))).
Definition ElectromagneticEmissionsPdu_systems (p : pdu ElectromagneticEmissionsPdu) : (list ElectromagneticEmissionSystemData) := fst (snd (snd (snd (snd (snd (body p)))))).

(** src/distributed_emissions.rs:53-75. *)
Definition DesignatorPdu_designating_entity_id (p : pdu DesignatorPdu) : EntityId := fst (body p).
Definition DesignatorPdu_code_name (p : pdu DesignatorPdu) : DesignatorSystemName := fst (snd (body p)).
Definition DesignatorPdu_designated_entity_id (p : pdu DesignatorPdu) : EntityId := fst (snd (snd (body p))).
Definition DesignatorPdu_designator_code (p : pdu DesignatorPdu) : DesignatorCode := fst (snd (snd (snd (body p)))).
Definition DesignatorPdu_designator_power (p : pdu DesignatorPdu) : f32 := fst (snd (snd (snd (snd (body p))))).
Definition DesignatorPdu_designator_wavelength (p : pdu DesignatorPdu) : f32 := fst (snd (snd (snd (snd (snd (body p)))))).
Definition DesignatorPdu_designator_spot_wrt_designated (p : pdu DesignatorPdu) : EntityCoordinateVector := fst (snd (snd (snd (snd (snd (snd (body p))))))).
Definition DesignatorPdu_designator_spot_location (p : pdu DesignatorPdu) : WorldCoordinate := fst (snd (snd (snd (snd (snd (snd (snd (body p)))))))).
Definition DesignatorPdu_dead_reckoning_algorithm (p : pdu DesignatorPdu) : DeadReckoningAlgorithm := fst (snd (snd (snd (snd (snd (snd (snd (snd (body p))))))))).
Definition DesignatorPdu_padding (p : pdu DesignatorPdu) : u8 := fst (snd (snd (snd (snd (snd (snd (snd (snd (snd (body p)))))))))).
Definition DesignatorPdu_padding2 (p : pdu DesignatorPdu) : u16 := fst (snd (snd (snd (snd (snd (snd (snd (snd (snd (snd (body p))))))))))).
Definition DesignatorPdu_entity_linear_acceleration (p : pdu DesignatorPdu) : LinearAcceleration := fst (snd (snd (snd (snd (snd (snd (snd (snd (snd (snd (snd (body p)))))))))))).

(** src/distributed_emissions.rs:77-99. *)
Definition UnderwaterAcousticPdu_emitting_entity_id (p : pdu UnderwaterAcousticPdu) : EntityId := fst (body p).
Definition UnderwaterAcousticPdu_event_id (p : pdu UnderwaterAcousticPdu) : EventId := fst (snd (body p)).
Definition UnderwaterAcousticPdu_state_change_update_indicator (p : pdu UnderwaterAcousticPdu) : UAStateChangeUpdateIndicator := fst (snd (snd (body p))).
Definition UnderwaterAcousticPdu_padding (p : pdu UnderwaterAcousticPdu) : u8 := fst (snd (snd (snd (body p)))).
Definition UnderwaterAcousticPdu_passive_parameter_index (p : pdu UnderwaterAcousticPdu) : UAPassiveParameterIndex := fst (snd (snd (snd (snd (body p))))).
Definition UnderwaterAcousticPdu_propulsion_plant_configuration (p : pdu UnderwaterAcousticPdu) : u8 := fst (snd (snd (snd (snd (snd (body p)))))).
Definition UnderwaterAcousticPdu_number_of_shafts (p : pdu UnderwaterAcousticPdu) : u8 := fst (snd (snd (snd (snd (snd (snd (body p))))))).
Definition UnderwaterAcousticPdu_number_of_apas (p : pdu UnderwaterAcousticPdu) : u8 := fst (snd (snd (snd (snd (snd (snd (snd (body p)))))))).
Definition UnderwaterAcousticPdu_number_of_ua_emitter_systems (p : pdu UnderwaterAcousticPdu) : u8 := fst (snd (snd (snd (snd (snd (snd (snd (snd (body p))))))))).
Definition UnderwaterAcousticPdu_shaft_rpms (p : pdu UnderwaterAcousticPdu) : (list ShaftRPMs) := fst (snd (snd (snd (snd (snd (snd (snd (snd (snd (body p)))))))))).
Definition UnderwaterAcousticPdu_apa_data (p : pdu UnderwaterAcousticPdu) : (list ApaData) := fst (snd (snd (snd (snd (snd (snd (snd (snd (snd (snd (body p))))))))))).
Definition UnderwaterAcousticPdu_emitter_systems (p : pdu UnderwaterAcousticPdu) : (list AcousticEmitterSystem) := fst (snd (snd (snd (snd (snd (snd (snd (snd (snd (snd (snd (body p)))))))))))).

(** src/distributed_emissions.rs:101-122. *)
Definition IFFPdu_emitting_entity_id (p : pdu IFFPdu) : EntityId := fst (body p).
Definition IFFPdu_event_id (p : pdu IFFPdu) : EventId := fst (snd (body p)).
Definition IFFPdu_relative_antenna_location (p : pdu IFFPdu) : EntityCoordinateVector := fst (snd (snd (body p))).
Definition IFFPdu_system_id (p : pdu IFFPdu) : SystemId := fst (snd (snd (snd (body p)))).
Definition IFFPdu_system_designator (p : pdu IFFPdu) : u8 := fst (snd (snd (snd (snd (body p))))).
Definition IFFPdu_system_specific_data (p : pdu IFFPdu) : u8 := fst (snd (snd (snd (snd (snd (body p)))))).
Definition IFFPdu_fundamental_operational_data (p : pdu IFFPdu) : FundamentalOperationalData := fst (snd (snd (snd (snd (snd (snd (body p))))))).
Definition IFFPdu_layer_header (p : pdu IFFPdu) : LayerHeader := fst (snd (snd (snd (snd (snd (snd (snd (body p)))))))).
Definition IFFPdu_beam_data (p : pdu IFFPdu) : BeamData := fst (snd (snd (snd (snd (snd (snd (snd (snd (body p))))))))).
Definition IFFPdu_secondary_operational_data (p : pdu IFFPdu) : SecondaryOperationalData := fst (snd (snd (snd (snd (snd (snd (snd (snd (snd (body p)))))))))).
Definition IFFPdu_iff_parameters (p : pdu IFFPdu) : (list IFFFundamentalParameterData) := fst (snd (snd (snd (snd (snd (snd (snd (snd (snd (snd (body p))))))))))).

(** src/distributed_emissions.rs:124-142. *)
Definition SupplementalEmissionPdu_originating_entity_id (p : pdu SupplementalEmissionPdu) : EntityId := fst (body p).
Definition SupplementalEmissionPdu_infrared_signature_representation_index (p : pdu SupplementalEmissionPdu) : u16 := fst (snd (body p)).
Definition SupplementalEmissionPdu_acoustic_signature_representation_index (p : pdu SupplementalEmissionPdu) : u16 := fst (snd (snd (body p))).
Definition SupplementalEmissionPdu_radar_cross_section_signature_representation_index (p : pdu SupplementalEmissionPdu) : u16 := fst (snd (snd (snd (body p)))).
Definition SupplementalEmissionPdu_number_of_propulsion_systems (p : pdu SupplementalEmissionPdu) : u16 := fst (snd (snd (snd (snd (body p))))).
Definition SupplementalEmissionPdu_number_of_vectoring_nozzle_systems (p : pdu SupplementalEmissionPdu) : u16 := fst (snd (snd (snd (snd (snd (body p)))))).
Definition SupplementalEmissionPdu_propulsion_system_data (p : pdu SupplementalEmissionPdu) : (list PropulsionSystemData) := fst (snd (snd (snd (snd (snd (snd (body p))))))).
Definition SupplementalEmissionPdu_vectoring_nozzle_system_data (p : pdu SupplementalEmissionPdu) : (list VectoringNozzleSystemData) := fst (snd (snd (snd (snd (snd (snd (snd (body p)))))))).

(** src/entity_information.rs:29-52. *)
Definition EntityStatePdu_entity_id (p : pdu EntityStatePdu) : EntityId := fst (body p).
Definition EntityStatePdu_force_id (p : pdu EntityStatePdu) : ForceId := fst (snd (body p)).
Definition EntityStatePdu_number_of_articulation_parameters (p : pdu EntityStatePdu) : u8 := fst (snd (snd (body p))).
Definition EntityStatePdu_entity_type (p : pdu EntityStatePdu) : EntityType := fst (snd (snd (snd (body p)))).
Definition EntityStatePdu_alternative_entity_type (p : pdu EntityStatePdu) : EntityType := fst (snd (snd (snd (snd (body p))))).
Definition EntityStatePdu_entity_linear_velocity (p : pdu EntityStatePdu) : LinearVelocity := fst (snd (snd (snd (snd (snd (body p)))))).
Definition EntityStatePdu_entity_location (p : pdu EntityStatePdu) : WorldCoordinate := fst (snd (snd (snd (snd (snd (snd (body p))))))).
Definition EntityStatePdu_entity_orientation (p : pdu EntityStatePdu) : EulerAngles := fst (snd (snd (snd (snd (snd (snd (snd (body p)))))))).
Definition EntityStatePdu_entity_appearance (p : pdu EntityStatePdu) : u32 := fst (snd (snd (snd (snd (snd (snd (snd (snd (body p))))))))).
Definition EntityStatePdu_dead_reckoning_parameters (p : pdu EntityStatePdu) : DeadReckoningParameters := fst (snd (snd (snd (snd (snd (snd (snd (snd (snd (body p)))))))))).
Definition EntityStatePdu_entity_marking (p : pdu EntityStatePdu) : EntityMarking := fst (snd (snd (snd (snd (snd (snd (snd (snd (snd (snd (body p))))))))))).
Definition EntityStatePdu_entity_capabilities (p : pdu EntityStatePdu) : EntityCapabilities := fst (snd (snd (snd (snd (snd (snd (snd (snd (snd (snd (snd (body p)))))))))))).
Definition EntityStatePdu_articulation_parameter (p : pdu EntityStatePdu) : (list VariableParameter) := fst (snd (snd (snd (snd (snd (snd (snd (snd (snd (snd (snd (snd (body p))))))))))))).

(** src/entity_information.rs:54-72. *)
Definition CollisionPdu_issuing_entity_id (p : pdu CollisionPdu) : EntityId := fst (body p).
Definition CollisionPdu_colliding_entity_id (p : pdu CollisionPdu) : EntityId := fst (snd (body p)).
Definition CollisionPdu_event_id (p : pdu CollisionPdu) : EventId := fst (snd (snd (body p))).
Definition CollisionPdu_collision_type (p : pdu CollisionPdu) : u8 := fst (snd (snd (snd (body p)))).
Definition CollisionPdu_padding (p : pdu CollisionPdu) : u8 := fst (snd (snd (snd (snd (body p))))).
Definition CollisionPdu_velocity (p : pdu CollisionPdu) : LinearVelocity := fst (snd (snd (snd (snd (snd (body p)))))).
Definition CollisionPdu_mass (p : pdu CollisionPdu) : f32 := fst (snd (snd (snd (snd (snd (snd (body p))))))).
Definition CollisionPdu_location_wrt_entity (p : pdu CollisionPdu) : EntityCoordinateVector := fst (snd (snd (snd (snd (snd (snd (snd (body p)))))))).

(** src/entity_information.rs:74-99. *)
Definition CollisionElasticPdu_issuing_entity_id (p : pdu CollisionElasticPdu) : EntityId := fst (body p).
Definition CollisionElasticPdu_colliding_entity_id (p : pdu CollisionElasticPdu) : EntityId := fst (snd (body p)).
Definition CollisionElasticPdu_event_id (p : pdu CollisionElasticPdu) : EventId := fst (snd (snd (body p))).
Definition CollisionElasticPdu_padding (p : pdu CollisionElasticPdu) : u16 := fst (snd (snd (snd (body p)))).
Definition CollisionElasticPdu_contact_velocity (p : pdu CollisionElasticPdu) : LinearVelocity := fst (snd (snd (snd (snd (body p))))).
Definition CollisionElasticPdu_mass (p : pdu CollisionElasticPdu) : f32 := fst (snd (snd (snd (snd (snd (body p)))))).
Definition CollisionElasticPdu_location_of_impact (p : pdu CollisionElasticPdu) : EntityCoordinateVector := fst (snd (snd (snd (snd (snd (snd (body p))))))).
Definition CollisionElasticPdu_collision_intermediate_result_xx (p : pdu CollisionElasticPdu) : f32 := fst (snd (snd (snd (snd (snd (snd (snd (body p)))))))).
Definition CollisionElasticPdu_collision_intermediate_result_xy (p : pdu CollisionElasticPdu) : f32 := fst (snd (snd (snd (snd (snd (snd (snd (snd (body p))))))))).
Definition CollisionElasticPdu_collision_intermediate_result_xz (p : pdu CollisionElasticPdu) : f32 := fst (snd (snd (snd (snd (snd (snd (snd (snd (snd (body p)))))))))).
Definition CollisionElasticPdu_collision_intermediate_result_yy (p : pdu CollisionElasticPdu) : f32 := fst (snd (snd (snd (snd (snd (snd (snd (snd (snd (snd (body p))))))))))).
Definition CollisionElasticPdu_collision_intermediate_result_yz (p : pdu CollisionElasticPdu) : f32 := fst (snd (snd (snd (snd (snd (snd (snd (snd (snd (snd (snd (body p)))))))))))).
Definition CollisionElasticPdu_collision_intermediate_result_zz (p : pdu CollisionElasticPdu) : f32 := fst (snd (snd (snd (snd (snd (snd (snd (snd (snd (snd (snd (snd (body p))))))))))))).
Definition CollisionElasticPdu_unit_surface_normal (p : pdu CollisionElasticPdu) : EntityCoordinateVector := fst (snd (snd (snd (snd (snd (snd (snd (snd (snd (snd (snd (snd (snd (body p)))))))))))))).
Definition CollisionElasticPdu_coefficient_of_restitution (p : pdu CollisionElasticPdu) : f32 := fst (snd (snd (snd (snd (snd (snd (snd (snd (snd (snd (snd (snd (snd (snd (body p))))))))))))))).

(** src/entity_information.rs:101-119. *)
Definition EntityStateUpdatePdu_entity_id (p : pdu EntityStateUpdatePdu) : EntityId := fst (body p).
Definition EntityStateUpdatePdu_padding (p : pdu EntityStateUpdatePdu) : u8 := fst (snd (body p)).
Definition EntityStateUpdatePdu_number_of_variable_parameters (p : pdu EntityStateUpdatePdu) : u8 := fst (snd (snd (body p))).
Definition EntityStateUpdatePdu_entity_linear_velocity (p : pdu EntityStateUpdatePdu) : LinearVelocity := fst (snd (snd (snd (body p)))).
Definition EntityStateUpdatePdu_entity_location (p : pdu EntityStateUpdatePdu) : WorldCoordinate := fst (snd (snd (snd (snd (body p))))).
Definition EntityStateUpdatePdu_entity_orientation (p : pdu EntityStateUpdatePdu) : EulerAngles := fst (snd (snd (snd (snd (snd (body p)))))).
Definition EntityStateUpdatePdu_entity_appearance (p : pdu EntityStateUpdatePdu) : u32 := fst (snd (snd (snd (snd (snd (snd (body p))))))).
Definition EntityStateUpdatePdu_variable_parameter_records (p : pdu EntityStateUpdatePdu) : (list VariableParameter) := fst (snd (snd (snd (snd (snd (snd (snd (body p)))))))).

(** src/entity_information.rs:121-141. *)
Definition AttributePdu_originating_simulation_address (p : pdu AttributePdu) : SimulationAddress := fst (body p).
Definition AttributePdu_padding (p : pdu AttributePdu) : u32 := fst (snd (body p)).
Definition AttributePdu_padding2 (p : pdu AttributePdu) : u16 := fst (snd (snd (body p))).
Definition AttributePdu_attribute_record_pdu_type (p : pdu AttributePdu) : u8 := fst (snd (snd (snd (body p)))).
Definition AttributePdu_attribute_record_protocol_version (p : pdu AttributePdu) : u8 := fst (snd (snd (snd (snd (body p))))).
Definition AttributePdu_master_attribute_record_type (p : pdu AttributePdu) : u32 := fst (snd (snd (snd (snd (snd (body p)))))).
Definition AttributePdu_action_code (p : pdu AttributePdu) : DISAttributeActionCode := fst (snd (snd (snd (snd (snd (snd (body p))))))).
Definition AttributePdu_padding3 (p : pdu AttributePdu) : u8 := fst (snd (snd (snd (snd (snd (snd (snd (body p)))))))).
Definition AttributePdu_number_of_attribute_record_sets (p : pdu AttributePdu) : u16 := fst (snd (snd (snd (snd (snd (snd (snd (snd (body p))))))))).
Definition AttributePdu_attribute_record_sets (p : pdu AttributePdu) : (list AttributeRecordSet) := fst (snd (snd (snd (snd (snd (snd (snd (snd (snd (body p)))))))))).

(** src/entity_management.rs:30-61. *)
Definition AggregateStatePdu_aggregate_id (p : pdu AggregateStatePdu) : AggregateId := fst (body p).
Definition AggregateStatePdu_force_id (p : pdu AggregateStatePdu) : ForceId := fst (snd (body p)).
Definition AggregateStatePdu_aggregate_state (p : pdu AggregateStatePdu) : AggregateStateAggregateState := fst (snd (snd (body p))).
Definition AggregateStatePdu_aggregate_type (p : pdu AggregateStatePdu) : EntityType := fst (snd (snd (snd (body p)))).
Definition AggregateStatePdu_formation (p : pdu AggregateStatePdu) : AggregateStateFormation := fst (snd (snd (snd (snd (body p))))).
Definition AggregateStatePdu_aggregate_marking (p : pdu AggregateStatePdu) : AggregateMarking := fst (snd (snd (snd (snd (snd (body p)))))).
Definition AggregateStatePdu_dimensions (p : pdu AggregateStatePdu) : Vector3Float := fst (snd (snd (snd (snd (snd (snd (body p))))))).
Definition AggregateStatePdu_orientation (p : pdu AggregateStatePdu) : EulerAngles := fst (snd (snd (snd (snd (snd (snd (snd (body p)))))))).
Definition AggregateStatePdu_center_of_mass (p : pdu AggregateStatePdu) : WorldCoordinate := fst (snd (snd (snd (snd (snd (snd (snd (snd (body p))))))))).
Definition AggregateStatePdu_velocity (p : pdu AggregateStatePdu) : LinearVelocity := fst (snd (snd (snd (snd (snd (snd (snd (snd (snd (body p)))))))))).
Definition AggregateStatePdu_number_of_dis_aggregates (p : pdu AggregateStatePdu) : u16 := fst (snd (snd (snd (snd (snd (snd (snd (snd (snd (snd (body p))))))))))).
Definition AggregateStatePdu_number_of_dis_entities (p : pdu AggregateStatePdu) : u16 := fst (snd (snd (snd (snd (snd (snd (snd (snd (snd (snd (snd (body p)))))))))))).
Definition AggregateStatePdu_number_of_silent_aggregate_types (p : pdu AggregateStatePdu) : u16 := fst (snd (snd (snd (snd (snd (snd (snd (snd (snd (snd (snd (snd (body p))))))))))))).
Definition AggregateStatePdu_number_of_silent_entity_types (p : pdu AggregateStatePdu) : u16 := fst (snd (snd (snd (snd (snd (snd (snd (snd (snd (snd (snd (snd (snd (body p)))))))))))))).
Definition AggregateStatePdu_aggregate_id_list (p : pdu AggregateStatePdu) : (list AggregateId) := fst (snd (snd (snd (snd (snd (snd (snd (snd (snd (snd (snd (snd (snd (snd (body p))))))))))))))).
Definition AggregateStatePdu_entity_id_list (p : pdu AggregateStatePdu) : (list EntityId) := fst (snd (snd (snd (snd (snd (snd (snd (snd (snd (snd (snd (snd (snd (snd (snd (body p)))))))))))))))).
Definition AggregateStatePdu_padding (p : pdu AggregateStatePdu) : (list u8) := fst (snd (snd (snd (snd (snd (snd (snd (snd (snd (snd (snd (snd (snd (snd (snd (snd (body p))))))))))))))))).
Definition AggregateStatePdu_silent_aggregate_system_list (p : pdu AggregateStatePdu) : (list EntityType) := fst (snd (snd (snd (snd (snd (snd (snd (snd (snd (snd (snd (snd (snd (snd (snd (snd (snd (body p)))))))))))))))))).
Definition AggregateStatePdu_silent_entity_system_list (p : pdu AggregateStatePdu) : (list EntityType) := fst (snd (snd (snd (snd (snd (snd (snd (snd (snd (snd (snd (snd (snd (snd (snd (snd (snd (snd (body p))))))))))))))))))).
Definition AggregateStatePdu_number_of_variable_datum_records (p : pdu AggregateStatePdu) : u32 := fst (snd (snd (snd (snd (snd (snd (snd (snd (snd (snd (snd (snd (snd (snd (snd (snd (snd (snd (snd (body p)))))))))))))))))))).
Definition AggregateStatePdu_variable_datum_list (p : pdu AggregateStatePdu) : (list VariableDatumRecord) := fst (snd (snd (snd (snd (snd (snd (snd (snd (snd (snd (snd (snd (snd (snd (snd (snd (snd (snd (snd (snd (body p))))))))))))))))))))).

(** src/entity_management.rs:63-80. *)
Definition IsGroupOfPdu_group_entity_id (p : pdu IsGroupOfPdu) : EntityId := fst (body p).
Definition IsGroupOfPdu_grouped_entity_category (p : pdu IsGroupOfPdu) : IsGroupOfGroupedEntityCategory := fst (snd (body p)).
Definition IsGroupOfPdu_number_of_grouped_entities (p : pdu IsGroupOfPdu) : u8 := fst (snd (snd (body p))).
Definition IsGroupOfPdu_padding (p : pdu IsGroupOfPdu) : u32 := fst (snd (snd (snd (body p)))).
Definition IsGroupOfPdu_latitude (p : pdu IsGroupOfPdu) : f64 := fst (snd (snd (snd (snd (body p))))).
Definition IsGroupOfPdu_longitude (p : pdu IsGroupOfPdu) : f64 := fst (snd (snd (snd (snd (snd (body p)))))).
Definition IsGroupOfPdu_grouped_entity_descriptions (p : pdu IsGroupOfPdu) : (list u64) := fst (snd (snd (snd (snd (snd (snd (body p))))))).

(** src/entity_management.rs:82-99. *)
Definition TransferOwnershipPdu_originating_id {m} (p : pdu (TransferOwnershipPdu m)) : SimulationIdentifier := fst (body p).
Definition TransferOwnershipPdu_receiving_id {m} (p : pdu (TransferOwnershipPdu m)) : SimulationIdentifier := fst (snd (body p)).
Definition TransferOwnershipPdu_request_id {m} (p : pdu (TransferOwnershipPdu m)) : u32 := fst (snd (snd (body p))).
Definition TransferOwnershipPdu_required_reliability_service {m} (p : pdu (TransferOwnershipPdu m)) : RequiredReliabilityService := fst (snd (snd (snd (body p)))).
Definition TransferOwnershipPdu_transfer_type {m} (p : pdu (TransferOwnershipPdu m)) : TransferControlTransferType := fst (snd (snd (snd (snd (body p))))).
Definition TransferOwnershipPdu_transfer_entity_id {m} (p : pdu (TransferOwnershipPdu m)) : EntityId := fst (snd (snd (snd (snd (snd (body p)))))).
Definition TransferOwnershipPdu_record_information {m} (p : pdu (TransferOwnershipPdu m)) : RecordSpecification := fst (snd (snd (snd (snd (snd (snd (body p))))))).

(** src/entity_management.rs:101-117. *)
Definition IsPartOfPdu_originating_entity_id (p : pdu IsPartOfPdu) : EntityId := fst (body p).
Definition IsPartOfPdu_receiving_entity_id (p : pdu IsPartOfPdu) : EntityId := fst (snd (body p)).
Definition IsPartOfPdu_relationship (p : pdu IsPartOfPdu) : Relationship := fst (snd (snd (body p))).
Definition IsPartOfPdu_part_location (p : pdu IsPartOfPdu) : Vector3Float := fst (snd (snd (snd (body p)))).
Definition IsPartOfPdu_named_location_id (p : pdu IsPartOfPdu) : NamedLocation := fst (snd (snd (snd (snd (body p))))).
Definition IsPartOfPdu_part_entity_type (p : pdu IsPartOfPdu) : EntityType := fst (snd (snd (snd (snd (snd (body p)))))).

(** src/information_operations.rs:25-44. *)
Definition InformationOperationsReportPdu_originating_simulation_id (p : pdu InformationOperationsReportPdu) : SimulationIdentifier := fst (body p).
Definition InformationOperationsReportPdu_io_simulation_source (p : pdu InformationOperationsReportPdu) : IOActionIOSimulationSource := fst (snd (body p)).
Definition InformationOperationsReportPdu_io_report_type (p : pdu InformationOperationsReportPdu) : IOReportIOReportType := fst (snd (snd (body p))).
Definition InformationOperationsReportPdu_padding (p : pdu InformationOperationsReportPdu) : u8 := fst (snd (snd (snd (body p)))).
Definition InformationOperationsReportPdu_io_attacker_entity_id (p : pdu InformationOperationsReportPdu) : EntityId := fst (snd (snd (snd (snd (body p))))).
Definition InformationOperationsReportPdu_primary_target_entity_id (p : pdu InformationOperationsReportPdu) : EntityId := fst (snd (snd (snd (snd (snd (body p)))))).
Definition InformationOperationsReportPdu_padding2 (p : pdu InformationOperationsReportPdu) : u16 := fst (snd (snd (snd (snd (snd (snd (body p))))))).
Definition InformationOperationsReportPdu_padding3 (p : pdu InformationOperationsReportPdu) : u16 := fst (snd (snd (snd (snd (snd (snd (snd (body p)))))))).
Definition InformationOperationsReportPdu_io_records (p : pdu InformationOperationsReportPdu) : StandardVariableSpecification := fst (snd (snd (snd (snd (snd (snd (snd (snd (body p))))))))).

(** src/information_operations.rs:46-68. *)
Definition InformationOperationsActionPdu_originating_simulation_id (p : pdu InformationOperationsActionPdu) : SimulationIdentifier := fst (body p).
Definition InformationOperationsActionPdu_receiving_simulation_id (p : pdu InformationOperationsActionPdu) : SimulationIdentifier := fst (snd (body p)).
Definition InformationOperationsActionPdu_request_id (p : pdu InformationOperationsActionPdu) : u32 := fst (snd (snd (body p))).
Definition InformationOperationsActionPdu_io_warfare_type (p : pdu InformationOperationsActionPdu) : IOActionIOWarfareType := fst (snd (snd (snd (body p)))).
Definition InformationOperationsActionPdu_io_simulation_source (p : pdu InformationOperationsActionPdu) : IOActionIOSimulationSource := fst (snd (snd (snd (snd (body p))))).
Definition InformationOperationsActionPdu_io_action_type (p : pdu InformationOperationsActionPdu) : IOActionIOActionType := fst (snd (snd (snd (snd (snd (body p)))))).
Definition InformationOperationsActionPdu_io_action_phase (p : pdu InformationOperationsActionPdu) : IOActionIOActionPhase := fst (snd (snd (snd (snd (snd (snd (body p))))))).
Definition InformationOperationsActionPdu_padding (p : pdu InformationOperationsActionPdu) : u32 := fst (snd (snd (snd (snd (snd (snd (snd (body p)))))))).
Definition InformationOperationsActionPdu_io_attacker_entity_id (p : pdu InformationOperationsActionPdu) : EntityId := fst (snd (snd (snd (snd (snd (snd (snd (snd (body p))))))))).
Definition InformationOperationsActionPdu_io_primary_target_entity_id (p : pdu InformationOperationsActionPdu) : EntityId := fst (snd (snd (snd (snd (snd (snd (snd (snd (snd (body p)))))))))).
Definition InformationOperationsActionPdu_padding2 (p : pdu InformationOperationsActionPdu) : u16 := fst (snd (snd (snd (snd (snd (snd (snd (snd (snd (snd (body p))))))))))).
Definition InformationOperationsActionPdu_io_records (p : pdu InformationOperationsActionPdu) : StandardVariableSpecification := fst (snd (snd (snd (snd (snd (snd (snd (snd (snd (snd (snd (body p)))))))))))).

(** src/logistics.rs:22-38. *)
Definition ServiceRequestPdu_receiving_entity_id (p : pdu ServiceRequestPdu) : EntityId := fst (body p).
Definition ServiceRequestPdu_servicing_entity_id (p : pdu ServiceRequestPdu) : EntityId := fst (snd (body p)).
Definition ServiceRequestPdu_service_type_requested (p : pdu ServiceRequestPdu) : ServiceRequestServiceTypeRequested := fst (snd (snd (body p))).
Definition ServiceRequestPdu_number_of_supply_types (p : pdu ServiceRequestPdu) : u8 := fst (snd (snd (snd (body p)))).
Definition ServiceRequestPdu_padding (p : pdu ServiceRequestPdu) : u16 := fst (snd (snd (snd (snd (body p))))).
Definition ServiceRequestPdu_supplies (p : pdu ServiceRequestPdu) : (list SupplyQuantity) := fst (snd (snd (snd (snd (snd (body p)))))).

(** src/logistics.rs:40-56. *)
Definition ResupplyOfferPdu_receiving_entity_id (p : pdu ResupplyOfferPdu) : EntityId := fst (body p).
Definition ResupplyOfferPdu_supplying_entity_id (p : pdu ResupplyOfferPdu) : EntityId := fst (snd (body p)).
Definition ResupplyOfferPdu_number_of_supply_types (p : pdu ResupplyOfferPdu) : u8 := fst (snd (snd (body p))).
Definition ResupplyOfferPdu_padding (p : pdu ResupplyOfferPdu) : u8 := fst (snd (snd (snd (body p)))).
Definition ResupplyOfferPdu_padding2 (p : pdu ResupplyOfferPdu) : u16 := fst (snd (snd (snd (snd (body p))))).
Definition ResupplyOfferPdu_supplies (p : pdu ResupplyOfferPdu) : (list SupplyQuantity) := fst (snd (snd (snd (snd (snd (body p)))))).

(** src/logistics.rs:58-74. *)
Definition ResupplyReceivedPdu_receiving_entity_id (p : pdu ResupplyReceivedPdu) : EntityId := fst (body p).
Definition ResupplyReceivedPdu_supplying_entity_id (p : pdu ResupplyReceivedPdu) : EntityId := fst (snd (body p)).
Definition ResupplyReceivedPdu_number_of_supply_types (p : pdu ResupplyReceivedPdu) : u8 := fst (snd (snd (body p))).
Definition ResupplyReceivedPdu_padding (p : pdu ResupplyReceivedPdu) : u8 := fst (snd (snd (snd (body p)))).
Definition ResupplyReceivedPdu_padding2 (p : pdu ResupplyReceivedPdu) : u16 := fst (snd (snd (snd (snd (body p))))).
Definition ResupplyReceivedPdu_supplies (p : pdu ResupplyReceivedPdu) : (list SupplyQuantity) := fst (snd (snd (snd (snd (snd (body p)))))).

(** src/logistics.rs:76-88. *)
Definition ResupplyCancelPdu_receiving_entity_id (p : pdu ResupplyCancelPdu) : EntityId := fst (body p).
Definition ResupplyCancelPdu_supplying_entity_id (p : pdu ResupplyCancelPdu) : EntityId := fst (snd (body p)).

(** src/logistics.rs:90-104. *)
Definition RepairCompletePdu_receiving_entity_id (p : pdu RepairCompletePdu) : EntityId := fst (body p).
Definition RepairCompletePdu_repairing_entity_id (p : pdu RepairCompletePdu) : EntityId := fst (snd (body p)).
Definition RepairCompletePdu_repair (p : pdu RepairCompletePdu) : RepairCompleteRepair := fst (snd (snd (body p))).
Definition RepairCompletePdu_padding (p : pdu RepairCompletePdu) : u16 := fst (snd (snd (snd (body p)))).

(** src/logistics.rs:106-121. *)
Definition RepairResponsePdu_receiving_entity_id (p : pdu RepairResponsePdu) : EntityId := fst (body p).
Definition RepairResponsePdu_repairing_entity_id (p : pdu RepairResponsePdu) : EntityId := fst (snd (body p)).
Definition RepairResponsePdu_repair_result (p : pdu RepairResponsePdu) : RepairResponseRepairResult := fst (snd (snd (body p))).
Definition RepairResponsePdu_padding (p : pdu RepairResponsePdu) : u8 := fst (snd (snd (snd (body p)))).
Definition RepairResponsePdu_padding2 (p : pdu RepairResponsePdu) : u16 := fst (snd (snd (snd (snd (body p))))).

(** src/minefield.rs:23-45. *)
Definition MinefieldStatePdu_minefield_id (p : pdu MinefieldStatePdu) : MinefieldIdentifier := fst (body p).
Definition MinefieldStatePdu_minefield_sequence (p : pdu MinefieldStatePdu) : u16 := fst (snd (body p)).
Definition MinefieldStatePdu_force_id (p : pdu MinefieldStatePdu) : ForceId := fst (snd (snd (body p))).
Definition MinefieldStatePdu_number_of_perimeter_points (p : pdu MinefieldStatePdu) : u8 := fst (snd (snd (snd (body p)))).
Definition MinefieldStatePdu_minefield_type (p : pdu MinefieldStatePdu) : EntityType := fst (snd (snd (snd (snd (body p))))).
Definition MinefieldStatePdu_number_of_mine_types (p : pdu MinefieldStatePdu) : u16 := fst (snd (snd (snd (snd (snd (body p)))))).
Definition MinefieldStatePdu_minefield_location (p : pdu MinefieldStatePdu) : WorldCoordinate := fst (snd (snd (snd (snd (snd (snd (body p))))))).
Definition MinefieldStatePdu_minefield_orientation (p : pdu MinefieldStatePdu) : EulerAngles := fst (snd (snd (snd (snd (snd (snd (snd (body p)))))))).
Definition MinefieldStatePdu_appearance (p : pdu MinefieldStatePdu) : u16 := fst (snd (snd (snd (snd (snd (snd (snd (snd (body p))))))))).
Definition MinefieldStatePdu_protocol_mode (p : pdu MinefieldStatePdu) : MinefieldStateProtocolMode := fst (snd (snd (snd (snd (snd (snd (snd (snd (snd (body p)))))))))).
Definition MinefieldStatePdu_perimeter_points (p : pdu MinefieldStatePdu) : (list Point) := fst (snd (snd (snd (snd (snd (snd (snd (snd (snd (snd (body p))))))))))).
Definition MinefieldStatePdu_mine_type (p : pdu MinefieldStatePdu) : (list EntityType) := fst (snd (snd (snd (snd (snd (snd (snd (snd (snd (snd (snd (body p)))))))))))).

(** src/minefield.rs:47-67. *)
Definition MinefieldQueryPdu_minefield_id (p : pdu MinefieldQueryPdu) : MinefieldIdentifier := fst (body p).
Definition MinefieldQueryPdu_requesting_entity_id (p : pdu MinefieldQueryPdu) : EntityId := fst (snd (body p)).
Definition MinefieldQueryPdu_request_id (p : pdu MinefieldQueryPdu) : u8 := fst (snd (snd (body p))).
Definition MinefieldQueryPdu_number_of_perimeter_points (p : pdu MinefieldQueryPdu) : u8 := fst (snd (snd (snd (body p)))).
Definition MinefieldQueryPdu_padding (p : pdu MinefieldQueryPdu) : u8 := fst (snd (snd (snd (snd (body p))))).
Definition MinefieldQueryPdu_number_of_sensor_types (p : pdu MinefieldQueryPdu) : u8 := fst (snd (snd (snd (snd (snd (body p)))))).
Definition MinefieldQueryPdu_data_filter (p : pdu MinefieldQueryPdu) : u32 := fst (snd (snd (snd (snd (snd (snd (body p))))))).
Definition MinefieldQueryPdu_requested_mine_type (p : pdu MinefieldQueryPdu) : EntityType := fst (snd (snd (snd (snd (snd (snd (snd (body p)))))))).
Definition MinefieldQueryPdu_requested_perimeter_points (p : pdu MinefieldQueryPdu) : (list Point) := fst (snd (snd (snd (snd (snd (snd (snd (snd (body p))))))))).
Definition MinefieldQueryPdu_sensor_types (p : pdu MinefieldQueryPdu) : (list MinefieldSensorTypes) := fst (snd (snd (snd (snd (snd (snd (snd (snd (snd (body p)))))))))).

(** src/minefield.rs:69-106. *)
Definition MinefieldDataPdu_minefield_id (p : pdu MinefieldDataPdu) : MinefieldIdentifier := fst (body p).
Definition MinefieldDataPdu_requesting_entity_id (p : pdu MinefieldDataPdu) : EntityId := fst (snd (body p)).
Definition MinefieldDataPdu_minefield_sequence_number (p : pdu MinefieldDataPdu) : u16 := fst (snd (snd (body p))).
Definition MinefieldDataPdu_request_id (p : pdu MinefieldDataPdu) : u8 := fst (snd (snd (snd (body p)))).
Definition MinefieldDataPdu_pdu_sequence_number (p : pdu MinefieldDataPdu) : u8 := fst (snd (snd (snd (snd (body p))))).
Definition MinefieldDataPdu_number_of_pdus (p : pdu MinefieldDataPdu) : u8 := fst (snd (snd (snd (snd (snd (body p)))))).
Definition MinefieldDataPdu_number_of_mines_in_this_pdu (p : pdu MinefieldDataPdu) : u8 := fst (snd (snd (snd (snd (snd (snd (body p))))))).
Definition MinefieldDataPdu_number_of_sensor_types (p : pdu MinefieldDataPdu) : u8 := fst (snd (snd (snd (snd (snd (snd (snd (body p)))))))).
Definition MinefieldDataPdu_padding (p : pdu MinefieldDataPdu) : u8 := fst (snd (snd (snd (snd (snd (snd (snd (snd (body p))))))))).
Definition MinefieldDataPdu_data_filter (p : pdu MinefieldDataPdu) : u32 := fst (snd (snd (snd (snd (snd (snd (snd (snd (snd (body p)))))))))).
Definition MinefieldDataPdu_mine_type (p : pdu MinefieldDataPdu) : EntityType := fst (snd (snd (snd (snd (snd (snd (snd (snd (snd (snd (body p))))))))))).
Definition MinefieldDataPdu_sensor_types (p : pdu MinefieldDataPdu) : (list MinefieldSensorTypes) := fst (snd (snd (snd (snd (snd (snd (snd (snd (snd (snd (snd (body p)))))))))))).
Definition MinefieldDataPdu_mine_location (p : pdu MinefieldDataPdu) : (list EntityCoordinateVector) := fst (snd (snd (snd (snd (snd (snd (snd (snd (snd (snd (snd (snd (body p))))))))))))).
Definition MinefieldDataPdu_ground_burial_depth_offset (p : pdu MinefieldDataPdu) : (list (option f32)) := fst (snd (snd (snd (snd (snd (snd (snd (snd (snd (snd (snd (snd (snd (body p)))))))))))))).
Definition MinefieldDataPdu_water_burial_depth_offset (p : pdu MinefieldDataPdu) : (list (option f32)) := fst (snd (snd (snd (snd (snd (snd (snd (snd (snd (snd (snd (snd (snd (snd (body p))))))))))))))).
Definition MinefieldDataPdu_snow_burial_depth_offset (p : pdu MinefieldDataPdu) : (list (option f32)) := fst (snd (snd (snd (snd (snd (snd (snd (snd (snd (snd (snd (snd (snd (snd (snd (body p)))))))))))))))).
Definition MinefieldDataPdu_mine_orientation (p : pdu MinefieldDataPdu) : (list (option EulerAngles)) := fst (snd (snd (snd (snd (snd (snd (snd (snd (snd (snd (snd (snd (snd (snd (snd (snd (body p))))))))))))))))).
Definition MinefieldDataPdu_thermal_contrast (p : pdu MinefieldDataPdu) : (list (option f32)) := fst (snd (snd (snd (snd (snd (snd (snd (snd (snd (snd (snd (snd (snd (snd (snd (snd (snd (body p)))))))))))))))))).
Definition MinefieldDataPdu_reflectance (p : pdu MinefieldDataPdu) : (list (option f32)) := fst (snd (snd (snd (snd (snd (snd (snd (snd (snd (snd (snd (snd (snd (snd (snd (snd (snd (snd (body p))))))))))))))))))).
Definition MinefieldDataPdu_mine_emplacement_time (p : pdu MinefieldDataPdu) : (list (option ClockTime)) := fst (snd (snd (snd (snd (snd (snd (snd (snd (snd (snd (snd (snd (snd (snd (snd (snd (snd (snd (snd (body p)))))))))))))))))))).
Definition MinefieldDataPdu_mine_entity_id (p : pdu MinefieldDataPdu) : (list (option u16)) := fst (snd (snd (snd (snd (snd (snd (snd (snd (snd (snd (snd (snd (snd (snd (snd (snd (snd (snd (snd (snd (body p))))))))))))))))))))).
Definition MinefieldDataPdu_fusing (p : pdu MinefieldDataPdu) : (list (option u16)) := fst (snd (snd (snd (snd (snd (snd (snd (snd (snd (snd (snd (snd (snd (snd (snd (snd (snd (snd (snd (snd (snd (body p)))))))))))))))))))))).
Definition MinefieldDataPdu_scalar_detection_coefficient (p : pdu MinefieldDataPdu) : (list (option u8)) := fst (snd (snd (snd (snd (snd (snd (snd (snd (snd (snd (snd (snd (snd (snd (snd (snd (snd (snd (snd (snd (snd (snd (body p))))))))))))))))))))))).
Definition MinefieldDataPdu_paint_scheme (p : pdu MinefieldDataPdu) : (list (option u8)) := fst (snd (snd (snd (snd (snd (snd (snd (snd (snd (snd (snd (snd (snd (snd (snd (snd (snd (snd (snd (snd (snd (snd (snd (body p)))))))))))))))))))))))).
Definition MinefieldDataPdu_number_of_trip_wires (p : pdu MinefieldDataPdu) : (list (option u8)) := fst (snd (snd (snd (snd (snd (snd (snd (snd (snd (snd (snd (snd (snd (snd (snd (snd (snd (snd (snd (snd (snd (snd (snd (snd (body p))))))))))))))))))))))))).
Definition MinefieldDataPdu_number_of_vertices (p : pdu MinefieldDataPdu) : (list (option u8)) := fst (snd (snd (snd (snd (snd (snd (snd (snd (snd (snd (snd (snd (snd (snd (snd (snd (snd (snd (snd (snd (snd (snd (snd (snd (snd (body p)))))))))))))))))))))))))).
Definition MinefieldDataPdu_vertices (p : pdu MinefieldDataPdu) : (list (option (list EntityCoordinateVector))) := fst (snd (snd (snd (snd (snd (snd (snd (snd (snd (snd (snd (snd (snd (snd (snd (snd (snd (snd (snd (snd (snd (snd (snd (snd (snd (snd (body p))))))))))))))))))))))))))).

(** src/minefield.rs:108-123. *)
Definition MinefieldResponseNackPdu_minefield_id (p : pdu MinefieldResponseNackPdu) : EntityId := fst (body p).
Definition MinefieldResponseNackPdu_requesting_entity_id (p : pdu MinefieldResponseNackPdu) : EntityId := fst (snd (body p)).
Definition MinefieldResponseNackPdu_request_id (p : pdu MinefieldResponseNackPdu) : u8 := fst (snd (snd (body p))).
Definition MinefieldResponseNackPdu_number_of_missing_pdus (p : pdu MinefieldResponseNackPdu) : u8 := fst (snd (snd (snd (body p)))).
Definition MinefieldResponseNackPdu_missing_pdu_sequence_numbers (p : pdu MinefieldResponseNackPdu) : (list u64) := fst (snd (snd (snd (snd (body p))))).

(** src/radio_communications.rs:32-65. *)
Definition TransmitterPdu_entity_id (p : pdu TransmitterPdu) : EntityId := fst (body p).
Definition TransmitterPdu_radio_id (p : pdu TransmitterPdu) : u16 := fst (snd (body p)).
Definition TransmitterPdu_radio_entity_type (p : pdu TransmitterPdu) : RadioEntityType := fst (snd (snd (body p))).
Definition TransmitterPdu_transmit_state (p : pdu TransmitterPdu) : TransmitterTransmitState := fst (snd (snd (snd (body p)))).
Definition TransmitterPdu_input_source (p : pdu TransmitterPdu) : TransmitterInputSource := fst (snd (snd (snd (snd (body p))))).
Definition TransmitterPdu_number_of_variable_transmitter_parameters_records (p : pdu TransmitterPdu) : u16 := fst (snd (snd (snd (snd (snd (body p)))))).
Definition TransmitterPdu_antenna_location (p : pdu TransmitterPdu) : WorldCoordinate := fst (snd (snd (snd (snd (snd (snd (body p))))))).
Definition TransmitterPdu_relative_antenna_location (p : pdu TransmitterPdu) : EntityCoordinateVector := fst (snd (snd (snd (snd (snd (snd (snd (body p)))))))).
Definition TransmitterPdu_antenna_pattern_type (p : pdu TransmitterPdu) : TransmitterAntennaPatternType := fst (snd (snd (snd (snd (snd (snd (snd (snd (body p))))))))).
Definition TransmitterPdu_antenna_pattern_length (p : pdu TransmitterPdu) : u16 := fst (snd (snd (snd (snd (snd (snd (snd (snd (snd (body p)))))))))).
Definition TransmitterPdu_frequency (p : pdu TransmitterPdu) : u64 := fst (snd (snd (snd (snd (snd (snd (snd (snd (snd (snd (body p))))))))))).
Definition TransmitterPdu_transmit_frequency_bandwidth (p : pdu TransmitterPdu) : f32 := fst (snd (snd (snd (snd (snd (snd (snd (snd (snd (snd (snd (body p)))))))))))).
Definition TransmitterPdu_power (p : pdu TransmitterPdu) : f32 := fst (snd (snd (snd (snd (snd (snd (snd (snd (snd (snd (snd (snd (body p))))))))))))).
Definition TransmitterPdu_modulation_type (p : pdu TransmitterPdu) : ModulationType := fst (snd (snd (snd (snd (snd (snd (snd (snd (snd (snd (snd (snd (snd (body p)))))))))))))).
Definition TransmitterPdu_crypto_system (p : pdu TransmitterPdu) : TransmitterCryptoSystem := fst (snd (snd (snd (snd (snd (snd (snd (snd (snd (snd (snd (snd (snd (snd (body p))))))))))))))).
Definition TransmitterPdu_crypto_key_id (p : pdu TransmitterPdu) : u16 := fst (snd (snd (snd (snd (snd (snd (snd (snd (snd (snd (snd (snd (snd (snd (snd (body p)))))))))))))))).
Definition TransmitterPdu_modulation_parameter_length (p : pdu TransmitterPdu) : u8 := fst (snd (snd (snd (snd (snd (snd (snd (snd (snd (snd (snd (snd (snd (snd (snd (snd (body p))))))))))))))))).
Definition TransmitterPdu_padding (p : pdu TransmitterPdu) : u8 := fst (snd (snd (snd (snd (snd (snd (snd (snd (snd (snd (snd (snd (snd (snd (snd (snd (snd (body p)))))))))))))))))).
Definition TransmitterPdu_padding2 (p : pdu TransmitterPdu) : u16 := fst (snd (snd (snd (snd (snd (snd (snd (snd (snd (snd (snd (snd (snd (snd (snd (snd (snd (snd (body p))))))))))))))))))).
Definition TransmitterPdu_modulation_parameters (p : pdu TransmitterPdu) : (option ModulationParameters) := fst (snd (snd (snd (snd (snd (snd (snd (snd (snd (snd (snd (snd (snd (snd (snd (snd (snd (snd (snd (body p)))))))))))))))))))).
Definition TransmitterPdu_antenna_pattern (p : pdu TransmitterPdu) : (option AntennaPattern) := fst (snd (snd (snd (snd (snd (snd (snd (snd (snd (snd (snd (snd (snd (snd (snd (snd (snd (snd (snd (snd (body p))))))))))))))))))))).
Definition TransmitterPdu_variable_transmitter_parameters (p : pdu TransmitterPdu) : (list VariableTransmitterParameters) := fst (snd (snd (snd (snd (snd (snd (snd (snd (snd (snd (snd (snd (snd (snd (snd (snd (snd (snd (snd (snd (snd (body p)))))))))))))))))))))).

(** src/radio_communications.rs:67-85. *)
Definition SignalPdu_entity_id (p : pdu SignalPdu) : EntityId := fst (body p).
Definition SignalPdu_radio_id (p : pdu SignalPdu) : u16 := fst (snd (body p)).
Definition SignalPdu_encoding_scheme (p : pdu SignalPdu) : u16 := fst (snd (snd (body p))).
Definition SignalPdu_tdl_type (p : pdu SignalPdu) : SignalTDLType := fst (snd (snd (snd (body p)))).
Definition SignalPdu_sample_rate (p : pdu SignalPdu) : u32 := fst (snd (snd (snd (snd (body p))))).
Definition SignalPdu_data_length (p : pdu SignalPdu) : u16 := fst (snd (snd (snd (snd (snd (body p)))))).
Definition SignalPdu_samples (p : pdu SignalPdu) : u16 := fst (snd (snd (snd (snd (snd (snd (body p))))))).
Definition SignalPdu_data (p : pdu SignalPdu) : (list u8) := fst (snd (snd (snd (snd (snd (snd (snd (body p)))))))).

(** src/radio_communications.rs:87-104. *)
Definition ReceiverPdu_entity_id (p : pdu ReceiverPdu) : EntityId := fst (body p).
Definition ReceiverPdu_radio_id (p : pdu ReceiverPdu) : u16 := fst (snd (body p)).
Definition ReceiverPdu_receiver_state (p : pdu ReceiverPdu) : ReceiverReceiverState := fst (snd (snd (body p))).
Definition ReceiverPdu_padding (p : pdu ReceiverPdu) : u16 := fst (snd (snd (snd (body p)))).
Definition ReceiverPdu_received_power (p : pdu ReceiverPdu) : f32 := fst (snd (snd (snd (snd (body p))))).
Definition ReceiverPdu_transmitter_radio_reference_id (p : pdu ReceiverPdu) : EntityId := fst (snd (snd (snd (snd (snd (body p)))))).
Definition ReceiverPdu_transmitter_radio_id (p : pdu ReceiverPdu) : u16 := fst (snd (snd (snd (snd (snd (snd (body p))))))).

(** src/radio_communications.rs:106-124. *)
Definition IntercomSignalPdu_intercom_reference_id (p : pdu IntercomSignalPdu) : EntityId := fst (body p).
Definition IntercomSignalPdu_intercom_number (p : pdu IntercomSignalPdu) : u16 := fst (snd (body p)).
Definition IntercomSignalPdu_encoding_scheme (p : pdu IntercomSignalPdu) : u16 := fst (snd (snd (body p))).
Definition IntercomSignalPdu_tdl_type (p : pdu IntercomSignalPdu) : SignalTDLType := fst (snd (snd (snd (body p)))).
Definition IntercomSignalPdu_sample_rate (p : pdu IntercomSignalPdu) : u32 := fst (snd (snd (snd (snd (body p))))).
Definition IntercomSignalPdu_data_length (p : pdu IntercomSignalPdu) : u16 := fst (snd (snd (snd (snd (snd (body p)))))).
Definition IntercomSignalPdu_samples (p : pdu IntercomSignalPdu) : u16 := fst (snd (snd (snd (snd (snd (snd (body p))))))).
Definition IntercomSignalPdu_data (p : pdu IntercomSignalPdu) : (list u8) := fst (snd (snd (snd (snd (snd (snd (snd (body p)))))))).

(** src/radio_communications.rs:126-149. *)
Definition IntercomControlPdu_control_type (p : pdu IntercomControlPdu) : IntercomControlControlType := fst (body p).
Definition IntercomControlPdu_communications_channel_type (p : pdu IntercomControlPdu) : u8 := fst (snd (body p)).
Definition IntercomControlPdu_source_intercom_reference_id (p : pdu IntercomControlPdu) : EntityId := fst (snd (snd (body p))).
Definition IntercomControlPdu_source_intercom_number (p : pdu IntercomControlPdu) : u16 := fst (snd (snd (snd (body p)))).
Definition IntercomControlPdu_source_line_id (p : pdu IntercomControlPdu) : u8 := fst (snd (snd (snd (snd (body p))))).
Definition IntercomControlPdu_transmit_priority (p : pdu IntercomControlPdu) : u8 := fst (snd (snd (snd (snd (snd (body p)))))).
Definition IntercomControlPdu_transmit_line_state (p : pdu IntercomControlPdu) : IntercomControlTransmitLineState := fst (snd (snd (snd (snd (snd (snd (body p))))))).
Definition IntercomControlPdu_command (p : pdu IntercomControlPdu) : IntercomControlCommand := fst (snd (snd (snd (snd (snd (snd (snd (body p)))))))).
Definition IntercomControlPdu_master_intercom_reference_id (p : pdu IntercomControlPdu) : EntityId := fst (snd (snd (snd (snd (snd (snd (snd (snd (body p))))))))).
Definition IntercomControlPdu_master_intercom_number (p : pdu IntercomControlPdu) : u16 := fst (snd (snd (snd (snd (snd (snd (snd (snd (snd (body p)))))))))).
Definition IntercomControlPdu_master_channel_id (p : pdu IntercomControlPdu) : u16 := fst (snd (snd (snd (snd (snd (snd (snd (snd (snd (snd (body p))))))))))).
Definition IntercomControlPdu_intercom_parameters_length (p : pdu IntercomControlPdu) : u32 := fst (snd (snd (snd (snd (snd (snd (snd (snd (snd (snd (snd (body p)))))))))))).
Definition IntercomControlPdu_intercom_parameters (p : pdu IntercomControlPdu) : (list IntercomCommunicationsParameters) := fst (snd (snd (snd (snd (snd (snd (snd (snd (snd (snd (snd (snd (body p))))))))))))).

(** src/simulation_management.rs:24-37. *)
Definition CreateEntityPdu_originating_entity_id (p : pdu CreateEntityPdu) : EntityId := fst (body p).
Definition CreateEntityPdu_receiving_entity_id (p : pdu CreateEntityPdu) : EntityId := fst (snd (body p)).
Definition CreateEntityPdu_request_id (p : pdu CreateEntityPdu) : u32 := fst (snd (snd (body p))).

(** src/simulation_management.rs:39-52. *)
Definition RemoveEntityPdu_originating_entity_id (p : pdu RemoveEntityPdu) : EntityId := fst (body p).
Definition RemoveEntityPdu_receiving_entity_id (p : pdu RemoveEntityPdu) : EntityId := fst (snd (body p)).
Definition RemoveEntityPdu_request_id (p : pdu RemoveEntityPdu) : u32 := fst (snd (snd (body p))).

(** src/simulation_management.rs:54-69. *)
Definition StartResumePdu_originating_entity_id (p : pdu StartResumePdu) : EntityId := fst (body p).
Definition StartResumePdu_receiving_entity_id (p : pdu StartResumePdu) : EntityId := fst (snd (body p)).
Definition StartResumePdu_real_world_time (p : pdu StartResumePdu) : ClockTime := fst (snd (snd (body p))).
Definition StartResumePdu_simulation_time (p : pdu StartResumePdu) : ClockTime := fst (snd (snd (snd (body p)))).
Definition StartResumePdu_request_id (p : pdu StartResumePdu) : u32 := fst (snd (snd (snd (snd (body p))))).

(** src/simulation_management.rs:71-88. *)
Definition StopFreezePdu_originating_entity_id (p : pdu StopFreezePdu) : EntityId := fst (body p).
Definition StopFreezePdu_receiving_entity_id (p : pdu StopFreezePdu) : EntityId := fst (snd (body p)).
Definition StopFreezePdu_real_world_time (p : pdu StopFreezePdu) : ClockTime := fst (snd (snd (body p))).
Definition StopFreezePdu_reason (p : pdu StopFreezePdu) : Reason := fst (snd (snd (snd (body p)))).
Definition StopFreezePdu_frozen_behavior (p : pdu StopFreezePdu) : FrozenBehavior := fst (snd (snd (snd (snd (body p))))).
Definition StopFreezePdu_padding (p : pdu StopFreezePdu) : u16 := fst (snd (snd (snd (snd (snd (body p)))))).
Definition StopFreezePdu_request_id (p : pdu StopFreezePdu) : u32 := fst (snd (snd (snd (snd (snd (snd (body p))))))).

(** src/simulation_management.rs:90-105. *)
Definition AcknowledgePdu_originating_entity_id (p : pdu AcknowledgePdu) : EntityId := fst (body p).
Definition AcknowledgePdu_receiving_entity_id (p : pdu AcknowledgePdu) : EntityId := fst (snd (body p)).
Definition AcknowledgePdu_acknowledge_flag (p : pdu AcknowledgePdu) : AcknowledgeFlag := fst (snd (snd (body p))).
Definition AcknowledgePdu_response_flag (p : pdu AcknowledgePdu) : AcknowledgeResponseFlag := fst (snd (snd (snd (body p)))).
Definition AcknowledgePdu_request_id (p : pdu AcknowledgePdu) : u32 := fst (snd (snd (snd (snd (body p))))).

(** src/simulation_management.rs:107-125. *)
Definition ActionRequestPdu_originating_entity_id (p : pdu ActionRequestPdu) : EntityId := fst (body p).
Definition ActionRequestPdu_receiving_entity_id (p : pdu ActionRequestPdu) : EntityId := fst (snd (body p)).
Definition ActionRequestPdu_request_id (p : pdu ActionRequestPdu) : u32 := fst (snd (snd (body p))).
Definition ActionRequestPdu_action_id (p : pdu ActionRequestPdu) : u32 := fst (snd (snd (snd (body p)))).
Definition ActionRequestPdu_number_of_fixed_datum_records (p : pdu ActionRequestPdu) : u32 := fst (snd (snd (snd (snd (body p))))).
Definition ActionRequestPdu_number_of_variable_datum_records (p : pdu ActionRequestPdu) : u32 := fst (snd (snd (snd (snd (snd (body p)))))).
Definition ActionRequestPdu_fixed_datum_records (p : pdu ActionRequestPdu) : (list FixedDatumRecord) := fst (snd (snd (snd (snd (snd (snd (body p))))))).
Definition ActionRequestPdu_variable_datum_records (p : pdu ActionRequestPdu) : (list VariableDatumRecord) := fst (snd (snd (snd (snd (snd (snd (snd (body p)))))))).

(** src/simulation_management.rs:127-145. *)
Definition ActionResponsePdu_originating_entity_id (p : pdu ActionResponsePdu) : EntityId := fst (body p).
Definition ActionResponsePdu_receiving_entity_id (p : pdu ActionResponsePdu) : EntityId := fst (snd (body p)).
Definition ActionResponsePdu_request_id (p : pdu ActionResponsePdu) : u32 := fst (snd (snd (body p))).
Definition ActionResponsePdu_request_status (p : pdu ActionResponsePdu) : ActionResponseRequestStatus := fst (snd (snd (snd (body p)))).
Definition ActionResponsePdu_number_of_fixed_datum_records (p : pdu ActionResponsePdu) : u32 := fst (snd (snd (snd (snd (body p))))).
Definition ActionResponsePdu_number_of_variable_datum_records (p : pdu ActionResponsePdu) : u32 := fst (snd (snd (snd (snd (snd (body p)))))).
Definition ActionResponsePdu_fixed_datum_records (p : pdu ActionResponsePdu) : (list FixedDatumRecord) := fst (snd (snd (snd (snd (snd (snd (body p))))))).
Definition ActionResponsePdu_variable_datum_records (p : pdu ActionResponsePdu) : (list VariableDatumRecord) := fst (snd (snd (snd (snd (snd (snd (snd (body p)))))))).

(** src/simulation_management.rs:147-165. *)
Definition DataQueryPdu_originating_entity_id (p : pdu DataQueryPdu) : EntityId := fst (body p).
Definition DataQueryPdu_receiving_entity_id (p : pdu DataQueryPdu) : EntityId := fst (snd (body p)).
Definition DataQueryPdu_request_id (p : pdu DataQueryPdu) : u32 := fst (snd (snd (body p))).
Definition DataQueryPdu_time_interval (p : pdu DataQueryPdu) : u32 := fst (snd (snd (snd (body p)))).
Definition DataQueryPdu_number_of_fixed_datum_records (p : pdu DataQueryPdu) : u32 := fst (snd (snd (snd (snd (body p))))).
Definition DataQueryPdu_number_of_variable_datum_records (p : pdu DataQueryPdu) : u32 := fst (snd (snd (snd (snd (snd (body p)))))).
Definition DataQueryPdu_fixed_datum_records (p : pdu DataQueryPdu) : (list FixedDatumRecord) := fst (snd (snd (snd (snd (snd (snd (body p))))))).
Definition DataQueryPdu_variable_datum_records (p : pdu DataQueryPdu) : (list VariableDatumRecord) := fst (snd (snd (snd (snd (snd (snd (snd (body p)))))))).

(** src/simulation_management.rs:167-185. *)
Definition SetDataPdu_originating_entity_id (p : pdu SetDataPdu) : EntityId := fst (body p).
Definition SetDataPdu_receiving_entity_id (p : pdu SetDataPdu) : EntityId := fst (snd (body p)).
Definition SetDataPdu_request_id (p : pdu SetDataPdu) : u32 := fst (snd (snd (body p))).
Definition SetDataPdu_padding (p : pdu SetDataPdu) : u32 := fst (snd (snd (snd (body p)))).
Definition SetDataPdu_number_of_fixed_datum_records (p : pdu SetDataPdu) : u32 := fst (snd (snd (snd (snd (body p))))).
Definition SetDataPdu_number_of_variable_datum_records (p : pdu SetDataPdu) : u32 := fst (snd (snd (snd (snd (snd (body p)))))).
Definition SetDataPdu_fixed_datum_records (p : pdu SetDataPdu) : (list FixedDatumRecord) := fst (snd (snd (snd (snd (snd (snd (body p))))))).
Definition SetDataPdu_variable_datum_records (p : pdu SetDataPdu) : (list VariableDatumRecord) := fst (snd (snd (snd (snd (snd (snd (snd (body p)))))))).

(** src/simulation_management.rs:187-205. *)
Definition DataPdu_originating_entity_id (p : pdu DataPdu) : EntityId := fst (body p).
Definition DataPdu_receiving_entity_id (p : pdu DataPdu) : EntityId := fst (snd (body p)).
Definition DataPdu_request_id (p : pdu DataPdu) : u32 := fst (snd (snd (body p))).
Definition DataPdu_padding (p : pdu DataPdu) : u32 := fst (snd (snd (snd (body p)))).
Definition DataPdu_number_of_fixed_datum_records (p : pdu DataPdu) : u32 := fst (snd (snd (snd (snd (body p))))).
Definition DataPdu_number_of_variable_datum_records (p : pdu DataPdu) : u32 := fst (snd (snd (snd (snd (snd (body p)))))).
Definition DataPdu_fixed_datum_records (p : pdu DataPdu) : (list FixedDatumRecord) := fst (snd (snd (snd (snd (snd (snd (body p))))))).
Definition DataPdu_variable_datum_records (p : pdu DataPdu) : (list VariableDatumRecord) := fst (snd (snd (snd (snd (snd (snd (snd (body p)))))))).

(** src/simulation_management.rs:207-225. *)
Definition EventReportPdu_originating_entity_id (p : pdu EventReportPdu) : EntityId := fst (body p).
Definition EventReportPdu_receiving_entity_id (p : pdu EventReportPdu) : EntityId := fst (snd (body p)).
Definition EventReportPdu_event_type (p : pdu EventReportPdu) : EventType := fst (snd (snd (body p))).
Definition EventReportPdu_padding (p : pdu EventReportPdu) : u32 := fst (snd (snd (snd (body p)))).
Definition EventReportPdu_number_of_fixed_datum_records (p : pdu EventReportPdu) : u32 := fst (snd (snd (snd (snd (body p))))).
Definition EventReportPdu_number_of_variable_datum_records (p : pdu EventReportPdu) : u32 := fst (snd (snd (snd (snd (snd (body p)))))).
Definition EventReportPdu_fixed_datum_records (p : pdu EventReportPdu) : (list FixedDatumRecord) := fst (snd (snd (snd (snd (snd (snd (body p))))))).
Definition EventReportPdu_variable_datum_records (p : pdu EventReportPdu) : (list VariableDatumRecord) := fst (snd (snd (snd (snd (snd (snd (snd (body p)))))))).

(** src/simulation_management.rs:227-243. *)
Definition CommentPdu_originating_entity_id (p : pdu CommentPdu) : EntityId := fst (body p).
Definition CommentPdu_receiving_entity_id (p : pdu CommentPdu) : EntityId := fst (snd (body p)).
Definition CommentPdu_number_of_fixed_datum_records (p : pdu CommentPdu) : u32 := fst (snd (snd (body p))).
Definition CommentPdu_number_of_variable_datum_records (p : pdu CommentPdu) : u32 := fst (snd (snd (snd (body p)))).
Definition CommentPdu_fixed_datum_records (p : pdu CommentPdu) : (list FixedDatumRecord) := fst (snd (snd (snd (snd (body p))))).
Definition CommentPdu_variable_datum_records (p : pdu CommentPdu) : (list VariableDatumRecord) := fst (snd (snd (snd (snd (snd (body p)))))).

(** src/simulation_management_with_reliability.rs:29-45. *)
Definition CreateEntityReliablePdu_originating_entity_id (p : pdu CreateEntityReliablePdu) : EntityId := fst (body p).
Definition CreateEntityReliablePdu_receiving_entity_id (p : pdu CreateEntityReliablePdu) : EntityId := fst (snd (body p)).
Definition CreateEntityReliablePdu_required_reliability_service (p : pdu CreateEntityReliablePdu) : RequiredReliabilityService := fst (snd (snd (body p))).
Definition CreateEntityReliablePdu_padding (p : pdu CreateEntityReliablePdu) : u8 := fst (snd (snd (snd (body p)))).
Definition CreateEntityReliablePdu_padding2 (p : pdu CreateEntityReliablePdu) : u16 := fst (snd (snd (snd (snd (body p))))).
Definition CreateEntityReliablePdu_request_id (p : pdu CreateEntityReliablePdu) : u32 := fst (snd (snd (snd (snd (snd (body p)))))).

(** src/simulation_management_with_reliability.rs:47-63. *)
Definition RemoveEntityReliablePdu_originating_entity_id (p : pdu RemoveEntityReliablePdu) : EntityId := fst (body p).
Definition RemoveEntityReliablePdu_receiving_entity_id (p : pdu RemoveEntityReliablePdu) : EntityId := fst (snd (body p)).
Definition RemoveEntityReliablePdu_required_reliability_service (p : pdu RemoveEntityReliablePdu) : RequiredReliabilityService := fst (snd (snd (body p))).
Definition RemoveEntityReliablePdu_padding (p : pdu RemoveEntityReliablePdu) : u8 := fst (snd (snd (snd (body p)))).
Definition RemoveEntityReliablePdu_padding2 (p : pdu RemoveEntityReliablePdu) : u16 := fst (snd (snd (snd (snd (body p))))).
Definition RemoveEntityReliablePdu_request_id (p : pdu RemoveEntityReliablePdu) : u32 := fst (snd (snd (snd (snd (snd (body p)))))).

(** src/simulation_management_with_reliability.rs:65-83. *)
Definition StartResumeReliablePdu_originating_entity_id (p : pdu StartResumeReliablePdu) : EntityId := fst (body p).
Definition StartResumeReliablePdu_receiving_entity_id (p : pdu StartResumeReliablePdu) : EntityId := fst (snd (body p)).
Definition StartResumeReliablePdu_real_world_time (p : pdu StartResumeReliablePdu) : ClockTime := fst (snd (snd (body p))).
Definition StartResumeReliablePdu_simulation_time (p : pdu StartResumeReliablePdu) : ClockTime := fst (snd (snd (snd (body p)))).
Definition StartResumeReliablePdu_required_reliability_service (p : pdu StartResumeReliablePdu) : RequiredReliabilityService := fst (snd (snd (snd (snd (body p))))).
Definition StartResumeReliablePdu_padding (p : pdu StartResumeReliablePdu) : u8 := fst (snd (snd (snd (snd (snd (body p)))))).
Definition StartResumeReliablePdu_padding2 (p : pdu StartResumeReliablePdu) : u16 := fst (snd (snd (snd (snd (snd (snd (body p))))))).
Definition StartResumeReliablePdu_request_id (p : pdu StartResumeReliablePdu) : u32 := fst (snd (snd (snd (snd (snd (snd (snd (body p)))))))).

(** src/simulation_management_with_reliability.rs:85-103. *)
Definition StopFreezeReliablePdu_originating_entity_id (p : pdu StopFreezeReliablePdu) : EntityId := fst (body p).
Definition StopFreezeReliablePdu_receiving_entity_id (p : pdu StopFreezeReliablePdu) : EntityId := fst (snd (body p)).
Definition StopFreezeReliablePdu_real_world_time (p : pdu StopFreezeReliablePdu) : ClockTime := fst (snd (snd (body p))).
Definition StopFreezeReliablePdu_reason (p : pdu StopFreezeReliablePdu) : Reason := fst (snd (snd (snd (body p)))).
Definition StopFreezeReliablePdu_frozen_behavior (p : pdu StopFreezeReliablePdu) : FrozenBehavior := fst (snd (snd (snd (snd (body p))))).
Definition StopFreezeReliablePdu_required_reliability_service (p : pdu StopFreezeReliablePdu) : u8 := fst (snd (snd (snd (snd (snd (body p)))))).
Definition StopFreezeReliablePdu_padding (p : pdu StopFreezeReliablePdu) : u8 := fst (snd (snd (snd (snd (snd (snd (body p))))))).
Definition StopFreezeReliablePdu_request_id (p : pdu StopFreezeReliablePdu) : u32 := fst (snd (snd (snd (snd (snd (snd (snd (body p)))))))).

(** src/simulation_management_with_reliability.rs:105-120. *)
Definition AcknowledgeReliablePdu_originating_entity_id (p : pdu AcknowledgeReliablePdu) : EntityId := fst (body p).
Definition AcknowledgeReliablePdu_receiving_entity_id (p : pdu AcknowledgeReliablePdu) : EntityId := fst (snd (body p)).
Definition AcknowledgeReliablePdu_acknowledge_flag (p : pdu AcknowledgeReliablePdu) : AcknowledgeFlag := fst (snd (snd (body p))).
Definition AcknowledgeReliablePdu_response_flag (p : pdu AcknowledgeReliablePdu) : AcknowledgeResponseFlag := fst (snd (snd (snd (body p)))).
Definition AcknowledgeReliablePdu_request_id (p : pdu AcknowledgeReliablePdu) : u32 := fst (snd (snd (snd (snd (body p))))).

(** src/simulation_management_with_reliability.rs:122-144. *)
Definition ActionRequestReliablePdu_originating_entity_id (p : pdu ActionRequestReliablePdu) : EntityId := fst (body p).
Definition ActionRequestReliablePdu_receiving_entity_id (p : pdu ActionRequestReliablePdu) : EntityId := fst (snd (body p)).
Definition ActionRequestReliablePdu_required_reliability_service (p : pdu ActionRequestReliablePdu) : RequiredReliabilityService := fst (snd (snd (body p))).
Definition ActionRequestReliablePdu_padding (p : pdu ActionRequestReliablePdu) : u8 := fst (snd (snd (snd (body p)))).
Definition ActionRequestReliablePdu_padding2 (p : pdu ActionRequestReliablePdu) : u16 := fst (snd (snd (snd (snd (body p))))).
Definition ActionRequestReliablePdu_request_id (p : pdu ActionRequestReliablePdu) : u32 := fst (snd (snd (snd (snd (snd (body p)))))).
Definition ActionRequestReliablePdu_action_id (p : pdu ActionRequestReliablePdu) : u32 := fst (snd (snd (snd (snd (snd (snd (body p))))))).
Definition ActionRequestReliablePdu_padding3 (p : pdu ActionRequestReliablePdu) : u32 := fst (snd (snd (snd (snd (snd (snd (snd (body p)))))))).
Definition ActionRequestReliablePdu_number_of_fixed_datum_records (p : pdu ActionRequestReliablePdu) : u32 := fst (snd (snd (snd (snd (snd (snd (snd (snd (body p))))))))).
Definition ActionRequestReliablePdu_number_of_variable_datum_records (p : pdu ActionRequestReliablePdu) : u32 := fst (snd (snd (snd (snd (snd (snd (snd (snd (snd (body p)))))))))).
Definition ActionRequestReliablePdu_fixed_datum_records (p : pdu ActionRequestReliablePdu) : (list FixedDatumRecord) := fst (snd (snd (snd (snd (snd (snd (snd (snd (snd (snd (body p))))))))))).
Definition ActionRequestReliablePdu_variable_datum_records (p : pdu ActionRequestReliablePdu) : (list VariableDatumRecord) := fst (snd (snd (snd (snd (snd (snd (snd (snd (snd (snd (snd (body p)))))))))))).

(** src/simulation_management_with_reliability.rs:146-164. *)
Definition ActionResponseReliablePdu_originating_entity_id (p : pdu ActionResponseReliablePdu) : EntityId := fst (body p).
Definition ActionResponseReliablePdu_receiving_entity_id (p : pdu ActionResponseReliablePdu) : EntityId := fst (snd (body p)).
Definition ActionResponseReliablePdu_request_id (p : pdu ActionResponseReliablePdu) : u32 := fst (snd (snd (body p))).
Definition ActionResponseReliablePdu_request_status (p : pdu ActionResponseReliablePdu) : ActionResponseRequestStatus := fst (snd (snd (snd (body p)))).
Definition ActionResponseReliablePdu_number_of_fixed_datum_records (p : pdu ActionResponseReliablePdu) : u32 := fst (snd (snd (snd (snd (body p))))).
Definition ActionResponseReliablePdu_number_of_variable_datum_records (p : pdu ActionResponseReliablePdu) : u32 := fst (snd (snd (snd (snd (snd (body p)))))).
Definition ActionResponseReliablePdu_fixed_datum_records (p : pdu ActionResponseReliablePdu) : (list FixedDatumRecord) := fst (snd (snd (snd (snd (snd (snd (body p))))))).
Definition ActionResponseReliablePdu_variable_datum_records (p : pdu ActionResponseReliablePdu) : (list VariableDatumRecord) := fst (snd (snd (snd (snd (snd (snd (snd (body p)))))))).

(** src/simulation_management_with_reliability.rs:166-187. *)
Definition DataQueryReliablePdu_originating_entity_id (p : pdu DataQueryReliablePdu) : EntityId := fst (body p).
Definition DataQueryReliablePdu_receiving_entity_id (p : pdu DataQueryReliablePdu) : EntityId := fst (snd (body p)).
Definition DataQueryReliablePdu_required_reliability_service (p : pdu DataQueryReliablePdu) : RequiredReliabilityService := fst (snd (snd (body p))).
Definition DataQueryReliablePdu_padding (p : pdu DataQueryReliablePdu) : u8 := fst (snd (snd (snd (body p)))).
Definition DataQueryReliablePdu_padding2 (p : pdu DataQueryReliablePdu) : u16 := fst (snd (snd (snd (snd (body p))))).
Definition DataQueryReliablePdu_request_id (p : pdu DataQueryReliablePdu) : u32 := fst (snd (snd (snd (snd (snd (body p)))))).
Definition DataQueryReliablePdu_time_interval (p : pdu DataQueryReliablePdu) : u32 := fst (snd (snd (snd (snd (snd (snd (body p))))))).
Definition DataQueryReliablePdu_number_of_fixed_datum_records (p : pdu DataQueryReliablePdu) : u32 := fst (snd (snd (snd (snd (snd (snd (snd (body p)))))))).
Definition DataQueryReliablePdu_number_of_variable_datum_records (p : pdu DataQueryReliablePdu) : u32 := fst (snd (snd (snd (snd (snd (snd (snd (snd (body p))))))))).
Definition DataQueryReliablePdu_fixed_datum_ids (p : pdu DataQueryReliablePdu) : (list VariableRecordTypes) := fst (snd (snd (snd (snd (snd (snd (snd (snd (snd (body p)))))))))).
Definition DataQueryReliablePdu_variable_datum_ids (p : pdu DataQueryReliablePdu) : (list VariableRecordTypes) := fst (snd (snd (snd (snd (snd (snd (snd (snd (snd (snd (body p))))))))))).

(** src/simulation_management_with_reliability.rs:189-209. *)
Definition SetDataReliablePdu_originating_entity_id (p : pdu SetDataReliablePdu) : EntityId := fst (body p).
Definition SetDataReliablePdu_receiving_entity_id (p : pdu SetDataReliablePdu) : EntityId := fst (snd (body p)).
Definition SetDataReliablePdu_required_reliability_service (p : pdu SetDataReliablePdu) : RequiredReliabilityService := fst (snd (snd (body p))).
Definition SetDataReliablePdu_padding (p : pdu SetDataReliablePdu) : u8 := fst (snd (snd (snd (body p)))).
Definition SetDataReliablePdu_padding2 (p : pdu SetDataReliablePdu) : u16 := fst (snd (snd (snd (snd (body p))))).
Definition SetDataReliablePdu_request_id (p : pdu SetDataReliablePdu) : u32 := fst (snd (snd (snd (snd (snd (body p)))))).
Definition SetDataReliablePdu_number_of_fixed_datum_records (p : pdu SetDataReliablePdu) : u32 := fst (snd (snd (snd (snd (snd (snd (body p))))))).
Definition SetDataReliablePdu_number_of_variable_datum_records (p : pdu SetDataReliablePdu) : u32 := fst (snd (snd (snd (snd (snd (snd (snd (body p)))))))).
Definition SetDataReliablePdu_fixed_datum_records (p : pdu SetDataReliablePdu) : (list FixedDatumRecord) := fst (snd (snd (snd (snd (snd (snd (snd (snd (body p))))))))).
Definition SetDataReliablePdu_variable_datum_records (p : pdu SetDataReliablePdu) : (list VariableDatumRecord) := fst (snd (snd (snd (snd (snd (snd (snd (snd (snd (body p)))))))))).

(** src/simulation_management_with_reliability.rs:211-231. *)
Definition DataReliablePdu_originating_entity_id (p : pdu DataReliablePdu) : EntityId := fst (body p).
Definition DataReliablePdu_receiving_entity_id (p : pdu DataReliablePdu) : EntityId := fst (snd (body p)).
Definition DataReliablePdu_request_id (p : pdu DataReliablePdu) : u32 := fst (snd (snd (body p))).
Definition DataReliablePdu_required_reliability_service (p : pdu DataReliablePdu) : RequiredReliabilityService := fst (snd (snd (snd (body p)))).
Definition DataReliablePdu_padding (p : pdu DataReliablePdu) : u8 := fst (snd (snd (snd (snd (body p))))).
Definition DataReliablePdu_padding2 (p : pdu DataReliablePdu) : u16 := fst (snd (snd (snd (snd (snd (body p)))))).
Definition DataReliablePdu_number_of_fixed_datum_records (p : pdu DataReliablePdu) : u32 := fst (snd (snd (snd (snd (snd (snd (body p))))))).
Definition DataReliablePdu_number_of_variable_datum_records (p : pdu DataReliablePdu) : u32 := fst (snd (snd (snd (snd (snd (snd (snd (body p)))))))).
Definition DataReliablePdu_fixed_datum_records (p : pdu DataReliablePdu) : (list FixedDatumRecord) := fst (snd (snd (snd (snd (snd (snd (snd (snd (body p))))))))).
Definition DataReliablePdu_variable_datum_records (p : pdu DataReliablePdu) : (list VariableDatumRecord) := fst (snd (snd (snd (snd (snd (snd (snd (snd (snd (body p)))))))))).

(** src/simulation_management_with_reliability.rs:233-251. *)
Definition EventReportReliablePdu_originating_entity_id (p : pdu EventReportReliablePdu) : EntityId := fst (body p).
Definition EventReportReliablePdu_receiving_entity_id (p : pdu EventReportReliablePdu) : EntityId := fst (snd (body p)).
Definition EventReportReliablePdu_event_type (p : pdu EventReportReliablePdu) : EventType := fst (snd (snd (body p))).
Definition EventReportReliablePdu_padding (p : pdu EventReportReliablePdu) : u32 := fst (snd (snd (snd (body p)))).
Definition EventReportReliablePdu_number_of_fixed_datum_records (p : pdu EventReportReliablePdu) : u32 := fst (snd (snd (snd (snd (body p))))).
Definition EventReportReliablePdu_number_of_variable_datum_records (p : pdu EventReportReliablePdu) : u32 := fst (snd (snd (snd (snd (snd (body p)))))).
Definition EventReportReliablePdu_fixed_datum_records (p : pdu EventReportReliablePdu) : (list FixedDatumRecord) := fst (snd (snd (snd (snd (snd (snd (body p))))))).
Definition EventReportReliablePdu_variable_datum_records (p : pdu EventReportReliablePdu) : (list VariableDatumRecord) := fst (snd (snd (snd (snd (snd (snd (snd (body p)))))))).

(** src/simulation_management_with_reliability.rs:253-269. *)
Definition CommentReliablePdu_originating_entity_id (p : pdu CommentReliablePdu) : EntityId := fst (body p).
Definition CommentReliablePdu_receiving_entity_id (p : pdu CommentReliablePdu) : EntityId := fst (snd (body p)).
Definition CommentReliablePdu_number_of_fixed_datum_records (p : pdu CommentReliablePdu) : u32 := fst (snd (snd (body p))).
Definition CommentReliablePdu_number_of_variable_datum_records (p : pdu CommentReliablePdu) : u32 := fst (snd (snd (snd (body p)))).
Definition CommentReliablePdu_fixed_datum_records (p : pdu CommentReliablePdu) : (list FixedDatumRecord) := fst (snd (snd (snd (snd (body p))))).
Definition CommentReliablePdu_variable_datum_records (p : pdu CommentReliablePdu) : (list VariableDatumRecord) := fst (snd (snd (snd (snd (snd (body p)))))).

(** src/simulation_management_with_reliability.rs:271-290. *)
Definition RecordQueryReliablePdu_originating_entity_id (p : pdu RecordQueryReliablePdu) : EntityId := fst (body p).
Definition RecordQueryReliablePdu_receiving_entity_id (p : pdu RecordQueryReliablePdu) : EntityId := fst (snd (body p)).
Definition RecordQueryReliablePdu_request_id (p : pdu RecordQueryReliablePdu) : u32 := fst (snd (snd (body p))).
Definition RecordQueryReliablePdu_required_reliability_service (p : pdu RecordQueryReliablePdu) : RequiredReliabilityService := fst (snd (snd (snd (body p)))).
Definition RecordQueryReliablePdu_padding (p : pdu RecordQueryReliablePdu) : u8 := fst (snd (snd (snd (snd (body p))))).
Definition RecordQueryReliablePdu_event_type (p : pdu RecordQueryReliablePdu) : RecordQueryREventType := fst (snd (snd (snd (snd (snd (body p)))))).
Definition RecordQueryReliablePdu_time (p : pdu RecordQueryReliablePdu) : u32 := fst (snd (snd (snd (snd (snd (snd (body p))))))).
Definition RecordQueryReliablePdu_number_of_records (p : pdu RecordQueryReliablePdu) : u32 := fst (snd (snd (snd (snd (snd (snd (snd (body p)))))))).
Definition RecordQueryReliablePdu_record_ids (p : pdu RecordQueryReliablePdu) : (list u32) := fst (snd (snd (snd (snd (snd (snd (snd (snd (body p))))))))).

(** src/simulation_management_with_reliability.rs:292-310. *)
Definition SetRecordReliablePdu_originating_entity_id {m} (p : pdu (SetRecordReliablePdu m)) : EntityId := fst (body p).
Definition SetRecordReliablePdu_receiving_entity_id {m} (p : pdu (SetRecordReliablePdu m)) : EntityId := fst (snd (body p)).
Definition SetRecordReliablePdu_request_id {m} (p : pdu (SetRecordReliablePdu m)) : u32 := fst (snd (snd (body p))).
Definition SetRecordReliablePdu_required_reliability_service {m} (p : pdu (SetRecordReliablePdu m)) : RequiredReliabilityService := fst (snd (snd (snd (body p)))).
Definition SetRecordReliablePdu_padding {m} (p : pdu (SetRecordReliablePdu m)) : u8 := fst (snd (snd (snd (snd (body p))))).
Definition SetRecordReliablePdu_padding2 {m} (p : pdu (SetRecordReliablePdu m)) : u16 := fst (snd (snd (snd (snd (snd (body p)))))).
Definition SetRecordReliablePdu_padding3 {m} (p : pdu (SetRecordReliablePdu m)) : u32 := fst (snd (snd (snd (snd (snd (snd (body p))))))).
Definition SetRecordReliablePdu_record_sets {m} (p : pdu (SetRecordReliablePdu m)) : RecordSpecification := fst (snd (snd (snd (snd (snd (snd (snd (body p)))))))).

(** src/synthetic_environment.rs:29-46. *)
Definition EnvironmentalProcessPdu_environmental_process_id (p : pdu EnvironmentalProcessPdu) : EntityId := fst (body p).
Definition EnvironmentalProcessPdu_environment_type (p : pdu EnvironmentalProcessPdu) : EntityType := fst (snd (body p)).
Definition EnvironmentalProcessPdu_model_type (p : pdu EnvironmentalProcessPdu) : u8 := fst (snd (snd (body p))).
Definition EnvironmentalProcessPdu_environment_status (p : pdu EnvironmentalProcessPdu) : u8 := fst (snd (snd (snd (body p)))).
Definition EnvironmentalProcessPdu_number_of_environment_records (p : pdu EnvironmentalProcessPdu) : u16 := fst (snd (snd (snd (snd (body p))))).
Definition EnvironmentalProcessPdu_sequence_number (p : pdu EnvironmentalProcessPdu) : u16 := fst (snd (snd (snd (snd (snd (body p)))))).
Definition EnvironmentalProcessPdu_environment_records (p : pdu EnvironmentalProcessPdu) : (list Environment) := fst (snd (snd (snd (snd (snd (snd (body p))))))).

(** src/synthetic_environment.rs:48-74. *)
Definition GriddedDataPdu_environmental_simulation_id (p : pdu GriddedDataPdu) : EntityId := fst (body p).
Definition GriddedDataPdu_field_number (p : pdu GriddedDataPdu) : u16 := fst (snd (body p)).
Definition GriddedDataPdu_pdu_number (p : pdu GriddedDataPdu) : u16 := fst (snd (snd (body p))).
Definition GriddedDataPdu_pdu_total (p : pdu GriddedDataPdu) : u16 := fst (snd (snd (snd (body p)))).
Definition GriddedDataPdu_coordinate_system (p : pdu GriddedDataPdu) : GriddedDataCoordinateSystem := fst (snd (snd (snd (snd (body p))))).
Definition GriddedDataPdu_number_of_grid_axes (p : pdu GriddedDataPdu) : u8 := fst (snd (snd (snd (snd (snd (body p)))))).
Definition GriddedDataPdu_constant_grid (p : pdu GriddedDataPdu) : GriddedDataConstantGrid := fst (snd (snd (snd (snd (snd (snd (body p))))))).
Definition GriddedDataPdu_environment_type (p : pdu GriddedDataPdu) : EntityType := fst (snd (snd (snd (snd (snd (snd (snd (body p)))))))).
Definition GriddedDataPdu_orientation (p : pdu GriddedDataPdu) : EulerAngles := fst (snd (snd (snd (snd (snd (snd (snd (snd (body p))))))))).
Definition GriddedDataPdu_sample_time (p : pdu GriddedDataPdu) : ClockTime := fst (snd (snd (snd (snd (snd (snd (snd (snd (snd (body p)))))))))).
Definition GriddedDataPdu_total_values (p : pdu GriddedDataPdu) : u32 := fst (snd (snd (snd (snd (snd (snd (snd (snd (snd (snd (body p))))))))))).
Definition GriddedDataPdu_vector_dimension (p : pdu GriddedDataPdu) : u8 := fst (snd (snd (snd (snd (snd (snd (snd (snd (snd (snd (snd (body p)))))))))))).
Definition GriddedDataPdu_padding (p : pdu GriddedDataPdu) : u8 := fst (snd (snd (snd (snd (snd (snd (snd (snd (snd (snd (snd (snd (body p))))))))))))).
Definition GriddedDataPdu_padding2 (p : pdu GriddedDataPdu) : u16 := fst (snd (snd (snd (snd (snd (snd (snd (snd (snd (snd (snd (snd (snd (body p)))))))))))))).
Definition GriddedDataPdu_grid_axis_descriptors (p : pdu GriddedDataPdu) : (list GridAxisDescriptor) := fst (snd (snd (snd (snd (snd (snd (snd (snd (snd (snd (snd (snd (snd (snd (body p))))))))))))))).
Definition GriddedDataPdu_grid_data_list (p : pdu GriddedDataPdu) : (list GridDataRecord) := fst (snd (snd (snd (snd (snd (snd (snd (snd (snd (snd (snd (snd (snd (snd (snd (body p)))))))))))))))).

(** src/synthetic_environment.rs:76-100. *)
Definition PointObjectStatePdu_object_id (p : pdu PointObjectStatePdu) : EntityId := fst (body p).
Definition PointObjectStatePdu_referenced_object_id (p : pdu PointObjectStatePdu) : EntityId := fst (snd (body p)).
Definition PointObjectStatePdu_update_number (p : pdu PointObjectStatePdu) : u16 := fst (snd (snd (body p))).
Definition PointObjectStatePdu_force_id (p : pdu PointObjectStatePdu) : ForceId := fst (snd (snd (snd (body p)))).
Definition PointObjectStatePdu_modifications (p : pdu PointObjectStatePdu) : u8 := fst (snd (snd (snd (snd (body p))))).
Definition PointObjectStatePdu_object_type (p : pdu PointObjectStatePdu) : ObjectType := fst (snd (snd (snd (snd (snd (body p)))))).
Definition PointObjectStatePdu_object_location (p : pdu PointObjectStatePdu) : WorldCoordinate := fst (snd (snd (snd (snd (snd (snd (body p))))))).
Definition PointObjectStatePdu_object_orientation (p : pdu PointObjectStatePdu) : EulerAngles := fst (snd (snd (snd (snd (snd (snd (snd (body p)))))))).
Definition PointObjectStatePdu_specific_object_appearance (p : pdu PointObjectStatePdu) : u32 := fst (snd (snd (snd (snd (snd (snd (snd (snd (body p))))))))).
Definition PointObjectStatePdu_general_object_appearance (p : pdu PointObjectStatePdu) : u16 := fst (snd (snd (snd (snd (snd (snd (snd (snd (snd (body p)))))))))).
Definition PointObjectStatePdu_padding (p : pdu PointObjectStatePdu) : u16 := fst (snd (snd (snd (snd (snd (snd (snd (snd (snd (snd (body p))))))))))).
Definition PointObjectStatePdu_requester_id (p : pdu PointObjectStatePdu) : SimulationAddress := fst (snd (snd (snd (snd (snd (snd (snd (snd (snd (snd (snd (body p)))))))))))).
Definition PointObjectStatePdu_receiving_id (p : pdu PointObjectStatePdu) : SimulationAddress := fst (snd (snd (snd (snd (snd (snd (snd (snd (snd (snd (snd (snd (body p))))))))))))).
Definition PointObjectStatePdu_padding2 (p : pdu PointObjectStatePdu) : u32 := fst (snd (snd (snd (snd (snd (snd (snd (snd (snd (snd (snd (snd (snd (body p)))))))))))))).

(** src/synthetic_environment.rs:102-121. *)
Definition LinearObjectStatePdu_object_id (p : pdu LinearObjectStatePdu) : ObjectIdentifier := fst (body p).
Definition LinearObjectStatePdu_referenced_object_id (p : pdu LinearObjectStatePdu) : ObjectIdentifier := fst (snd (body p)).
Definition LinearObjectStatePdu_update_number (p : pdu LinearObjectStatePdu) : u16 := fst (snd (snd (body p))).
Definition LinearObjectStatePdu_force_id (p : pdu LinearObjectStatePdu) : ForceId := fst (snd (snd (snd (body p)))).
Definition LinearObjectStatePdu_number_of_segments (p : pdu LinearObjectStatePdu) : u8 := fst (snd (snd (snd (snd (body p))))).
Definition LinearObjectStatePdu_requester_id (p : pdu LinearObjectStatePdu) : SimulationAddress := fst (snd (snd (snd (snd (snd (body p)))))).
Definition LinearObjectStatePdu_receiving_id (p : pdu LinearObjectStatePdu) : SimulationAddress := fst (snd (snd (snd (snd (snd (snd (body p))))))).
Definition LinearObjectStatePdu_object_type (p : pdu LinearObjectStatePdu) : ObjectType := fst (snd (snd (snd (snd (snd (snd (snd (body p)))))))).
Definition LinearObjectStatePdu_linear_segment_parameters (p : pdu LinearObjectStatePdu) : (list LinearSegmentParameter) := fst (snd (snd (snd (snd (snd (snd (snd (snd (body p))))))))).

(** src/synthetic_environment.rs:123-145. *)
Definition ArealObjectStatePdu_object_id (p : pdu ArealObjectStatePdu) : ObjectIdentifier := fst (body p).
Definition ArealObjectStatePdu_referenced_object_id (p : pdu ArealObjectStatePdu) : ObjectIdentifier := fst (snd (body p)).
Definition ArealObjectStatePdu_update_number (p : pdu ArealObjectStatePdu) : u16 := fst (snd (snd (body p))).
Definition ArealObjectStatePdu_force_id (p : pdu ArealObjectStatePdu) : ForceId := fst (snd (snd (snd (body p)))).
Definition ArealObjectStatePdu_modifications (p : pdu ArealObjectStatePdu) : u8 := fst (snd (snd (snd (snd (body p))))).
Definition ArealObjectStatePdu_object_type (p : pdu ArealObjectStatePdu) : ObjectType := fst (snd (snd (snd (snd (snd (body p)))))).
Definition ArealObjectStatePdu_specific_object_appearance (p : pdu ArealObjectStatePdu) : u32 := fst (snd (snd (snd (snd (snd (snd (body p))))))).
Definition ArealObjectStatePdu_general_object_appearance (p : pdu ArealObjectStatePdu) : ObjectStateAppearanceGeneral := fst (snd (snd (snd (snd (snd (snd (snd (body p)))))))).
Definition ArealObjectStatePdu_number_of_points (p : pdu ArealObjectStatePdu) : u16 := fst (snd (snd (snd (snd (snd (snd (snd (snd (body p))))))))).
Definition ArealObjectStatePdu_requester_id (p : pdu ArealObjectStatePdu) : SimulationAddress := fst (snd (snd (snd (snd (snd (snd (snd (snd (snd (body p)))))))))).
Definition ArealObjectStatePdu_receiving_id (p : pdu ArealObjectStatePdu) : SimulationAddress := fst (snd (snd (snd (snd (snd (snd (snd (snd (snd (snd (body p))))))))))).
Definition ArealObjectStatePdu_object_location (p : pdu ArealObjectStatePdu) : (list WorldCoordinate) := fst (snd (snd (snd (snd (snd (snd (snd (snd (snd (snd (snd (body p)))))))))))).

(** src/warfare.rs:23-42. *)
Definition FirePdu_firing_entity_id (p : pdu FirePdu) : EntityId := fst (body p).
Definition FirePdu_target_entity_id (p : pdu FirePdu) : EntityId := fst (snd (body p)).
Definition FirePdu_munition_expendable_id (p : pdu FirePdu) : EntityId := fst (snd (snd (body p))).
Definition FirePdu_event_id (p : pdu FirePdu) : EventId := fst (snd (snd (snd (body p)))).
Definition FirePdu_fire_mission_index (p : pdu FirePdu) : u32 := fst (snd (snd (snd (snd (body p))))).
Definition FirePdu_location_in_world_coordinates (p : pdu FirePdu) : WorldCoordinate := fst (snd (snd (snd (snd (snd (body p)))))).
Definition FirePdu_descriptor (p : pdu FirePdu) : MunitionDescriptor := fst (snd (snd (snd (snd (snd (snd (body p))))))).
Definition FirePdu_velocity (p : pdu FirePdu) : LinearVelocity := fst (snd (snd (snd (snd (snd (snd (snd (body p)))))))).
Definition FirePdu_range (p : pdu FirePdu) : f32 := fst (snd (snd (snd (snd (snd (snd (snd (snd (body p))))))))).

(** src/warfare.rs:44-66. *)
Definition DetonationPdu_firing_entity_id (p : pdu DetonationPdu) : EntityId := fst (body p).
Definition DetonationPdu_target_entity_id (p : pdu DetonationPdu) : EntityId := fst (snd (body p)).
Definition DetonationPdu_exploding_entity_id (p : pdu DetonationPdu) : EntityId := fst (snd (snd (body p))).
Definition DetonationPdu_event_id (p : pdu DetonationPdu) : EventId := fst (snd (snd (snd (body p)))).
Definition DetonationPdu_velocity (p : pdu DetonationPdu) : LinearVelocity := fst (snd (snd (snd (snd (body p))))).
Definition DetonationPdu_location_in_world_coordinates (p : pdu DetonationPdu) : WorldCoordinate := fst (snd (snd (snd (snd (snd (body p)))))).
Definition DetonationPdu_descriptor (p : pdu DetonationPdu) : MunitionDescriptor := fst (snd (snd (snd (snd (snd (snd (body p))))))).
Definition DetonationPdu_location_in_entitys_coordinates (p : pdu DetonationPdu) : EntityCoordinateVector := fst (snd (snd (snd (snd (snd (snd (snd (body p)))))))).
Definition DetonationPdu_detonation_result (p : pdu DetonationPdu) : DetonationResult := fst (snd (snd (snd (snd (snd (snd (snd (snd (body p))))))))).
Definition DetonationPdu_number_of_variable_parameters (p : pdu DetonationPdu) : u8 := fst (snd (snd (snd (snd (snd (snd (snd (snd (snd (body p)))))))))).
Definition DetonationPdu_padding (p : pdu DetonationPdu) : u16 := fst (snd (snd (snd (snd (snd (snd (snd (snd (snd (snd (body p))))))))))).
Definition DetonationPdu_variable_parameters (p : pdu DetonationPdu) : (list VariableParameter) := fst (snd (snd (snd (snd (snd (snd (snd (snd (snd (snd (snd (body p)))))))))))).

(** src/warfare.rs:68-96. *)
Definition DirectedEnergyFirePdu_firing_entity_id (p : pdu DirectedEnergyFirePdu) : EntityId := fst (body p).
Definition DirectedEnergyFirePdu_event_id (p : pdu DirectedEnergyFirePdu) : EventId := fst (snd (body p)).
Definition DirectedEnergyFirePdu_munition_type (p : pdu DirectedEnergyFirePdu) : EntityType := fst (snd (snd (body p))).
Definition DirectedEnergyFirePdu_shot_start_time (p : pdu DirectedEnergyFirePdu) : ClockTime := fst (snd (snd (snd (body p)))).
Definition DirectedEnergyFirePdu_cumulative_shot_time (p : pdu DirectedEnergyFirePdu) : f32 := fst (snd (snd (snd (snd (body p))))).
Definition DirectedEnergyFirePdu_aperture_emitter_location (p : pdu DirectedEnergyFirePdu) : EntityCoordinateVector := fst (snd (snd (snd (snd (snd (body p)))))).
Definition DirectedEnergyFirePdu_aperture_diameter (p : pdu DirectedEnergyFirePdu) : f32 := fst (snd (snd (snd (snd (snd (snd (body p))))))).
Definition DirectedEnergyFirePdu_wavelength (p : pdu DirectedEnergyFirePdu) : f32 := fst (snd (snd (snd (snd (snd (snd (snd (body p)))))))).
Definition DirectedEnergyFirePdu_padding (p : pdu DirectedEnergyFirePdu) : u32 := fst (snd (snd (snd (snd (snd (snd (snd (snd (body p))))))))).
Definition DirectedEnergyFirePdu_pulse_repetition_frequency (p : pdu DirectedEnergyFirePdu) : f32 := fst (snd (snd (snd (snd (snd (snd (snd (snd (snd (body p)))))))))).
Definition DirectedEnergyFirePdu_pulse_width (p : pdu DirectedEnergyFirePdu) : f32 := fst (snd (snd (snd (snd (snd (snd (snd (snd (snd (snd (body p))))))))))).
Definition DirectedEnergyFirePdu_flags (p : pdu DirectedEnergyFirePdu) : u16 := fst (snd (snd (snd (snd (snd (snd (snd (snd (snd (snd (snd (body p)))))))))))).
Definition DirectedEnergyFirePdu_pulse_shape (p : pdu DirectedEnergyFirePdu) : DEFirePulseShape := fst (snd (snd (snd (snd (snd (snd (snd (snd (snd (snd (snd (snd (body p))))))))))))).
Definition DirectedEnergyFirePdu_padding2 (p : pdu DirectedEnergyFirePdu) : u8 := fst (snd (snd (snd (snd (snd (snd (snd (snd (snd (snd (snd (snd (snd (body p)))))))))))))).
Definition DirectedEnergyFirePdu_padding3 (p : pdu DirectedEnergyFirePdu) : u32 := fst (snd (snd (snd (snd (snd (snd (snd (snd (snd (snd (snd (snd (snd (snd (body p))))))))))))))).
Definition DirectedEnergyFirePdu_padding4 (p : pdu DirectedEnergyFirePdu) : u16 := fst (snd (snd (snd (snd (snd (snd (snd (snd (snd (snd (snd (snd (snd (snd (snd (body p)))))))))))))))).
Definition DirectedEnergyFirePdu_number_of_de_records (p : pdu DirectedEnergyFirePdu) : u16 := fst (snd (snd (snd (snd (snd (snd (snd (snd (snd (snd (snd (snd (snd (snd (snd (snd (body p))))))))))))))))).
Definition DirectedEnergyFirePdu_damage_descriptions (p : pdu DirectedEnergyFirePdu) : (list DirectedEnergyDamage) := fst (snd (snd (snd (snd (snd (snd (snd (snd (snd (snd (snd (snd (snd (snd (snd (snd (snd (body p)))))))))))))))))).

(** src/warfare.rs:98-113. *)
Definition EntityDamageStatusPdu_damaged_entity_id (p : pdu EntityDamageStatusPdu) : EntityId := fst (body p).
Definition EntityDamageStatusPdu_padding (p : pdu EntityDamageStatusPdu) : u16 := fst (snd (body p)).
Definition EntityDamageStatusPdu_padding2 (p : pdu EntityDamageStatusPdu) : u16 := fst (snd (snd (body p))).
Definition EntityDamageStatusPdu_number_of_damage_descriptions (p : pdu EntityDamageStatusPdu) : u16 := fst (snd (snd (snd (body p)))).
Definition EntityDamageStatusPdu_damage_descriptions (p : pdu EntityDamageStatusPdu) : (list DirectedEnergyDamage) := fst (snd (snd (snd (snd (body p))))).

