(** * The inherent constructors [T::new] of the record types.
    Generated by tools/gen_new.py from src/common/data_types/*.rs ([EntityId::new] is in
    [DataTypes]). Parameters keep their order and their names, prefixed with [new_];
    a [const fn] is an ordinary function. *)
From Verif Require Import Base EnumModel Enums Header PduMacro DataTypes.

(** acoustic_beam_fundamental_parameter.rs:20-36. *)
Definition AcousticBeamFundamentalParameter_new (new_active_emission_parameter_index : u16) (new_scan_pattern : u16) (new_beam_center_azimuth : f32) (new_azimuthal_beamwidth : f32) (new_beam_center_de : f32) (new_de_beamwidth : f32) : AcousticBeamFundamentalParameter :=
  mk_AcousticBeamFundamentalParameter new_active_emission_parameter_index new_scan_pattern new_beam_center_azimuth new_azimuthal_beamwidth new_beam_center_de new_de_beamwidth.

(** acoustic_beam_data.rs:21-33. *)
Definition AcousticBeamData_new (new_beam_data_length : u16) (new_beam_id_number : u8) (new_pad2 : u16) (new_fundamental_data_parameters : AcousticBeamFundamentalParameter) : AcousticBeamData :=
  mk_AcousticBeamData new_beam_data_length new_beam_id_number new_pad2 new_fundamental_data_parameters.

(** acoustic_emitter_system.rs:24-34. *)
Definition AcousticEmitterSystem_new (new_acoustic_name : enum UAAcousticSystemName_spec) (new_acoustic_function : enum UAAcousticEmitterSystemFunction_spec) (new_acoustic_id : u8) : AcousticEmitterSystem :=
  mk_AcousticEmitterSystem new_acoustic_name new_acoustic_function new_acoustic_id.

(** vector3_float.rs:25-27. *)
Definition Vector3Float_new (new_x : f32) (new_y : f32) (new_z : f32) : Vector3Float :=
  mk_Vector3Float new_x new_y new_z.

(** acoustic_emitter_system_data.rs:24-40. *)
Definition AcousticEmitterSystemData_new (new_emitter_system_data_length : u8) (new_number_of_beams : u8) (new_pad2 : u16) (new_acoustic_emitter_system : AcousticEmitterSystem) (new_emitter_location : Vector3Float) (new_beam_records : list AcousticBeamData) : AcousticEmitterSystemData :=
  mk_AcousticEmitterSystemData new_emitter_system_data_length new_number_of_beams new_pad2 new_acoustic_emitter_system new_emitter_location new_beam_records.

(** aggregate_id.rs:19-25. *)
Definition AggregateId_new (new_site : u16) (new_application : u16) (new_aggregate_id : u16) : AggregateId :=
  mk_AggregateId new_site new_application new_aggregate_id.

(** aggregate_marking.rs:18-23. *)
Definition AggregateMarking_new (new_character_set : u8) (new_characters : array i8 31) : AggregateMarking :=
  mk_AggregateMarking new_character_set new_characters.

(** angular_velocity_vector.rs:26-28. *)
Definition AngularVelocity_new : AngularVelocity :=
  AngularVelocity_default.

(** antenna_pattern.rs:40-44. *)
Definition AntennaPattern_new : AntennaPattern :=
  mk_AntennaPattern [].

(** apa_data.rs:23-28. *)
Definition ApaData_new (new_parameter_index : u16) (new_parameter_value : i16) : ApaData :=
  mk_ApaData new_parameter_index new_parameter_value.

(** attribute_record.rs:20-26. *)
Definition AttributeRecord_new : AttributeRecord :=
  mk_AttributeRecord (as_uint 4 0) (as_uint 2 0) [].

(** simulation_address.rs:38-43. *)
Definition SimulationAddress_new (new_site_id : u16) (new_application_id : u16) : SimulationAddress :=
  mk_SimulationAddress new_site_id new_application_id.

(** attribute_record_set.rs:26-32. *)
Definition AttributeRecordSet_new : AttributeRecordSet :=
  mk_AttributeRecordSet EntityId_default (as_uint 2 0) [].

(** beam_data.rs:26-40. *)
Definition BeamData_new (new_beam_azimuth_center : f32) (new_beam_azimuth_sweep : f32) (new_beam_elevation_center : f32) (new_beam_elevation_sweep : f32) (new_beam_sweep_sync : f32) : BeamData :=
  mk_BeamData new_beam_azimuth_center new_beam_azimuth_sweep new_beam_elevation_center new_beam_elevation_sweep new_beam_sweep_sync.

(** clock_time.rs:22-27. *)
Definition ClockTime_new (new_h : u32) (new_p : u32) : ClockTime :=
  mk_ClockTime new_h new_p.

(** linear_acceleration.rs:22-28. *)
Definition LinearAcceleration_new (new_x : f32) (new_y : f32) (new_z : f32) : LinearAcceleration :=
  mk_LinearAcceleration new_x new_y new_z.

(** dead_reckoning_parameters.rs:30-41. *)
Definition DeadReckoningParameters_new (new_dead_reckoning_algorithm : enum DeadReckoningAlgorithm_spec) (new_entity_linear_acceleration : LinearAcceleration) (new_entity_angular_velocity : AngularVelocity) : DeadReckoningParameters :=
  mk_DeadReckoningParameters new_dead_reckoning_algorithm (array_repeat (as_uint 1 0) 15) new_entity_linear_acceleration new_entity_angular_velocity.

(** entity_coordinate_vector.rs:27-33. *)
Definition EntityCoordinateVector_new (new_x : f32) (new_y : f32) (new_z : f32) : EntityCoordinateVector :=
  mk_EntityCoordinateVector new_x new_y new_z.

(** event_id.rs:23-32. *)
Definition EventId_new (new_site_identifier : u16) (new_application_identifier : u16) (new_event_identifier : u16) : EventId :=
  mk_EventId (SimulationAddress_new new_site_identifier new_application_identifier) new_event_identifier.

(** directed_energy_damage.rs:35-61. *)
Definition DirectedEnergyDamage_new (new_record_type : u32) (new_record_length : u16) (new_damage_location : EntityCoordinateVector) (new_damage_diameter : f32) (new_temperature : f32) (new_component_identification : enum ComponentIdentification_spec) (new_component_damage_status : enum ComponentDamageStatus_spec) (new_component_visual_damage_status : u8) (new_component_visual_smoke_color : enum ComponentVisualSmokeColor_spec) (new_fire_event_id : EventId) : DirectedEnergyDamage :=
  mk_DirectedEnergyDamage new_record_type new_record_length (as_uint 2 0) new_damage_location new_damage_diameter new_temperature new_component_identification new_component_damage_status new_component_visual_damage_status new_component_visual_smoke_color new_fire_event_id (as_uint 2 0).

(** emitter_system.rs:31-37. *)
Definition EmitterSystem_new (new_name : enum EmitterName_spec) (new_function : enum EmitterSystemFunction_spec) (new_id : u8) : EmitterSystem :=
  mk_EmitterSystem new_name new_function new_id.

(** entity_marking.rs:15-23. *)
Definition EntityMarking_new (new_entity_marking_character_set : enum EntityMarkingCharacterSet_spec) (new_entity_marking_string : bytes) : EntityMarking :=
  mk_EntityMarking new_entity_marking_character_set new_entity_marking_string.

(** entity_type.rs:28-46. *)
Definition EntityType_new (new_kind : enum EntityKind_spec) (new_domain : u8) (new_country : enum Country_spec) (new_category : u8) (new_subcategory : u8) (new_specific : u8) (new_extra : u8) : EntityType :=
  mk_EntityType new_kind new_domain new_country new_category new_subcategory new_specific new_extra.

(** environment.rs:20-27. *)
Definition Environment_new (new_environment_type : u32) (new_length : u16) (new_index : u8) (new_padding : u8) : Environment :=
  mk_Environment new_environment_type new_length new_index new_padding.

(** euler_angles.rs:28-30. *)
Definition EulerAngles_new (new_psi : f32) (new_theta : f32) (new_phi : f32) : EulerAngles :=
  mk_EulerAngles new_psi new_theta new_phi.

(** fundamental_operational_data.rs:30-54. *)
Definition FundamentalOperationalData_new (new_system_status : u8) (new_data_field1 : u8) (new_information_layers : u8) (new_data_field2 : u8) (new_parameter1 : u16) (new_parameter2 : u16) (new_parameter3 : u16) (new_parameter4 : u16) (new_parameter5 : u16) (new_parameter6 : u16) : FundamentalOperationalData :=
  mk_FundamentalOperationalData new_system_status new_data_field1 new_information_layers new_data_field2 new_parameter1 new_parameter2 new_parameter3 new_parameter4 new_parameter5 new_parameter6.

(** grid_axis_descriptor.rs:67-83. *)
Definition GridAxisDescriptor_new (new_domain_initial : f64) (new_domain_final : f64) (new_domain_points : u16) (new_interleaf_factor : u8) (new_axis_type : enum GridAxisDescriptorAxisType_spec) (new_data : GridAxisType) : GridAxisDescriptor :=
  mk_GridAxisDescriptor new_domain_initial new_domain_final new_domain_points new_interleaf_factor new_axis_type new_data.

(** grid_data_record.rs:73-83. *)
Definition GridDataRecord_new (new_sample_type : enum GriddedDataSampleType_spec) (new_data_representation : enum GriddedDataDataRepresentation_spec) (new_data : DataRepresentationType) : GridDataRecord :=
  mk_GridDataRecord new_sample_type new_data_representation new_data.

(** iff_fundamental_parameter_data.rs:40-58. *)
Definition IFFFundamentalParameterData_new (new_erp : f32) (new_frequency : f32) (new_pgrf : f32) (new_pulse_width : f32) (new_burst_length : u32) (new_applicable_modes : u8) (new_system_specific_data : array u8 3) : IFFFundamentalParameterData :=
  mk_IFFFundamentalParameterData new_erp new_frequency new_pgrf new_pulse_width new_burst_length new_applicable_modes new_system_specific_data.

(** intercom_communications_parameters.rs:36-42. *)
Definition IntercomCommunicationsParameters_new (new_record_type : u16) (new_record_length : u16) (new_record_specific_field : u32) : IntercomCommunicationsParameters :=
  mk_IntercomCommunicationsParameters new_record_type new_record_length new_record_specific_field.

(** layer_header.rs:24-30. *)
Definition LayerHeader_new (new_layer_number : u8) (new_layer_specific_information : u8) (new_length : u16) : LayerHeader :=
  mk_LayerHeader new_layer_number new_layer_specific_information new_length.

(** world_coordinate.rs:37-39. *)
Definition WorldCoordinate_new (new_x : f64) (new_y : f64) (new_z : f64) : WorldCoordinate :=
  mk_WorldCoordinate new_x new_y new_z.

(** linear_segment_parameter.rs:31-56. *)
Definition LinearSegmentParameter_new (new_segment_number : u8) (new_segment_modification : u8) (new_general_segment_appearance : u32) (new_specific_segment_appearance : u32) (new_segment_location : WorldCoordinate) (new_segment_orientation : EulerAngles) (new_segment_length : f32) (new_segment_width : f32) (new_segment_height : f32) (new_segment_depth : f32) : LinearSegmentParameter :=
  mk_LinearSegmentParameter new_segment_number new_segment_modification new_general_segment_appearance new_specific_segment_appearance new_segment_location new_segment_orientation new_segment_length new_segment_width new_segment_height new_segment_depth (as_uint 4 0).

(** linear_velocity.rs:22-28. *)
Definition LinearVelocity_new (new_x : f32) (new_y : f32) (new_z : f32) : LinearVelocity :=
  mk_LinearVelocity new_x new_y new_z.

(** minefield_identifier.rs:21-26. *)
Definition MinefieldIdentifier_new (new_simulation_address : SimulationAddress) (new_minefield_number : u16) : MinefieldIdentifier :=
  mk_MinefieldIdentifier new_simulation_address new_minefield_number.

(** modulation_parameters.rs:17-21. *)
Definition ModulationParameters_new : ModulationParameters :=
  mk_ModulationParameters [].

(** modulation_type.rs:20-27. *)
Definition ModulationType_new (new_spread_spectrum : u16) (new_major : u16) (new_detail : u16) (new_system : u16) : ModulationType :=
  mk_ModulationType new_spread_spectrum new_major new_detail new_system.

(** munition_descriptor.rs:24-38. *)
Definition MunitionDescriptor_new (new_munition_type : EntityType) (new_warhead : u16) (new_fuse : u16) (new_quantity : u16) (new_rate : u16) : MunitionDescriptor :=
  mk_MunitionDescriptor new_munition_type new_warhead new_fuse new_quantity new_rate.

(** named_location.rs:18-23. *)
Definition NamedLocation_new (new_station_name : u16) (new_station_number : u16) : NamedLocation :=
  mk_NamedLocation new_station_name new_station_number.

(** object_identifier.rs:21-23. *)
Definition ObjectIdentifier_new : ObjectIdentifier :=
  ObjectIdentifier_default.

(** object_type.rs:20-27. *)
Definition ObjectType_new (new_domain : u8) (new_object_kind : u8) (new_category : u8) (new_subcategory : u8) : ObjectType :=
  mk_ObjectType new_domain new_object_kind new_category new_subcategory.

(** point.rs:18-20. *)
Definition Point_new (new_x : f32) (new_y : f32) : Point :=
  mk_Point new_x new_y.

(** propulsion_system_data.rs:21-26. *)
Definition PropulsionSystemData_new (new_power_setting : f32) (new_engine_rpm : f32) : PropulsionSystemData :=
  mk_PropulsionSystemData new_power_setting new_engine_rpm.

(** radio_entity_type.rs:22-38. *)
Definition RadioEntityType_new (new_entity_kind : u8) (new_domain : u8) (new_country : u16) (new_category : u8) (new_nomenclature_version : u8) (new_nomenclature : u16) : RadioEntityType :=
  mk_RadioEntityType new_entity_kind new_domain new_country new_category new_nomenclature_version new_nomenclature.

(** record_specification_element.rs:21-35. *)
Definition RecordSpecificationElement_new (new_record_id : u32) (new_record_set_serial_number : u32) (new_record_length : u16) (new_record_count : u16) (new_record_values : list u8) : RecordSpecificationElement :=
  mk_RecordSpecificationElement new_record_id new_record_set_serial_number new_record_length new_record_count new_record_values.

(** record_specification.rs:20-28. *)
Definition RecordSpecification_new (new_number_of_record_sets : u32) (new_record_sets : list RecordSpecificationElement) : RecordSpecification :=
  mk_RecordSpecification new_number_of_record_sets new_record_sets.

(** relationship.rs:18-20. *)
Definition Relationship_new (new_nature : u16) (new_position : u16) : Relationship :=
  mk_Relationship new_nature new_position.

(** secondary_operational_data.rs:22-32. *)
Definition SecondaryOperationalData_new (new_operational_data1 : u8) (new_operational_data2 : u8) (new_number_of_iff_fundamental_parameter_records : u16) : SecondaryOperationalData :=
  mk_SecondaryOperationalData new_operational_data1 new_operational_data2 new_number_of_iff_fundamental_parameter_records.

(** shaft_rpms.rs:24-34. *)
Definition ShaftRPMs_new (new_current_shaft_rpms : i16) (new_ordered_shaft_rpms : i16) (new_shaft_rpm_rate_of_change : i32) : ShaftRPMs :=
  mk_ShaftRPMs new_current_shaft_rpms new_ordered_shaft_rpms new_shaft_rpm_rate_of_change.

(** simulation_id.rs:22-27. *)
Definition SimulationIdentifier_new : SimulationIdentifier :=
  mk_SimulationIdentifier SimulationAddress_default (as_uint 2 0).

(** standard_variable_records.rs:19-29. *)
Definition StandardVariableRecords_new (new_record_type : u32) (new_record_length : u16) (new_record_specific_fields : list u8) : StandardVariableRecords :=
  mk_StandardVariableRecords new_record_type new_record_length new_record_specific_fields.

(** standard_variable_specification.rs:18-26. *)
Definition StandardVariableSpecification_new (new_number_of_standard_variable_records : u16) (new_standard_variable_records : list StandardVariableRecords) : StandardVariableSpecification :=
  mk_StandardVariableSpecification new_number_of_standard_variable_records new_standard_variable_records.

(** supply_quantity.rs:21-26. *)
Definition SupplyQuantity_new (new_supply_type : EntityType) (new_quantity : f32) : SupplyQuantity :=
  mk_SupplyQuantity new_supply_type new_quantity.

(** system_id.rs:23-35. *)
Definition SystemId_new (new_system_type : u16) (new_system_name : u16) (new_system_mode : u8) (new_change_options : u8) : SystemId :=
  mk_SystemId new_system_type new_system_name new_system_mode new_change_options.

(** variable_parameter.rs:24-38. *)
Definition VariableParameter_new (new_record_type : u8) (new_variable_parameter_field1 : f64) (new_variable_parameter_field2 : u32) (new_variable_parameter_field3 : u16) (new_variable_parameter_field4 : u8) : VariableParameter :=
  mk_VariableParameter new_record_type new_variable_parameter_field1 new_variable_parameter_field2 new_variable_parameter_field3 new_variable_parameter_field4.

(** variable_transmitter_parameters.rs:37-39. *)
Definition VariableTransmitterParameters_new : VariableTransmitterParameters :=
  VariableTransmitterParameters_default.

(** vector3_double.rs:24-26. *)
Definition Vector3Double_new (new_x : f64) (new_y : f64) (new_z : f64) : Vector3Double :=
  mk_Vector3Double new_x new_y new_z.

(** vectoring_nozzle_system_data.rs:21-26. *)
Definition VectoringNozzleSystemData_new (new_horizontal_deflection_angle : f32) (new_vertical_deflection_angle : f32) : VectoringNozzleSystemData :=
  mk_VectoringNozzleSystemData new_horizontal_deflection_angle new_vertical_deflection_angle.

(** velocity_vector.rs:17-23. *)
Definition VelocityVector_new (new_x : f32) (new_y : f32) (new_z : f32) : VelocityVector :=
  mk_VelocityVector new_x new_y new_z.
