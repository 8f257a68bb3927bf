(** * The codecs follow the wire maps (proofs only; generated by tools/gen_wire.py). *)
From Verif Require Import Base BaseFacts EnumModel Enums EnumFacts Fixed Header HeaderFacts PduMacro PduMacroFacts
  DataTypes DataTypesFacts Bitflags BitflagsFacts Pdus PduFields Spec RecordFacts Wire WireMaps WireProofs.

Lemma AcousticBeamFundamentalParameter_parts : AcousticBeamFundamentalParameter_map = part "active_emission_parameter_index"%string 0 AcousticBeamFundamentalParameter_active_emission_parameter_index (uint_map 2) ++ part "scan_pattern"%string 2 AcousticBeamFundamentalParameter_scan_pattern (uint_map 2) ++ part "beam_center_azimuth"%string 4 AcousticBeamFundamentalParameter_beam_center_azimuth (uint_map 4) ++ part "azimuthal_beamwidth"%string 8 AcousticBeamFundamentalParameter_azimuthal_beamwidth (uint_map 4) ++ part "beam_center_de"%string 12 AcousticBeamFundamentalParameter_beam_center_de (uint_map 4) ++ part "de_beamwidth"%string 16 AcousticBeamFundamentalParameter_de_beamwidth (uint_map 4).
Proof. reflexivity. Qed.
Lemma AcousticBeamFundamentalParameter_wire : wire 20 AcousticBeamFundamentalParameter_map AcousticBeamFundamentalParameter_serialize AcousticBeamFundamentalParameter_deserialize.
Proof. wire_tac AcousticBeamFundamentalParameter_parts AcousticBeamFundamentalParameter_serialize AcousticBeamFundamentalParameter_deserialize. Qed.
#[export] Hint Resolve AcousticBeamFundamentalParameter_wire : wr.

Lemma AcousticBeamData_parts : AcousticBeamData_map = part "beam_data_length"%string 0 AcousticBeamData_beam_data_length (uint_map 2) ++ part "beam_id_number"%string 2 AcousticBeamData_beam_id_number (uint_map 1) ++ part "pad2"%string 3 AcousticBeamData_pad2 (uint_map 2) ++ part "fundamental_data_parameters"%string 5 AcousticBeamData_fundamental_data_parameters AcousticBeamFundamentalParameter_map.
Proof. reflexivity. Qed.
Lemma AcousticBeamData_wire : wire 25 AcousticBeamData_map AcousticBeamData_serialize AcousticBeamData_deserialize.
Proof. wire_tac AcousticBeamData_parts AcousticBeamData_serialize AcousticBeamData_deserialize. Qed.
#[export] Hint Resolve AcousticBeamData_wire : wr.

Lemma AcousticEmitterSystem_parts : AcousticEmitterSystem_map = part "acoustic_name"%string 0 AcousticEmitterSystem_acoustic_name (enum_map 2 UAAcousticSystemName_spec) ++ part "acoustic_function"%string 2 AcousticEmitterSystem_acoustic_function (enum_map 1 UAAcousticEmitterSystemFunction_spec) ++ part "acoustic_id"%string 3 AcousticEmitterSystem_acoustic_id (uint_map 1).
Proof. reflexivity. Qed.
Lemma AcousticEmitterSystem_wire : wire 4 AcousticEmitterSystem_map AcousticEmitterSystem_serialize AcousticEmitterSystem_deserialize.
Proof. wire_tac AcousticEmitterSystem_parts AcousticEmitterSystem_serialize AcousticEmitterSystem_deserialize. Qed.
#[export] Hint Resolve AcousticEmitterSystem_wire : wr.

Lemma Vector3Float_parts : Vector3Float_map = part "x"%string 0 Vector3Float_x (uint_map 4) ++ part "y"%string 4 Vector3Float_y (uint_map 4) ++ part "z"%string 8 Vector3Float_z (uint_map 4).
Proof. reflexivity. Qed.
Lemma Vector3Float_wire : wire 12 Vector3Float_map Vector3Float_serialize Vector3Float_deserialize.
Proof. wire_tac Vector3Float_parts Vector3Float_serialize Vector3Float_deserialize. Qed.
#[export] Hint Resolve Vector3Float_wire : wr.

Lemma AggregateId_parts : AggregateId_map = part "site"%string 0 AggregateId_site (uint_map 2) ++ part "application"%string 2 AggregateId_application (uint_map 2) ++ part "aggregate_id"%string 4 AggregateId_aggregate_id (uint_map 2).
Proof. reflexivity. Qed.
Lemma AggregateId_wire : wire 6 AggregateId_map AggregateId_serialize AggregateId_deserialize.
Proof. wire_tac AggregateId_parts AggregateId_serialize AggregateId_deserialize. Qed.
#[export] Hint Resolve AggregateId_wire : wr.

Lemma AggregateMarking_parts : AggregateMarking_map = part "character_set"%string 0 AggregateMarking_character_set (uint_map 1) ++ part "characters"%string 1 AggregateMarking_characters (array_map 31).
Proof. reflexivity. Qed.
Lemma AggregateMarking_wire : wire 32 AggregateMarking_map AggregateMarking_serialize AggregateMarking_deserialize.
Proof. wire_tac AggregateMarking_parts AggregateMarking_serialize AggregateMarking_deserialize. Qed.
#[export] Hint Resolve AggregateMarking_wire : wr.

Lemma AngularVelocity_parts : AngularVelocity_map = part "rate_about_x_axis"%string 0 AngularVelocity_rate_about_x_axis (uint_map 4) ++ part "rate_about_y_axis"%string 4 AngularVelocity_rate_about_y_axis (uint_map 4) ++ part "rate_about_z_axis"%string 8 AngularVelocity_rate_about_z_axis (uint_map 4).
Proof. reflexivity. Qed.
Lemma AngularVelocity_wire : wire 12 AngularVelocity_map AngularVelocity_serialize AngularVelocity_deserialize.
Proof. wire_tac AngularVelocity_parts AngularVelocity_serialize AngularVelocity_deserialize. Qed.
#[export] Hint Resolve AngularVelocity_wire : wr.

Lemma ApaData_parts : ApaData_map = part "parameter_index"%string 0 ApaData_parameter_index (uint_map 2) ++ part "parameter_value"%string 2 ApaData_parameter_value (uint_map 2).
Proof. reflexivity. Qed.
Lemma ApaData_wire : wire 4 ApaData_map ApaData_serialize ApaData_deserialize.
Proof. wire_tac ApaData_parts ApaData_serialize ApaData_deserialize. Qed.
#[export] Hint Resolve ApaData_wire : wr.

Lemma SimulationAddress_parts : SimulationAddress_map = part "site_id"%string 0 SimulationAddress_site_id (uint_map 2) ++ part "application_id"%string 2 SimulationAddress_application_id (uint_map 2).
Proof. reflexivity. Qed.
Lemma SimulationAddress_wire : wire 4 SimulationAddress_map SimulationAddress_serialize SimulationAddress_deserialize.
Proof. wire_tac SimulationAddress_parts SimulationAddress_serialize SimulationAddress_deserialize. Qed.
#[export] Hint Resolve SimulationAddress_wire : wr.

Lemma EntityId_parts : EntityId_map = part "simulation_address"%string 0 EntityId_simulation_address SimulationAddress_map ++ part "entity_id"%string 4 EntityId_entity_id (uint_map 2).
Proof. reflexivity. Qed.
Lemma EntityId_wire : wire 6 EntityId_map EntityId_serialize EntityId_deserialize.
Proof. wire_tac EntityId_parts EntityId_serialize EntityId_deserialize. Qed.
#[export] Hint Resolve EntityId_wire : wr.

Lemma BeamData_parts : BeamData_map = part "beam_azimuth_center"%string 0 BeamData_beam_azimuth_center (uint_map 4) ++ part "beam_azimuth_sweep"%string 4 BeamData_beam_azimuth_sweep (uint_map 4) ++ part "beam_elevation_center"%string 8 BeamData_beam_elevation_center (uint_map 4) ++ part "beam_elevation_sweep"%string 12 BeamData_beam_elevation_sweep (uint_map 4) ++ part "beam_sweep_sync"%string 16 BeamData_beam_sweep_sync (uint_map 4).
Proof. reflexivity. Qed.
Lemma BeamData_wire : wire 20 BeamData_map BeamData_serialize BeamData_deserialize.
Proof. wire_tac BeamData_parts BeamData_serialize BeamData_deserialize. Qed.
#[export] Hint Resolve BeamData_wire : wr.

Lemma ClockTime_parts : ClockTime_map = part "hour"%string 0 ClockTime_hour (uint_map 4) ++ part "time_past_hour"%string 4 ClockTime_time_past_hour (uint_map 4).
Proof. reflexivity. Qed.
Lemma ClockTime_wire : wire 8 ClockTime_map ClockTime_serialize ClockTime_deserialize.
Proof. wire_tac ClockTime_parts ClockTime_serialize ClockTime_deserialize. Qed.
#[export] Hint Resolve ClockTime_wire : wr.

Lemma FixedDatumRecord_parts : FixedDatumRecord_map = part "datum_id"%string 0 FixedDatumRecord_datum_id (uint_map 4) ++ part "datum_value"%string 4 FixedDatumRecord_datum_value (uint_map 4).
Proof. reflexivity. Qed.
Lemma FixedDatumRecord_wire : wire 8 FixedDatumRecord_map FixedDatumRecord_serialize FixedDatumRecord_deserialize.
Proof. wire_tac FixedDatumRecord_parts FixedDatumRecord_serialize FixedDatumRecord_deserialize. Qed.
#[export] Hint Resolve FixedDatumRecord_wire : wr.

Lemma LinearAcceleration_parts : LinearAcceleration_map = part "first_vector_component"%string 0 LinearAcceleration_first_vector_component (uint_map 4) ++ part "second_vector_component"%string 4 LinearAcceleration_second_vector_component (uint_map 4) ++ part "third_vector_component"%string 8 LinearAcceleration_third_vector_component (uint_map 4).
Proof. reflexivity. Qed.
Lemma LinearAcceleration_wire : wire 12 LinearAcceleration_map LinearAcceleration_serialize LinearAcceleration_deserialize.
Proof. wire_tac LinearAcceleration_parts LinearAcceleration_serialize LinearAcceleration_deserialize. Qed.
#[export] Hint Resolve LinearAcceleration_wire : wr.

Lemma DeadReckoningParameters_parts : DeadReckoningParameters_map = part "dead_reckoning_algorithm"%string 0 DeadReckoningParameters_dead_reckoning_algorithm (enum_map 1 DeadReckoningAlgorithm_spec) ++ part "dead_reckoning_other_parameters"%string 1 DeadReckoningParameters_dead_reckoning_other_parameters (lost_array_map 15) ++ part "entity_linear_acceleration"%string 16 DeadReckoningParameters_entity_linear_acceleration LinearAcceleration_map ++ part "entity_angular_velocity"%string 28 DeadReckoningParameters_entity_angular_velocity AngularVelocity_map.
Proof. reflexivity. Qed.
Lemma DeadReckoningParameters_wire : wire 40 DeadReckoningParameters_map DeadReckoningParameters_serialize DeadReckoningParameters_deserialize.
Proof. wire_tac DeadReckoningParameters_parts DeadReckoningParameters_serialize DeadReckoningParameters_deserialize. Qed.
#[export] Hint Resolve DeadReckoningParameters_wire : wr.

Lemma EntityCoordinateVector_parts : EntityCoordinateVector_map = part "x_coordinate"%string 0 EntityCoordinateVector_x_coordinate (uint_map 4) ++ part "y_coordinate"%string 4 EntityCoordinateVector_y_coordinate (uint_map 4) ++ part "z_coordinate"%string 8 EntityCoordinateVector_z_coordinate (uint_map 4).
Proof. reflexivity. Qed.
Lemma EntityCoordinateVector_wire : wire 12 EntityCoordinateVector_map EntityCoordinateVector_serialize EntityCoordinateVector_deserialize.
Proof. wire_tac EntityCoordinateVector_parts EntityCoordinateVector_serialize EntityCoordinateVector_deserialize. Qed.
#[export] Hint Resolve EntityCoordinateVector_wire : wr.

Lemma EventId_parts : EventId_map = part "simulation_address"%string 0 EventId_simulation_address SimulationAddress_map ++ part "event_identifier"%string 4 EventId_event_identifier (uint_map 2).
Proof. reflexivity. Qed.
Lemma EventId_wire : wire 6 EventId_map EventId_serialize EventId_deserialize.
Proof. wire_tac EventId_parts EventId_serialize EventId_deserialize. Qed.
#[export] Hint Resolve EventId_wire : wr.

Lemma DirectedEnergyDamage_parts : DirectedEnergyDamage_map = part "record_type"%string 0 DirectedEnergyDamage_record_type (uint_map 4) ++ part "record_length"%string 4 DirectedEnergyDamage_record_length (uint_map 2) ++ part "padding"%string 6 DirectedEnergyDamage_padding (uint_map 2) ++ part "damage_location"%string 8 DirectedEnergyDamage_damage_location EntityCoordinateVector_map ++ part "damage_diameter"%string 20 DirectedEnergyDamage_damage_diameter (uint_map 4) ++ part "temperature"%string 24 DirectedEnergyDamage_temperature (uint_map 4) ++ part "component_identification"%string 28 DirectedEnergyDamage_component_identification (enum_map 1 ComponentIdentification_spec) ++ part "component_damage_status"%string 29 DirectedEnergyDamage_component_damage_status (enum_map 1 ComponentDamageStatus_spec) ++ part "component_visual_damage_status"%string 30 DirectedEnergyDamage_component_visual_damage_status (uint_map 1) ++ part "component_visual_smoke_color"%string 31 DirectedEnergyDamage_component_visual_smoke_color (enum_map 1 ComponentVisualSmokeColor_spec) ++ part "fire_event_id"%string 32 DirectedEnergyDamage_fire_event_id EventId_map ++ part "padding2"%string 38 DirectedEnergyDamage_padding2 (uint_map 2).
Proof. reflexivity. Qed.
Lemma DirectedEnergyDamage_wire : wire 40 DirectedEnergyDamage_map DirectedEnergyDamage_serialize DirectedEnergyDamage_deserialize.
Proof. wire_tac DirectedEnergyDamage_parts DirectedEnergyDamage_serialize DirectedEnergyDamage_deserialize. Qed.
#[export] Hint Resolve DirectedEnergyDamage_wire : wr.

Lemma FundamentalParameterData_parts : FundamentalParameterData_map = part "frequency"%string 0 FundamentalParameterData_frequency (uint_map 4) ++ part "frequency_range"%string 4 FundamentalParameterData_frequency_range (uint_map 4) ++ part "effective_radiated_power"%string 8 FundamentalParameterData_effective_radiated_power (uint_map 4) ++ part "pulse_repetition_frequency"%string 12 FundamentalParameterData_pulse_repetition_frequency (uint_map 4) ++ part "pulse_width"%string 16 FundamentalParameterData_pulse_width (uint_map 4) ++ part "beam_azimuth_center"%string 20 FundamentalParameterData_beam_azimuth_center (uint_map 4) ++ part "beam_azimuth_sweep"%string 24 FundamentalParameterData_beam_azimuth_sweep (uint_map 4) ++ part "beam_elevation_center"%string 28 FundamentalParameterData_beam_elevation_center (uint_map 4) ++ part "beam_elevation_sweep"%string 32 FundamentalParameterData_beam_elevation_sweep (uint_map 4) ++ part "beam_sweep_sync"%string 36 FundamentalParameterData_beam_sweep_sync (uint_map 4).
Proof. reflexivity. Qed.
Lemma FundamentalParameterData_wire : wire 40 FundamentalParameterData_map FundamentalParameterData_serialize FundamentalParameterData_deserialize.
Proof. wire_tac FundamentalParameterData_parts FundamentalParameterData_serialize FundamentalParameterData_deserialize. Qed.
#[export] Hint Resolve FundamentalParameterData_wire : wr.

Lemma TrackJamTarget_parts : TrackJamTarget_map = part "track_jam"%string 0 TrackJamTarget_track_jam EntityId_map ++ part "emitter_id"%string 6 TrackJamTarget_emitter_id (uint_map 1) ++ part "beam_id"%string 7 TrackJamTarget_beam_id (uint_map 1).
Proof. reflexivity. Qed.
Lemma TrackJamTarget_wire : wire 8 TrackJamTarget_map TrackJamTarget_serialize TrackJamTarget_deserialize.
Proof. wire_tac TrackJamTarget_parts TrackJamTarget_serialize TrackJamTarget_deserialize. Qed.
#[export] Hint Resolve TrackJamTarget_wire : wr.

Lemma EmitterSystem_parts : EmitterSystem_map = part "emitter_name"%string 0 EmitterSystem_emitter_name (enum_map 2 EmitterName_spec) ++ part "function"%string 2 EmitterSystem_function (enum_map 1 EmitterSystemFunction_spec) ++ part "emitter_id_number"%string 3 EmitterSystem_emitter_id_number (uint_map 1).
Proof. reflexivity. Qed.
Lemma EmitterSystem_wire : wire 4 EmitterSystem_map EmitterSystem_serialize EmitterSystem_deserialize.
Proof. wire_tac EmitterSystem_parts EmitterSystem_serialize EmitterSystem_deserialize. Qed.
#[export] Hint Resolve EmitterSystem_wire : wr.

Lemma EntityMarking_parts : EntityMarking_map = part "entity_marking_character_set"%string 0 EntityMarking_entity_marking_character_set (enum_map 1 EntityMarkingCharacterSet_spec).
Proof. reflexivity. Qed.
(* EntityMarking: prefix only, see WireProofs2 *)

Lemma EntityType_parts : EntityType_map = part "kind"%string 0 EntityType_kind (enum_map 1 EntityKind_spec) ++ part "domain"%string 1 EntityType_domain (uint_map 1) ++ part "country"%string 2 EntityType_country (enum_map 2 Country_spec) ++ part "category"%string 4 EntityType_category (uint_map 1) ++ part "subcategory"%string 5 EntityType_subcategory (uint_map 1) ++ part "specific"%string 6 EntityType_specific (uint_map 1) ++ part "extra"%string 7 EntityType_extra (uint_map 1).
Proof. reflexivity. Qed.
Lemma EntityType_wire : wire 8 EntityType_map EntityType_serialize EntityType_deserialize.
Proof. wire_tac EntityType_parts EntityType_serialize EntityType_deserialize. Qed.
#[export] Hint Resolve EntityType_wire : wr.

Lemma Environment_parts : Environment_map = part "environment_type"%string 0 Environment_environment_type (uint_map 4) ++ part "length"%string 4 Environment_length (uint_map 2) ++ part "index"%string 6 Environment_index (uint_map 1) ++ part "padding"%string 7 Environment_padding (uint_map 1).
Proof. reflexivity. Qed.
Lemma Environment_wire : wire 8 Environment_map Environment_serialize Environment_deserialize.
Proof. wire_tac Environment_parts Environment_serialize Environment_deserialize. Qed.
#[export] Hint Resolve Environment_wire : wr.

Lemma EulerAngles_parts : EulerAngles_map = part "psi"%string 0 EulerAngles_psi (uint_map 4) ++ part "theta"%string 4 EulerAngles_theta (uint_map 4) ++ part "phi"%string 8 EulerAngles_phi (uint_map 4).
Proof. reflexivity. Qed.
Lemma EulerAngles_wire : wire 12 EulerAngles_map EulerAngles_serialize EulerAngles_deserialize.
Proof. wire_tac EulerAngles_parts EulerAngles_serialize EulerAngles_deserialize. Qed.
#[export] Hint Resolve EulerAngles_wire : wr.

Lemma FundamentalOperationalData_parts : FundamentalOperationalData_map = part "system_status"%string 0 FundamentalOperationalData_system_status (uint_map 1) ++ part "data_field1"%string 1 FundamentalOperationalData_data_field1 (uint_map 1) ++ part "information_layers"%string 2 FundamentalOperationalData_information_layers (uint_map 1) ++ part "data_field2"%string 3 FundamentalOperationalData_data_field2 (uint_map 1) ++ part "parameter1"%string 4 FundamentalOperationalData_parameter1 (uint_map 2) ++ part "parameter2"%string 6 FundamentalOperationalData_parameter2 (uint_map 2) ++ part "parameter3"%string 8 FundamentalOperationalData_parameter3 (uint_map 2) ++ part "parameter4"%string 10 FundamentalOperationalData_parameter4 (uint_map 2) ++ part "parameter5"%string 12 FundamentalOperationalData_parameter5 (uint_map 2) ++ part "parameter6"%string 14 FundamentalOperationalData_parameter6 (uint_map 2).
Proof. reflexivity. Qed.
Lemma FundamentalOperationalData_wire : wire 16 FundamentalOperationalData_map FundamentalOperationalData_serialize FundamentalOperationalData_deserialize.
Proof. wire_tac FundamentalOperationalData_parts FundamentalOperationalData_serialize FundamentalOperationalData_deserialize. Qed.
#[export] Hint Resolve FundamentalOperationalData_wire : wr.

Lemma IFFFundamentalParameterData_parts : IFFFundamentalParameterData_map = part "erp"%string 0 IFFFundamentalParameterData_erp (uint_map 4) ++ part "frequency"%string 4 IFFFundamentalParameterData_frequency (uint_map 4) ++ part "pgrf"%string 8 IFFFundamentalParameterData_pgrf (uint_map 4) ++ part "pulse_width"%string 12 IFFFundamentalParameterData_pulse_width (uint_map 4) ++ part "burst_length"%string 16 IFFFundamentalParameterData_burst_length (uint_map 4) ++ part "applicable_modes"%string 20 IFFFundamentalParameterData_applicable_modes (uint_map 1) ++ part "system_specific_data"%string 21 IFFFundamentalParameterData_system_specific_data (array_map 3).
Proof. reflexivity. Qed.
Lemma IFFFundamentalParameterData_wire : wire 24 IFFFundamentalParameterData_map IFFFundamentalParameterData_serialize IFFFundamentalParameterData_deserialize.
Proof. wire_tac IFFFundamentalParameterData_parts IFFFundamentalParameterData_serialize IFFFundamentalParameterData_deserialize. Qed.
#[export] Hint Resolve IFFFundamentalParameterData_wire : wr.

Lemma IntercomCommunicationsParameters_parts : IntercomCommunicationsParameters_map = part "record_type"%string 0 IntercomCommunicationsParameters_record_type (uint_map 2) ++ part "record_length"%string 2 IntercomCommunicationsParameters_record_length (uint_map 2) ++ part "record_specific_field"%string 4 IntercomCommunicationsParameters_record_specific_field (uint_map 4).
Proof. reflexivity. Qed.
Lemma IntercomCommunicationsParameters_wire : wire 8 IntercomCommunicationsParameters_map IntercomCommunicationsParameters_serialize IntercomCommunicationsParameters_deserialize.
Proof. wire_tac IntercomCommunicationsParameters_parts IntercomCommunicationsParameters_serialize IntercomCommunicationsParameters_deserialize. Qed.
#[export] Hint Resolve IntercomCommunicationsParameters_wire : wr.

Lemma LayerHeader_parts : LayerHeader_map = part "layer_number"%string 0 LayerHeader_layer_number (uint_map 1) ++ part "layer_specific_information"%string 1 LayerHeader_layer_specific_information (uint_map 1) ++ part "length"%string 2 LayerHeader_length (uint_map 2).
Proof. reflexivity. Qed.
Lemma LayerHeader_wire : wire 4 LayerHeader_map LayerHeader_serialize LayerHeader_deserialize.
Proof. wire_tac LayerHeader_parts LayerHeader_serialize LayerHeader_deserialize. Qed.
#[export] Hint Resolve LayerHeader_wire : wr.

Lemma WorldCoordinate_parts : WorldCoordinate_map = part "x"%string 0 WorldCoordinate_x (uint_map 8) ++ part "y"%string 8 WorldCoordinate_y (uint_map 8) ++ part "z"%string 16 WorldCoordinate_z (uint_map 8).
Proof. reflexivity. Qed.
Lemma WorldCoordinate_wire : wire 24 WorldCoordinate_map WorldCoordinate_serialize WorldCoordinate_deserialize.
Proof. wire_tac WorldCoordinate_parts WorldCoordinate_serialize WorldCoordinate_deserialize. Qed.
#[export] Hint Resolve WorldCoordinate_wire : wr.

Lemma LinearSegmentParameter_parts : LinearSegmentParameter_map = part "segment_number"%string 0 LinearSegmentParameter_segment_number (uint_map 1) ++ part "segment_modification"%string 1 LinearSegmentParameter_segment_modification (uint_map 1) ++ part "general_segment_appearance"%string 2 LinearSegmentParameter_general_segment_appearance (uint_map 4) ++ part "specific_segment_appearance"%string 6 LinearSegmentParameter_specific_segment_appearance (uint_map 4) ++ part "segment_location"%string 10 LinearSegmentParameter_segment_location WorldCoordinate_map ++ part "segment_orientation"%string 34 LinearSegmentParameter_segment_orientation EulerAngles_map ++ part "segment_length"%string 46 LinearSegmentParameter_segment_length (uint_map 4) ++ part "segment_width"%string 50 LinearSegmentParameter_segment_width (uint_map 4) ++ part "segment_height"%string 54 LinearSegmentParameter_segment_height (uint_map 4) ++ part "segment_depth"%string 58 LinearSegmentParameter_segment_depth (uint_map 4) ++ part "padding"%string 62 LinearSegmentParameter_padding (uint_map 4).
Proof. reflexivity. Qed.
Lemma LinearSegmentParameter_wire : wire 66 LinearSegmentParameter_map LinearSegmentParameter_serialize LinearSegmentParameter_deserialize.
Proof. wire_tac LinearSegmentParameter_parts LinearSegmentParameter_serialize LinearSegmentParameter_deserialize. Qed.
#[export] Hint Resolve LinearSegmentParameter_wire : wr.

Lemma LinearVelocity_parts : LinearVelocity_map = part "first_vector_component"%string 0 LinearVelocity_first_vector_component (uint_map 4) ++ part "second_vector_component"%string 4 LinearVelocity_second_vector_component (uint_map 4) ++ part "third_vector_component"%string 8 LinearVelocity_third_vector_component (uint_map 4).
Proof. reflexivity. Qed.
Lemma LinearVelocity_wire : wire 12 LinearVelocity_map LinearVelocity_serialize LinearVelocity_deserialize.
Proof. wire_tac LinearVelocity_parts LinearVelocity_serialize LinearVelocity_deserialize. Qed.
#[export] Hint Resolve LinearVelocity_wire : wr.

Lemma MinefieldIdentifier_parts : MinefieldIdentifier_map = part "simulation_address"%string 0 MinefieldIdentifier_simulation_address SimulationAddress_map ++ part "minefield_number"%string 4 MinefieldIdentifier_minefield_number (uint_map 2).
Proof. reflexivity. Qed.
Lemma MinefieldIdentifier_wire : wire 6 MinefieldIdentifier_map MinefieldIdentifier_serialize MinefieldIdentifier_deserialize.
Proof. wire_tac MinefieldIdentifier_parts MinefieldIdentifier_serialize MinefieldIdentifier_deserialize. Qed.
#[export] Hint Resolve MinefieldIdentifier_wire : wr.

Lemma ModulationType_parts : ModulationType_map = part "spread_spectrum"%string 0 ModulationType_spread_spectrum (uint_map 2) ++ part "major"%string 2 ModulationType_major (uint_map 2) ++ part "detail"%string 4 ModulationType_detail (uint_map 2) ++ part "system"%string 6 ModulationType_system (uint_map 2).
Proof. reflexivity. Qed.
Lemma ModulationType_wire : wire 8 ModulationType_map ModulationType_serialize ModulationType_deserialize.
Proof. wire_tac ModulationType_parts ModulationType_serialize ModulationType_deserialize. Qed.
#[export] Hint Resolve ModulationType_wire : wr.

Lemma MunitionDescriptor_parts : MunitionDescriptor_map = part "munition_type"%string 0 MunitionDescriptor_munition_type EntityType_map ++ part "warhead"%string 8 MunitionDescriptor_warhead (uint_map 2) ++ part "fuse"%string 10 MunitionDescriptor_fuse (uint_map 2) ++ part "quantity"%string 12 MunitionDescriptor_quantity (uint_map 2) ++ part "rate"%string 14 MunitionDescriptor_rate (uint_map 2).
Proof. reflexivity. Qed.
Lemma MunitionDescriptor_wire : wire 16 MunitionDescriptor_map MunitionDescriptor_serialize MunitionDescriptor_deserialize.
Proof. wire_tac MunitionDescriptor_parts MunitionDescriptor_serialize MunitionDescriptor_deserialize. Qed.
#[export] Hint Resolve MunitionDescriptor_wire : wr.

Lemma NamedLocation_parts : NamedLocation_map = part "station_name"%string 0 NamedLocation_station_name (uint_map 2) ++ part "station_number"%string 2 NamedLocation_station_number (uint_map 2).
Proof. reflexivity. Qed.
Lemma NamedLocation_wire : wire 4 NamedLocation_map NamedLocation_serialize NamedLocation_deserialize.
Proof. wire_tac NamedLocation_parts NamedLocation_serialize NamedLocation_deserialize. Qed.
#[export] Hint Resolve NamedLocation_wire : wr.

Lemma ObjectIdentifier_parts : ObjectIdentifier_map = part "simulation_address"%string 0 ObjectIdentifier_simulation_address SimulationAddress_map ++ part "object_number"%string 4 ObjectIdentifier_object_number (uint_map 2).
Proof. reflexivity. Qed.
Lemma ObjectIdentifier_wire : wire 6 ObjectIdentifier_map ObjectIdentifier_serialize ObjectIdentifier_deserialize.
Proof. wire_tac ObjectIdentifier_parts ObjectIdentifier_serialize ObjectIdentifier_deserialize. Qed.
#[export] Hint Resolve ObjectIdentifier_wire : wr.

Lemma ObjectType_parts : ObjectType_map = part "domain"%string 0 ObjectType_domain (uint_map 1) ++ part "object_kind"%string 1 ObjectType_object_kind (uint_map 1) ++ part "category"%string 2 ObjectType_category (uint_map 1) ++ part "subcategory"%string 3 ObjectType_subcategory (uint_map 1).
Proof. reflexivity. Qed.
Lemma ObjectType_wire : wire 4 ObjectType_map ObjectType_serialize ObjectType_deserialize.
Proof. wire_tac ObjectType_parts ObjectType_serialize ObjectType_deserialize. Qed.
#[export] Hint Resolve ObjectType_wire : wr.

Lemma Point_parts : Point_map = part "x"%string 0 Point_x (uint_map 4) ++ part "y"%string 4 Point_y (uint_map 4).
Proof. reflexivity. Qed.
Lemma Point_wire : wire 8 Point_map Point_serialize Point_deserialize.
Proof. wire_tac Point_parts Point_serialize Point_deserialize. Qed.
#[export] Hint Resolve Point_wire : wr.

Lemma PropulsionSystemData_parts : PropulsionSystemData_map = part "power_setting"%string 0 PropulsionSystemData_power_setting (uint_map 4) ++ part "engine_rpm"%string 4 PropulsionSystemData_engine_rpm (uint_map 4).
Proof. reflexivity. Qed.
Lemma PropulsionSystemData_wire : wire 8 PropulsionSystemData_map PropulsionSystemData_serialize PropulsionSystemData_deserialize.
Proof. wire_tac PropulsionSystemData_parts PropulsionSystemData_serialize PropulsionSystemData_deserialize. Qed.
#[export] Hint Resolve PropulsionSystemData_wire : wr.

Lemma RadioEntityType_parts : RadioEntityType_map = part "entity_kind"%string 0 RadioEntityType_entity_kind (uint_map 1) ++ part "domain"%string 1 RadioEntityType_domain (uint_map 1) ++ part "country"%string 2 RadioEntityType_country (uint_map 2) ++ part "category"%string 4 RadioEntityType_category (uint_map 1) ++ part "nomenclature_version"%string 5 RadioEntityType_nomenclature_version (uint_map 1) ++ part "nomenclature"%string 6 RadioEntityType_nomenclature (uint_map 2).
Proof. reflexivity. Qed.
Lemma RadioEntityType_wire : wire 8 RadioEntityType_map RadioEntityType_serialize RadioEntityType_deserialize.
Proof. wire_tac RadioEntityType_parts RadioEntityType_serialize RadioEntityType_deserialize. Qed.
#[export] Hint Resolve RadioEntityType_wire : wr.

Lemma RecordSpecification_parts : RecordSpecification_map = part "number_of_record_sets"%string 0 RecordSpecification_number_of_record_sets (uint_map 4).
Proof. reflexivity. Qed.
(* RecordSpecification: prefix only, see WireProofs2 *)

Lemma Relationship_parts : Relationship_map = part "nature"%string 0 Relationship_nature (uint_map 2) ++ part "position"%string 2 Relationship_position (uint_map 2).
Proof. reflexivity. Qed.
Lemma Relationship_wire : wire 4 Relationship_map Relationship_serialize Relationship_deserialize.
Proof. wire_tac Relationship_parts Relationship_serialize Relationship_deserialize. Qed.
#[export] Hint Resolve Relationship_wire : wr.

Lemma SecondaryOperationalData_parts : SecondaryOperationalData_map = part "operational_data1"%string 0 SecondaryOperationalData_operational_data1 (uint_map 1) ++ part "operational_data2"%string 1 SecondaryOperationalData_operational_data2 (uint_map 1) ++ part "number_of_iff_fundamental_parameter_records"%string 2 SecondaryOperationalData_number_of_iff_fundamental_parameter_records (uint_map 2).
Proof. reflexivity. Qed.
Lemma SecondaryOperationalData_wire : wire 4 SecondaryOperationalData_map SecondaryOperationalData_serialize SecondaryOperationalData_deserialize.
Proof. wire_tac SecondaryOperationalData_parts SecondaryOperationalData_serialize SecondaryOperationalData_deserialize. Qed.
#[export] Hint Resolve SecondaryOperationalData_wire : wr.

Lemma ShaftRPMs_parts : ShaftRPMs_map = part "current_shaft_rpms"%string 0 ShaftRPMs_current_shaft_rpms (uint_map 2) ++ part "ordered_shaft_rpms"%string 2 ShaftRPMs_ordered_shaft_rpms (uint_map 2) ++ part "shaft_rpm_rate_of_change"%string 4 ShaftRPMs_shaft_rpm_rate_of_change (uint_map 4).
Proof. reflexivity. Qed.
Lemma ShaftRPMs_wire : wire 8 ShaftRPMs_map ShaftRPMs_serialize ShaftRPMs_deserialize.
Proof. wire_tac ShaftRPMs_parts ShaftRPMs_serialize ShaftRPMs_deserialize. Qed.
#[export] Hint Resolve ShaftRPMs_wire : wr.

Lemma SimulationIdentifier_parts : SimulationIdentifier_map = part "simulation_address"%string 0 SimulationIdentifier_simulation_address SimulationAddress_map ++ part "reference_number"%string 4 SimulationIdentifier_reference_number (lost_map 2).
Proof. reflexivity. Qed.
Lemma SimulationIdentifier_wire : wire 6 SimulationIdentifier_map SimulationIdentifier_serialize SimulationIdentifier_deserialize.
Proof. wire_tac SimulationIdentifier_parts SimulationIdentifier_serialize SimulationIdentifier_deserialize. Qed.
#[export] Hint Resolve SimulationIdentifier_wire : wr.

Lemma StandardVariableSpecification_parts : StandardVariableSpecification_map = part "number_of_standard_variable_records"%string 0 StandardVariableSpecification_number_of_standard_variable_records (uint_map 2).
Proof. reflexivity. Qed.
(* StandardVariableSpecification: prefix only, see WireProofs2 *)

Lemma SupplyQuantity_parts : SupplyQuantity_map = part "supply_type"%string 0 SupplyQuantity_supply_type EntityType_map ++ part "quantity"%string 8 SupplyQuantity_quantity (uint_map 4).
Proof. reflexivity. Qed.
Lemma SupplyQuantity_wire : wire 12 SupplyQuantity_map SupplyQuantity_serialize SupplyQuantity_deserialize.
Proof. wire_tac SupplyQuantity_parts SupplyQuantity_serialize SupplyQuantity_deserialize. Qed.
#[export] Hint Resolve SupplyQuantity_wire : wr.

Lemma SystemId_parts : SystemId_map = part "system_type"%string 0 SystemId_system_type (uint_map 2) ++ part "system_name"%string 2 SystemId_system_name (uint_map 2) ++ part "system_mode"%string 4 SystemId_system_mode (uint_map 1) ++ part "change_options"%string 5 SystemId_change_options (uint_map 1).
Proof. reflexivity. Qed.
Lemma SystemId_wire : wire 6 SystemId_map SystemId_serialize SystemId_deserialize.
Proof. wire_tac SystemId_parts SystemId_serialize SystemId_deserialize. Qed.
#[export] Hint Resolve SystemId_wire : wr.

Lemma VariableParameter_parts : VariableParameter_map = part "record_type"%string 0 VariableParameter_record_type (uint_map 1) ++ part "variable_parameter_field1"%string 1 VariableParameter_variable_parameter_field1 (uint_map 8) ++ part "variable_parameter_field2"%string 9 VariableParameter_variable_parameter_field2 (uint_map 4) ++ part "variable_parameter_field3"%string 13 VariableParameter_variable_parameter_field3 (uint_map 2) ++ part "variable_parameter_field4"%string 15 VariableParameter_variable_parameter_field4 (uint_map 1).
Proof. reflexivity. Qed.
Lemma VariableParameter_wire : wire 16 VariableParameter_map VariableParameter_serialize VariableParameter_deserialize.
Proof. wire_tac VariableParameter_parts VariableParameter_serialize VariableParameter_deserialize. Qed.
#[export] Hint Resolve VariableParameter_wire : wr.

Lemma Vector3Double_parts : Vector3Double_map = part "x"%string 0 Vector3Double_x (uint_map 8) ++ part "y"%string 8 Vector3Double_y (uint_map 8) ++ part "z"%string 16 Vector3Double_z (uint_map 8).
Proof. reflexivity. Qed.
Lemma Vector3Double_wire : wire 24 Vector3Double_map Vector3Double_serialize Vector3Double_deserialize.
Proof. wire_tac Vector3Double_parts Vector3Double_serialize Vector3Double_deserialize. Qed.
#[export] Hint Resolve Vector3Double_wire : wr.

Lemma VectoringNozzleSystemData_parts : VectoringNozzleSystemData_map = part "horizontal_deflection_angle"%string 0 VectoringNozzleSystemData_horizontal_deflection_angle (uint_map 4) ++ part "vertical_deflection_angle"%string 4 VectoringNozzleSystemData_vertical_deflection_angle (uint_map 4).
Proof. reflexivity. Qed.
Lemma VectoringNozzleSystemData_wire : wire 8 VectoringNozzleSystemData_map VectoringNozzleSystemData_serialize VectoringNozzleSystemData_deserialize.
Proof. wire_tac VectoringNozzleSystemData_parts VectoringNozzleSystemData_serialize VectoringNozzleSystemData_deserialize. Qed.
#[export] Hint Resolve VectoringNozzleSystemData_wire : wr.

Lemma VelocityVector_parts : VelocityVector_map = part "first_vector_component"%string 0 VelocityVector_first_vector_component (uint_map 4) ++ part "second_vector_component"%string 4 VelocityVector_second_vector_component (uint_map 4) ++ part "third_vector_component"%string 8 VelocityVector_third_vector_component (uint_map 4).
Proof. reflexivity. Qed.
Lemma VelocityVector_wire : wire 12 VelocityVector_map VelocityVector_serialize VelocityVector_deserialize.
Proof. wire_tac VelocityVector_parts VelocityVector_serialize VelocityVector_deserialize. Qed.
#[export] Hint Resolve VelocityVector_wire : wr.

(** ** Field codecs *)
Create HintDb wc.
#[export] Hint Resolve FrozenBehavior_wc ObjectStateAppearanceGeneral_wc : wc.
Lemma u8_wc : wcodec 1 (uint_map 1) u8_codec.
Proof. exact (wcodec_of_wire _ _ _ _ _ (uint_wire 1)). Qed.
#[export] Hint Resolve u8_wc : wc.
Lemma u16_wc : wcodec 2 (uint_map 2) u16_codec.
Proof. exact (wcodec_of_wire _ _ _ _ _ (uint_wire 2)). Qed.
#[export] Hint Resolve u16_wc : wc.
Lemma u32_wc : wcodec 4 (uint_map 4) u32_codec.
Proof. exact (wcodec_of_wire _ _ _ _ _ (uint_wire 4)). Qed.
#[export] Hint Resolve u32_wc : wc.
Lemma u64_wc : wcodec 8 (uint_map 8) u64_codec.
Proof. exact (wcodec_of_wire _ _ _ _ _ (uint_wire 8)). Qed.
#[export] Hint Resolve u64_wc : wc.
Lemma i8_wc : wcodec 1 (uint_map 1) i8_codec.
Proof. exact (wcodec_of_wire _ _ _ _ _ (uint_wire 1)). Qed.
#[export] Hint Resolve i8_wc : wc.
Lemma i16_wc : wcodec 2 (uint_map 2) i16_codec.
Proof. exact (wcodec_of_wire _ _ _ _ _ (uint_wire 2)). Qed.
#[export] Hint Resolve i16_wc : wc.
Lemma i32_wc : wcodec 4 (uint_map 4) i32_codec.
Proof. exact (wcodec_of_wire _ _ _ _ _ (uint_wire 4)). Qed.
#[export] Hint Resolve i32_wc : wc.
Lemma i64_wc : wcodec 8 (uint_map 8) i64_codec.
Proof. exact (wcodec_of_wire _ _ _ _ _ (uint_wire 8)). Qed.
#[export] Hint Resolve i64_wc : wc.
Lemma f32_wc : wcodec 4 (uint_map 4) f32_codec.
Proof. exact (wcodec_of_wire _ _ _ _ _ (uint_wire 4)). Qed.
#[export] Hint Resolve f32_wc : wc.
Lemma f64_wc : wcodec 8 (uint_map 8) f64_codec.
Proof. exact (wcodec_of_wire _ _ _ _ _ (uint_wire 8)). Qed.
#[export] Hint Resolve f64_wc : wc.
Lemma AcknowledgeFlag_wc : wcodec 2 (enum_map 2 AcknowledgeFlag_spec) AcknowledgeFlag_codec.
Proof. exact (wcodec_of_wire _ _ _ _ _ (enum_wire 2 AcknowledgeFlag_spec eq_refl)). Qed.
#[export] Hint Resolve AcknowledgeFlag_wc : wc.
Lemma AcknowledgeResponseFlag_wc : wcodec 2 (enum_map 2 AcknowledgeResponseFlag_spec) AcknowledgeResponseFlag_codec.
Proof. exact (wcodec_of_wire _ _ _ _ _ (enum_wire 2 AcknowledgeResponseFlag_spec eq_refl)). Qed.
#[export] Hint Resolve AcknowledgeResponseFlag_wc : wc.
Lemma ActionResponseRequestStatus_wc : wcodec 4 (enum_map 4 ActionResponseRequestStatus_spec) ActionResponseRequestStatus_codec.
Proof. exact (wcodec_of_wire _ _ _ _ _ (enum_wire 4 ActionResponseRequestStatus_spec eq_refl)). Qed.
#[export] Hint Resolve ActionResponseRequestStatus_wc : wc.
Lemma AggregateStateAggregateState_wc : wcodec 1 (enum_map 1 AggregateStateAggregateState_spec) AggregateStateAggregateState_codec.
Proof. exact (wcodec_of_wire _ _ _ _ _ (enum_wire 1 AggregateStateAggregateState_spec eq_refl)). Qed.
#[export] Hint Resolve AggregateStateAggregateState_wc : wc.
Lemma AggregateStateFormation_wc : wcodec 4 (enum_map 4 AggregateStateFormation_spec) AggregateStateFormation_codec.
Proof. exact (wcodec_of_wire _ _ _ _ _ (enum_wire 4 AggregateStateFormation_spec eq_refl)). Qed.
#[export] Hint Resolve AggregateStateFormation_wc : wc.
Lemma DEFirePulseShape_wc : wcodec 1 (enum_map 1 DEFirePulseShape_spec) DEFirePulseShape_codec.
Proof. exact (wcodec_of_wire _ _ _ _ _ (enum_wire 1 DEFirePulseShape_spec eq_refl)). Qed.
#[export] Hint Resolve DEFirePulseShape_wc : wc.
Lemma DISAttributeActionCode_wc : wcodec 1 (enum_map 1 DISAttributeActionCode_spec) DISAttributeActionCode_codec.
Proof. exact (wcodec_of_wire _ _ _ _ _ (enum_wire 1 DISAttributeActionCode_spec eq_refl)). Qed.
#[export] Hint Resolve DISAttributeActionCode_wc : wc.
Lemma DeadReckoningAlgorithm_wc : wcodec 1 (enum_map 1 DeadReckoningAlgorithm_spec) DeadReckoningAlgorithm_codec.
Proof. exact (wcodec_of_wire _ _ _ _ _ (enum_wire 1 DeadReckoningAlgorithm_spec eq_refl)). Qed.
#[export] Hint Resolve DeadReckoningAlgorithm_wc : wc.
Lemma DesignatorCode_wc : wcodec 2 (enum_map 2 DesignatorCode_spec) DesignatorCode_codec.
Proof. exact (wcodec_of_wire _ _ _ _ _ (enum_wire 2 DesignatorCode_spec eq_refl)). Qed.
#[export] Hint Resolve DesignatorCode_wc : wc.
Lemma DesignatorSystemName_wc : wcodec 2 (enum_map 2 DesignatorSystemName_spec) DesignatorSystemName_codec.
Proof. exact (wcodec_of_wire _ _ _ _ _ (enum_wire 2 DesignatorSystemName_spec eq_refl)). Qed.
#[export] Hint Resolve DesignatorSystemName_wc : wc.
Lemma DetonationResult_wc : wcodec 1 (enum_map 1 DetonationResult_spec) DetonationResult_codec.
Proof. exact (wcodec_of_wire _ _ _ _ _ (enum_wire 1 DetonationResult_spec eq_refl)). Qed.
#[export] Hint Resolve DetonationResult_wc : wc.
Lemma EEAttributeStateIndicator_wc : wcodec 1 (enum_map 1 EEAttributeStateIndicator_spec) EEAttributeStateIndicator_codec.
Proof. exact (wcodec_of_wire _ _ _ _ _ (enum_wire 1 EEAttributeStateIndicator_spec eq_refl)). Qed.
#[export] Hint Resolve EEAttributeStateIndicator_wc : wc.
Lemma EventType_wc : wcodec 4 (enum_map 4 EventType_spec) EventType_codec.
Proof. exact (wcodec_of_wire _ _ _ _ _ (enum_wire 4 EventType_spec eq_refl)). Qed.
#[export] Hint Resolve EventType_wc : wc.
Lemma ForceId_wc : wcodec 1 (enum_map 1 ForceId_spec) ForceId_codec.
Proof. exact (wcodec_of_wire _ _ _ _ _ (enum_wire 1 ForceId_spec eq_refl)). Qed.
#[export] Hint Resolve ForceId_wc : wc.
Lemma GriddedDataConstantGrid_wc : wcodec 1 (enum_map 1 GriddedDataConstantGrid_spec) GriddedDataConstantGrid_codec.
Proof. exact (wcodec_of_wire _ _ _ _ _ (enum_wire 1 GriddedDataConstantGrid_spec eq_refl)). Qed.
#[export] Hint Resolve GriddedDataConstantGrid_wc : wc.
Lemma GriddedDataCoordinateSystem_wc : wcodec 2 (enum_map 2 GriddedDataCoordinateSystem_spec) GriddedDataCoordinateSystem_codec.
Proof. exact (wcodec_of_wire _ _ _ _ _ (enum_wire 2 GriddedDataCoordinateSystem_spec eq_refl)). Qed.
#[export] Hint Resolve GriddedDataCoordinateSystem_wc : wc.
Lemma IOActionIOActionPhase_wc : wcodec 2 (enum_map 2 IOActionIOActionPhase_spec) IOActionIOActionPhase_codec.
Proof. exact (wcodec_of_wire _ _ _ _ _ (enum_wire 2 IOActionIOActionPhase_spec eq_refl)). Qed.
#[export] Hint Resolve IOActionIOActionPhase_wc : wc.
Lemma IOActionIOActionType_wc : wcodec 2 (enum_map 2 IOActionIOActionType_spec) IOActionIOActionType_codec.
Proof. exact (wcodec_of_wire _ _ _ _ _ (enum_wire 2 IOActionIOActionType_spec eq_refl)). Qed.
#[export] Hint Resolve IOActionIOActionType_wc : wc.
Lemma IOActionIOSimulationSource_wc : wcodec 2 (enum_map 2 IOActionIOSimulationSource_spec) IOActionIOSimulationSource_codec.
Proof. exact (wcodec_of_wire _ _ _ _ _ (enum_wire 2 IOActionIOSimulationSource_spec eq_refl)). Qed.
#[export] Hint Resolve IOActionIOSimulationSource_wc : wc.
Lemma IOActionIOWarfareType_wc : wcodec 2 (enum_map 2 IOActionIOWarfareType_spec) IOActionIOWarfareType_codec.
Proof. exact (wcodec_of_wire _ _ _ _ _ (enum_wire 2 IOActionIOWarfareType_spec eq_refl)). Qed.
#[export] Hint Resolve IOActionIOWarfareType_wc : wc.
Lemma IOReportIOReportType_wc : wcodec 1 (enum_map 1 IOReportIOReportType_spec) IOReportIOReportType_codec.
Proof. exact (wcodec_of_wire _ _ _ _ _ (enum_wire 1 IOReportIOReportType_spec eq_refl)). Qed.
#[export] Hint Resolve IOReportIOReportType_wc : wc.
Lemma IntercomControlCommand_wc : wcodec 1 (enum_map 1 IntercomControlCommand_spec) IntercomControlCommand_codec.
Proof. exact (wcodec_of_wire _ _ _ _ _ (enum_wire 1 IntercomControlCommand_spec eq_refl)). Qed.
#[export] Hint Resolve IntercomControlCommand_wc : wc.
Lemma IntercomControlControlType_wc : wcodec 1 (enum_map 1 IntercomControlControlType_spec) IntercomControlControlType_codec.
Proof. exact (wcodec_of_wire _ _ _ _ _ (enum_wire 1 IntercomControlControlType_spec eq_refl)). Qed.
#[export] Hint Resolve IntercomControlControlType_wc : wc.
Lemma IntercomControlTransmitLineState_wc : wcodec 1 (enum_map 1 IntercomControlTransmitLineState_spec) IntercomControlTransmitLineState_codec.
Proof. exact (wcodec_of_wire _ _ _ _ _ (enum_wire 1 IntercomControlTransmitLineState_spec eq_refl)). Qed.
#[export] Hint Resolve IntercomControlTransmitLineState_wc : wc.
Lemma IsGroupOfGroupedEntityCategory_wc : wcodec 1 (enum_map 1 IsGroupOfGroupedEntityCategory_spec) IsGroupOfGroupedEntityCategory_codec.
Proof. exact (wcodec_of_wire _ _ _ _ _ (enum_wire 1 IsGroupOfGroupedEntityCategory_spec eq_refl)). Qed.
#[export] Hint Resolve IsGroupOfGroupedEntityCategory_wc : wc.
Lemma MinefieldStateProtocolMode_wc : wcodec 2 (enum_map 2 MinefieldStateProtocolMode_spec) MinefieldStateProtocolMode_codec.
Proof. exact (wcodec_of_wire _ _ _ _ _ (enum_wire 2 MinefieldStateProtocolMode_spec eq_refl)). Qed.
#[export] Hint Resolve MinefieldStateProtocolMode_wc : wc.
Lemma Reason_wc : wcodec 1 (enum_map 1 Reason_spec) Reason_codec.
Proof. exact (wcodec_of_wire _ _ _ _ _ (enum_wire 1 Reason_spec eq_refl)). Qed.
#[export] Hint Resolve Reason_wc : wc.
Lemma ReceiverReceiverState_wc : wcodec 2 (enum_map 2 ReceiverReceiverState_spec) ReceiverReceiverState_codec.
Proof. exact (wcodec_of_wire _ _ _ _ _ (enum_wire 2 ReceiverReceiverState_spec eq_refl)). Qed.
#[export] Hint Resolve ReceiverReceiverState_wc : wc.
Lemma RecordQueryREventType_wc : wcodec 2 (enum_map 2 RecordQueryREventType_spec) RecordQueryREventType_codec.
Proof. exact (wcodec_of_wire _ _ _ _ _ (enum_wire 2 RecordQueryREventType_spec eq_refl)). Qed.
#[export] Hint Resolve RecordQueryREventType_wc : wc.
Lemma RepairCompleteRepair_wc : wcodec 2 (enum_map 2 RepairCompleteRepair_spec) RepairCompleteRepair_codec.
Proof. exact (wcodec_of_wire _ _ _ _ _ (enum_wire 2 RepairCompleteRepair_spec eq_refl)). Qed.
#[export] Hint Resolve RepairCompleteRepair_wc : wc.
Lemma RepairResponseRepairResult_wc : wcodec 1 (enum_map 1 RepairResponseRepairResult_spec) RepairResponseRepairResult_codec.
Proof. exact (wcodec_of_wire _ _ _ _ _ (enum_wire 1 RepairResponseRepairResult_spec eq_refl)). Qed.
#[export] Hint Resolve RepairResponseRepairResult_wc : wc.
Lemma RequiredReliabilityService_wc : wcodec 1 (enum_map 1 RequiredReliabilityService_spec) RequiredReliabilityService_codec.
Proof. exact (wcodec_of_wire _ _ _ _ _ (enum_wire 1 RequiredReliabilityService_spec eq_refl)). Qed.
#[export] Hint Resolve RequiredReliabilityService_wc : wc.
Lemma ServiceRequestServiceTypeRequested_wc : wcodec 1 (enum_map 1 ServiceRequestServiceTypeRequested_spec) ServiceRequestServiceTypeRequested_codec.
Proof. exact (wcodec_of_wire _ _ _ _ _ (enum_wire 1 ServiceRequestServiceTypeRequested_spec eq_refl)). Qed.
#[export] Hint Resolve ServiceRequestServiceTypeRequested_wc : wc.
Lemma SignalTDLType_wc : wcodec 2 (enum_map 2 SignalTDLType_spec) SignalTDLType_codec.
Proof. exact (wcodec_of_wire _ _ _ _ _ (enum_wire 2 SignalTDLType_spec eq_refl)). Qed.
#[export] Hint Resolve SignalTDLType_wc : wc.
Lemma TransferControlTransferType_wc : wcodec 1 (enum_map 1 TransferControlTransferType_spec) TransferControlTransferType_codec.
Proof. exact (wcodec_of_wire _ _ _ _ _ (enum_wire 1 TransferControlTransferType_spec eq_refl)). Qed.
#[export] Hint Resolve TransferControlTransferType_wc : wc.
Lemma TransmitterAntennaPatternType_wc : wcodec 2 (enum_map 2 TransmitterAntennaPatternType_spec) TransmitterAntennaPatternType_codec.
Proof. exact (wcodec_of_wire _ _ _ _ _ (enum_wire 2 TransmitterAntennaPatternType_spec eq_refl)). Qed.
#[export] Hint Resolve TransmitterAntennaPatternType_wc : wc.
Lemma TransmitterCryptoSystem_wc : wcodec 2 (enum_map 2 TransmitterCryptoSystem_spec) TransmitterCryptoSystem_codec.
Proof. exact (wcodec_of_wire _ _ _ _ _ (enum_wire 2 TransmitterCryptoSystem_spec eq_refl)). Qed.
#[export] Hint Resolve TransmitterCryptoSystem_wc : wc.
Lemma TransmitterInputSource_wc : wcodec 1 (enum_map 1 TransmitterInputSource_spec) TransmitterInputSource_codec.
Proof. exact (wcodec_of_wire _ _ _ _ _ (enum_wire 1 TransmitterInputSource_spec eq_refl)). Qed.
#[export] Hint Resolve TransmitterInputSource_wc : wc.
Lemma TransmitterTransmitState_wc : wcodec 1 (enum_map 1 TransmitterTransmitState_spec) TransmitterTransmitState_codec.
Proof. exact (wcodec_of_wire _ _ _ _ _ (enum_wire 1 TransmitterTransmitState_spec eq_refl)). Qed.
#[export] Hint Resolve TransmitterTransmitState_wc : wc.
Lemma UAPassiveParameterIndex_wc : wcodec 2 (enum_map 2 UAPassiveParameterIndex_spec) UAPassiveParameterIndex_codec.
Proof. exact (wcodec_of_wire _ _ _ _ _ (enum_wire 2 UAPassiveParameterIndex_spec eq_refl)). Qed.
#[export] Hint Resolve UAPassiveParameterIndex_wc : wc.
Lemma UAStateChangeUpdateIndicator_wc : wcodec 1 (enum_map 1 UAStateChangeUpdateIndicator_spec) UAStateChangeUpdateIndicator_codec.
Proof. exact (wcodec_of_wire _ _ _ _ _ (enum_wire 1 UAStateChangeUpdateIndicator_spec eq_refl)). Qed.
#[export] Hint Resolve UAStateChangeUpdateIndicator_wc : wc.
Lemma Vector3Float_wc : wcodec 12 Vector3Float_map Vector3Float_codec.
Proof. exact (wcodec_of_wire _ _ _ _ _ Vector3Float_wire). Qed.
#[export] Hint Resolve Vector3Float_wc : wc.
Lemma AggregateId_wc : wcodec 6 AggregateId_map AggregateId_codec.
Proof. exact (wcodec_of_wire _ _ _ _ _ AggregateId_wire). Qed.
#[export] Hint Resolve AggregateId_wc : wc.
Lemma AggregateMarking_wc : wcodec 32 AggregateMarking_map AggregateMarking_codec.
Proof. exact (wcodec_of_wire _ _ _ _ _ AggregateMarking_wire). Qed.
#[export] Hint Resolve AggregateMarking_wc : wc.
Lemma SimulationAddress_wc : wcodec 4 SimulationAddress_map SimulationAddress_codec.
Proof. exact (wcodec_of_wire _ _ _ _ _ SimulationAddress_wire). Qed.
#[export] Hint Resolve SimulationAddress_wc : wc.
Lemma EntityId_wc : wcodec 6 EntityId_map EntityId_codec.
Proof. exact (wcodec_of_wire _ _ _ _ _ EntityId_wire). Qed.
#[export] Hint Resolve EntityId_wc : wc.
Lemma BeamData_wc : wcodec 20 BeamData_map BeamData_codec.
Proof. exact (wcodec_of_wire _ _ _ _ _ BeamData_wire). Qed.
#[export] Hint Resolve BeamData_wc : wc.
Lemma ClockTime_wc : wcodec 8 ClockTime_map ClockTime_codec.
Proof. exact (wcodec_of_wire _ _ _ _ _ ClockTime_wire). Qed.
#[export] Hint Resolve ClockTime_wc : wc.
Lemma LinearAcceleration_wc : wcodec 12 LinearAcceleration_map LinearAcceleration_codec.
Proof. exact (wcodec_of_wire _ _ _ _ _ LinearAcceleration_wire). Qed.
#[export] Hint Resolve LinearAcceleration_wc : wc.
Lemma DeadReckoningParameters_wc : wcodec 40 DeadReckoningParameters_map DeadReckoningParameters_codec.
Proof. exact (wcodec_of_wire _ _ _ _ _ DeadReckoningParameters_wire). Qed.
#[export] Hint Resolve DeadReckoningParameters_wc : wc.
Lemma EntityCoordinateVector_wc : wcodec 12 EntityCoordinateVector_map EntityCoordinateVector_codec.
Proof. exact (wcodec_of_wire _ _ _ _ _ EntityCoordinateVector_wire). Qed.
#[export] Hint Resolve EntityCoordinateVector_wc : wc.
Lemma EventId_wc : wcodec 6 EventId_map EventId_codec.
Proof. exact (wcodec_of_wire _ _ _ _ _ EventId_wire). Qed.
#[export] Hint Resolve EventId_wc : wc.
Lemma EntityType_wc : wcodec 8 EntityType_map EntityType_codec.
Proof. exact (wcodec_of_wire _ _ _ _ _ EntityType_wire). Qed.
#[export] Hint Resolve EntityType_wc : wc.
Lemma EulerAngles_wc : wcodec 12 EulerAngles_map EulerAngles_codec.
Proof. exact (wcodec_of_wire _ _ _ _ _ EulerAngles_wire). Qed.
#[export] Hint Resolve EulerAngles_wc : wc.
Lemma FundamentalOperationalData_wc : wcodec 16 FundamentalOperationalData_map FundamentalOperationalData_codec.
Proof. exact (wcodec_of_wire _ _ _ _ _ FundamentalOperationalData_wire). Qed.
#[export] Hint Resolve FundamentalOperationalData_wc : wc.
Lemma LayerHeader_wc : wcodec 4 LayerHeader_map LayerHeader_codec.
Proof. exact (wcodec_of_wire _ _ _ _ _ LayerHeader_wire). Qed.
#[export] Hint Resolve LayerHeader_wc : wc.
Lemma WorldCoordinate_wc : wcodec 24 WorldCoordinate_map WorldCoordinate_codec.
Proof. exact (wcodec_of_wire _ _ _ _ _ WorldCoordinate_wire). Qed.
#[export] Hint Resolve WorldCoordinate_wc : wc.
Lemma LinearVelocity_wc : wcodec 12 LinearVelocity_map LinearVelocity_codec.
Proof. exact (wcodec_of_wire _ _ _ _ _ LinearVelocity_wire). Qed.
#[export] Hint Resolve LinearVelocity_wc : wc.
Lemma MinefieldIdentifier_wc : wcodec 6 MinefieldIdentifier_map MinefieldIdentifier_codec.
Proof. exact (wcodec_of_wire _ _ _ _ _ MinefieldIdentifier_wire). Qed.
#[export] Hint Resolve MinefieldIdentifier_wc : wc.
Lemma ModulationType_wc : wcodec 8 ModulationType_map ModulationType_codec.
Proof. exact (wcodec_of_wire _ _ _ _ _ ModulationType_wire). Qed.
#[export] Hint Resolve ModulationType_wc : wc.
Lemma MunitionDescriptor_wc : wcodec 16 MunitionDescriptor_map MunitionDescriptor_codec.
Proof. exact (wcodec_of_wire _ _ _ _ _ MunitionDescriptor_wire). Qed.
#[export] Hint Resolve MunitionDescriptor_wc : wc.
Lemma NamedLocation_wc : wcodec 4 NamedLocation_map NamedLocation_codec.
Proof. exact (wcodec_of_wire _ _ _ _ _ NamedLocation_wire). Qed.
#[export] Hint Resolve NamedLocation_wc : wc.
Lemma ObjectIdentifier_wc : wcodec 6 ObjectIdentifier_map ObjectIdentifier_codec.
Proof. exact (wcodec_of_wire _ _ _ _ _ ObjectIdentifier_wire). Qed.
#[export] Hint Resolve ObjectIdentifier_wc : wc.
Lemma ObjectType_wc : wcodec 4 ObjectType_map ObjectType_codec.
Proof. exact (wcodec_of_wire _ _ _ _ _ ObjectType_wire). Qed.
#[export] Hint Resolve ObjectType_wc : wc.
Lemma RadioEntityType_wc : wcodec 8 RadioEntityType_map RadioEntityType_codec.
Proof. exact (wcodec_of_wire _ _ _ _ _ RadioEntityType_wire). Qed.
#[export] Hint Resolve RadioEntityType_wc : wc.
Lemma Relationship_wc : wcodec 4 Relationship_map Relationship_codec.
Proof. exact (wcodec_of_wire _ _ _ _ _ Relationship_wire). Qed.
#[export] Hint Resolve Relationship_wc : wc.
Lemma SecondaryOperationalData_wc : wcodec 4 SecondaryOperationalData_map SecondaryOperationalData_codec.
Proof. exact (wcodec_of_wire _ _ _ _ _ SecondaryOperationalData_wire). Qed.
#[export] Hint Resolve SecondaryOperationalData_wc : wc.
Lemma SimulationIdentifier_wc : wcodec 6 SimulationIdentifier_map SimulationIdentifier_codec.
Proof. exact (wcodec_of_wire _ _ _ _ _ SimulationIdentifier_wire). Qed.
#[export] Hint Resolve SimulationIdentifier_wc : wc.
Lemma SystemId_wc : wcodec 6 SystemId_map SystemId_codec.
Proof. exact (wcodec_of_wire _ _ _ _ _ SystemId_wire). Qed.
#[export] Hint Resolve SystemId_wc : wc.

(** ** Types of which only a prefix has a fixed place *)
Create HintDb wp.
Lemma sent_head {S T} p (g : S -> T) M n w (v : S) post : wser n M w -> Forall (sent (w (g v) ++ post) v) (part p 0 g M).
Proof. intros W. change (w (g v) ++ post) with ([] ++ w (g v) ++ post). apply sent_part; [reflexivity | apply W]. Qed.
Lemma EntityMarking_wp : wprefix EntityMarking_map EntityMarking_codec.
Proof.
  rewrite EntityMarking_parts. split; cbn [c_ser c_des EntityMarking_codec].
  - intros v b [= <-]. unfold EntityMarking_serialize. exact (sent_head _ _ _ _ _ _ _ (wire_ser _ _ _ _ (enum_wire 1 EntityMarkingCharacterSet_spec eq_refl))).
  - intros bs v rest H. unfold EntityMarking_deserialize in H. read_inv H. injection H as <- _.
    apply received_part. exact (proj2 (proj2 (wire_des _ _ _ _ (enum_wire 1 EntityMarkingCharacterSet_spec eq_refl) _ _ _ E))).
Qed.
Lemma RecordSpecification_wp m : wprefix RecordSpecification_map (RecordSpecification_codec m).
Proof.
  rewrite RecordSpecification_parts. split; cbn [c_ser c_des RecordSpecification_codec].
  - intros v b H. unfold RecordSpecification_serialize in H. apply wapp_ok in H. destruct H as [x [y [Hx [_ ->]]]]. injection Hx as <-.
    exact (sent_head _ _ _ _ _ _ _ (wire_ser _ _ _ _ (uint_wire 4))).
  - intros bs v rest H. unfold RecordSpecification_deserialize in H. read_inv H. injection H as <- _.
    apply received_part. exact (proj2 (proj2 (wire_des _ _ _ _ (uint_wire 4) _ _ _ E))).
Qed.
Lemma StandardVariableSpecification_wp : wprefix StandardVariableSpecification_map StandardVariableSpecification_codec.
Proof.
  rewrite StandardVariableSpecification_parts. split; cbn [c_ser c_des StandardVariableSpecification_codec].
  - intros v b H. rewrite StandardVariableSpecification_ser_field in H. injection H as <-. unfold StandardVariableSpecification_serialize.
    exact (sent_head _ _ _ _ _ _ _ (wire_ser _ _ _ _ (uint_wire 2))).
  - intros bs v rest H. unfold StandardVariableSpecification_deserialize in H. read_inv H. injection H as <- _.
    apply received_part. exact (proj2 (proj2 (wire_des _ _ _ _ (uint_wire 2) _ _ _ E))).
Qed.
#[export] Hint Resolve EntityMarking_wp RecordSpecification_wp StandardVariableSpecification_wp : wp.

(** ** PDU classes *)
Definition wpdu (c : pdu_class) (M : list (entry (pdu c))) : Prop :=
  exists L, wbody (cls_fields c) L /\ M = place (fun s => s) 12 body L.
Ltac wfields :=
  first [ eapply wbody_cons; [reflexivity | cbn [f_codec f_type plain u8_field]; solve [eauto with wc nocore] | wfields]
        | eapply wbody_prefix; [reflexivity | cbn [f_codec f_type plain u8_field]; solve [eauto with wp nocore]]
        | apply wbody_nil ].
Ltac wpdu_tac c := eexists; split; [unfold c; cbn [cls_fields]; wfields | reflexivity].
Lemma ElectromagneticEmissionsPdu_wpdu : wpdu ElectromagneticEmissionsPdu ElectromagneticEmissionsPdu_map.
Proof. wpdu_tac ElectromagneticEmissionsPdu. Qed.
Lemma DesignatorPdu_wpdu : wpdu DesignatorPdu DesignatorPdu_map.
Proof. wpdu_tac DesignatorPdu. Qed.
Lemma UnderwaterAcousticPdu_wpdu : wpdu UnderwaterAcousticPdu UnderwaterAcousticPdu_map.
Proof. wpdu_tac UnderwaterAcousticPdu. Qed.
Lemma IFFPdu_wpdu : wpdu IFFPdu IFFPdu_map.
Proof. wpdu_tac IFFPdu. Qed.
Lemma SupplementalEmissionPdu_wpdu : wpdu SupplementalEmissionPdu SupplementalEmissionPdu_map.
Proof. wpdu_tac SupplementalEmissionPdu. Qed.
Lemma EntityStatePdu_wpdu : wpdu EntityStatePdu EntityStatePdu_map.
Proof. wpdu_tac EntityStatePdu. Qed.
Lemma CollisionPdu_wpdu : wpdu CollisionPdu CollisionPdu_map.
Proof. wpdu_tac CollisionPdu. Qed.
Lemma CollisionElasticPdu_wpdu : wpdu CollisionElasticPdu CollisionElasticPdu_map.
Proof. wpdu_tac CollisionElasticPdu. Qed.
Lemma EntityStateUpdatePdu_wpdu : wpdu EntityStateUpdatePdu EntityStateUpdatePdu_map.
Proof. wpdu_tac EntityStateUpdatePdu. Qed.
Lemma AttributePdu_wpdu : wpdu AttributePdu AttributePdu_map.
Proof. wpdu_tac AttributePdu. Qed.
Lemma AggregateStatePdu_wpdu : wpdu AggregateStatePdu AggregateStatePdu_map.
Proof. wpdu_tac AggregateStatePdu. Qed.
Lemma IsGroupOfPdu_wpdu : wpdu IsGroupOfPdu IsGroupOfPdu_map.
Proof. wpdu_tac IsGroupOfPdu. Qed.
Lemma TransferOwnershipPdu_wpdu m : wpdu (TransferOwnershipPdu m) (TransferOwnershipPdu_map m).
Proof. wpdu_tac TransferOwnershipPdu. Qed.
Lemma IsPartOfPdu_wpdu : wpdu IsPartOfPdu IsPartOfPdu_map.
Proof. wpdu_tac IsPartOfPdu. Qed.
Lemma InformationOperationsReportPdu_wpdu : wpdu InformationOperationsReportPdu InformationOperationsReportPdu_map.
Proof. wpdu_tac InformationOperationsReportPdu. Qed.
Lemma InformationOperationsActionPdu_wpdu : wpdu InformationOperationsActionPdu InformationOperationsActionPdu_map.
Proof. wpdu_tac InformationOperationsActionPdu. Qed.
Lemma ServiceRequestPdu_wpdu : wpdu ServiceRequestPdu ServiceRequestPdu_map.
Proof. wpdu_tac ServiceRequestPdu. Qed.
Lemma ResupplyOfferPdu_wpdu : wpdu ResupplyOfferPdu ResupplyOfferPdu_map.
Proof. wpdu_tac ResupplyOfferPdu. Qed.
Lemma ResupplyReceivedPdu_wpdu : wpdu ResupplyReceivedPdu ResupplyReceivedPdu_map.
Proof. wpdu_tac ResupplyReceivedPdu. Qed.
Lemma ResupplyCancelPdu_wpdu : wpdu ResupplyCancelPdu ResupplyCancelPdu_map.
Proof. wpdu_tac ResupplyCancelPdu. Qed.
Lemma RepairCompletePdu_wpdu : wpdu RepairCompletePdu RepairCompletePdu_map.
Proof. wpdu_tac RepairCompletePdu. Qed.
Lemma RepairResponsePdu_wpdu : wpdu RepairResponsePdu RepairResponsePdu_map.
Proof. wpdu_tac RepairResponsePdu. Qed.
Lemma MinefieldStatePdu_wpdu : wpdu MinefieldStatePdu MinefieldStatePdu_map.
Proof. wpdu_tac MinefieldStatePdu. Qed.
Lemma MinefieldQueryPdu_wpdu : wpdu MinefieldQueryPdu MinefieldQueryPdu_map.
Proof. wpdu_tac MinefieldQueryPdu. Qed.
Lemma MinefieldDataPdu_wpdu : wpdu MinefieldDataPdu MinefieldDataPdu_map.
Proof. wpdu_tac MinefieldDataPdu. Qed.
Lemma MinefieldResponseNackPdu_wpdu : wpdu MinefieldResponseNackPdu MinefieldResponseNackPdu_map.
Proof. wpdu_tac MinefieldResponseNackPdu. Qed.
Lemma TransmitterPdu_wpdu : wpdu TransmitterPdu TransmitterPdu_map.
Proof. wpdu_tac TransmitterPdu. Qed.
Lemma SignalPdu_wpdu : wpdu SignalPdu SignalPdu_map.
Proof. wpdu_tac SignalPdu. Qed.
Lemma ReceiverPdu_wpdu : wpdu ReceiverPdu ReceiverPdu_map.
Proof. wpdu_tac ReceiverPdu. Qed.
Lemma IntercomSignalPdu_wpdu : wpdu IntercomSignalPdu IntercomSignalPdu_map.
Proof. wpdu_tac IntercomSignalPdu. Qed.
Lemma IntercomControlPdu_wpdu : wpdu IntercomControlPdu IntercomControlPdu_map.
Proof. wpdu_tac IntercomControlPdu. Qed.
Lemma CreateEntityPdu_wpdu : wpdu CreateEntityPdu CreateEntityPdu_map.
Proof. wpdu_tac CreateEntityPdu. Qed.
Lemma RemoveEntityPdu_wpdu : wpdu RemoveEntityPdu RemoveEntityPdu_map.
Proof. wpdu_tac RemoveEntityPdu. Qed.
Lemma StartResumePdu_wpdu : wpdu StartResumePdu StartResumePdu_map.
Proof. wpdu_tac StartResumePdu. Qed.
Lemma StopFreezePdu_wpdu : wpdu StopFreezePdu StopFreezePdu_map.
Proof. wpdu_tac StopFreezePdu. Qed.
Lemma AcknowledgePdu_wpdu : wpdu AcknowledgePdu AcknowledgePdu_map.
Proof. wpdu_tac AcknowledgePdu. Qed.
Lemma ActionRequestPdu_wpdu : wpdu ActionRequestPdu ActionRequestPdu_map.
Proof. wpdu_tac ActionRequestPdu. Qed.
Lemma ActionResponsePdu_wpdu : wpdu ActionResponsePdu ActionResponsePdu_map.
Proof. wpdu_tac ActionResponsePdu. Qed.
Lemma DataQueryPdu_wpdu : wpdu DataQueryPdu DataQueryPdu_map.
Proof. wpdu_tac DataQueryPdu. Qed.
Lemma SetDataPdu_wpdu : wpdu SetDataPdu SetDataPdu_map.
Proof. wpdu_tac SetDataPdu. Qed.
Lemma DataPdu_wpdu : wpdu DataPdu DataPdu_map.
Proof. wpdu_tac DataPdu. Qed.
Lemma EventReportPdu_wpdu : wpdu EventReportPdu EventReportPdu_map.
Proof. wpdu_tac EventReportPdu. Qed.
Lemma CommentPdu_wpdu : wpdu CommentPdu CommentPdu_map.
Proof. wpdu_tac CommentPdu. Qed.
Lemma CreateEntityReliablePdu_wpdu : wpdu CreateEntityReliablePdu CreateEntityReliablePdu_map.
Proof. wpdu_tac CreateEntityReliablePdu. Qed.
Lemma RemoveEntityReliablePdu_wpdu : wpdu RemoveEntityReliablePdu RemoveEntityReliablePdu_map.
Proof. wpdu_tac RemoveEntityReliablePdu. Qed.
Lemma StartResumeReliablePdu_wpdu : wpdu StartResumeReliablePdu StartResumeReliablePdu_map.
Proof. wpdu_tac StartResumeReliablePdu. Qed.
Lemma StopFreezeReliablePdu_wpdu : wpdu StopFreezeReliablePdu StopFreezeReliablePdu_map.
Proof. wpdu_tac StopFreezeReliablePdu. Qed.
Lemma AcknowledgeReliablePdu_wpdu : wpdu AcknowledgeReliablePdu AcknowledgeReliablePdu_map.
Proof. wpdu_tac AcknowledgeReliablePdu. Qed.
Lemma ActionRequestReliablePdu_wpdu : wpdu ActionRequestReliablePdu ActionRequestReliablePdu_map.
Proof. wpdu_tac ActionRequestReliablePdu. Qed.
Lemma ActionResponseReliablePdu_wpdu : wpdu ActionResponseReliablePdu ActionResponseReliablePdu_map.
Proof. wpdu_tac ActionResponseReliablePdu. Qed.
Lemma DataQueryReliablePdu_wpdu : wpdu DataQueryReliablePdu DataQueryReliablePdu_map.
Proof. wpdu_tac DataQueryReliablePdu. Qed.
Lemma SetDataReliablePdu_wpdu : wpdu SetDataReliablePdu SetDataReliablePdu_map.
Proof. wpdu_tac SetDataReliablePdu. Qed.
Lemma DataReliablePdu_wpdu : wpdu DataReliablePdu DataReliablePdu_map.
Proof. wpdu_tac DataReliablePdu. Qed.
Lemma EventReportReliablePdu_wpdu : wpdu EventReportReliablePdu EventReportReliablePdu_map.
Proof. wpdu_tac EventReportReliablePdu. Qed.
Lemma CommentReliablePdu_wpdu : wpdu CommentReliablePdu CommentReliablePdu_map.
Proof. wpdu_tac CommentReliablePdu. Qed.
Lemma RecordQueryReliablePdu_wpdu : wpdu RecordQueryReliablePdu RecordQueryReliablePdu_map.
Proof. wpdu_tac RecordQueryReliablePdu. Qed.
Lemma SetRecordReliablePdu_wpdu m : wpdu (SetRecordReliablePdu m) (SetRecordReliablePdu_map m).
Proof. wpdu_tac SetRecordReliablePdu. Qed.
Lemma EnvironmentalProcessPdu_wpdu : wpdu EnvironmentalProcessPdu EnvironmentalProcessPdu_map.
Proof. wpdu_tac EnvironmentalProcessPdu. Qed.
Lemma GriddedDataPdu_wpdu : wpdu GriddedDataPdu GriddedDataPdu_map.
Proof. wpdu_tac GriddedDataPdu. Qed.
Lemma PointObjectStatePdu_wpdu : wpdu PointObjectStatePdu PointObjectStatePdu_map.
Proof. wpdu_tac PointObjectStatePdu. Qed.
Lemma LinearObjectStatePdu_wpdu : wpdu LinearObjectStatePdu LinearObjectStatePdu_map.
Proof. wpdu_tac LinearObjectStatePdu. Qed.
Lemma ArealObjectStatePdu_wpdu : wpdu ArealObjectStatePdu ArealObjectStatePdu_map.
Proof. wpdu_tac ArealObjectStatePdu. Qed.
Lemma FirePdu_wpdu : wpdu FirePdu FirePdu_map.
Proof. wpdu_tac FirePdu. Qed.
Lemma DetonationPdu_wpdu : wpdu DetonationPdu DetonationPdu_map.
Proof. wpdu_tac DetonationPdu. Qed.
Lemma DirectedEnergyFirePdu_wpdu : wpdu DirectedEnergyFirePdu DirectedEnergyFirePdu_map.
Proof. wpdu_tac DirectedEnergyFirePdu. Qed.
Lemma EntityDamageStatusPdu_wpdu : wpdu EntityDamageStatusPdu EntityDamageStatusPdu_map.
Proof. wpdu_tac EntityDamageStatusPdu. Qed.

Lemma all_wpdu m : Forall (fun x => wpdu (pm_class x) (pm_entries x)) (wire_maps m).
Proof.
  unfold wire_maps.
  apply Forall_cons; [exact ElectromagneticEmissionsPdu_wpdu|].
  apply Forall_cons; [exact DesignatorPdu_wpdu|].
  apply Forall_cons; [exact UnderwaterAcousticPdu_wpdu|].
  apply Forall_cons; [exact IFFPdu_wpdu|].
  apply Forall_cons; [exact SupplementalEmissionPdu_wpdu|].
  apply Forall_cons; [exact EntityStatePdu_wpdu|].
  apply Forall_cons; [exact CollisionPdu_wpdu|].
  apply Forall_cons; [exact CollisionElasticPdu_wpdu|].
  apply Forall_cons; [exact EntityStateUpdatePdu_wpdu|].
  apply Forall_cons; [exact AttributePdu_wpdu|].
  apply Forall_cons; [exact AggregateStatePdu_wpdu|].
  apply Forall_cons; [exact IsGroupOfPdu_wpdu|].
  apply Forall_cons; [exact (TransferOwnershipPdu_wpdu m)|].
  apply Forall_cons; [exact IsPartOfPdu_wpdu|].
  apply Forall_cons; [exact InformationOperationsReportPdu_wpdu|].
  apply Forall_cons; [exact InformationOperationsActionPdu_wpdu|].
  apply Forall_cons; [exact ServiceRequestPdu_wpdu|].
  apply Forall_cons; [exact ResupplyOfferPdu_wpdu|].
  apply Forall_cons; [exact ResupplyReceivedPdu_wpdu|].
  apply Forall_cons; [exact ResupplyCancelPdu_wpdu|].
  apply Forall_cons; [exact RepairCompletePdu_wpdu|].
  apply Forall_cons; [exact RepairResponsePdu_wpdu|].
  apply Forall_cons; [exact MinefieldStatePdu_wpdu|].
  apply Forall_cons; [exact MinefieldQueryPdu_wpdu|].
  apply Forall_cons; [exact MinefieldDataPdu_wpdu|].
  apply Forall_cons; [exact MinefieldResponseNackPdu_wpdu|].
  apply Forall_cons; [exact TransmitterPdu_wpdu|].
  apply Forall_cons; [exact SignalPdu_wpdu|].
  apply Forall_cons; [exact ReceiverPdu_wpdu|].
  apply Forall_cons; [exact IntercomSignalPdu_wpdu|].
  apply Forall_cons; [exact IntercomControlPdu_wpdu|].
  apply Forall_cons; [exact CreateEntityPdu_wpdu|].
  apply Forall_cons; [exact RemoveEntityPdu_wpdu|].
  apply Forall_cons; [exact StartResumePdu_wpdu|].
  apply Forall_cons; [exact StopFreezePdu_wpdu|].
  apply Forall_cons; [exact AcknowledgePdu_wpdu|].
  apply Forall_cons; [exact ActionRequestPdu_wpdu|].
  apply Forall_cons; [exact ActionResponsePdu_wpdu|].
  apply Forall_cons; [exact DataQueryPdu_wpdu|].
  apply Forall_cons; [exact SetDataPdu_wpdu|].
  apply Forall_cons; [exact DataPdu_wpdu|].
  apply Forall_cons; [exact EventReportPdu_wpdu|].
  apply Forall_cons; [exact CommentPdu_wpdu|].
  apply Forall_cons; [exact CreateEntityReliablePdu_wpdu|].
  apply Forall_cons; [exact RemoveEntityReliablePdu_wpdu|].
  apply Forall_cons; [exact StartResumeReliablePdu_wpdu|].
  apply Forall_cons; [exact StopFreezeReliablePdu_wpdu|].
  apply Forall_cons; [exact AcknowledgeReliablePdu_wpdu|].
  apply Forall_cons; [exact ActionRequestReliablePdu_wpdu|].
  apply Forall_cons; [exact ActionResponseReliablePdu_wpdu|].
  apply Forall_cons; [exact DataQueryReliablePdu_wpdu|].
  apply Forall_cons; [exact SetDataReliablePdu_wpdu|].
  apply Forall_cons; [exact DataReliablePdu_wpdu|].
  apply Forall_cons; [exact EventReportReliablePdu_wpdu|].
  apply Forall_cons; [exact CommentReliablePdu_wpdu|].
  apply Forall_cons; [exact RecordQueryReliablePdu_wpdu|].
  apply Forall_cons; [exact (SetRecordReliablePdu_wpdu m)|].
  apply Forall_cons; [exact EnvironmentalProcessPdu_wpdu|].
  apply Forall_cons; [exact GriddedDataPdu_wpdu|].
  apply Forall_cons; [exact PointObjectStatePdu_wpdu|].
  apply Forall_cons; [exact LinearObjectStatePdu_wpdu|].
  apply Forall_cons; [exact ArealObjectStatePdu_wpdu|].
  apply Forall_cons; [exact FirePdu_wpdu|].
  apply Forall_cons; [exact DetonationPdu_wpdu|].
  apply Forall_cons; [exact DirectedEnergyFirePdu_wpdu|].
  apply Forall_cons; [exact EntityDamageStatusPdu_wpdu|].
  apply Forall_nil.
Qed.
