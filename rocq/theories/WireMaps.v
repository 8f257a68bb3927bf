(** * Wire maps of the record types and of the fixed part of every PDU class.

    Generated by tools/gen_wire.py: the offsets are the cumulated field widths of the fields
    in the order in which the structs declare them. In a PDU the header occupies bytes 0-11. *)
From Verif Require Import Base EnumModel Enums Header PduMacro DataTypes Bitflags Pdus PduFields Spec Wire.

Definition AcousticBeamFundamentalParameter_map : list (entry AcousticBeamFundamentalParameter) := [
  num 0 2 "active_emission_parameter_index"%string (fun v => uval (AcousticBeamFundamentalParameter_active_emission_parameter_index v));
  num 2 2 "scan_pattern"%string (fun v => uval (AcousticBeamFundamentalParameter_scan_pattern v));
  num 4 4 "beam_center_azimuth"%string (fun v => uval (AcousticBeamFundamentalParameter_beam_center_azimuth v));
  num 8 4 "azimuthal_beamwidth"%string (fun v => uval (AcousticBeamFundamentalParameter_azimuthal_beamwidth v));
  num 12 4 "beam_center_de"%string (fun v => uval (AcousticBeamFundamentalParameter_beam_center_de v));
  num 16 4 "de_beamwidth"%string (fun v => uval (AcousticBeamFundamentalParameter_de_beamwidth v))].

Definition AcousticBeamData_map : list (entry AcousticBeamData) := [
  num 0 2 "beam_data_length"%string (fun v => uval (AcousticBeamData_beam_data_length v));
  num 2 1 "beam_id_number"%string (fun v => uval (AcousticBeamData_beam_id_number v));
  num 3 2 "pad2"%string (fun v => uval (AcousticBeamData_pad2 v));
  num 5 2 "fundamental_data_parameters.active_emission_parameter_index"%string (fun v => uval (AcousticBeamFundamentalParameter_active_emission_parameter_index (AcousticBeamData_fundamental_data_parameters v)));
  num 7 2 "fundamental_data_parameters.scan_pattern"%string (fun v => uval (AcousticBeamFundamentalParameter_scan_pattern (AcousticBeamData_fundamental_data_parameters v)));
  num 9 4 "fundamental_data_parameters.beam_center_azimuth"%string (fun v => uval (AcousticBeamFundamentalParameter_beam_center_azimuth (AcousticBeamData_fundamental_data_parameters v)));
  num 13 4 "fundamental_data_parameters.azimuthal_beamwidth"%string (fun v => uval (AcousticBeamFundamentalParameter_azimuthal_beamwidth (AcousticBeamData_fundamental_data_parameters v)));
  num 17 4 "fundamental_data_parameters.beam_center_de"%string (fun v => uval (AcousticBeamFundamentalParameter_beam_center_de (AcousticBeamData_fundamental_data_parameters v)));
  num 21 4 "fundamental_data_parameters.de_beamwidth"%string (fun v => uval (AcousticBeamFundamentalParameter_de_beamwidth (AcousticBeamData_fundamental_data_parameters v)))].

Definition AcousticEmitterSystem_map : list (entry AcousticEmitterSystem) := [
  cod 0 2 UAAcousticSystemName_spec "acoustic_name"%string (fun v => code (AcousticEmitterSystem_acoustic_name v));
  cod 2 1 UAAcousticEmitterSystemFunction_spec "acoustic_function"%string (fun v => code (AcousticEmitterSystem_acoustic_function v));
  num 3 1 "acoustic_id"%string (fun v => uval (AcousticEmitterSystem_acoustic_id v))].

Definition Vector3Float_map : list (entry Vector3Float) := [
  num 0 4 "x"%string (fun v => uval (Vector3Float_x v));
  num 4 4 "y"%string (fun v => uval (Vector3Float_y v));
  num 8 4 "z"%string (fun v => uval (Vector3Float_z v))].

Definition AggregateId_map : list (entry AggregateId) := [
  num 0 2 "site"%string (fun v => uval (AggregateId_site v));
  num 2 2 "application"%string (fun v => uval (AggregateId_application v));
  num 4 2 "aggregate_id"%string (fun v => uval (AggregateId_aggregate_id v))].

Definition AggregateMarking_map : list (entry AggregateMarking) := [
  num 0 1 "character_set"%string (fun v => uval (AggregateMarking_character_set v));
  num 1 1 "characters"%string (fun v => uval (nth 0 (elems (AggregateMarking_characters v)) (B 0)));
  num 2 1 "characters"%string (fun v => uval (nth 1 (elems (AggregateMarking_characters v)) (B 0)));
  num 3 1 "characters"%string (fun v => uval (nth 2 (elems (AggregateMarking_characters v)) (B 0)));
  num 4 1 "characters"%string (fun v => uval (nth 3 (elems (AggregateMarking_characters v)) (B 0)));
  num 5 1 "characters"%string (fun v => uval (nth 4 (elems (AggregateMarking_characters v)) (B 0)));
  num 6 1 "characters"%string (fun v => uval (nth 5 (elems (AggregateMarking_characters v)) (B 0)));
  num 7 1 "characters"%string (fun v => uval (nth 6 (elems (AggregateMarking_characters v)) (B 0)));
  num 8 1 "characters"%string (fun v => uval (nth 7 (elems (AggregateMarking_characters v)) (B 0)));
  num 9 1 "characters"%string (fun v => uval (nth 8 (elems (AggregateMarking_characters v)) (B 0)));
  num 10 1 "characters"%string (fun v => uval (nth 9 (elems (AggregateMarking_characters v)) (B 0)));
  num 11 1 "characters"%string (fun v => uval (nth 10 (elems (AggregateMarking_characters v)) (B 0)));
  num 12 1 "characters"%string (fun v => uval (nth 11 (elems (AggregateMarking_characters v)) (B 0)));
  num 13 1 "characters"%string (fun v => uval (nth 12 (elems (AggregateMarking_characters v)) (B 0)));
  num 14 1 "characters"%string (fun v => uval (nth 13 (elems (AggregateMarking_characters v)) (B 0)));
  num 15 1 "characters"%string (fun v => uval (nth 14 (elems (AggregateMarking_characters v)) (B 0)));
  num 16 1 "characters"%string (fun v => uval (nth 15 (elems (AggregateMarking_characters v)) (B 0)));
  num 17 1 "characters"%string (fun v => uval (nth 16 (elems (AggregateMarking_characters v)) (B 0)));
  num 18 1 "characters"%string (fun v => uval (nth 17 (elems (AggregateMarking_characters v)) (B 0)));
  num 19 1 "characters"%string (fun v => uval (nth 18 (elems (AggregateMarking_characters v)) (B 0)));
  num 20 1 "characters"%string (fun v => uval (nth 19 (elems (AggregateMarking_characters v)) (B 0)));
  num 21 1 "characters"%string (fun v => uval (nth 20 (elems (AggregateMarking_characters v)) (B 0)));
  num 22 1 "characters"%string (fun v => uval (nth 21 (elems (AggregateMarking_characters v)) (B 0)));
  num 23 1 "characters"%string (fun v => uval (nth 22 (elems (AggregateMarking_characters v)) (B 0)));
  num 24 1 "characters"%string (fun v => uval (nth 23 (elems (AggregateMarking_characters v)) (B 0)));
  num 25 1 "characters"%string (fun v => uval (nth 24 (elems (AggregateMarking_characters v)) (B 0)));
  num 26 1 "characters"%string (fun v => uval (nth 25 (elems (AggregateMarking_characters v)) (B 0)));
  num 27 1 "characters"%string (fun v => uval (nth 26 (elems (AggregateMarking_characters v)) (B 0)));
  num 28 1 "characters"%string (fun v => uval (nth 27 (elems (AggregateMarking_characters v)) (B 0)));
  num 29 1 "characters"%string (fun v => uval (nth 28 (elems (AggregateMarking_characters v)) (B 0)));
  num 30 1 "characters"%string (fun v => uval (nth 29 (elems (AggregateMarking_characters v)) (B 0)));
  num 31 1 "characters"%string (fun v => uval (nth 30 (elems (AggregateMarking_characters v)) (B 0)))].

Definition AngularVelocity_map : list (entry AngularVelocity) := [
  num 0 4 "rate_about_x_axis"%string (fun v => uval (AngularVelocity_rate_about_x_axis v));
  num 4 4 "rate_about_y_axis"%string (fun v => uval (AngularVelocity_rate_about_y_axis v));
  num 8 4 "rate_about_z_axis"%string (fun v => uval (AngularVelocity_rate_about_z_axis v))].

Definition ApaData_map : list (entry ApaData) := [
  num 0 2 "parameter_index"%string (fun v => uval (ApaData_parameter_index v));
  num 2 2 "parameter_value"%string (fun v => uval (ApaData_parameter_value v))].

Definition SimulationAddress_map : list (entry SimulationAddress) := [
  num 0 2 "site_id"%string (fun v => uval (SimulationAddress_site_id v));
  num 2 2 "application_id"%string (fun v => uval (SimulationAddress_application_id v))].

Definition EntityId_map : list (entry EntityId) := [
  num 0 2 "simulation_address.site_id"%string (fun v => uval (SimulationAddress_site_id (EntityId_simulation_address v)));
  num 2 2 "simulation_address.application_id"%string (fun v => uval (SimulationAddress_application_id (EntityId_simulation_address v)));
  num 4 2 "entity_id"%string (fun v => uval (EntityId_entity_id v))].

Definition BeamData_map : list (entry BeamData) := [
  num 0 4 "beam_azimuth_center"%string (fun v => uval (BeamData_beam_azimuth_center v));
  num 4 4 "beam_azimuth_sweep"%string (fun v => uval (BeamData_beam_azimuth_sweep v));
  num 8 4 "beam_elevation_center"%string (fun v => uval (BeamData_beam_elevation_center v));
  num 12 4 "beam_elevation_sweep"%string (fun v => uval (BeamData_beam_elevation_sweep v));
  num 16 4 "beam_sweep_sync"%string (fun v => uval (BeamData_beam_sweep_sync v))].

Definition ClockTime_map : list (entry ClockTime) := [
  num 0 4 "hour"%string (fun v => uval (ClockTime_hour v));
  num 4 4 "time_past_hour"%string (fun v => uval (ClockTime_time_past_hour v))].

Definition FixedDatumRecord_map : list (entry FixedDatumRecord) := [
  num 0 4 "datum_id"%string (fun v => uval (FixedDatumRecord_datum_id v));
  num 4 4 "datum_value"%string (fun v => uval (FixedDatumRecord_datum_value v))].

Definition LinearAcceleration_map : list (entry LinearAcceleration) := [
  num 0 4 "first_vector_component"%string (fun v => uval (LinearAcceleration_first_vector_component v));
  num 4 4 "second_vector_component"%string (fun v => uval (LinearAcceleration_second_vector_component v));
  num 8 4 "third_vector_component"%string (fun v => uval (LinearAcceleration_third_vector_component v))].

Definition DeadReckoningParameters_map : list (entry DeadReckoningParameters) := [
  cod 0 1 DeadReckoningAlgorithm_spec "dead_reckoning_algorithm"%string (fun v => code (DeadReckoningParameters_dead_reckoning_algorithm v));
  lost 1 1 "dead_reckoning_other_parameters"%string (fun v => uval (nth 0 (elems (DeadReckoningParameters_dead_reckoning_other_parameters v)) (B 0)));
  lost 2 1 "dead_reckoning_other_parameters"%string (fun v => uval (nth 1 (elems (DeadReckoningParameters_dead_reckoning_other_parameters v)) (B 0)));
  lost 3 1 "dead_reckoning_other_parameters"%string (fun v => uval (nth 2 (elems (DeadReckoningParameters_dead_reckoning_other_parameters v)) (B 0)));
  lost 4 1 "dead_reckoning_other_parameters"%string (fun v => uval (nth 3 (elems (DeadReckoningParameters_dead_reckoning_other_parameters v)) (B 0)));
  lost 5 1 "dead_reckoning_other_parameters"%string (fun v => uval (nth 4 (elems (DeadReckoningParameters_dead_reckoning_other_parameters v)) (B 0)));
  lost 6 1 "dead_reckoning_other_parameters"%string (fun v => uval (nth 5 (elems (DeadReckoningParameters_dead_reckoning_other_parameters v)) (B 0)));
  lost 7 1 "dead_reckoning_other_parameters"%string (fun v => uval (nth 6 (elems (DeadReckoningParameters_dead_reckoning_other_parameters v)) (B 0)));
  lost 8 1 "dead_reckoning_other_parameters"%string (fun v => uval (nth 7 (elems (DeadReckoningParameters_dead_reckoning_other_parameters v)) (B 0)));
  lost 9 1 "dead_reckoning_other_parameters"%string (fun v => uval (nth 8 (elems (DeadReckoningParameters_dead_reckoning_other_parameters v)) (B 0)));
  lost 10 1 "dead_reckoning_other_parameters"%string (fun v => uval (nth 9 (elems (DeadReckoningParameters_dead_reckoning_other_parameters v)) (B 0)));
  lost 11 1 "dead_reckoning_other_parameters"%string (fun v => uval (nth 10 (elems (DeadReckoningParameters_dead_reckoning_other_parameters v)) (B 0)));
  lost 12 1 "dead_reckoning_other_parameters"%string (fun v => uval (nth 11 (elems (DeadReckoningParameters_dead_reckoning_other_parameters v)) (B 0)));
  lost 13 1 "dead_reckoning_other_parameters"%string (fun v => uval (nth 12 (elems (DeadReckoningParameters_dead_reckoning_other_parameters v)) (B 0)));
  lost 14 1 "dead_reckoning_other_parameters"%string (fun v => uval (nth 13 (elems (DeadReckoningParameters_dead_reckoning_other_parameters v)) (B 0)));
  lost 15 1 "dead_reckoning_other_parameters"%string (fun v => uval (nth 14 (elems (DeadReckoningParameters_dead_reckoning_other_parameters v)) (B 0)));
  num 16 4 "entity_linear_acceleration.first_vector_component"%string (fun v => uval (LinearAcceleration_first_vector_component (DeadReckoningParameters_entity_linear_acceleration v)));
  num 20 4 "entity_linear_acceleration.second_vector_component"%string (fun v => uval (LinearAcceleration_second_vector_component (DeadReckoningParameters_entity_linear_acceleration v)));
  num 24 4 "entity_linear_acceleration.third_vector_component"%string (fun v => uval (LinearAcceleration_third_vector_component (DeadReckoningParameters_entity_linear_acceleration v)));
  num 28 4 "entity_angular_velocity.rate_about_x_axis"%string (fun v => uval (AngularVelocity_rate_about_x_axis (DeadReckoningParameters_entity_angular_velocity v)));
  num 32 4 "entity_angular_velocity.rate_about_y_axis"%string (fun v => uval (AngularVelocity_rate_about_y_axis (DeadReckoningParameters_entity_angular_velocity v)));
  num 36 4 "entity_angular_velocity.rate_about_z_axis"%string (fun v => uval (AngularVelocity_rate_about_z_axis (DeadReckoningParameters_entity_angular_velocity v)))].

Definition EntityCoordinateVector_map : list (entry EntityCoordinateVector) := [
  num 0 4 "x_coordinate"%string (fun v => uval (EntityCoordinateVector_x_coordinate v));
  num 4 4 "y_coordinate"%string (fun v => uval (EntityCoordinateVector_y_coordinate v));
  num 8 4 "z_coordinate"%string (fun v => uval (EntityCoordinateVector_z_coordinate v))].

Definition EventId_map : list (entry EventId) := [
  num 0 2 "simulation_address.site_id"%string (fun v => uval (SimulationAddress_site_id (EventId_simulation_address v)));
  num 2 2 "simulation_address.application_id"%string (fun v => uval (SimulationAddress_application_id (EventId_simulation_address v)));
  num 4 2 "event_identifier"%string (fun v => uval (EventId_event_identifier v))].

Definition DirectedEnergyDamage_map : list (entry DirectedEnergyDamage) := [
  num 0 4 "record_type"%string (fun v => uval (DirectedEnergyDamage_record_type v));
  num 4 2 "record_length"%string (fun v => uval (DirectedEnergyDamage_record_length v));
  num 6 2 "padding"%string (fun v => uval (DirectedEnergyDamage_padding v));
  num 8 4 "damage_location.x_coordinate"%string (fun v => uval (EntityCoordinateVector_x_coordinate (DirectedEnergyDamage_damage_location v)));
  num 12 4 "damage_location.y_coordinate"%string (fun v => uval (EntityCoordinateVector_y_coordinate (DirectedEnergyDamage_damage_location v)));
  num 16 4 "damage_location.z_coordinate"%string (fun v => uval (EntityCoordinateVector_z_coordinate (DirectedEnergyDamage_damage_location v)));
  num 20 4 "damage_diameter"%string (fun v => uval (DirectedEnergyDamage_damage_diameter v));
  num 24 4 "temperature"%string (fun v => uval (DirectedEnergyDamage_temperature v));
  cod 28 1 ComponentIdentification_spec "component_identification"%string (fun v => code (DirectedEnergyDamage_component_identification v));
  cod 29 1 ComponentDamageStatus_spec "component_damage_status"%string (fun v => code (DirectedEnergyDamage_component_damage_status v));
  num 30 1 "component_visual_damage_status"%string (fun v => uval (DirectedEnergyDamage_component_visual_damage_status v));
  cod 31 1 ComponentVisualSmokeColor_spec "component_visual_smoke_color"%string (fun v => code (DirectedEnergyDamage_component_visual_smoke_color v));
  num 32 2 "fire_event_id.simulation_address.site_id"%string (fun v => uval (SimulationAddress_site_id (EventId_simulation_address (DirectedEnergyDamage_fire_event_id v))));
  num 34 2 "fire_event_id.simulation_address.application_id"%string (fun v => uval (SimulationAddress_application_id (EventId_simulation_address (DirectedEnergyDamage_fire_event_id v))));
  num 36 2 "fire_event_id.event_identifier"%string (fun v => uval (EventId_event_identifier (DirectedEnergyDamage_fire_event_id v)));
  num 38 2 "padding2"%string (fun v => uval (DirectedEnergyDamage_padding2 v))].

Definition FundamentalParameterData_map : list (entry FundamentalParameterData) := [
  num 0 4 "frequency"%string (fun v => uval (FundamentalParameterData_frequency v));
  num 4 4 "frequency_range"%string (fun v => uval (FundamentalParameterData_frequency_range v));
  num 8 4 "effective_radiated_power"%string (fun v => uval (FundamentalParameterData_effective_radiated_power v));
  num 12 4 "pulse_repetition_frequency"%string (fun v => uval (FundamentalParameterData_pulse_repetition_frequency v));
  num 16 4 "pulse_width"%string (fun v => uval (FundamentalParameterData_pulse_width v));
  num 20 4 "beam_azimuth_center"%string (fun v => uval (FundamentalParameterData_beam_azimuth_center v));
  num 24 4 "beam_azimuth_sweep"%string (fun v => uval (FundamentalParameterData_beam_azimuth_sweep v));
  num 28 4 "beam_elevation_center"%string (fun v => uval (FundamentalParameterData_beam_elevation_center v));
  num 32 4 "beam_elevation_sweep"%string (fun v => uval (FundamentalParameterData_beam_elevation_sweep v));
  num 36 4 "beam_sweep_sync"%string (fun v => uval (FundamentalParameterData_beam_sweep_sync v))].

Definition TrackJamTarget_map : list (entry TrackJamTarget) := [
  num 0 2 "track_jam.simulation_address.site_id"%string (fun v => uval (SimulationAddress_site_id (EntityId_simulation_address (TrackJamTarget_track_jam v))));
  num 2 2 "track_jam.simulation_address.application_id"%string (fun v => uval (SimulationAddress_application_id (EntityId_simulation_address (TrackJamTarget_track_jam v))));
  num 4 2 "track_jam.entity_id"%string (fun v => uval (EntityId_entity_id (TrackJamTarget_track_jam v)));
  num 6 1 "emitter_id"%string (fun v => uval (TrackJamTarget_emitter_id v));
  num 7 1 "beam_id"%string (fun v => uval (TrackJamTarget_beam_id v))].

Definition EmitterSystem_map : list (entry EmitterSystem) := [
  cod 0 2 EmitterName_spec "emitter_name"%string (fun v => code (EmitterSystem_emitter_name v));
  cod 2 1 EmitterSystemFunction_spec "function"%string (fun v => code (EmitterSystem_function v));
  num 3 1 "emitter_id_number"%string (fun v => uval (EmitterSystem_emitter_id_number v))].

Definition EntityMarking_map : list (entry EntityMarking) := [
  cod 0 1 EntityMarkingCharacterSet_spec "entity_marking_character_set"%string (fun v => code (EntityMarking_entity_marking_character_set v))].

Definition EntityType_map : list (entry EntityType) := [
  cod 0 1 EntityKind_spec "kind"%string (fun v => code (EntityType_kind v));
  num 1 1 "domain"%string (fun v => uval (EntityType_domain v));
  cod 2 2 Country_spec "country"%string (fun v => code (EntityType_country v));
  num 4 1 "category"%string (fun v => uval (EntityType_category v));
  num 5 1 "subcategory"%string (fun v => uval (EntityType_subcategory v));
  num 6 1 "specific"%string (fun v => uval (EntityType_specific v));
  num 7 1 "extra"%string (fun v => uval (EntityType_extra v))].

Definition Environment_map : list (entry Environment) := [
  num 0 4 "environment_type"%string (fun v => uval (Environment_environment_type v));
  num 4 2 "length"%string (fun v => uval (Environment_length v));
  num 6 1 "index"%string (fun v => uval (Environment_index v));
  num 7 1 "padding"%string (fun v => uval (Environment_padding v))].

Definition EulerAngles_map : list (entry EulerAngles) := [
  num 0 4 "psi"%string (fun v => uval (EulerAngles_psi v));
  num 4 4 "theta"%string (fun v => uval (EulerAngles_theta v));
  num 8 4 "phi"%string (fun v => uval (EulerAngles_phi v))].

Definition FundamentalOperationalData_map : list (entry FundamentalOperationalData) := [
  num 0 1 "system_status"%string (fun v => uval (FundamentalOperationalData_system_status v));
  num 1 1 "data_field1"%string (fun v => uval (FundamentalOperationalData_data_field1 v));
  num 2 1 "information_layers"%string (fun v => uval (FundamentalOperationalData_information_layers v));
  num 3 1 "data_field2"%string (fun v => uval (FundamentalOperationalData_data_field2 v));
  num 4 2 "parameter1"%string (fun v => uval (FundamentalOperationalData_parameter1 v));
  num 6 2 "parameter2"%string (fun v => uval (FundamentalOperationalData_parameter2 v));
  num 8 2 "parameter3"%string (fun v => uval (FundamentalOperationalData_parameter3 v));
  num 10 2 "parameter4"%string (fun v => uval (FundamentalOperationalData_parameter4 v));
  num 12 2 "parameter5"%string (fun v => uval (FundamentalOperationalData_parameter5 v));
  num 14 2 "parameter6"%string (fun v => uval (FundamentalOperationalData_parameter6 v))].

Definition IFFFundamentalParameterData_map : list (entry IFFFundamentalParameterData) := [
  num 0 4 "erp"%string (fun v => uval (IFFFundamentalParameterData_erp v));
  num 4 4 "frequency"%string (fun v => uval (IFFFundamentalParameterData_frequency v));
  num 8 4 "pgrf"%string (fun v => uval (IFFFundamentalParameterData_pgrf v));
  num 12 4 "pulse_width"%string (fun v => uval (IFFFundamentalParameterData_pulse_width v));
  num 16 4 "burst_length"%string (fun v => uval (IFFFundamentalParameterData_burst_length v));
  num 20 1 "applicable_modes"%string (fun v => uval (IFFFundamentalParameterData_applicable_modes v));
  num 21 1 "system_specific_data"%string (fun v => uval (nth 0 (elems (IFFFundamentalParameterData_system_specific_data v)) (B 0)));
  num 22 1 "system_specific_data"%string (fun v => uval (nth 1 (elems (IFFFundamentalParameterData_system_specific_data v)) (B 0)));
  num 23 1 "system_specific_data"%string (fun v => uval (nth 2 (elems (IFFFundamentalParameterData_system_specific_data v)) (B 0)))].

Definition IntercomCommunicationsParameters_map : list (entry IntercomCommunicationsParameters) := [
  num 0 2 "record_type"%string (fun v => uval (IntercomCommunicationsParameters_record_type v));
  num 2 2 "record_length"%string (fun v => uval (IntercomCommunicationsParameters_record_length v));
  num 4 4 "record_specific_field"%string (fun v => uval (IntercomCommunicationsParameters_record_specific_field v))].

Definition LayerHeader_map : list (entry LayerHeader) := [
  num 0 1 "layer_number"%string (fun v => uval (LayerHeader_layer_number v));
  num 1 1 "layer_specific_information"%string (fun v => uval (LayerHeader_layer_specific_information v));
  num 2 2 "length"%string (fun v => uval (LayerHeader_length v))].

Definition WorldCoordinate_map : list (entry WorldCoordinate) := [
  num 0 8 "x"%string (fun v => uval (WorldCoordinate_x v));
  num 8 8 "y"%string (fun v => uval (WorldCoordinate_y v));
  num 16 8 "z"%string (fun v => uval (WorldCoordinate_z v))].

Definition LinearSegmentParameter_map : list (entry LinearSegmentParameter) := [
  num 0 1 "segment_number"%string (fun v => uval (LinearSegmentParameter_segment_number v));
  num 1 1 "segment_modification"%string (fun v => uval (LinearSegmentParameter_segment_modification v));
  num 2 4 "general_segment_appearance"%string (fun v => uval (LinearSegmentParameter_general_segment_appearance v));
  num 6 4 "specific_segment_appearance"%string (fun v => uval (LinearSegmentParameter_specific_segment_appearance v));
  num 10 8 "segment_location.x"%string (fun v => uval (WorldCoordinate_x (LinearSegmentParameter_segment_location v)));
  num 18 8 "segment_location.y"%string (fun v => uval (WorldCoordinate_y (LinearSegmentParameter_segment_location v)));
  num 26 8 "segment_location.z"%string (fun v => uval (WorldCoordinate_z (LinearSegmentParameter_segment_location v)));
  num 34 4 "segment_orientation.psi"%string (fun v => uval (EulerAngles_psi (LinearSegmentParameter_segment_orientation v)));
  num 38 4 "segment_orientation.theta"%string (fun v => uval (EulerAngles_theta (LinearSegmentParameter_segment_orientation v)));
  num 42 4 "segment_orientation.phi"%string (fun v => uval (EulerAngles_phi (LinearSegmentParameter_segment_orientation v)));
  num 46 4 "segment_length"%string (fun v => uval (LinearSegmentParameter_segment_length v));
  num 50 4 "segment_width"%string (fun v => uval (LinearSegmentParameter_segment_width v));
  num 54 4 "segment_height"%string (fun v => uval (LinearSegmentParameter_segment_height v));
  num 58 4 "segment_depth"%string (fun v => uval (LinearSegmentParameter_segment_depth v));
  num 62 4 "padding"%string (fun v => uval (LinearSegmentParameter_padding v))].

Definition LinearVelocity_map : list (entry LinearVelocity) := [
  num 0 4 "first_vector_component"%string (fun v => uval (LinearVelocity_first_vector_component v));
  num 4 4 "second_vector_component"%string (fun v => uval (LinearVelocity_second_vector_component v));
  num 8 4 "third_vector_component"%string (fun v => uval (LinearVelocity_third_vector_component v))].

Definition MinefieldIdentifier_map : list (entry MinefieldIdentifier) := [
  num 0 2 "simulation_address.site_id"%string (fun v => uval (SimulationAddress_site_id (MinefieldIdentifier_simulation_address v)));
  num 2 2 "simulation_address.application_id"%string (fun v => uval (SimulationAddress_application_id (MinefieldIdentifier_simulation_address v)));
  num 4 2 "minefield_number"%string (fun v => uval (MinefieldIdentifier_minefield_number v))].

Definition ModulationType_map : list (entry ModulationType) := [
  num 0 2 "spread_spectrum"%string (fun v => uval (ModulationType_spread_spectrum v));
  num 2 2 "major"%string (fun v => uval (ModulationType_major v));
  num 4 2 "detail"%string (fun v => uval (ModulationType_detail v));
  num 6 2 "system"%string (fun v => uval (ModulationType_system v))].

Definition MunitionDescriptor_map : list (entry MunitionDescriptor) := [
  cod 0 1 EntityKind_spec "munition_type.kind"%string (fun v => code (EntityType_kind (MunitionDescriptor_munition_type v)));
  num 1 1 "munition_type.domain"%string (fun v => uval (EntityType_domain (MunitionDescriptor_munition_type v)));
  cod 2 2 Country_spec "munition_type.country"%string (fun v => code (EntityType_country (MunitionDescriptor_munition_type v)));
  num 4 1 "munition_type.category"%string (fun v => uval (EntityType_category (MunitionDescriptor_munition_type v)));
  num 5 1 "munition_type.subcategory"%string (fun v => uval (EntityType_subcategory (MunitionDescriptor_munition_type v)));
  num 6 1 "munition_type.specific"%string (fun v => uval (EntityType_specific (MunitionDescriptor_munition_type v)));
  num 7 1 "munition_type.extra"%string (fun v => uval (EntityType_extra (MunitionDescriptor_munition_type v)));
  num 8 2 "warhead"%string (fun v => uval (MunitionDescriptor_warhead v));
  num 10 2 "fuse"%string (fun v => uval (MunitionDescriptor_fuse v));
  num 12 2 "quantity"%string (fun v => uval (MunitionDescriptor_quantity v));
  num 14 2 "rate"%string (fun v => uval (MunitionDescriptor_rate v))].

Definition NamedLocation_map : list (entry NamedLocation) := [
  num 0 2 "station_name"%string (fun v => uval (NamedLocation_station_name v));
  num 2 2 "station_number"%string (fun v => uval (NamedLocation_station_number v))].

Definition ObjectIdentifier_map : list (entry ObjectIdentifier) := [
  num 0 2 "simulation_address.site_id"%string (fun v => uval (SimulationAddress_site_id (ObjectIdentifier_simulation_address v)));
  num 2 2 "simulation_address.application_id"%string (fun v => uval (SimulationAddress_application_id (ObjectIdentifier_simulation_address v)));
  num 4 2 "object_number"%string (fun v => uval (ObjectIdentifier_object_number v))].

Definition ObjectType_map : list (entry ObjectType) := [
  num 0 1 "domain"%string (fun v => uval (ObjectType_domain v));
  num 1 1 "object_kind"%string (fun v => uval (ObjectType_object_kind v));
  num 2 1 "category"%string (fun v => uval (ObjectType_category v));
  num 3 1 "subcategory"%string (fun v => uval (ObjectType_subcategory v))].

Definition Point_map : list (entry Point) := [
  num 0 4 "x"%string (fun v => uval (Point_x v));
  num 4 4 "y"%string (fun v => uval (Point_y v))].

Definition PropulsionSystemData_map : list (entry PropulsionSystemData) := [
  num 0 4 "power_setting"%string (fun v => uval (PropulsionSystemData_power_setting v));
  num 4 4 "engine_rpm"%string (fun v => uval (PropulsionSystemData_engine_rpm v))].

Definition RadioEntityType_map : list (entry RadioEntityType) := [
  num 0 1 "entity_kind"%string (fun v => uval (RadioEntityType_entity_kind v));
  num 1 1 "domain"%string (fun v => uval (RadioEntityType_domain v));
  num 2 2 "country"%string (fun v => uval (RadioEntityType_country v));
  num 4 1 "category"%string (fun v => uval (RadioEntityType_category v));
  num 5 1 "nomenclature_version"%string (fun v => uval (RadioEntityType_nomenclature_version v));
  num 6 2 "nomenclature"%string (fun v => uval (RadioEntityType_nomenclature v))].

Definition RecordSpecification_map : list (entry RecordSpecification) := [
  num 0 4 "number_of_record_sets"%string (fun v => uval (RecordSpecification_number_of_record_sets v))].

Definition Relationship_map : list (entry Relationship) := [
  num 0 2 "nature"%string (fun v => uval (Relationship_nature v));
  num 2 2 "position"%string (fun v => uval (Relationship_position v))].

Definition SecondaryOperationalData_map : list (entry SecondaryOperationalData) := [
  num 0 1 "operational_data1"%string (fun v => uval (SecondaryOperationalData_operational_data1 v));
  num 1 1 "operational_data2"%string (fun v => uval (SecondaryOperationalData_operational_data2 v));
  num 2 2 "number_of_iff_fundamental_parameter_records"%string (fun v => uval (SecondaryOperationalData_number_of_iff_fundamental_parameter_records v))].

Definition ShaftRPMs_map : list (entry ShaftRPMs) := [
  num 0 2 "current_shaft_rpms"%string (fun v => uval (ShaftRPMs_current_shaft_rpms v));
  num 2 2 "ordered_shaft_rpms"%string (fun v => uval (ShaftRPMs_ordered_shaft_rpms v));
  num 4 4 "shaft_rpm_rate_of_change"%string (fun v => uval (ShaftRPMs_shaft_rpm_rate_of_change v))].

Definition SimulationIdentifier_map : list (entry SimulationIdentifier) := [
  num 0 2 "simulation_address.site_id"%string (fun v => uval (SimulationAddress_site_id (SimulationIdentifier_simulation_address v)));
  num 2 2 "simulation_address.application_id"%string (fun v => uval (SimulationAddress_application_id (SimulationIdentifier_simulation_address v)));
  lost 4 2 "reference_number"%string (fun v => uval (SimulationIdentifier_reference_number v))].

Definition StandardVariableSpecification_map : list (entry StandardVariableSpecification) := [
  num 0 2 "number_of_standard_variable_records"%string (fun v => uval (StandardVariableSpecification_number_of_standard_variable_records v))].

Definition SupplyQuantity_map : list (entry SupplyQuantity) := [
  cod 0 1 EntityKind_spec "supply_type.kind"%string (fun v => code (EntityType_kind (SupplyQuantity_supply_type v)));
  num 1 1 "supply_type.domain"%string (fun v => uval (EntityType_domain (SupplyQuantity_supply_type v)));
  cod 2 2 Country_spec "supply_type.country"%string (fun v => code (EntityType_country (SupplyQuantity_supply_type v)));
  num 4 1 "supply_type.category"%string (fun v => uval (EntityType_category (SupplyQuantity_supply_type v)));
  num 5 1 "supply_type.subcategory"%string (fun v => uval (EntityType_subcategory (SupplyQuantity_supply_type v)));
  num 6 1 "supply_type.specific"%string (fun v => uval (EntityType_specific (SupplyQuantity_supply_type v)));
  num 7 1 "supply_type.extra"%string (fun v => uval (EntityType_extra (SupplyQuantity_supply_type v)));
  num 8 4 "quantity"%string (fun v => uval (SupplyQuantity_quantity v))].

Definition SystemId_map : list (entry SystemId) := [
  num 0 2 "system_type"%string (fun v => uval (SystemId_system_type v));
  num 2 2 "system_name"%string (fun v => uval (SystemId_system_name v));
  num 4 1 "system_mode"%string (fun v => uval (SystemId_system_mode v));
  num 5 1 "change_options"%string (fun v => uval (SystemId_change_options v))].

Definition VariableParameter_map : list (entry VariableParameter) := [
  num 0 1 "record_type"%string (fun v => uval (VariableParameter_record_type v));
  num 1 8 "variable_parameter_field1"%string (fun v => uval (VariableParameter_variable_parameter_field1 v));
  num 9 4 "variable_parameter_field2"%string (fun v => uval (VariableParameter_variable_parameter_field2 v));
  num 13 2 "variable_parameter_field3"%string (fun v => uval (VariableParameter_variable_parameter_field3 v));
  num 15 1 "variable_parameter_field4"%string (fun v => uval (VariableParameter_variable_parameter_field4 v))].

Definition Vector3Double_map : list (entry Vector3Double) := [
  num 0 8 "x"%string (fun v => uval (Vector3Double_x v));
  num 8 8 "y"%string (fun v => uval (Vector3Double_y v));
  num 16 8 "z"%string (fun v => uval (Vector3Double_z v))].

Definition VectoringNozzleSystemData_map : list (entry VectoringNozzleSystemData) := [
  num 0 4 "horizontal_deflection_angle"%string (fun v => uval (VectoringNozzleSystemData_horizontal_deflection_angle v));
  num 4 4 "vertical_deflection_angle"%string (fun v => uval (VectoringNozzleSystemData_vertical_deflection_angle v))].

Definition VelocityVector_map : list (entry VelocityVector) := [
  num 0 4 "first_vector_component"%string (fun v => uval (VelocityVector_first_vector_component v));
  num 4 4 "second_vector_component"%string (fun v => uval (VelocityVector_second_vector_component v));
  num 8 4 "third_vector_component"%string (fun v => uval (VelocityVector_third_vector_component v))].

Definition ElectromagneticEmissionsPdu_map : list (entry (pdu ElectromagneticEmissionsPdu)) := [
  num 12 2 "emitting_entity_id.simulation_address.site_id"%string (fun v => uval (SimulationAddress_site_id (EntityId_simulation_address (ElectromagneticEmissionsPdu_emitting_entity_id v))));
  num 14 2 "emitting_entity_id.simulation_address.application_id"%string (fun v => uval (SimulationAddress_application_id (EntityId_simulation_address (ElectromagneticEmissionsPdu_emitting_entity_id v))));
  num 16 2 "emitting_entity_id.entity_id"%string (fun v => uval (EntityId_entity_id (ElectromagneticEmissionsPdu_emitting_entity_id v)));
  num 18 2 "event_id.simulation_address.site_id"%string (fun v => uval (SimulationAddress_site_id (EventId_simulation_address (ElectromagneticEmissionsPdu_event_id v))));
  num 20 2 "event_id.simulation_address.application_id"%string (fun v => uval (SimulationAddress_application_id (EventId_simulation_address (ElectromagneticEmissionsPdu_event_id v))));
  num 22 2 "event_id.event_identifier"%string (fun v => uval (EventId_event_identifier (ElectromagneticEmissionsPdu_event_id v)));
  cod 24 1 EEAttributeStateIndicator_spec "state_update_indicator"%string (fun v => code (ElectromagneticEmissionsPdu_state_update_indicator v));
  num 25 1 "number_of_systems"%string (fun v => uval (ElectromagneticEmissionsPdu_number_of_systems v));
  num 26 2 "padding"%string (fun v => uval (ElectromagneticEmissionsPdu_padding v))].

Definition DesignatorPdu_map : list (entry (pdu DesignatorPdu)) := [
  num 12 2 "designating_entity_id.simulation_address.site_id"%string (fun v => uval (SimulationAddress_site_id (EntityId_simulation_address (DesignatorPdu_designating_entity_id v))));
  num 14 2 "designating_entity_id.simulation_address.application_id"%string (fun v => uval (SimulationAddress_application_id (EntityId_simulation_address (DesignatorPdu_designating_entity_id v))));
  num 16 2 "designating_entity_id.entity_id"%string (fun v => uval (EntityId_entity_id (DesignatorPdu_designating_entity_id v)));
  cod 18 2 DesignatorSystemName_spec "code_name"%string (fun v => code (DesignatorPdu_code_name v));
  num 20 2 "designated_entity_id.simulation_address.site_id"%string (fun v => uval (SimulationAddress_site_id (EntityId_simulation_address (DesignatorPdu_designated_entity_id v))));
  num 22 2 "designated_entity_id.simulation_address.application_id"%string (fun v => uval (SimulationAddress_application_id (EntityId_simulation_address (DesignatorPdu_designated_entity_id v))));
  num 24 2 "designated_entity_id.entity_id"%string (fun v => uval (EntityId_entity_id (DesignatorPdu_designated_entity_id v)));
  cod 26 2 DesignatorCode_spec "designator_code"%string (fun v => code (DesignatorPdu_designator_code v));
  num 28 4 "designator_power"%string (fun v => uval (DesignatorPdu_designator_power v));
  num 32 4 "designator_wavelength"%string (fun v => uval (DesignatorPdu_designator_wavelength v));
  num 36 4 "designator_spot_wrt_designated.x_coordinate"%string (fun v => uval (EntityCoordinateVector_x_coordinate (DesignatorPdu_designator_spot_wrt_designated v)));
  num 40 4 "designator_spot_wrt_designated.y_coordinate"%string (fun v => uval (EntityCoordinateVector_y_coordinate (DesignatorPdu_designator_spot_wrt_designated v)));
  num 44 4 "designator_spot_wrt_designated.z_coordinate"%string (fun v => uval (EntityCoordinateVector_z_coordinate (DesignatorPdu_designator_spot_wrt_designated v)));
  num 48 8 "designator_spot_location.x"%string (fun v => uval (WorldCoordinate_x (DesignatorPdu_designator_spot_location v)));
  num 56 8 "designator_spot_location.y"%string (fun v => uval (WorldCoordinate_y (DesignatorPdu_designator_spot_location v)));
  num 64 8 "designator_spot_location.z"%string (fun v => uval (WorldCoordinate_z (DesignatorPdu_designator_spot_location v)));
  cod 72 1 DeadReckoningAlgorithm_spec "dead_reckoning_algorithm"%string (fun v => code (DesignatorPdu_dead_reckoning_algorithm v));
  num 73 1 "padding"%string (fun v => uval (DesignatorPdu_padding v));
  num 74 2 "padding2"%string (fun v => uval (DesignatorPdu_padding2 v));
  num 76 4 "entity_linear_acceleration.first_vector_component"%string (fun v => uval (LinearAcceleration_first_vector_component (DesignatorPdu_entity_linear_acceleration v)));
  num 80 4 "entity_linear_acceleration.second_vector_component"%string (fun v => uval (LinearAcceleration_second_vector_component (DesignatorPdu_entity_linear_acceleration v)));
  num 84 4 "entity_linear_acceleration.third_vector_component"%string (fun v => uval (LinearAcceleration_third_vector_component (DesignatorPdu_entity_linear_acceleration v)))].

Definition UnderwaterAcousticPdu_map : list (entry (pdu UnderwaterAcousticPdu)) := [
  num 12 2 "emitting_entity_id.simulation_address.site_id"%string (fun v => uval (SimulationAddress_site_id (EntityId_simulation_address (UnderwaterAcousticPdu_emitting_entity_id v))));
  num 14 2 "emitting_entity_id.simulation_address.application_id"%string (fun v => uval (SimulationAddress_application_id (EntityId_simulation_address (UnderwaterAcousticPdu_emitting_entity_id v))));
  num 16 2 "emitting_entity_id.entity_id"%string (fun v => uval (EntityId_entity_id (UnderwaterAcousticPdu_emitting_entity_id v)));
  num 18 2 "event_id.simulation_address.site_id"%string (fun v => uval (SimulationAddress_site_id (EventId_simulation_address (UnderwaterAcousticPdu_event_id v))));
  num 20 2 "event_id.simulation_address.application_id"%string (fun v => uval (SimulationAddress_application_id (EventId_simulation_address (UnderwaterAcousticPdu_event_id v))));
  num 22 2 "event_id.event_identifier"%string (fun v => uval (EventId_event_identifier (UnderwaterAcousticPdu_event_id v)));
  cod 24 1 UAStateChangeUpdateIndicator_spec "state_change_update_indicator"%string (fun v => code (UnderwaterAcousticPdu_state_change_update_indicator v));
  num 25 1 "padding"%string (fun v => uval (UnderwaterAcousticPdu_padding v));
  cod 26 2 UAPassiveParameterIndex_spec "passive_parameter_index"%string (fun v => code (UnderwaterAcousticPdu_passive_parameter_index v));
  num 28 1 "propulsion_plant_configuration"%string (fun v => uval (UnderwaterAcousticPdu_propulsion_plant_configuration v));
  num 29 1 "number_of_shafts"%string (fun v => uval (UnderwaterAcousticPdu_number_of_shafts v));
  num 30 1 "number_of_apas"%string (fun v => uval (UnderwaterAcousticPdu_number_of_apas v));
  num 31 1 "number_of_ua_emitter_systems"%string (fun v => uval (UnderwaterAcousticPdu_number_of_ua_emitter_systems v))].

Definition IFFPdu_map : list (entry (pdu IFFPdu)) := [
  num 12 2 "emitting_entity_id.simulation_address.site_id"%string (fun v => uval (SimulationAddress_site_id (EntityId_simulation_address (IFFPdu_emitting_entity_id v))));
  num 14 2 "emitting_entity_id.simulation_address.application_id"%string (fun v => uval (SimulationAddress_application_id (EntityId_simulation_address (IFFPdu_emitting_entity_id v))));
  num 16 2 "emitting_entity_id.entity_id"%string (fun v => uval (EntityId_entity_id (IFFPdu_emitting_entity_id v)));
  num 18 2 "event_id.simulation_address.site_id"%string (fun v => uval (SimulationAddress_site_id (EventId_simulation_address (IFFPdu_event_id v))));
  num 20 2 "event_id.simulation_address.application_id"%string (fun v => uval (SimulationAddress_application_id (EventId_simulation_address (IFFPdu_event_id v))));
  num 22 2 "event_id.event_identifier"%string (fun v => uval (EventId_event_identifier (IFFPdu_event_id v)));
  num 24 4 "relative_antenna_location.x_coordinate"%string (fun v => uval (EntityCoordinateVector_x_coordinate (IFFPdu_relative_antenna_location v)));
  num 28 4 "relative_antenna_location.y_coordinate"%string (fun v => uval (EntityCoordinateVector_y_coordinate (IFFPdu_relative_antenna_location v)));
  num 32 4 "relative_antenna_location.z_coordinate"%string (fun v => uval (EntityCoordinateVector_z_coordinate (IFFPdu_relative_antenna_location v)));
  num 36 2 "system_id.system_type"%string (fun v => uval (SystemId_system_type (IFFPdu_system_id v)));
  num 38 2 "system_id.system_name"%string (fun v => uval (SystemId_system_name (IFFPdu_system_id v)));
  num 40 1 "system_id.system_mode"%string (fun v => uval (SystemId_system_mode (IFFPdu_system_id v)));
  num 41 1 "system_id.change_options"%string (fun v => uval (SystemId_change_options (IFFPdu_system_id v)));
  num 42 1 "system_designator"%string (fun v => uval (IFFPdu_system_designator v));
  num 43 1 "system_specific_data"%string (fun v => uval (IFFPdu_system_specific_data v));
  num 44 1 "fundamental_operational_data.system_status"%string (fun v => uval (FundamentalOperationalData_system_status (IFFPdu_fundamental_operational_data v)));
  num 45 1 "fundamental_operational_data.data_field1"%string (fun v => uval (FundamentalOperationalData_data_field1 (IFFPdu_fundamental_operational_data v)));
  num 46 1 "fundamental_operational_data.information_layers"%string (fun v => uval (FundamentalOperationalData_information_layers (IFFPdu_fundamental_operational_data v)));
  num 47 1 "fundamental_operational_data.data_field2"%string (fun v => uval (FundamentalOperationalData_data_field2 (IFFPdu_fundamental_operational_data v)));
  num 48 2 "fundamental_operational_data.parameter1"%string (fun v => uval (FundamentalOperationalData_parameter1 (IFFPdu_fundamental_operational_data v)));
  num 50 2 "fundamental_operational_data.parameter2"%string (fun v => uval (FundamentalOperationalData_parameter2 (IFFPdu_fundamental_operational_data v)));
  num 52 2 "fundamental_operational_data.parameter3"%string (fun v => uval (FundamentalOperationalData_parameter3 (IFFPdu_fundamental_operational_data v)));
  num 54 2 "fundamental_operational_data.parameter4"%string (fun v => uval (FundamentalOperationalData_parameter4 (IFFPdu_fundamental_operational_data v)));
  num 56 2 "fundamental_operational_data.parameter5"%string (fun v => uval (FundamentalOperationalData_parameter5 (IFFPdu_fundamental_operational_data v)));
  num 58 2 "fundamental_operational_data.parameter6"%string (fun v => uval (FundamentalOperationalData_parameter6 (IFFPdu_fundamental_operational_data v)));
  num 60 1 "layer_header.layer_number"%string (fun v => uval (LayerHeader_layer_number (IFFPdu_layer_header v)));
  num 61 1 "layer_header.layer_specific_information"%string (fun v => uval (LayerHeader_layer_specific_information (IFFPdu_layer_header v)));
  num 62 2 "layer_header.length"%string (fun v => uval (LayerHeader_length (IFFPdu_layer_header v)));
  num 64 4 "beam_data.beam_azimuth_center"%string (fun v => uval (BeamData_beam_azimuth_center (IFFPdu_beam_data v)));
  num 68 4 "beam_data.beam_azimuth_sweep"%string (fun v => uval (BeamData_beam_azimuth_sweep (IFFPdu_beam_data v)));
  num 72 4 "beam_data.beam_elevation_center"%string (fun v => uval (BeamData_beam_elevation_center (IFFPdu_beam_data v)));
  num 76 4 "beam_data.beam_elevation_sweep"%string (fun v => uval (BeamData_beam_elevation_sweep (IFFPdu_beam_data v)));
  num 80 4 "beam_data.beam_sweep_sync"%string (fun v => uval (BeamData_beam_sweep_sync (IFFPdu_beam_data v)));
  num 84 1 "secondary_operational_data.operational_data1"%string (fun v => uval (SecondaryOperationalData_operational_data1 (IFFPdu_secondary_operational_data v)));
  num 85 1 "secondary_operational_data.operational_data2"%string (fun v => uval (SecondaryOperationalData_operational_data2 (IFFPdu_secondary_operational_data v)));
  num 86 2 "secondary_operational_data.number_of_iff_fundamental_parameter_records"%string (fun v => uval (SecondaryOperationalData_number_of_iff_fundamental_parameter_records (IFFPdu_secondary_operational_data v)))].

Definition SupplementalEmissionPdu_map : list (entry (pdu SupplementalEmissionPdu)) := [
  num 12 2 "originating_entity_id.simulation_address.site_id"%string (fun v => uval (SimulationAddress_site_id (EntityId_simulation_address (SupplementalEmissionPdu_originating_entity_id v))));
  num 14 2 "originating_entity_id.simulation_address.application_id"%string (fun v => uval (SimulationAddress_application_id (EntityId_simulation_address (SupplementalEmissionPdu_originating_entity_id v))));
  num 16 2 "originating_entity_id.entity_id"%string (fun v => uval (EntityId_entity_id (SupplementalEmissionPdu_originating_entity_id v)));
  num 18 2 "infrared_signature_representation_index"%string (fun v => uval (SupplementalEmissionPdu_infrared_signature_representation_index v));
  num 20 2 "acoustic_signature_representation_index"%string (fun v => uval (SupplementalEmissionPdu_acoustic_signature_representation_index v));
  num 22 2 "radar_cross_section_signature_representation_index"%string (fun v => uval (SupplementalEmissionPdu_radar_cross_section_signature_representation_index v));
  num 24 2 "number_of_propulsion_systems"%string (fun v => uval (SupplementalEmissionPdu_number_of_propulsion_systems v));
  num 26 2 "number_of_vectoring_nozzle_systems"%string (fun v => uval (SupplementalEmissionPdu_number_of_vectoring_nozzle_systems v))].

Definition EntityStatePdu_map : list (entry (pdu EntityStatePdu)) := [
  num 12 2 "entity_id.simulation_address.site_id"%string (fun v => uval (SimulationAddress_site_id (EntityId_simulation_address (EntityStatePdu_entity_id v))));
  num 14 2 "entity_id.simulation_address.application_id"%string (fun v => uval (SimulationAddress_application_id (EntityId_simulation_address (EntityStatePdu_entity_id v))));
  num 16 2 "entity_id.entity_id"%string (fun v => uval (EntityId_entity_id (EntityStatePdu_entity_id v)));
  cod 18 1 ForceId_spec "force_id"%string (fun v => code (EntityStatePdu_force_id v));
  num 19 1 "number_of_articulation_parameters"%string (fun v => uval (EntityStatePdu_number_of_articulation_parameters v));
  cod 20 1 EntityKind_spec "entity_type.kind"%string (fun v => code (EntityType_kind (EntityStatePdu_entity_type v)));
  num 21 1 "entity_type.domain"%string (fun v => uval (EntityType_domain (EntityStatePdu_entity_type v)));
  cod 22 2 Country_spec "entity_type.country"%string (fun v => code (EntityType_country (EntityStatePdu_entity_type v)));
  num 24 1 "entity_type.category"%string (fun v => uval (EntityType_category (EntityStatePdu_entity_type v)));
  num 25 1 "entity_type.subcategory"%string (fun v => uval (EntityType_subcategory (EntityStatePdu_entity_type v)));
  num 26 1 "entity_type.specific"%string (fun v => uval (EntityType_specific (EntityStatePdu_entity_type v)));
  num 27 1 "entity_type.extra"%string (fun v => uval (EntityType_extra (EntityStatePdu_entity_type v)));
  cod 28 1 EntityKind_spec "alternative_entity_type.kind"%string (fun v => code (EntityType_kind (EntityStatePdu_alternative_entity_type v)));
  num 29 1 "alternative_entity_type.domain"%string (fun v => uval (EntityType_domain (EntityStatePdu_alternative_entity_type v)));
  cod 30 2 Country_spec "alternative_entity_type.country"%string (fun v => code (EntityType_country (EntityStatePdu_alternative_entity_type v)));
  num 32 1 "alternative_entity_type.category"%string (fun v => uval (EntityType_category (EntityStatePdu_alternative_entity_type v)));
  num 33 1 "alternative_entity_type.subcategory"%string (fun v => uval (EntityType_subcategory (EntityStatePdu_alternative_entity_type v)));
  num 34 1 "alternative_entity_type.specific"%string (fun v => uval (EntityType_specific (EntityStatePdu_alternative_entity_type v)));
  num 35 1 "alternative_entity_type.extra"%string (fun v => uval (EntityType_extra (EntityStatePdu_alternative_entity_type v)));
  num 36 4 "entity_linear_velocity.first_vector_component"%string (fun v => uval (LinearVelocity_first_vector_component (EntityStatePdu_entity_linear_velocity v)));
  num 40 4 "entity_linear_velocity.second_vector_component"%string (fun v => uval (LinearVelocity_second_vector_component (EntityStatePdu_entity_linear_velocity v)));
  num 44 4 "entity_linear_velocity.third_vector_component"%string (fun v => uval (LinearVelocity_third_vector_component (EntityStatePdu_entity_linear_velocity v)));
  num 48 8 "entity_location.x"%string (fun v => uval (WorldCoordinate_x (EntityStatePdu_entity_location v)));
  num 56 8 "entity_location.y"%string (fun v => uval (WorldCoordinate_y (EntityStatePdu_entity_location v)));
  num 64 8 "entity_location.z"%string (fun v => uval (WorldCoordinate_z (EntityStatePdu_entity_location v)));
  num 72 4 "entity_orientation.psi"%string (fun v => uval (EulerAngles_psi (EntityStatePdu_entity_orientation v)));
  num 76 4 "entity_orientation.theta"%string (fun v => uval (EulerAngles_theta (EntityStatePdu_entity_orientation v)));
  num 80 4 "entity_orientation.phi"%string (fun v => uval (EulerAngles_phi (EntityStatePdu_entity_orientation v)));
  num 84 4 "entity_appearance"%string (fun v => uval (EntityStatePdu_entity_appearance v));
  cod 88 1 DeadReckoningAlgorithm_spec "dead_reckoning_parameters.dead_reckoning_algorithm"%string (fun v => code (DeadReckoningParameters_dead_reckoning_algorithm (EntityStatePdu_dead_reckoning_parameters v)));
  lost 89 1 "dead_reckoning_parameters.dead_reckoning_other_parameters"%string (fun v => uval (nth 0 (elems (DeadReckoningParameters_dead_reckoning_other_parameters (EntityStatePdu_dead_reckoning_parameters v))) (B 0)));
  lost 90 1 "dead_reckoning_parameters.dead_reckoning_other_parameters"%string (fun v => uval (nth 1 (elems (DeadReckoningParameters_dead_reckoning_other_parameters (EntityStatePdu_dead_reckoning_parameters v))) (B 0)));
  lost 91 1 "dead_reckoning_parameters.dead_reckoning_other_parameters"%string (fun v => uval (nth 2 (elems (DeadReckoningParameters_dead_reckoning_other_parameters (EntityStatePdu_dead_reckoning_parameters v))) (B 0)));
  lost 92 1 "dead_reckoning_parameters.dead_reckoning_other_parameters"%string (fun v => uval (nth 3 (elems (DeadReckoningParameters_dead_reckoning_other_parameters (EntityStatePdu_dead_reckoning_parameters v))) (B 0)));
  lost 93 1 "dead_reckoning_parameters.dead_reckoning_other_parameters"%string (fun v => uval (nth 4 (elems (DeadReckoningParameters_dead_reckoning_other_parameters (EntityStatePdu_dead_reckoning_parameters v))) (B 0)));
  lost 94 1 "dead_reckoning_parameters.dead_reckoning_other_parameters"%string (fun v => uval (nth 5 (elems (DeadReckoningParameters_dead_reckoning_other_parameters (EntityStatePdu_dead_reckoning_parameters v))) (B 0)));
  lost 95 1 "dead_reckoning_parameters.dead_reckoning_other_parameters"%string (fun v => uval (nth 6 (elems (DeadReckoningParameters_dead_reckoning_other_parameters (EntityStatePdu_dead_reckoning_parameters v))) (B 0)));
  lost 96 1 "dead_reckoning_parameters.dead_reckoning_other_parameters"%string (fun v => uval (nth 7 (elems (DeadReckoningParameters_dead_reckoning_other_parameters (EntityStatePdu_dead_reckoning_parameters v))) (B 0)));
  lost 97 1 "dead_reckoning_parameters.dead_reckoning_other_parameters"%string (fun v => uval (nth 8 (elems (DeadReckoningParameters_dead_reckoning_other_parameters (EntityStatePdu_dead_reckoning_parameters v))) (B 0)));
  lost 98 1 "dead_reckoning_parameters.dead_reckoning_other_parameters"%string (fun v => uval (nth 9 (elems (DeadReckoningParameters_dead_reckoning_other_parameters (EntityStatePdu_dead_reckoning_parameters v))) (B 0)));
  lost 99 1 "dead_reckoning_parameters.dead_reckoning_other_parameters"%string (fun v => uval (nth 10 (elems (DeadReckoningParameters_dead_reckoning_other_parameters (EntityStatePdu_dead_reckoning_parameters v))) (B 0)));
  lost 100 1 "dead_reckoning_parameters.dead_reckoning_other_parameters"%string (fun v => uval (nth 11 (elems (DeadReckoningParameters_dead_reckoning_other_parameters (EntityStatePdu_dead_reckoning_parameters v))) (B 0)));
  lost 101 1 "dead_reckoning_parameters.dead_reckoning_other_parameters"%string (fun v => uval (nth 12 (elems (DeadReckoningParameters_dead_reckoning_other_parameters (EntityStatePdu_dead_reckoning_parameters v))) (B 0)));
  lost 102 1 "dead_reckoning_parameters.dead_reckoning_other_parameters"%string (fun v => uval (nth 13 (elems (DeadReckoningParameters_dead_reckoning_other_parameters (EntityStatePdu_dead_reckoning_parameters v))) (B 0)));
  lost 103 1 "dead_reckoning_parameters.dead_reckoning_other_parameters"%string (fun v => uval (nth 14 (elems (DeadReckoningParameters_dead_reckoning_other_parameters (EntityStatePdu_dead_reckoning_parameters v))) (B 0)));
  num 104 4 "dead_reckoning_parameters.entity_linear_acceleration.first_vector_component"%string (fun v => uval (LinearAcceleration_first_vector_component (DeadReckoningParameters_entity_linear_acceleration (EntityStatePdu_dead_reckoning_parameters v))));
  num 108 4 "dead_reckoning_parameters.entity_linear_acceleration.second_vector_component"%string (fun v => uval (LinearAcceleration_second_vector_component (DeadReckoningParameters_entity_linear_acceleration (EntityStatePdu_dead_reckoning_parameters v))));
  num 112 4 "dead_reckoning_parameters.entity_linear_acceleration.third_vector_component"%string (fun v => uval (LinearAcceleration_third_vector_component (DeadReckoningParameters_entity_linear_acceleration (EntityStatePdu_dead_reckoning_parameters v))));
  num 116 4 "dead_reckoning_parameters.entity_angular_velocity.rate_about_x_axis"%string (fun v => uval (AngularVelocity_rate_about_x_axis (DeadReckoningParameters_entity_angular_velocity (EntityStatePdu_dead_reckoning_parameters v))));
  num 120 4 "dead_reckoning_parameters.entity_angular_velocity.rate_about_y_axis"%string (fun v => uval (AngularVelocity_rate_about_y_axis (DeadReckoningParameters_entity_angular_velocity (EntityStatePdu_dead_reckoning_parameters v))));
  num 124 4 "dead_reckoning_parameters.entity_angular_velocity.rate_about_z_axis"%string (fun v => uval (AngularVelocity_rate_about_z_axis (DeadReckoningParameters_entity_angular_velocity (EntityStatePdu_dead_reckoning_parameters v))));
  cod 128 1 EntityMarkingCharacterSet_spec "entity_marking.entity_marking_character_set"%string (fun v => code (EntityMarking_entity_marking_character_set (EntityStatePdu_entity_marking v)))].

Definition CollisionPdu_map : list (entry (pdu CollisionPdu)) := [
  num 12 2 "issuing_entity_id.simulation_address.site_id"%string (fun v => uval (SimulationAddress_site_id (EntityId_simulation_address (CollisionPdu_issuing_entity_id v))));
  num 14 2 "issuing_entity_id.simulation_address.application_id"%string (fun v => uval (SimulationAddress_application_id (EntityId_simulation_address (CollisionPdu_issuing_entity_id v))));
  num 16 2 "issuing_entity_id.entity_id"%string (fun v => uval (EntityId_entity_id (CollisionPdu_issuing_entity_id v)));
  num 18 2 "colliding_entity_id.simulation_address.site_id"%string (fun v => uval (SimulationAddress_site_id (EntityId_simulation_address (CollisionPdu_colliding_entity_id v))));
  num 20 2 "colliding_entity_id.simulation_address.application_id"%string (fun v => uval (SimulationAddress_application_id (EntityId_simulation_address (CollisionPdu_colliding_entity_id v))));
  num 22 2 "colliding_entity_id.entity_id"%string (fun v => uval (EntityId_entity_id (CollisionPdu_colliding_entity_id v)));
  num 24 2 "event_id.simulation_address.site_id"%string (fun v => uval (SimulationAddress_site_id (EventId_simulation_address (CollisionPdu_event_id v))));
  num 26 2 "event_id.simulation_address.application_id"%string (fun v => uval (SimulationAddress_application_id (EventId_simulation_address (CollisionPdu_event_id v))));
  num 28 2 "event_id.event_identifier"%string (fun v => uval (EventId_event_identifier (CollisionPdu_event_id v)));
  num 30 1 "collision_type"%string (fun v => uval (CollisionPdu_collision_type v));
  num 31 1 "padding"%string (fun v => uval (CollisionPdu_padding v));
  num 32 4 "velocity.first_vector_component"%string (fun v => uval (LinearVelocity_first_vector_component (CollisionPdu_velocity v)));
  num 36 4 "velocity.second_vector_component"%string (fun v => uval (LinearVelocity_second_vector_component (CollisionPdu_velocity v)));
  num 40 4 "velocity.third_vector_component"%string (fun v => uval (LinearVelocity_third_vector_component (CollisionPdu_velocity v)));
  num 44 4 "mass"%string (fun v => uval (CollisionPdu_mass v));
  num 48 4 "location_wrt_entity.x_coordinate"%string (fun v => uval (EntityCoordinateVector_x_coordinate (CollisionPdu_location_wrt_entity v)));
  num 52 4 "location_wrt_entity.y_coordinate"%string (fun v => uval (EntityCoordinateVector_y_coordinate (CollisionPdu_location_wrt_entity v)));
  num 56 4 "location_wrt_entity.z_coordinate"%string (fun v => uval (EntityCoordinateVector_z_coordinate (CollisionPdu_location_wrt_entity v)))].

Definition CollisionElasticPdu_map : list (entry (pdu CollisionElasticPdu)) := [
  num 12 2 "issuing_entity_id.simulation_address.site_id"%string (fun v => uval (SimulationAddress_site_id (EntityId_simulation_address (CollisionElasticPdu_issuing_entity_id v))));
  num 14 2 "issuing_entity_id.simulation_address.application_id"%string (fun v => uval (SimulationAddress_application_id (EntityId_simulation_address (CollisionElasticPdu_issuing_entity_id v))));
  num 16 2 "issuing_entity_id.entity_id"%string (fun v => uval (EntityId_entity_id (CollisionElasticPdu_issuing_entity_id v)));
  num 18 2 "colliding_entity_id.simulation_address.site_id"%string (fun v => uval (SimulationAddress_site_id (EntityId_simulation_address (CollisionElasticPdu_colliding_entity_id v))));
  num 20 2 "colliding_entity_id.simulation_address.application_id"%string (fun v => uval (SimulationAddress_application_id (EntityId_simulation_address (CollisionElasticPdu_colliding_entity_id v))));
  num 22 2 "colliding_entity_id.entity_id"%string (fun v => uval (EntityId_entity_id (CollisionElasticPdu_colliding_entity_id v)));
  num 24 2 "event_id.simulation_address.site_id"%string (fun v => uval (SimulationAddress_site_id (EventId_simulation_address (CollisionElasticPdu_event_id v))));
  num 26 2 "event_id.simulation_address.application_id"%string (fun v => uval (SimulationAddress_application_id (EventId_simulation_address (CollisionElasticPdu_event_id v))));
  num 28 2 "event_id.event_identifier"%string (fun v => uval (EventId_event_identifier (CollisionElasticPdu_event_id v)));
  num 30 2 "padding"%string (fun v => uval (CollisionElasticPdu_padding v));
  num 32 4 "contact_velocity.first_vector_component"%string (fun v => uval (LinearVelocity_first_vector_component (CollisionElasticPdu_contact_velocity v)));
  num 36 4 "contact_velocity.second_vector_component"%string (fun v => uval (LinearVelocity_second_vector_component (CollisionElasticPdu_contact_velocity v)));
  num 40 4 "contact_velocity.third_vector_component"%string (fun v => uval (LinearVelocity_third_vector_component (CollisionElasticPdu_contact_velocity v)));
  num 44 4 "mass"%string (fun v => uval (CollisionElasticPdu_mass v));
  num 48 4 "location_of_impact.x_coordinate"%string (fun v => uval (EntityCoordinateVector_x_coordinate (CollisionElasticPdu_location_of_impact v)));
  num 52 4 "location_of_impact.y_coordinate"%string (fun v => uval (EntityCoordinateVector_y_coordinate (CollisionElasticPdu_location_of_impact v)));
  num 56 4 "location_of_impact.z_coordinate"%string (fun v => uval (EntityCoordinateVector_z_coordinate (CollisionElasticPdu_location_of_impact v)));
  num 60 4 "collision_intermediate_result_xx"%string (fun v => uval (CollisionElasticPdu_collision_intermediate_result_xx v));
  num 64 4 "collision_intermediate_result_xy"%string (fun v => uval (CollisionElasticPdu_collision_intermediate_result_xy v));
  num 68 4 "collision_intermediate_result_xz"%string (fun v => uval (CollisionElasticPdu_collision_intermediate_result_xz v));
  num 72 4 "collision_intermediate_result_yy"%string (fun v => uval (CollisionElasticPdu_collision_intermediate_result_yy v));
  num 76 4 "collision_intermediate_result_yz"%string (fun v => uval (CollisionElasticPdu_collision_intermediate_result_yz v));
  num 80 4 "collision_intermediate_result_zz"%string (fun v => uval (CollisionElasticPdu_collision_intermediate_result_zz v));
  num 84 4 "unit_surface_normal.x_coordinate"%string (fun v => uval (EntityCoordinateVector_x_coordinate (CollisionElasticPdu_unit_surface_normal v)));
  num 88 4 "unit_surface_normal.y_coordinate"%string (fun v => uval (EntityCoordinateVector_y_coordinate (CollisionElasticPdu_unit_surface_normal v)));
  num 92 4 "unit_surface_normal.z_coordinate"%string (fun v => uval (EntityCoordinateVector_z_coordinate (CollisionElasticPdu_unit_surface_normal v)));
  num 96 4 "coefficient_of_restitution"%string (fun v => uval (CollisionElasticPdu_coefficient_of_restitution v))].

Definition EntityStateUpdatePdu_map : list (entry (pdu EntityStateUpdatePdu)) := [
  num 12 2 "entity_id.simulation_address.site_id"%string (fun v => uval (SimulationAddress_site_id (EntityId_simulation_address (EntityStateUpdatePdu_entity_id v))));
  num 14 2 "entity_id.simulation_address.application_id"%string (fun v => uval (SimulationAddress_application_id (EntityId_simulation_address (EntityStateUpdatePdu_entity_id v))));
  num 16 2 "entity_id.entity_id"%string (fun v => uval (EntityId_entity_id (EntityStateUpdatePdu_entity_id v)));
  num 18 1 "padding"%string (fun v => uval (EntityStateUpdatePdu_padding v));
  num 19 1 "number_of_variable_parameters"%string (fun v => uval (EntityStateUpdatePdu_number_of_variable_parameters v));
  num 20 4 "entity_linear_velocity.first_vector_component"%string (fun v => uval (LinearVelocity_first_vector_component (EntityStateUpdatePdu_entity_linear_velocity v)));
  num 24 4 "entity_linear_velocity.second_vector_component"%string (fun v => uval (LinearVelocity_second_vector_component (EntityStateUpdatePdu_entity_linear_velocity v)));
  num 28 4 "entity_linear_velocity.third_vector_component"%string (fun v => uval (LinearVelocity_third_vector_component (EntityStateUpdatePdu_entity_linear_velocity v)));
  num 32 8 "entity_location.x"%string (fun v => uval (WorldCoordinate_x (EntityStateUpdatePdu_entity_location v)));
  num 40 8 "entity_location.y"%string (fun v => uval (WorldCoordinate_y (EntityStateUpdatePdu_entity_location v)));
  num 48 8 "entity_location.z"%string (fun v => uval (WorldCoordinate_z (EntityStateUpdatePdu_entity_location v)));
  num 56 4 "entity_orientation.psi"%string (fun v => uval (EulerAngles_psi (EntityStateUpdatePdu_entity_orientation v)));
  num 60 4 "entity_orientation.theta"%string (fun v => uval (EulerAngles_theta (EntityStateUpdatePdu_entity_orientation v)));
  num 64 4 "entity_orientation.phi"%string (fun v => uval (EulerAngles_phi (EntityStateUpdatePdu_entity_orientation v)));
  num 68 4 "entity_appearance"%string (fun v => uval (EntityStateUpdatePdu_entity_appearance v))].

Definition AttributePdu_map : list (entry (pdu AttributePdu)) := [
  num 12 2 "originating_simulation_address.site_id"%string (fun v => uval (SimulationAddress_site_id (AttributePdu_originating_simulation_address v)));
  num 14 2 "originating_simulation_address.application_id"%string (fun v => uval (SimulationAddress_application_id (AttributePdu_originating_simulation_address v)));
  num 16 4 "padding"%string (fun v => uval (AttributePdu_padding v));
  num 20 2 "padding2"%string (fun v => uval (AttributePdu_padding2 v));
  num 22 1 "attribute_record_pdu_type"%string (fun v => uval (AttributePdu_attribute_record_pdu_type v));
  num 23 1 "attribute_record_protocol_version"%string (fun v => uval (AttributePdu_attribute_record_protocol_version v));
  num 24 4 "master_attribute_record_type"%string (fun v => uval (AttributePdu_master_attribute_record_type v));
  cod 28 1 DISAttributeActionCode_spec "action_code"%string (fun v => code (AttributePdu_action_code v));
  num 29 1 "padding3"%string (fun v => uval (AttributePdu_padding3 v));
  num 30 2 "number_of_attribute_record_sets"%string (fun v => uval (AttributePdu_number_of_attribute_record_sets v))].

Definition AggregateStatePdu_map : list (entry (pdu AggregateStatePdu)) := [
  num 12 2 "aggregate_id.site"%string (fun v => uval (AggregateId_site (AggregateStatePdu_aggregate_id v)));
  num 14 2 "aggregate_id.application"%string (fun v => uval (AggregateId_application (AggregateStatePdu_aggregate_id v)));
  num 16 2 "aggregate_id.aggregate_id"%string (fun v => uval (AggregateId_aggregate_id (AggregateStatePdu_aggregate_id v)));
  cod 18 1 ForceId_spec "force_id"%string (fun v => code (AggregateStatePdu_force_id v));
  cod 19 1 AggregateStateAggregateState_spec "aggregate_state"%string (fun v => code (AggregateStatePdu_aggregate_state v));
  cod 20 1 EntityKind_spec "aggregate_type.kind"%string (fun v => code (EntityType_kind (AggregateStatePdu_aggregate_type v)));
  num 21 1 "aggregate_type.domain"%string (fun v => uval (EntityType_domain (AggregateStatePdu_aggregate_type v)));
  cod 22 2 Country_spec "aggregate_type.country"%string (fun v => code (EntityType_country (AggregateStatePdu_aggregate_type v)));
  num 24 1 "aggregate_type.category"%string (fun v => uval (EntityType_category (AggregateStatePdu_aggregate_type v)));
  num 25 1 "aggregate_type.subcategory"%string (fun v => uval (EntityType_subcategory (AggregateStatePdu_aggregate_type v)));
  num 26 1 "aggregate_type.specific"%string (fun v => uval (EntityType_specific (AggregateStatePdu_aggregate_type v)));
  num 27 1 "aggregate_type.extra"%string (fun v => uval (EntityType_extra (AggregateStatePdu_aggregate_type v)));
  cod 28 4 AggregateStateFormation_spec "formation"%string (fun v => code (AggregateStatePdu_formation v));
  num 32 1 "aggregate_marking.character_set"%string (fun v => uval (AggregateMarking_character_set (AggregateStatePdu_aggregate_marking v)));
  num 33 1 "aggregate_marking.characters"%string (fun v => uval (nth 0 (elems (AggregateMarking_characters (AggregateStatePdu_aggregate_marking v))) (B 0)));
  num 34 1 "aggregate_marking.characters"%string (fun v => uval (nth 1 (elems (AggregateMarking_characters (AggregateStatePdu_aggregate_marking v))) (B 0)));
  num 35 1 "aggregate_marking.characters"%string (fun v => uval (nth 2 (elems (AggregateMarking_characters (AggregateStatePdu_aggregate_marking v))) (B 0)));
  num 36 1 "aggregate_marking.characters"%string (fun v => uval (nth 3 (elems (AggregateMarking_characters (AggregateStatePdu_aggregate_marking v))) (B 0)));
  num 37 1 "aggregate_marking.characters"%string (fun v => uval (nth 4 (elems (AggregateMarking_characters (AggregateStatePdu_aggregate_marking v))) (B 0)));
  num 38 1 "aggregate_marking.characters"%string (fun v => uval (nth 5 (elems (AggregateMarking_characters (AggregateStatePdu_aggregate_marking v))) (B 0)));
  num 39 1 "aggregate_marking.characters"%string (fun v => uval (nth 6 (elems (AggregateMarking_characters (AggregateStatePdu_aggregate_marking v))) (B 0)));
  num 40 1 "aggregate_marking.characters"%string (fun v => uval (nth 7 (elems (AggregateMarking_characters (AggregateStatePdu_aggregate_marking v))) (B 0)));
  num 41 1 "aggregate_marking.characters"%string (fun v => uval (nth 8 (elems (AggregateMarking_characters (AggregateStatePdu_aggregate_marking v))) (B 0)));
  num 42 1 "aggregate_marking.characters"%string (fun v => uval (nth 9 (elems (AggregateMarking_characters (AggregateStatePdu_aggregate_marking v))) (B 0)));
  num 43 1 "aggregate_marking.characters"%string (fun v => uval (nth 10 (elems (AggregateMarking_characters (AggregateStatePdu_aggregate_marking v))) (B 0)));
  num 44 1 "aggregate_marking.characters"%string (fun v => uval (nth 11 (elems (AggregateMarking_characters (AggregateStatePdu_aggregate_marking v))) (B 0)));
  num 45 1 "aggregate_marking.characters"%string (fun v => uval (nth 12 (elems (AggregateMarking_characters (AggregateStatePdu_aggregate_marking v))) (B 0)));
  num 46 1 "aggregate_marking.characters"%string (fun v => uval (nth 13 (elems (AggregateMarking_characters (AggregateStatePdu_aggregate_marking v))) (B 0)));
  num 47 1 "aggregate_marking.characters"%string (fun v => uval (nth 14 (elems (AggregateMarking_characters (AggregateStatePdu_aggregate_marking v))) (B 0)));
  num 48 1 "aggregate_marking.characters"%string (fun v => uval (nth 15 (elems (AggregateMarking_characters (AggregateStatePdu_aggregate_marking v))) (B 0)));
  num 49 1 "aggregate_marking.characters"%string (fun v => uval (nth 16 (elems (AggregateMarking_characters (AggregateStatePdu_aggregate_marking v))) (B 0)));
  num 50 1 "aggregate_marking.characters"%string (fun v => uval (nth 17 (elems (AggregateMarking_characters (AggregateStatePdu_aggregate_marking v))) (B 0)));
  num 51 1 "aggregate_marking.characters"%string (fun v => uval (nth 18 (elems (AggregateMarking_characters (AggregateStatePdu_aggregate_marking v))) (B 0)));
  num 52 1 "aggregate_marking.characters"%string (fun v => uval (nth 19 (elems (AggregateMarking_characters (AggregateStatePdu_aggregate_marking v))) (B 0)));
  num 53 1 "aggregate_marking.characters"%string (fun v => uval (nth 20 (elems (AggregateMarking_characters (AggregateStatePdu_aggregate_marking v))) (B 0)));
  num 54 1 "aggregate_marking.characters"%string (fun v => uval (nth 21 (elems (AggregateMarking_characters (AggregateStatePdu_aggregate_marking v))) (B 0)));
  num 55 1 "aggregate_marking.characters"%string (fun v => uval (nth 22 (elems (AggregateMarking_characters (AggregateStatePdu_aggregate_marking v))) (B 0)));
  num 56 1 "aggregate_marking.characters"%string (fun v => uval (nth 23 (elems (AggregateMarking_characters (AggregateStatePdu_aggregate_marking v))) (B 0)));
  num 57 1 "aggregate_marking.characters"%string (fun v => uval (nth 24 (elems (AggregateMarking_characters (AggregateStatePdu_aggregate_marking v))) (B 0)));
  num 58 1 "aggregate_marking.characters"%string (fun v => uval (nth 25 (elems (AggregateMarking_characters (AggregateStatePdu_aggregate_marking v))) (B 0)));
  num 59 1 "aggregate_marking.characters"%string (fun v => uval (nth 26 (elems (AggregateMarking_characters (AggregateStatePdu_aggregate_marking v))) (B 0)));
  num 60 1 "aggregate_marking.characters"%string (fun v => uval (nth 27 (elems (AggregateMarking_characters (AggregateStatePdu_aggregate_marking v))) (B 0)));
  num 61 1 "aggregate_marking.characters"%string (fun v => uval (nth 28 (elems (AggregateMarking_characters (AggregateStatePdu_aggregate_marking v))) (B 0)));
  num 62 1 "aggregate_marking.characters"%string (fun v => uval (nth 29 (elems (AggregateMarking_characters (AggregateStatePdu_aggregate_marking v))) (B 0)));
  num 63 1 "aggregate_marking.characters"%string (fun v => uval (nth 30 (elems (AggregateMarking_characters (AggregateStatePdu_aggregate_marking v))) (B 0)));
  num 64 4 "dimensions.x"%string (fun v => uval (Vector3Float_x (AggregateStatePdu_dimensions v)));
  num 68 4 "dimensions.y"%string (fun v => uval (Vector3Float_y (AggregateStatePdu_dimensions v)));
  num 72 4 "dimensions.z"%string (fun v => uval (Vector3Float_z (AggregateStatePdu_dimensions v)));
  num 76 4 "orientation.psi"%string (fun v => uval (EulerAngles_psi (AggregateStatePdu_orientation v)));
  num 80 4 "orientation.theta"%string (fun v => uval (EulerAngles_theta (AggregateStatePdu_orientation v)));
  num 84 4 "orientation.phi"%string (fun v => uval (EulerAngles_phi (AggregateStatePdu_orientation v)));
  num 88 8 "center_of_mass.x"%string (fun v => uval (WorldCoordinate_x (AggregateStatePdu_center_of_mass v)));
  num 96 8 "center_of_mass.y"%string (fun v => uval (WorldCoordinate_y (AggregateStatePdu_center_of_mass v)));
  num 104 8 "center_of_mass.z"%string (fun v => uval (WorldCoordinate_z (AggregateStatePdu_center_of_mass v)));
  num 112 4 "velocity.first_vector_component"%string (fun v => uval (LinearVelocity_first_vector_component (AggregateStatePdu_velocity v)));
  num 116 4 "velocity.second_vector_component"%string (fun v => uval (LinearVelocity_second_vector_component (AggregateStatePdu_velocity v)));
  num 120 4 "velocity.third_vector_component"%string (fun v => uval (LinearVelocity_third_vector_component (AggregateStatePdu_velocity v)));
  num 124 2 "number_of_dis_aggregates"%string (fun v => uval (AggregateStatePdu_number_of_dis_aggregates v));
  num 126 2 "number_of_dis_entities"%string (fun v => uval (AggregateStatePdu_number_of_dis_entities v));
  num 128 2 "number_of_silent_aggregate_types"%string (fun v => uval (AggregateStatePdu_number_of_silent_aggregate_types v));
  num 130 2 "number_of_silent_entity_types"%string (fun v => uval (AggregateStatePdu_number_of_silent_entity_types v))].

Definition IsGroupOfPdu_map : list (entry (pdu IsGroupOfPdu)) := [
  num 12 2 "group_entity_id.simulation_address.site_id"%string (fun v => uval (SimulationAddress_site_id (EntityId_simulation_address (IsGroupOfPdu_group_entity_id v))));
  num 14 2 "group_entity_id.simulation_address.application_id"%string (fun v => uval (SimulationAddress_application_id (EntityId_simulation_address (IsGroupOfPdu_group_entity_id v))));
  num 16 2 "group_entity_id.entity_id"%string (fun v => uval (EntityId_entity_id (IsGroupOfPdu_group_entity_id v)));
  cod 18 1 IsGroupOfGroupedEntityCategory_spec "grouped_entity_category"%string (fun v => code (IsGroupOfPdu_grouped_entity_category v));
  num 19 1 "number_of_grouped_entities"%string (fun v => uval (IsGroupOfPdu_number_of_grouped_entities v));
  num 20 4 "padding"%string (fun v => uval (IsGroupOfPdu_padding v));
  num 24 8 "latitude"%string (fun v => uval (IsGroupOfPdu_latitude v));
  num 32 8 "longitude"%string (fun v => uval (IsGroupOfPdu_longitude v))].

Definition TransferOwnershipPdu_map (m : profile) : list (entry (pdu (TransferOwnershipPdu m))) := [
  num 12 2 "originating_id.simulation_address.site_id"%string (fun v => uval (SimulationAddress_site_id (SimulationIdentifier_simulation_address (TransferOwnershipPdu_originating_id v))));
  num 14 2 "originating_id.simulation_address.application_id"%string (fun v => uval (SimulationAddress_application_id (SimulationIdentifier_simulation_address (TransferOwnershipPdu_originating_id v))));
  lost 16 2 "originating_id.reference_number"%string (fun v => uval (SimulationIdentifier_reference_number (TransferOwnershipPdu_originating_id v)));
  num 18 2 "receiving_id.simulation_address.site_id"%string (fun v => uval (SimulationAddress_site_id (SimulationIdentifier_simulation_address (TransferOwnershipPdu_receiving_id v))));
  num 20 2 "receiving_id.simulation_address.application_id"%string (fun v => uval (SimulationAddress_application_id (SimulationIdentifier_simulation_address (TransferOwnershipPdu_receiving_id v))));
  lost 22 2 "receiving_id.reference_number"%string (fun v => uval (SimulationIdentifier_reference_number (TransferOwnershipPdu_receiving_id v)));
  num 24 4 "request_id"%string (fun v => uval (TransferOwnershipPdu_request_id v));
  cod 28 1 RequiredReliabilityService_spec "required_reliability_service"%string (fun v => code (TransferOwnershipPdu_required_reliability_service v));
  cod 29 1 TransferControlTransferType_spec "transfer_type"%string (fun v => code (TransferOwnershipPdu_transfer_type v));
  num 30 2 "transfer_entity_id.simulation_address.site_id"%string (fun v => uval (SimulationAddress_site_id (EntityId_simulation_address (TransferOwnershipPdu_transfer_entity_id v))));
  num 32 2 "transfer_entity_id.simulation_address.application_id"%string (fun v => uval (SimulationAddress_application_id (EntityId_simulation_address (TransferOwnershipPdu_transfer_entity_id v))));
  num 34 2 "transfer_entity_id.entity_id"%string (fun v => uval (EntityId_entity_id (TransferOwnershipPdu_transfer_entity_id v)));
  num 36 4 "record_information.number_of_record_sets"%string (fun v => uval (RecordSpecification_number_of_record_sets (TransferOwnershipPdu_record_information v)))].

Definition IsPartOfPdu_map : list (entry (pdu IsPartOfPdu)) := [
  num 12 2 "originating_entity_id.simulation_address.site_id"%string (fun v => uval (SimulationAddress_site_id (EntityId_simulation_address (IsPartOfPdu_originating_entity_id v))));
  num 14 2 "originating_entity_id.simulation_address.application_id"%string (fun v => uval (SimulationAddress_application_id (EntityId_simulation_address (IsPartOfPdu_originating_entity_id v))));
  num 16 2 "originating_entity_id.entity_id"%string (fun v => uval (EntityId_entity_id (IsPartOfPdu_originating_entity_id v)));
  num 18 2 "receiving_entity_id.simulation_address.site_id"%string (fun v => uval (SimulationAddress_site_id (EntityId_simulation_address (IsPartOfPdu_receiving_entity_id v))));
  num 20 2 "receiving_entity_id.simulation_address.application_id"%string (fun v => uval (SimulationAddress_application_id (EntityId_simulation_address (IsPartOfPdu_receiving_entity_id v))));
  num 22 2 "receiving_entity_id.entity_id"%string (fun v => uval (EntityId_entity_id (IsPartOfPdu_receiving_entity_id v)));
  num 24 2 "relationship.nature"%string (fun v => uval (Relationship_nature (IsPartOfPdu_relationship v)));
  num 26 2 "relationship.position"%string (fun v => uval (Relationship_position (IsPartOfPdu_relationship v)));
  num 28 4 "part_location.x"%string (fun v => uval (Vector3Float_x (IsPartOfPdu_part_location v)));
  num 32 4 "part_location.y"%string (fun v => uval (Vector3Float_y (IsPartOfPdu_part_location v)));
  num 36 4 "part_location.z"%string (fun v => uval (Vector3Float_z (IsPartOfPdu_part_location v)));
  num 40 2 "named_location_id.station_name"%string (fun v => uval (NamedLocation_station_name (IsPartOfPdu_named_location_id v)));
  num 42 2 "named_location_id.station_number"%string (fun v => uval (NamedLocation_station_number (IsPartOfPdu_named_location_id v)));
  cod 44 1 EntityKind_spec "part_entity_type.kind"%string (fun v => code (EntityType_kind (IsPartOfPdu_part_entity_type v)));
  num 45 1 "part_entity_type.domain"%string (fun v => uval (EntityType_domain (IsPartOfPdu_part_entity_type v)));
  cod 46 2 Country_spec "part_entity_type.country"%string (fun v => code (EntityType_country (IsPartOfPdu_part_entity_type v)));
  num 48 1 "part_entity_type.category"%string (fun v => uval (EntityType_category (IsPartOfPdu_part_entity_type v)));
  num 49 1 "part_entity_type.subcategory"%string (fun v => uval (EntityType_subcategory (IsPartOfPdu_part_entity_type v)));
  num 50 1 "part_entity_type.specific"%string (fun v => uval (EntityType_specific (IsPartOfPdu_part_entity_type v)));
  num 51 1 "part_entity_type.extra"%string (fun v => uval (EntityType_extra (IsPartOfPdu_part_entity_type v)))].

Definition InformationOperationsReportPdu_map : list (entry (pdu InformationOperationsReportPdu)) := [
  num 12 2 "originating_simulation_id.simulation_address.site_id"%string (fun v => uval (SimulationAddress_site_id (SimulationIdentifier_simulation_address (InformationOperationsReportPdu_originating_simulation_id v))));
  num 14 2 "originating_simulation_id.simulation_address.application_id"%string (fun v => uval (SimulationAddress_application_id (SimulationIdentifier_simulation_address (InformationOperationsReportPdu_originating_simulation_id v))));
  lost 16 2 "originating_simulation_id.reference_number"%string (fun v => uval (SimulationIdentifier_reference_number (InformationOperationsReportPdu_originating_simulation_id v)));
  cod 18 2 IOActionIOSimulationSource_spec "io_simulation_source"%string (fun v => code (InformationOperationsReportPdu_io_simulation_source v));
  cod 20 1 IOReportIOReportType_spec "io_report_type"%string (fun v => code (InformationOperationsReportPdu_io_report_type v));
  num 21 1 "padding"%string (fun v => uval (InformationOperationsReportPdu_padding v));
  num 22 2 "io_attacker_entity_id.simulation_address.site_id"%string (fun v => uval (SimulationAddress_site_id (EntityId_simulation_address (InformationOperationsReportPdu_io_attacker_entity_id v))));
  num 24 2 "io_attacker_entity_id.simulation_address.application_id"%string (fun v => uval (SimulationAddress_application_id (EntityId_simulation_address (InformationOperationsReportPdu_io_attacker_entity_id v))));
  num 26 2 "io_attacker_entity_id.entity_id"%string (fun v => uval (EntityId_entity_id (InformationOperationsReportPdu_io_attacker_entity_id v)));
  num 28 2 "primary_target_entity_id.simulation_address.site_id"%string (fun v => uval (SimulationAddress_site_id (EntityId_simulation_address (InformationOperationsReportPdu_primary_target_entity_id v))));
  num 30 2 "primary_target_entity_id.simulation_address.application_id"%string (fun v => uval (SimulationAddress_application_id (EntityId_simulation_address (InformationOperationsReportPdu_primary_target_entity_id v))));
  num 32 2 "primary_target_entity_id.entity_id"%string (fun v => uval (EntityId_entity_id (InformationOperationsReportPdu_primary_target_entity_id v)));
  num 34 2 "padding2"%string (fun v => uval (InformationOperationsReportPdu_padding2 v));
  num 36 2 "padding3"%string (fun v => uval (InformationOperationsReportPdu_padding3 v));
  num 38 2 "io_records.number_of_standard_variable_records"%string (fun v => uval (StandardVariableSpecification_number_of_standard_variable_records (InformationOperationsReportPdu_io_records v)))].

Definition InformationOperationsActionPdu_map : list (entry (pdu InformationOperationsActionPdu)) := [
  num 12 2 "originating_simulation_id.simulation_address.site_id"%string (fun v => uval (SimulationAddress_site_id (SimulationIdentifier_simulation_address (InformationOperationsActionPdu_originating_simulation_id v))));
  num 14 2 "originating_simulation_id.simulation_address.application_id"%string (fun v => uval (SimulationAddress_application_id (SimulationIdentifier_simulation_address (InformationOperationsActionPdu_originating_simulation_id v))));
  lost 16 2 "originating_simulation_id.reference_number"%string (fun v => uval (SimulationIdentifier_reference_number (InformationOperationsActionPdu_originating_simulation_id v)));
  num 18 2 "receiving_simulation_id.simulation_address.site_id"%string (fun v => uval (SimulationAddress_site_id (SimulationIdentifier_simulation_address (InformationOperationsActionPdu_receiving_simulation_id v))));
  num 20 2 "receiving_simulation_id.simulation_address.application_id"%string (fun v => uval (SimulationAddress_application_id (SimulationIdentifier_simulation_address (InformationOperationsActionPdu_receiving_simulation_id v))));
  lost 22 2 "receiving_simulation_id.reference_number"%string (fun v => uval (SimulationIdentifier_reference_number (InformationOperationsActionPdu_receiving_simulation_id v)));
  num 24 4 "request_id"%string (fun v => uval (InformationOperationsActionPdu_request_id v));
  cod 28 2 IOActionIOWarfareType_spec "io_warfare_type"%string (fun v => code (InformationOperationsActionPdu_io_warfare_type v));
  cod 30 2 IOActionIOSimulationSource_spec "io_simulation_source"%string (fun v => code (InformationOperationsActionPdu_io_simulation_source v));
  cod 32 2 IOActionIOActionType_spec "io_action_type"%string (fun v => code (InformationOperationsActionPdu_io_action_type v));
  cod 34 2 IOActionIOActionPhase_spec "io_action_phase"%string (fun v => code (InformationOperationsActionPdu_io_action_phase v));
  num 36 4 "padding"%string (fun v => uval (InformationOperationsActionPdu_padding v));
  num 40 2 "io_attacker_entity_id.simulation_address.site_id"%string (fun v => uval (SimulationAddress_site_id (EntityId_simulation_address (InformationOperationsActionPdu_io_attacker_entity_id v))));
  num 42 2 "io_attacker_entity_id.simulation_address.application_id"%string (fun v => uval (SimulationAddress_application_id (EntityId_simulation_address (InformationOperationsActionPdu_io_attacker_entity_id v))));
  num 44 2 "io_attacker_entity_id.entity_id"%string (fun v => uval (EntityId_entity_id (InformationOperationsActionPdu_io_attacker_entity_id v)));
  num 46 2 "io_primary_target_entity_id.simulation_address.site_id"%string (fun v => uval (SimulationAddress_site_id (EntityId_simulation_address (InformationOperationsActionPdu_io_primary_target_entity_id v))));
  num 48 2 "io_primary_target_entity_id.simulation_address.application_id"%string (fun v => uval (SimulationAddress_application_id (EntityId_simulation_address (InformationOperationsActionPdu_io_primary_target_entity_id v))));
  num 50 2 "io_primary_target_entity_id.entity_id"%string (fun v => uval (EntityId_entity_id (InformationOperationsActionPdu_io_primary_target_entity_id v)));
  num 52 2 "padding2"%string (fun v => uval (InformationOperationsActionPdu_padding2 v));
  num 54 2 "io_records.number_of_standard_variable_records"%string (fun v => uval (StandardVariableSpecification_number_of_standard_variable_records (InformationOperationsActionPdu_io_records v)))].

Definition ServiceRequestPdu_map : list (entry (pdu ServiceRequestPdu)) := [
  num 12 2 "receiving_entity_id.simulation_address.site_id"%string (fun v => uval (SimulationAddress_site_id (EntityId_simulation_address (ServiceRequestPdu_receiving_entity_id v))));
  num 14 2 "receiving_entity_id.simulation_address.application_id"%string (fun v => uval (SimulationAddress_application_id (EntityId_simulation_address (ServiceRequestPdu_receiving_entity_id v))));
  num 16 2 "receiving_entity_id.entity_id"%string (fun v => uval (EntityId_entity_id (ServiceRequestPdu_receiving_entity_id v)));
  num 18 2 "servicing_entity_id.simulation_address.site_id"%string (fun v => uval (SimulationAddress_site_id (EntityId_simulation_address (ServiceRequestPdu_servicing_entity_id v))));
  num 20 2 "servicing_entity_id.simulation_address.application_id"%string (fun v => uval (SimulationAddress_application_id (EntityId_simulation_address (ServiceRequestPdu_servicing_entity_id v))));
  num 22 2 "servicing_entity_id.entity_id"%string (fun v => uval (EntityId_entity_id (ServiceRequestPdu_servicing_entity_id v)));
  cod 24 1 ServiceRequestServiceTypeRequested_spec "service_type_requested"%string (fun v => code (ServiceRequestPdu_service_type_requested v));
  num 25 1 "number_of_supply_types"%string (fun v => uval (ServiceRequestPdu_number_of_supply_types v));
  num 26 2 "padding"%string (fun v => uval (ServiceRequestPdu_padding v))].

Definition ResupplyOfferPdu_map : list (entry (pdu ResupplyOfferPdu)) := [
  num 12 2 "receiving_entity_id.simulation_address.site_id"%string (fun v => uval (SimulationAddress_site_id (EntityId_simulation_address (ResupplyOfferPdu_receiving_entity_id v))));
  num 14 2 "receiving_entity_id.simulation_address.application_id"%string (fun v => uval (SimulationAddress_application_id (EntityId_simulation_address (ResupplyOfferPdu_receiving_entity_id v))));
  num 16 2 "receiving_entity_id.entity_id"%string (fun v => uval (EntityId_entity_id (ResupplyOfferPdu_receiving_entity_id v)));
  num 18 2 "supplying_entity_id.simulation_address.site_id"%string (fun v => uval (SimulationAddress_site_id (EntityId_simulation_address (ResupplyOfferPdu_supplying_entity_id v))));
  num 20 2 "supplying_entity_id.simulation_address.application_id"%string (fun v => uval (SimulationAddress_application_id (EntityId_simulation_address (ResupplyOfferPdu_supplying_entity_id v))));
  num 22 2 "supplying_entity_id.entity_id"%string (fun v => uval (EntityId_entity_id (ResupplyOfferPdu_supplying_entity_id v)));
  num 24 1 "number_of_supply_types"%string (fun v => uval (ResupplyOfferPdu_number_of_supply_types v));
  num 25 1 "padding"%string (fun v => uval (ResupplyOfferPdu_padding v));
  num 26 2 "padding2"%string (fun v => uval (ResupplyOfferPdu_padding2 v))].

Definition ResupplyReceivedPdu_map : list (entry (pdu ResupplyReceivedPdu)) := [
  num 12 2 "receiving_entity_id.simulation_address.site_id"%string (fun v => uval (SimulationAddress_site_id (EntityId_simulation_address (ResupplyReceivedPdu_receiving_entity_id v))));
  num 14 2 "receiving_entity_id.simulation_address.application_id"%string (fun v => uval (SimulationAddress_application_id (EntityId_simulation_address (ResupplyReceivedPdu_receiving_entity_id v))));
  num 16 2 "receiving_entity_id.entity_id"%string (fun v => uval (EntityId_entity_id (ResupplyReceivedPdu_receiving_entity_id v)));
  num 18 2 "supplying_entity_id.simulation_address.site_id"%string (fun v => uval (SimulationAddress_site_id (EntityId_simulation_address (ResupplyReceivedPdu_supplying_entity_id v))));
  num 20 2 "supplying_entity_id.simulation_address.application_id"%string (fun v => uval (SimulationAddress_application_id (EntityId_simulation_address (ResupplyReceivedPdu_supplying_entity_id v))));
  num 22 2 "supplying_entity_id.entity_id"%string (fun v => uval (EntityId_entity_id (ResupplyReceivedPdu_supplying_entity_id v)));
  num 24 1 "number_of_supply_types"%string (fun v => uval (ResupplyReceivedPdu_number_of_supply_types v));
  num 25 1 "padding"%string (fun v => uval (ResupplyReceivedPdu_padding v));
  num 26 2 "padding2"%string (fun v => uval (ResupplyReceivedPdu_padding2 v))].

Definition ResupplyCancelPdu_map : list (entry (pdu ResupplyCancelPdu)) := [
  num 12 2 "receiving_entity_id.simulation_address.site_id"%string (fun v => uval (SimulationAddress_site_id (EntityId_simulation_address (ResupplyCancelPdu_receiving_entity_id v))));
  num 14 2 "receiving_entity_id.simulation_address.application_id"%string (fun v => uval (SimulationAddress_application_id (EntityId_simulation_address (ResupplyCancelPdu_receiving_entity_id v))));
  num 16 2 "receiving_entity_id.entity_id"%string (fun v => uval (EntityId_entity_id (ResupplyCancelPdu_receiving_entity_id v)));
  num 18 2 "supplying_entity_id.simulation_address.site_id"%string (fun v => uval (SimulationAddress_site_id (EntityId_simulation_address (ResupplyCancelPdu_supplying_entity_id v))));
  num 20 2 "supplying_entity_id.simulation_address.application_id"%string (fun v => uval (SimulationAddress_application_id (EntityId_simulation_address (ResupplyCancelPdu_supplying_entity_id v))));
  num 22 2 "supplying_entity_id.entity_id"%string (fun v => uval (EntityId_entity_id (ResupplyCancelPdu_supplying_entity_id v)))].

Definition RepairCompletePdu_map : list (entry (pdu RepairCompletePdu)) := [
  num 12 2 "receiving_entity_id.simulation_address.site_id"%string (fun v => uval (SimulationAddress_site_id (EntityId_simulation_address (RepairCompletePdu_receiving_entity_id v))));
  num 14 2 "receiving_entity_id.simulation_address.application_id"%string (fun v => uval (SimulationAddress_application_id (EntityId_simulation_address (RepairCompletePdu_receiving_entity_id v))));
  num 16 2 "receiving_entity_id.entity_id"%string (fun v => uval (EntityId_entity_id (RepairCompletePdu_receiving_entity_id v)));
  num 18 2 "repairing_entity_id.simulation_address.site_id"%string (fun v => uval (SimulationAddress_site_id (EntityId_simulation_address (RepairCompletePdu_repairing_entity_id v))));
  num 20 2 "repairing_entity_id.simulation_address.application_id"%string (fun v => uval (SimulationAddress_application_id (EntityId_simulation_address (RepairCompletePdu_repairing_entity_id v))));
  num 22 2 "repairing_entity_id.entity_id"%string (fun v => uval (EntityId_entity_id (RepairCompletePdu_repairing_entity_id v)));
  cod 24 2 RepairCompleteRepair_spec "repair"%string (fun v => code (RepairCompletePdu_repair v));
  num 26 2 "padding"%string (fun v => uval (RepairCompletePdu_padding v))].

Definition RepairResponsePdu_map : list (entry (pdu RepairResponsePdu)) := [
  num 12 2 "receiving_entity_id.simulation_address.site_id"%string (fun v => uval (SimulationAddress_site_id (EntityId_simulation_address (RepairResponsePdu_receiving_entity_id v))));
  num 14 2 "receiving_entity_id.simulation_address.application_id"%string (fun v => uval (SimulationAddress_application_id (EntityId_simulation_address (RepairResponsePdu_receiving_entity_id v))));
  num 16 2 "receiving_entity_id.entity_id"%string (fun v => uval (EntityId_entity_id (RepairResponsePdu_receiving_entity_id v)));
  num 18 2 "repairing_entity_id.simulation_address.site_id"%string (fun v => uval (SimulationAddress_site_id (EntityId_simulation_address (RepairResponsePdu_repairing_entity_id v))));
  num 20 2 "repairing_entity_id.simulation_address.application_id"%string (fun v => uval (SimulationAddress_application_id (EntityId_simulation_address (RepairResponsePdu_repairing_entity_id v))));
  num 22 2 "repairing_entity_id.entity_id"%string (fun v => uval (EntityId_entity_id (RepairResponsePdu_repairing_entity_id v)));
  cod 24 1 RepairResponseRepairResult_spec "repair_result"%string (fun v => code (RepairResponsePdu_repair_result v));
  num 25 1 "padding"%string (fun v => uval (RepairResponsePdu_padding v));
  num 26 2 "padding2"%string (fun v => uval (RepairResponsePdu_padding2 v))].

Definition MinefieldStatePdu_map : list (entry (pdu MinefieldStatePdu)) := [
  num 12 2 "minefield_id.simulation_address.site_id"%string (fun v => uval (SimulationAddress_site_id (MinefieldIdentifier_simulation_address (MinefieldStatePdu_minefield_id v))));
  num 14 2 "minefield_id.simulation_address.application_id"%string (fun v => uval (SimulationAddress_application_id (MinefieldIdentifier_simulation_address (MinefieldStatePdu_minefield_id v))));
  num 16 2 "minefield_id.minefield_number"%string (fun v => uval (MinefieldIdentifier_minefield_number (MinefieldStatePdu_minefield_id v)));
  num 18 2 "minefield_sequence"%string (fun v => uval (MinefieldStatePdu_minefield_sequence v));
  cod 20 1 ForceId_spec "force_id"%string (fun v => code (MinefieldStatePdu_force_id v));
  num 21 1 "number_of_perimeter_points"%string (fun v => uval (MinefieldStatePdu_number_of_perimeter_points v));
  cod 22 1 EntityKind_spec "minefield_type.kind"%string (fun v => code (EntityType_kind (MinefieldStatePdu_minefield_type v)));
  num 23 1 "minefield_type.domain"%string (fun v => uval (EntityType_domain (MinefieldStatePdu_minefield_type v)));
  cod 24 2 Country_spec "minefield_type.country"%string (fun v => code (EntityType_country (MinefieldStatePdu_minefield_type v)));
  num 26 1 "minefield_type.category"%string (fun v => uval (EntityType_category (MinefieldStatePdu_minefield_type v)));
  num 27 1 "minefield_type.subcategory"%string (fun v => uval (EntityType_subcategory (MinefieldStatePdu_minefield_type v)));
  num 28 1 "minefield_type.specific"%string (fun v => uval (EntityType_specific (MinefieldStatePdu_minefield_type v)));
  num 29 1 "minefield_type.extra"%string (fun v => uval (EntityType_extra (MinefieldStatePdu_minefield_type v)));
  num 30 2 "number_of_mine_types"%string (fun v => uval (MinefieldStatePdu_number_of_mine_types v));
  num 32 8 "minefield_location.x"%string (fun v => uval (WorldCoordinate_x (MinefieldStatePdu_minefield_location v)));
  num 40 8 "minefield_location.y"%string (fun v => uval (WorldCoordinate_y (MinefieldStatePdu_minefield_location v)));
  num 48 8 "minefield_location.z"%string (fun v => uval (WorldCoordinate_z (MinefieldStatePdu_minefield_location v)));
  num 56 4 "minefield_orientation.psi"%string (fun v => uval (EulerAngles_psi (MinefieldStatePdu_minefield_orientation v)));
  num 60 4 "minefield_orientation.theta"%string (fun v => uval (EulerAngles_theta (MinefieldStatePdu_minefield_orientation v)));
  num 64 4 "minefield_orientation.phi"%string (fun v => uval (EulerAngles_phi (MinefieldStatePdu_minefield_orientation v)));
  num 68 2 "appearance"%string (fun v => uval (MinefieldStatePdu_appearance v));
  cod 70 2 MinefieldStateProtocolMode_spec "protocol_mode"%string (fun v => code (MinefieldStatePdu_protocol_mode v))].

Definition MinefieldQueryPdu_map : list (entry (pdu MinefieldQueryPdu)) := [
  num 12 2 "minefield_id.simulation_address.site_id"%string (fun v => uval (SimulationAddress_site_id (MinefieldIdentifier_simulation_address (MinefieldQueryPdu_minefield_id v))));
  num 14 2 "minefield_id.simulation_address.application_id"%string (fun v => uval (SimulationAddress_application_id (MinefieldIdentifier_simulation_address (MinefieldQueryPdu_minefield_id v))));
  num 16 2 "minefield_id.minefield_number"%string (fun v => uval (MinefieldIdentifier_minefield_number (MinefieldQueryPdu_minefield_id v)));
  num 18 2 "requesting_entity_id.simulation_address.site_id"%string (fun v => uval (SimulationAddress_site_id (EntityId_simulation_address (MinefieldQueryPdu_requesting_entity_id v))));
  num 20 2 "requesting_entity_id.simulation_address.application_id"%string (fun v => uval (SimulationAddress_application_id (EntityId_simulation_address (MinefieldQueryPdu_requesting_entity_id v))));
  num 22 2 "requesting_entity_id.entity_id"%string (fun v => uval (EntityId_entity_id (MinefieldQueryPdu_requesting_entity_id v)));
  num 24 1 "request_id"%string (fun v => uval (MinefieldQueryPdu_request_id v));
  num 25 1 "number_of_perimeter_points"%string (fun v => uval (MinefieldQueryPdu_number_of_perimeter_points v));
  num 26 1 "padding"%string (fun v => uval (MinefieldQueryPdu_padding v));
  num 27 1 "number_of_sensor_types"%string (fun v => uval (MinefieldQueryPdu_number_of_sensor_types v));
  num 28 4 "data_filter"%string (fun v => uval (MinefieldQueryPdu_data_filter v));
  cod 32 1 EntityKind_spec "requested_mine_type.kind"%string (fun v => code (EntityType_kind (MinefieldQueryPdu_requested_mine_type v)));
  num 33 1 "requested_mine_type.domain"%string (fun v => uval (EntityType_domain (MinefieldQueryPdu_requested_mine_type v)));
  cod 34 2 Country_spec "requested_mine_type.country"%string (fun v => code (EntityType_country (MinefieldQueryPdu_requested_mine_type v)));
  num 36 1 "requested_mine_type.category"%string (fun v => uval (EntityType_category (MinefieldQueryPdu_requested_mine_type v)));
  num 37 1 "requested_mine_type.subcategory"%string (fun v => uval (EntityType_subcategory (MinefieldQueryPdu_requested_mine_type v)));
  num 38 1 "requested_mine_type.specific"%string (fun v => uval (EntityType_specific (MinefieldQueryPdu_requested_mine_type v)));
  num 39 1 "requested_mine_type.extra"%string (fun v => uval (EntityType_extra (MinefieldQueryPdu_requested_mine_type v)))].

Definition MinefieldDataPdu_map : list (entry (pdu MinefieldDataPdu)) := [
  num 12 2 "minefield_id.simulation_address.site_id"%string (fun v => uval (SimulationAddress_site_id (MinefieldIdentifier_simulation_address (MinefieldDataPdu_minefield_id v))));
  num 14 2 "minefield_id.simulation_address.application_id"%string (fun v => uval (SimulationAddress_application_id (MinefieldIdentifier_simulation_address (MinefieldDataPdu_minefield_id v))));
  num 16 2 "minefield_id.minefield_number"%string (fun v => uval (MinefieldIdentifier_minefield_number (MinefieldDataPdu_minefield_id v)));
  num 18 2 "requesting_entity_id.simulation_address.site_id"%string (fun v => uval (SimulationAddress_site_id (EntityId_simulation_address (MinefieldDataPdu_requesting_entity_id v))));
  num 20 2 "requesting_entity_id.simulation_address.application_id"%string (fun v => uval (SimulationAddress_application_id (EntityId_simulation_address (MinefieldDataPdu_requesting_entity_id v))));
  num 22 2 "requesting_entity_id.entity_id"%string (fun v => uval (EntityId_entity_id (MinefieldDataPdu_requesting_entity_id v)));
  num 24 2 "minefield_sequence_number"%string (fun v => uval (MinefieldDataPdu_minefield_sequence_number v));
  num 26 1 "request_id"%string (fun v => uval (MinefieldDataPdu_request_id v));
  num 27 1 "pdu_sequence_number"%string (fun v => uval (MinefieldDataPdu_pdu_sequence_number v));
  num 28 1 "number_of_pdus"%string (fun v => uval (MinefieldDataPdu_number_of_pdus v));
  num 29 1 "number_of_mines_in_this_pdu"%string (fun v => uval (MinefieldDataPdu_number_of_mines_in_this_pdu v));
  num 30 1 "number_of_sensor_types"%string (fun v => uval (MinefieldDataPdu_number_of_sensor_types v));
  num 31 1 "padding"%string (fun v => uval (MinefieldDataPdu_padding v));
  num 32 4 "data_filter"%string (fun v => uval (MinefieldDataPdu_data_filter v));
  cod 36 1 EntityKind_spec "mine_type.kind"%string (fun v => code (EntityType_kind (MinefieldDataPdu_mine_type v)));
  num 37 1 "mine_type.domain"%string (fun v => uval (EntityType_domain (MinefieldDataPdu_mine_type v)));
  cod 38 2 Country_spec "mine_type.country"%string (fun v => code (EntityType_country (MinefieldDataPdu_mine_type v)));
  num 40 1 "mine_type.category"%string (fun v => uval (EntityType_category (MinefieldDataPdu_mine_type v)));
  num 41 1 "mine_type.subcategory"%string (fun v => uval (EntityType_subcategory (MinefieldDataPdu_mine_type v)));
  num 42 1 "mine_type.specific"%string (fun v => uval (EntityType_specific (MinefieldDataPdu_mine_type v)));
  num 43 1 "mine_type.extra"%string (fun v => uval (EntityType_extra (MinefieldDataPdu_mine_type v)))].

Definition MinefieldResponseNackPdu_map : list (entry (pdu MinefieldResponseNackPdu)) := [
  num 12 2 "minefield_id.simulation_address.site_id"%string (fun v => uval (SimulationAddress_site_id (EntityId_simulation_address (MinefieldResponseNackPdu_minefield_id v))));
  num 14 2 "minefield_id.simulation_address.application_id"%string (fun v => uval (SimulationAddress_application_id (EntityId_simulation_address (MinefieldResponseNackPdu_minefield_id v))));
  num 16 2 "minefield_id.entity_id"%string (fun v => uval (EntityId_entity_id (MinefieldResponseNackPdu_minefield_id v)));
  num 18 2 "requesting_entity_id.simulation_address.site_id"%string (fun v => uval (SimulationAddress_site_id (EntityId_simulation_address (MinefieldResponseNackPdu_requesting_entity_id v))));
  num 20 2 "requesting_entity_id.simulation_address.application_id"%string (fun v => uval (SimulationAddress_application_id (EntityId_simulation_address (MinefieldResponseNackPdu_requesting_entity_id v))));
  num 22 2 "requesting_entity_id.entity_id"%string (fun v => uval (EntityId_entity_id (MinefieldResponseNackPdu_requesting_entity_id v)));
  num 24 1 "request_id"%string (fun v => uval (MinefieldResponseNackPdu_request_id v));
  num 25 1 "number_of_missing_pdus"%string (fun v => uval (MinefieldResponseNackPdu_number_of_missing_pdus v))].

Definition TransmitterPdu_map : list (entry (pdu TransmitterPdu)) := [
  num 12 2 "entity_id.simulation_address.site_id"%string (fun v => uval (SimulationAddress_site_id (EntityId_simulation_address (TransmitterPdu_entity_id v))));
  num 14 2 "entity_id.simulation_address.application_id"%string (fun v => uval (SimulationAddress_application_id (EntityId_simulation_address (TransmitterPdu_entity_id v))));
  num 16 2 "entity_id.entity_id"%string (fun v => uval (EntityId_entity_id (TransmitterPdu_entity_id v)));
  num 18 2 "radio_id"%string (fun v => uval (TransmitterPdu_radio_id v));
  num 20 1 "radio_entity_type.entity_kind"%string (fun v => uval (RadioEntityType_entity_kind (TransmitterPdu_radio_entity_type v)));
  num 21 1 "radio_entity_type.domain"%string (fun v => uval (RadioEntityType_domain (TransmitterPdu_radio_entity_type v)));
  num 22 2 "radio_entity_type.country"%string (fun v => uval (RadioEntityType_country (TransmitterPdu_radio_entity_type v)));
  num 24 1 "radio_entity_type.category"%string (fun v => uval (RadioEntityType_category (TransmitterPdu_radio_entity_type v)));
  num 25 1 "radio_entity_type.nomenclature_version"%string (fun v => uval (RadioEntityType_nomenclature_version (TransmitterPdu_radio_entity_type v)));
  num 26 2 "radio_entity_type.nomenclature"%string (fun v => uval (RadioEntityType_nomenclature (TransmitterPdu_radio_entity_type v)));
  cod 28 1 TransmitterTransmitState_spec "transmit_state"%string (fun v => code (TransmitterPdu_transmit_state v));
  cod 29 1 TransmitterInputSource_spec "input_source"%string (fun v => code (TransmitterPdu_input_source v));
  num 30 2 "number_of_variable_transmitter_parameters_records"%string (fun v => uval (TransmitterPdu_number_of_variable_transmitter_parameters_records v));
  num 32 8 "antenna_location.x"%string (fun v => uval (WorldCoordinate_x (TransmitterPdu_antenna_location v)));
  num 40 8 "antenna_location.y"%string (fun v => uval (WorldCoordinate_y (TransmitterPdu_antenna_location v)));
  num 48 8 "antenna_location.z"%string (fun v => uval (WorldCoordinate_z (TransmitterPdu_antenna_location v)));
  num 56 4 "relative_antenna_location.x_coordinate"%string (fun v => uval (EntityCoordinateVector_x_coordinate (TransmitterPdu_relative_antenna_location v)));
  num 60 4 "relative_antenna_location.y_coordinate"%string (fun v => uval (EntityCoordinateVector_y_coordinate (TransmitterPdu_relative_antenna_location v)));
  num 64 4 "relative_antenna_location.z_coordinate"%string (fun v => uval (EntityCoordinateVector_z_coordinate (TransmitterPdu_relative_antenna_location v)));
  cod 68 2 TransmitterAntennaPatternType_spec "antenna_pattern_type"%string (fun v => code (TransmitterPdu_antenna_pattern_type v));
  num 70 2 "antenna_pattern_length"%string (fun v => uval (TransmitterPdu_antenna_pattern_length v));
  num 72 8 "frequency"%string (fun v => uval (TransmitterPdu_frequency v));
  num 80 4 "transmit_frequency_bandwidth"%string (fun v => uval (TransmitterPdu_transmit_frequency_bandwidth v));
  num 84 4 "power"%string (fun v => uval (TransmitterPdu_power v));
  num 88 2 "modulation_type.spread_spectrum"%string (fun v => uval (ModulationType_spread_spectrum (TransmitterPdu_modulation_type v)));
  num 90 2 "modulation_type.major"%string (fun v => uval (ModulationType_major (TransmitterPdu_modulation_type v)));
  num 92 2 "modulation_type.detail"%string (fun v => uval (ModulationType_detail (TransmitterPdu_modulation_type v)));
  num 94 2 "modulation_type.system"%string (fun v => uval (ModulationType_system (TransmitterPdu_modulation_type v)));
  cod 96 2 TransmitterCryptoSystem_spec "crypto_system"%string (fun v => code (TransmitterPdu_crypto_system v));
  num 98 2 "crypto_key_id"%string (fun v => uval (TransmitterPdu_crypto_key_id v));
  num 100 1 "modulation_parameter_length"%string (fun v => uval (TransmitterPdu_modulation_parameter_length v));
  num 101 1 "padding"%string (fun v => uval (TransmitterPdu_padding v));
  num 102 2 "padding2"%string (fun v => uval (TransmitterPdu_padding2 v))].

Definition SignalPdu_map : list (entry (pdu SignalPdu)) := [
  num 12 2 "entity_id.simulation_address.site_id"%string (fun v => uval (SimulationAddress_site_id (EntityId_simulation_address (SignalPdu_entity_id v))));
  num 14 2 "entity_id.simulation_address.application_id"%string (fun v => uval (SimulationAddress_application_id (EntityId_simulation_address (SignalPdu_entity_id v))));
  num 16 2 "entity_id.entity_id"%string (fun v => uval (EntityId_entity_id (SignalPdu_entity_id v)));
  num 18 2 "radio_id"%string (fun v => uval (SignalPdu_radio_id v));
  num 20 2 "encoding_scheme"%string (fun v => uval (SignalPdu_encoding_scheme v));
  cod 22 2 SignalTDLType_spec "tdl_type"%string (fun v => code (SignalPdu_tdl_type v));
  num 24 4 "sample_rate"%string (fun v => uval (SignalPdu_sample_rate v));
  num 28 2 "data_length"%string (fun v => uval (SignalPdu_data_length v));
  num 30 2 "samples"%string (fun v => uval (SignalPdu_samples v))].

Definition ReceiverPdu_map : list (entry (pdu ReceiverPdu)) := [
  num 12 2 "entity_id.simulation_address.site_id"%string (fun v => uval (SimulationAddress_site_id (EntityId_simulation_address (ReceiverPdu_entity_id v))));
  num 14 2 "entity_id.simulation_address.application_id"%string (fun v => uval (SimulationAddress_application_id (EntityId_simulation_address (ReceiverPdu_entity_id v))));
  num 16 2 "entity_id.entity_id"%string (fun v => uval (EntityId_entity_id (ReceiverPdu_entity_id v)));
  num 18 2 "radio_id"%string (fun v => uval (ReceiverPdu_radio_id v));
  cod 20 2 ReceiverReceiverState_spec "receiver_state"%string (fun v => code (ReceiverPdu_receiver_state v));
  num 22 2 "padding"%string (fun v => uval (ReceiverPdu_padding v));
  num 24 4 "received_power"%string (fun v => uval (ReceiverPdu_received_power v));
  num 28 2 "transmitter_radio_reference_id.simulation_address.site_id"%string (fun v => uval (SimulationAddress_site_id (EntityId_simulation_address (ReceiverPdu_transmitter_radio_reference_id v))));
  num 30 2 "transmitter_radio_reference_id.simulation_address.application_id"%string (fun v => uval (SimulationAddress_application_id (EntityId_simulation_address (ReceiverPdu_transmitter_radio_reference_id v))));
  num 32 2 "transmitter_radio_reference_id.entity_id"%string (fun v => uval (EntityId_entity_id (ReceiverPdu_transmitter_radio_reference_id v)));
  num 34 2 "transmitter_radio_id"%string (fun v => uval (ReceiverPdu_transmitter_radio_id v))].

Definition IntercomSignalPdu_map : list (entry (pdu IntercomSignalPdu)) := [
  num 12 2 "intercom_reference_id.simulation_address.site_id"%string (fun v => uval (SimulationAddress_site_id (EntityId_simulation_address (IntercomSignalPdu_intercom_reference_id v))));
  num 14 2 "intercom_reference_id.simulation_address.application_id"%string (fun v => uval (SimulationAddress_application_id (EntityId_simulation_address (IntercomSignalPdu_intercom_reference_id v))));
  num 16 2 "intercom_reference_id.entity_id"%string (fun v => uval (EntityId_entity_id (IntercomSignalPdu_intercom_reference_id v)));
  num 18 2 "intercom_number"%string (fun v => uval (IntercomSignalPdu_intercom_number v));
  num 20 2 "encoding_scheme"%string (fun v => uval (IntercomSignalPdu_encoding_scheme v));
  cod 22 2 SignalTDLType_spec "tdl_type"%string (fun v => code (IntercomSignalPdu_tdl_type v));
  num 24 4 "sample_rate"%string (fun v => uval (IntercomSignalPdu_sample_rate v));
  num 28 2 "data_length"%string (fun v => uval (IntercomSignalPdu_data_length v));
  num 30 2 "samples"%string (fun v => uval (IntercomSignalPdu_samples v))].

Definition IntercomControlPdu_map : list (entry (pdu IntercomControlPdu)) := [
  cod 12 1 IntercomControlControlType_spec "control_type"%string (fun v => code (IntercomControlPdu_control_type v));
  num 13 1 "communications_channel_type"%string (fun v => uval (IntercomControlPdu_communications_channel_type v));
  num 14 2 "source_intercom_reference_id.simulation_address.site_id"%string (fun v => uval (SimulationAddress_site_id (EntityId_simulation_address (IntercomControlPdu_source_intercom_reference_id v))));
  num 16 2 "source_intercom_reference_id.simulation_address.application_id"%string (fun v => uval (SimulationAddress_application_id (EntityId_simulation_address (IntercomControlPdu_source_intercom_reference_id v))));
  num 18 2 "source_intercom_reference_id.entity_id"%string (fun v => uval (EntityId_entity_id (IntercomControlPdu_source_intercom_reference_id v)));
  num 20 2 "source_intercom_number"%string (fun v => uval (IntercomControlPdu_source_intercom_number v));
  num 22 1 "source_line_id"%string (fun v => uval (IntercomControlPdu_source_line_id v));
  num 23 1 "transmit_priority"%string (fun v => uval (IntercomControlPdu_transmit_priority v));
  cod 24 1 IntercomControlTransmitLineState_spec "transmit_line_state"%string (fun v => code (IntercomControlPdu_transmit_line_state v));
  cod 25 1 IntercomControlCommand_spec "command"%string (fun v => code (IntercomControlPdu_command v));
  num 26 2 "master_intercom_reference_id.simulation_address.site_id"%string (fun v => uval (SimulationAddress_site_id (EntityId_simulation_address (IntercomControlPdu_master_intercom_reference_id v))));
  num 28 2 "master_intercom_reference_id.simulation_address.application_id"%string (fun v => uval (SimulationAddress_application_id (EntityId_simulation_address (IntercomControlPdu_master_intercom_reference_id v))));
  num 30 2 "master_intercom_reference_id.entity_id"%string (fun v => uval (EntityId_entity_id (IntercomControlPdu_master_intercom_reference_id v)));
  num 32 2 "master_intercom_number"%string (fun v => uval (IntercomControlPdu_master_intercom_number v));
  num 34 2 "master_channel_id"%string (fun v => uval (IntercomControlPdu_master_channel_id v));
  num 36 4 "intercom_parameters_length"%string (fun v => uval (IntercomControlPdu_intercom_parameters_length v))].

Definition CreateEntityPdu_map : list (entry (pdu CreateEntityPdu)) := [
  num 12 2 "originating_entity_id.simulation_address.site_id"%string (fun v => uval (SimulationAddress_site_id (EntityId_simulation_address (CreateEntityPdu_originating_entity_id v))));
  num 14 2 "originating_entity_id.simulation_address.application_id"%string (fun v => uval (SimulationAddress_application_id (EntityId_simulation_address (CreateEntityPdu_originating_entity_id v))));
  num 16 2 "originating_entity_id.entity_id"%string (fun v => uval (EntityId_entity_id (CreateEntityPdu_originating_entity_id v)));
  num 18 2 "receiving_entity_id.simulation_address.site_id"%string (fun v => uval (SimulationAddress_site_id (EntityId_simulation_address (CreateEntityPdu_receiving_entity_id v))));
  num 20 2 "receiving_entity_id.simulation_address.application_id"%string (fun v => uval (SimulationAddress_application_id (EntityId_simulation_address (CreateEntityPdu_receiving_entity_id v))));
  num 22 2 "receiving_entity_id.entity_id"%string (fun v => uval (EntityId_entity_id (CreateEntityPdu_receiving_entity_id v)));
  num 24 4 "request_id"%string (fun v => uval (CreateEntityPdu_request_id v))].

Definition RemoveEntityPdu_map : list (entry (pdu RemoveEntityPdu)) := [
  num 12 2 "originating_entity_id.simulation_address.site_id"%string (fun v => uval (SimulationAddress_site_id (EntityId_simulation_address (RemoveEntityPdu_originating_entity_id v))));
  num 14 2 "originating_entity_id.simulation_address.application_id"%string (fun v => uval (SimulationAddress_application_id (EntityId_simulation_address (RemoveEntityPdu_originating_entity_id v))));
  num 16 2 "originating_entity_id.entity_id"%string (fun v => uval (EntityId_entity_id (RemoveEntityPdu_originating_entity_id v)));
  num 18 2 "receiving_entity_id.simulation_address.site_id"%string (fun v => uval (SimulationAddress_site_id (EntityId_simulation_address (RemoveEntityPdu_receiving_entity_id v))));
  num 20 2 "receiving_entity_id.simulation_address.application_id"%string (fun v => uval (SimulationAddress_application_id (EntityId_simulation_address (RemoveEntityPdu_receiving_entity_id v))));
  num 22 2 "receiving_entity_id.entity_id"%string (fun v => uval (EntityId_entity_id (RemoveEntityPdu_receiving_entity_id v)));
  num 24 4 "request_id"%string (fun v => uval (RemoveEntityPdu_request_id v))].

Definition StartResumePdu_map : list (entry (pdu StartResumePdu)) := [
  num 12 2 "originating_entity_id.simulation_address.site_id"%string (fun v => uval (SimulationAddress_site_id (EntityId_simulation_address (StartResumePdu_originating_entity_id v))));
  num 14 2 "originating_entity_id.simulation_address.application_id"%string (fun v => uval (SimulationAddress_application_id (EntityId_simulation_address (StartResumePdu_originating_entity_id v))));
  num 16 2 "originating_entity_id.entity_id"%string (fun v => uval (EntityId_entity_id (StartResumePdu_originating_entity_id v)));
  num 18 2 "receiving_entity_id.simulation_address.site_id"%string (fun v => uval (SimulationAddress_site_id (EntityId_simulation_address (StartResumePdu_receiving_entity_id v))));
  num 20 2 "receiving_entity_id.simulation_address.application_id"%string (fun v => uval (SimulationAddress_application_id (EntityId_simulation_address (StartResumePdu_receiving_entity_id v))));
  num 22 2 "receiving_entity_id.entity_id"%string (fun v => uval (EntityId_entity_id (StartResumePdu_receiving_entity_id v)));
  num 24 4 "real_world_time.hour"%string (fun v => uval (ClockTime_hour (StartResumePdu_real_world_time v)));
  num 28 4 "real_world_time.time_past_hour"%string (fun v => uval (ClockTime_time_past_hour (StartResumePdu_real_world_time v)));
  num 32 4 "simulation_time.hour"%string (fun v => uval (ClockTime_hour (StartResumePdu_simulation_time v)));
  num 36 4 "simulation_time.time_past_hour"%string (fun v => uval (ClockTime_time_past_hour (StartResumePdu_simulation_time v)));
  num 40 4 "request_id"%string (fun v => uval (StartResumePdu_request_id v))].

Definition StopFreezePdu_map : list (entry (pdu StopFreezePdu)) := [
  num 12 2 "originating_entity_id.simulation_address.site_id"%string (fun v => uval (SimulationAddress_site_id (EntityId_simulation_address (StopFreezePdu_originating_entity_id v))));
  num 14 2 "originating_entity_id.simulation_address.application_id"%string (fun v => uval (SimulationAddress_application_id (EntityId_simulation_address (StopFreezePdu_originating_entity_id v))));
  num 16 2 "originating_entity_id.entity_id"%string (fun v => uval (EntityId_entity_id (StopFreezePdu_originating_entity_id v)));
  num 18 2 "receiving_entity_id.simulation_address.site_id"%string (fun v => uval (SimulationAddress_site_id (EntityId_simulation_address (StopFreezePdu_receiving_entity_id v))));
  num 20 2 "receiving_entity_id.simulation_address.application_id"%string (fun v => uval (SimulationAddress_application_id (EntityId_simulation_address (StopFreezePdu_receiving_entity_id v))));
  num 22 2 "receiving_entity_id.entity_id"%string (fun v => uval (EntityId_entity_id (StopFreezePdu_receiving_entity_id v)));
  num 24 4 "real_world_time.hour"%string (fun v => uval (ClockTime_hour (StopFreezePdu_real_world_time v)));
  num 28 4 "real_world_time.time_past_hour"%string (fun v => uval (ClockTime_time_past_hour (StopFreezePdu_real_world_time v)));
  cod 32 1 Reason_spec "reason"%string (fun v => code (StopFreezePdu_reason v));
  flg 33 1 7 "frozen_behavior"%string (fun v => uval (bits (StopFreezePdu_frozen_behavior v)));
  num 34 2 "padding"%string (fun v => uval (StopFreezePdu_padding v));
  num 36 4 "request_id"%string (fun v => uval (StopFreezePdu_request_id v))].

Definition AcknowledgePdu_map : list (entry (pdu AcknowledgePdu)) := [
  num 12 2 "originating_entity_id.simulation_address.site_id"%string (fun v => uval (SimulationAddress_site_id (EntityId_simulation_address (AcknowledgePdu_originating_entity_id v))));
  num 14 2 "originating_entity_id.simulation_address.application_id"%string (fun v => uval (SimulationAddress_application_id (EntityId_simulation_address (AcknowledgePdu_originating_entity_id v))));
  num 16 2 "originating_entity_id.entity_id"%string (fun v => uval (EntityId_entity_id (AcknowledgePdu_originating_entity_id v)));
  num 18 2 "receiving_entity_id.simulation_address.site_id"%string (fun v => uval (SimulationAddress_site_id (EntityId_simulation_address (AcknowledgePdu_receiving_entity_id v))));
  num 20 2 "receiving_entity_id.simulation_address.application_id"%string (fun v => uval (SimulationAddress_application_id (EntityId_simulation_address (AcknowledgePdu_receiving_entity_id v))));
  num 22 2 "receiving_entity_id.entity_id"%string (fun v => uval (EntityId_entity_id (AcknowledgePdu_receiving_entity_id v)));
  cod 24 2 AcknowledgeFlag_spec "acknowledge_flag"%string (fun v => code (AcknowledgePdu_acknowledge_flag v));
  cod 26 2 AcknowledgeResponseFlag_spec "response_flag"%string (fun v => code (AcknowledgePdu_response_flag v));
  num 28 4 "request_id"%string (fun v => uval (AcknowledgePdu_request_id v))].

Definition ActionRequestPdu_map : list (entry (pdu ActionRequestPdu)) := [
  num 12 2 "originating_entity_id.simulation_address.site_id"%string (fun v => uval (SimulationAddress_site_id (EntityId_simulation_address (ActionRequestPdu_originating_entity_id v))));
  num 14 2 "originating_entity_id.simulation_address.application_id"%string (fun v => uval (SimulationAddress_application_id (EntityId_simulation_address (ActionRequestPdu_originating_entity_id v))));
  num 16 2 "originating_entity_id.entity_id"%string (fun v => uval (EntityId_entity_id (ActionRequestPdu_originating_entity_id v)));
  num 18 2 "receiving_entity_id.simulation_address.site_id"%string (fun v => uval (SimulationAddress_site_id (EntityId_simulation_address (ActionRequestPdu_receiving_entity_id v))));
  num 20 2 "receiving_entity_id.simulation_address.application_id"%string (fun v => uval (SimulationAddress_application_id (EntityId_simulation_address (ActionRequestPdu_receiving_entity_id v))));
  num 22 2 "receiving_entity_id.entity_id"%string (fun v => uval (EntityId_entity_id (ActionRequestPdu_receiving_entity_id v)));
  num 24 4 "request_id"%string (fun v => uval (ActionRequestPdu_request_id v));
  num 28 4 "action_id"%string (fun v => uval (ActionRequestPdu_action_id v));
  num 32 4 "number_of_fixed_datum_records"%string (fun v => uval (ActionRequestPdu_number_of_fixed_datum_records v));
  num 36 4 "number_of_variable_datum_records"%string (fun v => uval (ActionRequestPdu_number_of_variable_datum_records v))].

Definition ActionResponsePdu_map : list (entry (pdu ActionResponsePdu)) := [
  num 12 2 "originating_entity_id.simulation_address.site_id"%string (fun v => uval (SimulationAddress_site_id (EntityId_simulation_address (ActionResponsePdu_originating_entity_id v))));
  num 14 2 "originating_entity_id.simulation_address.application_id"%string (fun v => uval (SimulationAddress_application_id (EntityId_simulation_address (ActionResponsePdu_originating_entity_id v))));
  num 16 2 "originating_entity_id.entity_id"%string (fun v => uval (EntityId_entity_id (ActionResponsePdu_originating_entity_id v)));
  num 18 2 "receiving_entity_id.simulation_address.site_id"%string (fun v => uval (SimulationAddress_site_id (EntityId_simulation_address (ActionResponsePdu_receiving_entity_id v))));
  num 20 2 "receiving_entity_id.simulation_address.application_id"%string (fun v => uval (SimulationAddress_application_id (EntityId_simulation_address (ActionResponsePdu_receiving_entity_id v))));
  num 22 2 "receiving_entity_id.entity_id"%string (fun v => uval (EntityId_entity_id (ActionResponsePdu_receiving_entity_id v)));
  num 24 4 "request_id"%string (fun v => uval (ActionResponsePdu_request_id v));
  cod 28 4 ActionResponseRequestStatus_spec "request_status"%string (fun v => code (ActionResponsePdu_request_status v));
  num 32 4 "number_of_fixed_datum_records"%string (fun v => uval (ActionResponsePdu_number_of_fixed_datum_records v));
  num 36 4 "number_of_variable_datum_records"%string (fun v => uval (ActionResponsePdu_number_of_variable_datum_records v))].

Definition DataQueryPdu_map : list (entry (pdu DataQueryPdu)) := [
  num 12 2 "originating_entity_id.simulation_address.site_id"%string (fun v => uval (SimulationAddress_site_id (EntityId_simulation_address (DataQueryPdu_originating_entity_id v))));
  num 14 2 "originating_entity_id.simulation_address.application_id"%string (fun v => uval (SimulationAddress_application_id (EntityId_simulation_address (DataQueryPdu_originating_entity_id v))));
  num 16 2 "originating_entity_id.entity_id"%string (fun v => uval (EntityId_entity_id (DataQueryPdu_originating_entity_id v)));
  num 18 2 "receiving_entity_id.simulation_address.site_id"%string (fun v => uval (SimulationAddress_site_id (EntityId_simulation_address (DataQueryPdu_receiving_entity_id v))));
  num 20 2 "receiving_entity_id.simulation_address.application_id"%string (fun v => uval (SimulationAddress_application_id (EntityId_simulation_address (DataQueryPdu_receiving_entity_id v))));
  num 22 2 "receiving_entity_id.entity_id"%string (fun v => uval (EntityId_entity_id (DataQueryPdu_receiving_entity_id v)));
  num 24 4 "request_id"%string (fun v => uval (DataQueryPdu_request_id v));
  num 28 4 "time_interval"%string (fun v => uval (DataQueryPdu_time_interval v));
  num 32 4 "number_of_fixed_datum_records"%string (fun v => uval (DataQueryPdu_number_of_fixed_datum_records v));
  num 36 4 "number_of_variable_datum_records"%string (fun v => uval (DataQueryPdu_number_of_variable_datum_records v))].

Definition SetDataPdu_map : list (entry (pdu SetDataPdu)) := [
  num 12 2 "originating_entity_id.simulation_address.site_id"%string (fun v => uval (SimulationAddress_site_id (EntityId_simulation_address (SetDataPdu_originating_entity_id v))));
  num 14 2 "originating_entity_id.simulation_address.application_id"%string (fun v => uval (SimulationAddress_application_id (EntityId_simulation_address (SetDataPdu_originating_entity_id v))));
  num 16 2 "originating_entity_id.entity_id"%string (fun v => uval (EntityId_entity_id (SetDataPdu_originating_entity_id v)));
  num 18 2 "receiving_entity_id.simulation_address.site_id"%string (fun v => uval (SimulationAddress_site_id (EntityId_simulation_address (SetDataPdu_receiving_entity_id v))));
  num 20 2 "receiving_entity_id.simulation_address.application_id"%string (fun v => uval (SimulationAddress_application_id (EntityId_simulation_address (SetDataPdu_receiving_entity_id v))));
  num 22 2 "receiving_entity_id.entity_id"%string (fun v => uval (EntityId_entity_id (SetDataPdu_receiving_entity_id v)));
  num 24 4 "request_id"%string (fun v => uval (SetDataPdu_request_id v));
  num 28 4 "padding"%string (fun v => uval (SetDataPdu_padding v));
  num 32 4 "number_of_fixed_datum_records"%string (fun v => uval (SetDataPdu_number_of_fixed_datum_records v));
  num 36 4 "number_of_variable_datum_records"%string (fun v => uval (SetDataPdu_number_of_variable_datum_records v))].

Definition DataPdu_map : list (entry (pdu DataPdu)) := [
  num 12 2 "originating_entity_id.simulation_address.site_id"%string (fun v => uval (SimulationAddress_site_id (EntityId_simulation_address (DataPdu_originating_entity_id v))));
  num 14 2 "originating_entity_id.simulation_address.application_id"%string (fun v => uval (SimulationAddress_application_id (EntityId_simulation_address (DataPdu_originating_entity_id v))));
  num 16 2 "originating_entity_id.entity_id"%string (fun v => uval (EntityId_entity_id (DataPdu_originating_entity_id v)));
  num 18 2 "receiving_entity_id.simulation_address.site_id"%string (fun v => uval (SimulationAddress_site_id (EntityId_simulation_address (DataPdu_receiving_entity_id v))));
  num 20 2 "receiving_entity_id.simulation_address.application_id"%string (fun v => uval (SimulationAddress_application_id (EntityId_simulation_address (DataPdu_receiving_entity_id v))));
  num 22 2 "receiving_entity_id.entity_id"%string (fun v => uval (EntityId_entity_id (DataPdu_receiving_entity_id v)));
  num 24 4 "request_id"%string (fun v => uval (DataPdu_request_id v));
  num 28 4 "padding"%string (fun v => uval (DataPdu_padding v));
  num 32 4 "number_of_fixed_datum_records"%string (fun v => uval (DataPdu_number_of_fixed_datum_records v));
  num 36 4 "number_of_variable_datum_records"%string (fun v => uval (DataPdu_number_of_variable_datum_records v))].

Definition EventReportPdu_map : list (entry (pdu EventReportPdu)) := [
  num 12 2 "originating_entity_id.simulation_address.site_id"%string (fun v => uval (SimulationAddress_site_id (EntityId_simulation_address (EventReportPdu_originating_entity_id v))));
  num 14 2 "originating_entity_id.simulation_address.application_id"%string (fun v => uval (SimulationAddress_application_id (EntityId_simulation_address (EventReportPdu_originating_entity_id v))));
  num 16 2 "originating_entity_id.entity_id"%string (fun v => uval (EntityId_entity_id (EventReportPdu_originating_entity_id v)));
  num 18 2 "receiving_entity_id.simulation_address.site_id"%string (fun v => uval (SimulationAddress_site_id (EntityId_simulation_address (EventReportPdu_receiving_entity_id v))));
  num 20 2 "receiving_entity_id.simulation_address.application_id"%string (fun v => uval (SimulationAddress_application_id (EntityId_simulation_address (EventReportPdu_receiving_entity_id v))));
  num 22 2 "receiving_entity_id.entity_id"%string (fun v => uval (EntityId_entity_id (EventReportPdu_receiving_entity_id v)));
  cod 24 4 EventType_spec "event_type"%string (fun v => code (EventReportPdu_event_type v));
  num 28 4 "padding"%string (fun v => uval (EventReportPdu_padding v));
  num 32 4 "number_of_fixed_datum_records"%string (fun v => uval (EventReportPdu_number_of_fixed_datum_records v));
  num 36 4 "number_of_variable_datum_records"%string (fun v => uval (EventReportPdu_number_of_variable_datum_records v))].

Definition CommentPdu_map : list (entry (pdu CommentPdu)) := [
  num 12 2 "originating_entity_id.simulation_address.site_id"%string (fun v => uval (SimulationAddress_site_id (EntityId_simulation_address (CommentPdu_originating_entity_id v))));
  num 14 2 "originating_entity_id.simulation_address.application_id"%string (fun v => uval (SimulationAddress_application_id (EntityId_simulation_address (CommentPdu_originating_entity_id v))));
  num 16 2 "originating_entity_id.entity_id"%string (fun v => uval (EntityId_entity_id (CommentPdu_originating_entity_id v)));
  num 18 2 "receiving_entity_id.simulation_address.site_id"%string (fun v => uval (SimulationAddress_site_id (EntityId_simulation_address (CommentPdu_receiving_entity_id v))));
  num 20 2 "receiving_entity_id.simulation_address.application_id"%string (fun v => uval (SimulationAddress_application_id (EntityId_simulation_address (CommentPdu_receiving_entity_id v))));
  num 22 2 "receiving_entity_id.entity_id"%string (fun v => uval (EntityId_entity_id (CommentPdu_receiving_entity_id v)));
  num 24 4 "number_of_fixed_datum_records"%string (fun v => uval (CommentPdu_number_of_fixed_datum_records v));
  num 28 4 "number_of_variable_datum_records"%string (fun v => uval (CommentPdu_number_of_variable_datum_records v))].

Definition CreateEntityReliablePdu_map : list (entry (pdu CreateEntityReliablePdu)) := [
  num 12 2 "originating_entity_id.simulation_address.site_id"%string (fun v => uval (SimulationAddress_site_id (EntityId_simulation_address (CreateEntityReliablePdu_originating_entity_id v))));
  num 14 2 "originating_entity_id.simulation_address.application_id"%string (fun v => uval (SimulationAddress_application_id (EntityId_simulation_address (CreateEntityReliablePdu_originating_entity_id v))));
  num 16 2 "originating_entity_id.entity_id"%string (fun v => uval (EntityId_entity_id (CreateEntityReliablePdu_originating_entity_id v)));
  num 18 2 "receiving_entity_id.simulation_address.site_id"%string (fun v => uval (SimulationAddress_site_id (EntityId_simulation_address (CreateEntityReliablePdu_receiving_entity_id v))));
  num 20 2 "receiving_entity_id.simulation_address.application_id"%string (fun v => uval (SimulationAddress_application_id (EntityId_simulation_address (CreateEntityReliablePdu_receiving_entity_id v))));
  num 22 2 "receiving_entity_id.entity_id"%string (fun v => uval (EntityId_entity_id (CreateEntityReliablePdu_receiving_entity_id v)));
  cod 24 1 RequiredReliabilityService_spec "required_reliability_service"%string (fun v => code (CreateEntityReliablePdu_required_reliability_service v));
  num 25 1 "padding"%string (fun v => uval (CreateEntityReliablePdu_padding v));
  num 26 2 "padding2"%string (fun v => uval (CreateEntityReliablePdu_padding2 v));
  num 28 4 "request_id"%string (fun v => uval (CreateEntityReliablePdu_request_id v))].

Definition RemoveEntityReliablePdu_map : list (entry (pdu RemoveEntityReliablePdu)) := [
  num 12 2 "originating_entity_id.simulation_address.site_id"%string (fun v => uval (SimulationAddress_site_id (EntityId_simulation_address (RemoveEntityReliablePdu_originating_entity_id v))));
  num 14 2 "originating_entity_id.simulation_address.application_id"%string (fun v => uval (SimulationAddress_application_id (EntityId_simulation_address (RemoveEntityReliablePdu_originating_entity_id v))));
  num 16 2 "originating_entity_id.entity_id"%string (fun v => uval (EntityId_entity_id (RemoveEntityReliablePdu_originating_entity_id v)));
  num 18 2 "receiving_entity_id.simulation_address.site_id"%string (fun v => uval (SimulationAddress_site_id (EntityId_simulation_address (RemoveEntityReliablePdu_receiving_entity_id v))));
  num 20 2 "receiving_entity_id.simulation_address.application_id"%string (fun v => uval (SimulationAddress_application_id (EntityId_simulation_address (RemoveEntityReliablePdu_receiving_entity_id v))));
  num 22 2 "receiving_entity_id.entity_id"%string (fun v => uval (EntityId_entity_id (RemoveEntityReliablePdu_receiving_entity_id v)));
  cod 24 1 RequiredReliabilityService_spec "required_reliability_service"%string (fun v => code (RemoveEntityReliablePdu_required_reliability_service v));
  num 25 1 "padding"%string (fun v => uval (RemoveEntityReliablePdu_padding v));
  num 26 2 "padding2"%string (fun v => uval (RemoveEntityReliablePdu_padding2 v));
  num 28 4 "request_id"%string (fun v => uval (RemoveEntityReliablePdu_request_id v))].

Definition StartResumeReliablePdu_map : list (entry (pdu StartResumeReliablePdu)) := [
  num 12 2 "originating_entity_id.simulation_address.site_id"%string (fun v => uval (SimulationAddress_site_id (EntityId_simulation_address (StartResumeReliablePdu_originating_entity_id v))));
  num 14 2 "originating_entity_id.simulation_address.application_id"%string (fun v => uval (SimulationAddress_application_id (EntityId_simulation_address (StartResumeReliablePdu_originating_entity_id v))));
  num 16 2 "originating_entity_id.entity_id"%string (fun v => uval (EntityId_entity_id (StartResumeReliablePdu_originating_entity_id v)));
  num 18 2 "receiving_entity_id.simulation_address.site_id"%string (fun v => uval (SimulationAddress_site_id (EntityId_simulation_address (StartResumeReliablePdu_receiving_entity_id v))));
  num 20 2 "receiving_entity_id.simulation_address.application_id"%string (fun v => uval (SimulationAddress_application_id (EntityId_simulation_address (StartResumeReliablePdu_receiving_entity_id v))));
  num 22 2 "receiving_entity_id.entity_id"%string (fun v => uval (EntityId_entity_id (StartResumeReliablePdu_receiving_entity_id v)));
  num 24 4 "real_world_time.hour"%string (fun v => uval (ClockTime_hour (StartResumeReliablePdu_real_world_time v)));
  num 28 4 "real_world_time.time_past_hour"%string (fun v => uval (ClockTime_time_past_hour (StartResumeReliablePdu_real_world_time v)));
  num 32 4 "simulation_time.hour"%string (fun v => uval (ClockTime_hour (StartResumeReliablePdu_simulation_time v)));
  num 36 4 "simulation_time.time_past_hour"%string (fun v => uval (ClockTime_time_past_hour (StartResumeReliablePdu_simulation_time v)));
  cod 40 1 RequiredReliabilityService_spec "required_reliability_service"%string (fun v => code (StartResumeReliablePdu_required_reliability_service v));
  num 41 1 "padding"%string (fun v => uval (StartResumeReliablePdu_padding v));
  num 42 2 "padding2"%string (fun v => uval (StartResumeReliablePdu_padding2 v));
  num 44 4 "request_id"%string (fun v => uval (StartResumeReliablePdu_request_id v))].

Definition StopFreezeReliablePdu_map : list (entry (pdu StopFreezeReliablePdu)) := [
  num 12 2 "originating_entity_id.simulation_address.site_id"%string (fun v => uval (SimulationAddress_site_id (EntityId_simulation_address (StopFreezeReliablePdu_originating_entity_id v))));
  num 14 2 "originating_entity_id.simulation_address.application_id"%string (fun v => uval (SimulationAddress_application_id (EntityId_simulation_address (StopFreezeReliablePdu_originating_entity_id v))));
  num 16 2 "originating_entity_id.entity_id"%string (fun v => uval (EntityId_entity_id (StopFreezeReliablePdu_originating_entity_id v)));
  num 18 2 "receiving_entity_id.simulation_address.site_id"%string (fun v => uval (SimulationAddress_site_id (EntityId_simulation_address (StopFreezeReliablePdu_receiving_entity_id v))));
  num 20 2 "receiving_entity_id.simulation_address.application_id"%string (fun v => uval (SimulationAddress_application_id (EntityId_simulation_address (StopFreezeReliablePdu_receiving_entity_id v))));
  num 22 2 "receiving_entity_id.entity_id"%string (fun v => uval (EntityId_entity_id (StopFreezeReliablePdu_receiving_entity_id v)));
  num 24 4 "real_world_time.hour"%string (fun v => uval (ClockTime_hour (StopFreezeReliablePdu_real_world_time v)));
  num 28 4 "real_world_time.time_past_hour"%string (fun v => uval (ClockTime_time_past_hour (StopFreezeReliablePdu_real_world_time v)));
  cod 32 1 Reason_spec "reason"%string (fun v => code (StopFreezeReliablePdu_reason v));
  flg 33 1 7 "frozen_behavior"%string (fun v => uval (bits (StopFreezeReliablePdu_frozen_behavior v)));
  num 34 1 "required_reliability_service"%string (fun v => uval (StopFreezeReliablePdu_required_reliability_service v));
  num 35 1 "padding"%string (fun v => uval (StopFreezeReliablePdu_padding v));
  num 36 4 "request_id"%string (fun v => uval (StopFreezeReliablePdu_request_id v))].

Definition AcknowledgeReliablePdu_map : list (entry (pdu AcknowledgeReliablePdu)) := [
  num 12 2 "originating_entity_id.simulation_address.site_id"%string (fun v => uval (SimulationAddress_site_id (EntityId_simulation_address (AcknowledgeReliablePdu_originating_entity_id v))));
  num 14 2 "originating_entity_id.simulation_address.application_id"%string (fun v => uval (SimulationAddress_application_id (EntityId_simulation_address (AcknowledgeReliablePdu_originating_entity_id v))));
  num 16 2 "originating_entity_id.entity_id"%string (fun v => uval (EntityId_entity_id (AcknowledgeReliablePdu_originating_entity_id v)));
  num 18 2 "receiving_entity_id.simulation_address.site_id"%string (fun v => uval (SimulationAddress_site_id (EntityId_simulation_address (AcknowledgeReliablePdu_receiving_entity_id v))));
  num 20 2 "receiving_entity_id.simulation_address.application_id"%string (fun v => uval (SimulationAddress_application_id (EntityId_simulation_address (AcknowledgeReliablePdu_receiving_entity_id v))));
  num 22 2 "receiving_entity_id.entity_id"%string (fun v => uval (EntityId_entity_id (AcknowledgeReliablePdu_receiving_entity_id v)));
  cod 24 2 AcknowledgeFlag_spec "acknowledge_flag"%string (fun v => code (AcknowledgeReliablePdu_acknowledge_flag v));
  cod 26 2 AcknowledgeResponseFlag_spec "response_flag"%string (fun v => code (AcknowledgeReliablePdu_response_flag v));
  num 28 4 "request_id"%string (fun v => uval (AcknowledgeReliablePdu_request_id v))].

Definition ActionRequestReliablePdu_map : list (entry (pdu ActionRequestReliablePdu)) := [
  num 12 2 "originating_entity_id.simulation_address.site_id"%string (fun v => uval (SimulationAddress_site_id (EntityId_simulation_address (ActionRequestReliablePdu_originating_entity_id v))));
  num 14 2 "originating_entity_id.simulation_address.application_id"%string (fun v => uval (SimulationAddress_application_id (EntityId_simulation_address (ActionRequestReliablePdu_originating_entity_id v))));
  num 16 2 "originating_entity_id.entity_id"%string (fun v => uval (EntityId_entity_id (ActionRequestReliablePdu_originating_entity_id v)));
  num 18 2 "receiving_entity_id.simulation_address.site_id"%string (fun v => uval (SimulationAddress_site_id (EntityId_simulation_address (ActionRequestReliablePdu_receiving_entity_id v))));
  num 20 2 "receiving_entity_id.simulation_address.application_id"%string (fun v => uval (SimulationAddress_application_id (EntityId_simulation_address (ActionRequestReliablePdu_receiving_entity_id v))));
  num 22 2 "receiving_entity_id.entity_id"%string (fun v => uval (EntityId_entity_id (ActionRequestReliablePdu_receiving_entity_id v)));
  cod 24 1 RequiredReliabilityService_spec "required_reliability_service"%string (fun v => code (ActionRequestReliablePdu_required_reliability_service v));
  num 25 1 "padding"%string (fun v => uval (ActionRequestReliablePdu_padding v));
  num 26 2 "padding2"%string (fun v => uval (ActionRequestReliablePdu_padding2 v));
  num 28 4 "request_id"%string (fun v => uval (ActionRequestReliablePdu_request_id v));
  num 32 4 "action_id"%string (fun v => uval (ActionRequestReliablePdu_action_id v));
  num 36 4 "padding3"%string (fun v => uval (ActionRequestReliablePdu_padding3 v));
  num 40 4 "number_of_fixed_datum_records"%string (fun v => uval (ActionRequestReliablePdu_number_of_fixed_datum_records v));
  num 44 4 "number_of_variable_datum_records"%string (fun v => uval (ActionRequestReliablePdu_number_of_variable_datum_records v))].

Definition ActionResponseReliablePdu_map : list (entry (pdu ActionResponseReliablePdu)) := [
  num 12 2 "originating_entity_id.simulation_address.site_id"%string (fun v => uval (SimulationAddress_site_id (EntityId_simulation_address (ActionResponseReliablePdu_originating_entity_id v))));
  num 14 2 "originating_entity_id.simulation_address.application_id"%string (fun v => uval (SimulationAddress_application_id (EntityId_simulation_address (ActionResponseReliablePdu_originating_entity_id v))));
  num 16 2 "originating_entity_id.entity_id"%string (fun v => uval (EntityId_entity_id (ActionResponseReliablePdu_originating_entity_id v)));
  num 18 2 "receiving_entity_id.simulation_address.site_id"%string (fun v => uval (SimulationAddress_site_id (EntityId_simulation_address (ActionResponseReliablePdu_receiving_entity_id v))));
  num 20 2 "receiving_entity_id.simulation_address.application_id"%string (fun v => uval (SimulationAddress_application_id (EntityId_simulation_address (ActionResponseReliablePdu_receiving_entity_id v))));
  num 22 2 "receiving_entity_id.entity_id"%string (fun v => uval (EntityId_entity_id (ActionResponseReliablePdu_receiving_entity_id v)));
  num 24 4 "request_id"%string (fun v => uval (ActionResponseReliablePdu_request_id v));
  cod 28 4 ActionResponseRequestStatus_spec "request_status"%string (fun v => code (ActionResponseReliablePdu_request_status v));
  num 32 4 "number_of_fixed_datum_records"%string (fun v => uval (ActionResponseReliablePdu_number_of_fixed_datum_records v));
  num 36 4 "number_of_variable_datum_records"%string (fun v => uval (ActionResponseReliablePdu_number_of_variable_datum_records v))].

Definition DataQueryReliablePdu_map : list (entry (pdu DataQueryReliablePdu)) := [
  num 12 2 "originating_entity_id.simulation_address.site_id"%string (fun v => uval (SimulationAddress_site_id (EntityId_simulation_address (DataQueryReliablePdu_originating_entity_id v))));
  num 14 2 "originating_entity_id.simulation_address.application_id"%string (fun v => uval (SimulationAddress_application_id (EntityId_simulation_address (DataQueryReliablePdu_originating_entity_id v))));
  num 16 2 "originating_entity_id.entity_id"%string (fun v => uval (EntityId_entity_id (DataQueryReliablePdu_originating_entity_id v)));
  num 18 2 "receiving_entity_id.simulation_address.site_id"%string (fun v => uval (SimulationAddress_site_id (EntityId_simulation_address (DataQueryReliablePdu_receiving_entity_id v))));
  num 20 2 "receiving_entity_id.simulation_address.application_id"%string (fun v => uval (SimulationAddress_application_id (EntityId_simulation_address (DataQueryReliablePdu_receiving_entity_id v))));
  num 22 2 "receiving_entity_id.entity_id"%string (fun v => uval (EntityId_entity_id (DataQueryReliablePdu_receiving_entity_id v)));
  cod 24 1 RequiredReliabilityService_spec "required_reliability_service"%string (fun v => code (DataQueryReliablePdu_required_reliability_service v));
  num 25 1 "padding"%string (fun v => uval (DataQueryReliablePdu_padding v));
  num 26 2 "padding2"%string (fun v => uval (DataQueryReliablePdu_padding2 v));
  num 28 4 "request_id"%string (fun v => uval (DataQueryReliablePdu_request_id v));
  num 32 4 "time_interval"%string (fun v => uval (DataQueryReliablePdu_time_interval v));
  num 36 4 "number_of_fixed_datum_records"%string (fun v => uval (DataQueryReliablePdu_number_of_fixed_datum_records v));
  num 40 4 "number_of_variable_datum_records"%string (fun v => uval (DataQueryReliablePdu_number_of_variable_datum_records v))].

Definition SetDataReliablePdu_map : list (entry (pdu SetDataReliablePdu)) := [
  num 12 2 "originating_entity_id.simulation_address.site_id"%string (fun v => uval (SimulationAddress_site_id (EntityId_simulation_address (SetDataReliablePdu_originating_entity_id v))));
  num 14 2 "originating_entity_id.simulation_address.application_id"%string (fun v => uval (SimulationAddress_application_id (EntityId_simulation_address (SetDataReliablePdu_originating_entity_id v))));
  num 16 2 "originating_entity_id.entity_id"%string (fun v => uval (EntityId_entity_id (SetDataReliablePdu_originating_entity_id v)));
  num 18 2 "receiving_entity_id.simulation_address.site_id"%string (fun v => uval (SimulationAddress_site_id (EntityId_simulation_address (SetDataReliablePdu_receiving_entity_id v))));
  num 20 2 "receiving_entity_id.simulation_address.application_id"%string (fun v => uval (SimulationAddress_application_id (EntityId_simulation_address (SetDataReliablePdu_receiving_entity_id v))));
  num 22 2 "receiving_entity_id.entity_id"%string (fun v => uval (EntityId_entity_id (SetDataReliablePdu_receiving_entity_id v)));
  cod 24 1 RequiredReliabilityService_spec "required_reliability_service"%string (fun v => code (SetDataReliablePdu_required_reliability_service v));
  num 25 1 "padding"%string (fun v => uval (SetDataReliablePdu_padding v));
  num 26 2 "padding2"%string (fun v => uval (SetDataReliablePdu_padding2 v));
  num 28 4 "request_id"%string (fun v => uval (SetDataReliablePdu_request_id v));
  num 32 4 "number_of_fixed_datum_records"%string (fun v => uval (SetDataReliablePdu_number_of_fixed_datum_records v));
  num 36 4 "number_of_variable_datum_records"%string (fun v => uval (SetDataReliablePdu_number_of_variable_datum_records v))].

Definition DataReliablePdu_map : list (entry (pdu DataReliablePdu)) := [
  num 12 2 "originating_entity_id.simulation_address.site_id"%string (fun v => uval (SimulationAddress_site_id (EntityId_simulation_address (DataReliablePdu_originating_entity_id v))));
  num 14 2 "originating_entity_id.simulation_address.application_id"%string (fun v => uval (SimulationAddress_application_id (EntityId_simulation_address (DataReliablePdu_originating_entity_id v))));
  num 16 2 "originating_entity_id.entity_id"%string (fun v => uval (EntityId_entity_id (DataReliablePdu_originating_entity_id v)));
  num 18 2 "receiving_entity_id.simulation_address.site_id"%string (fun v => uval (SimulationAddress_site_id (EntityId_simulation_address (DataReliablePdu_receiving_entity_id v))));
  num 20 2 "receiving_entity_id.simulation_address.application_id"%string (fun v => uval (SimulationAddress_application_id (EntityId_simulation_address (DataReliablePdu_receiving_entity_id v))));
  num 22 2 "receiving_entity_id.entity_id"%string (fun v => uval (EntityId_entity_id (DataReliablePdu_receiving_entity_id v)));
  num 24 4 "request_id"%string (fun v => uval (DataReliablePdu_request_id v));
  cod 28 1 RequiredReliabilityService_spec "required_reliability_service"%string (fun v => code (DataReliablePdu_required_reliability_service v));
  num 29 1 "padding"%string (fun v => uval (DataReliablePdu_padding v));
  num 30 2 "padding2"%string (fun v => uval (DataReliablePdu_padding2 v));
  num 32 4 "number_of_fixed_datum_records"%string (fun v => uval (DataReliablePdu_number_of_fixed_datum_records v));
  num 36 4 "number_of_variable_datum_records"%string (fun v => uval (DataReliablePdu_number_of_variable_datum_records v))].

Definition EventReportReliablePdu_map : list (entry (pdu EventReportReliablePdu)) := [
  num 12 2 "originating_entity_id.simulation_address.site_id"%string (fun v => uval (SimulationAddress_site_id (EntityId_simulation_address (EventReportReliablePdu_originating_entity_id v))));
  num 14 2 "originating_entity_id.simulation_address.application_id"%string (fun v => uval (SimulationAddress_application_id (EntityId_simulation_address (EventReportReliablePdu_originating_entity_id v))));
  num 16 2 "originating_entity_id.entity_id"%string (fun v => uval (EntityId_entity_id (EventReportReliablePdu_originating_entity_id v)));
  num 18 2 "receiving_entity_id.simulation_address.site_id"%string (fun v => uval (SimulationAddress_site_id (EntityId_simulation_address (EventReportReliablePdu_receiving_entity_id v))));
  num 20 2 "receiving_entity_id.simulation_address.application_id"%string (fun v => uval (SimulationAddress_application_id (EntityId_simulation_address (EventReportReliablePdu_receiving_entity_id v))));
  num 22 2 "receiving_entity_id.entity_id"%string (fun v => uval (EntityId_entity_id (EventReportReliablePdu_receiving_entity_id v)));
  cod 24 4 EventType_spec "event_type"%string (fun v => code (EventReportReliablePdu_event_type v));
  num 28 4 "padding"%string (fun v => uval (EventReportReliablePdu_padding v));
  num 32 4 "number_of_fixed_datum_records"%string (fun v => uval (EventReportReliablePdu_number_of_fixed_datum_records v));
  num 36 4 "number_of_variable_datum_records"%string (fun v => uval (EventReportReliablePdu_number_of_variable_datum_records v))].

Definition CommentReliablePdu_map : list (entry (pdu CommentReliablePdu)) := [
  num 12 2 "originating_entity_id.simulation_address.site_id"%string (fun v => uval (SimulationAddress_site_id (EntityId_simulation_address (CommentReliablePdu_originating_entity_id v))));
  num 14 2 "originating_entity_id.simulation_address.application_id"%string (fun v => uval (SimulationAddress_application_id (EntityId_simulation_address (CommentReliablePdu_originating_entity_id v))));
  num 16 2 "originating_entity_id.entity_id"%string (fun v => uval (EntityId_entity_id (CommentReliablePdu_originating_entity_id v)));
  num 18 2 "receiving_entity_id.simulation_address.site_id"%string (fun v => uval (SimulationAddress_site_id (EntityId_simulation_address (CommentReliablePdu_receiving_entity_id v))));
  num 20 2 "receiving_entity_id.simulation_address.application_id"%string (fun v => uval (SimulationAddress_application_id (EntityId_simulation_address (CommentReliablePdu_receiving_entity_id v))));
  num 22 2 "receiving_entity_id.entity_id"%string (fun v => uval (EntityId_entity_id (CommentReliablePdu_receiving_entity_id v)));
  num 24 4 "number_of_fixed_datum_records"%string (fun v => uval (CommentReliablePdu_number_of_fixed_datum_records v));
  num 28 4 "number_of_variable_datum_records"%string (fun v => uval (CommentReliablePdu_number_of_variable_datum_records v))].

Definition RecordQueryReliablePdu_map : list (entry (pdu RecordQueryReliablePdu)) := [
  num 12 2 "originating_entity_id.simulation_address.site_id"%string (fun v => uval (SimulationAddress_site_id (EntityId_simulation_address (RecordQueryReliablePdu_originating_entity_id v))));
  num 14 2 "originating_entity_id.simulation_address.application_id"%string (fun v => uval (SimulationAddress_application_id (EntityId_simulation_address (RecordQueryReliablePdu_originating_entity_id v))));
  num 16 2 "originating_entity_id.entity_id"%string (fun v => uval (EntityId_entity_id (RecordQueryReliablePdu_originating_entity_id v)));
  num 18 2 "receiving_entity_id.simulation_address.site_id"%string (fun v => uval (SimulationAddress_site_id (EntityId_simulation_address (RecordQueryReliablePdu_receiving_entity_id v))));
  num 20 2 "receiving_entity_id.simulation_address.application_id"%string (fun v => uval (SimulationAddress_application_id (EntityId_simulation_address (RecordQueryReliablePdu_receiving_entity_id v))));
  num 22 2 "receiving_entity_id.entity_id"%string (fun v => uval (EntityId_entity_id (RecordQueryReliablePdu_receiving_entity_id v)));
  num 24 4 "request_id"%string (fun v => uval (RecordQueryReliablePdu_request_id v));
  cod 28 1 RequiredReliabilityService_spec "required_reliability_service"%string (fun v => code (RecordQueryReliablePdu_required_reliability_service v));
  num 29 1 "padding"%string (fun v => uval (RecordQueryReliablePdu_padding v));
  cod 30 2 RecordQueryREventType_spec "event_type"%string (fun v => code (RecordQueryReliablePdu_event_type v));
  num 32 4 "time"%string (fun v => uval (RecordQueryReliablePdu_time v));
  num 36 4 "number_of_records"%string (fun v => uval (RecordQueryReliablePdu_number_of_records v))].

Definition SetRecordReliablePdu_map (m : profile) : list (entry (pdu (SetRecordReliablePdu m))) := [
  num 12 2 "originating_entity_id.simulation_address.site_id"%string (fun v => uval (SimulationAddress_site_id (EntityId_simulation_address (SetRecordReliablePdu_originating_entity_id v))));
  num 14 2 "originating_entity_id.simulation_address.application_id"%string (fun v => uval (SimulationAddress_application_id (EntityId_simulation_address (SetRecordReliablePdu_originating_entity_id v))));
  num 16 2 "originating_entity_id.entity_id"%string (fun v => uval (EntityId_entity_id (SetRecordReliablePdu_originating_entity_id v)));
  num 18 2 "receiving_entity_id.simulation_address.site_id"%string (fun v => uval (SimulationAddress_site_id (EntityId_simulation_address (SetRecordReliablePdu_receiving_entity_id v))));
  num 20 2 "receiving_entity_id.simulation_address.application_id"%string (fun v => uval (SimulationAddress_application_id (EntityId_simulation_address (SetRecordReliablePdu_receiving_entity_id v))));
  num 22 2 "receiving_entity_id.entity_id"%string (fun v => uval (EntityId_entity_id (SetRecordReliablePdu_receiving_entity_id v)));
  num 24 4 "request_id"%string (fun v => uval (SetRecordReliablePdu_request_id v));
  cod 28 1 RequiredReliabilityService_spec "required_reliability_service"%string (fun v => code (SetRecordReliablePdu_required_reliability_service v));
  num 29 1 "padding"%string (fun v => uval (SetRecordReliablePdu_padding v));
  num 30 2 "padding2"%string (fun v => uval (SetRecordReliablePdu_padding2 v));
  num 32 4 "padding3"%string (fun v => uval (SetRecordReliablePdu_padding3 v));
  num 36 4 "record_sets.number_of_record_sets"%string (fun v => uval (RecordSpecification_number_of_record_sets (SetRecordReliablePdu_record_sets v)))].

Definition EnvironmentalProcessPdu_map : list (entry (pdu EnvironmentalProcessPdu)) := [
  num 12 2 "environmental_process_id.simulation_address.site_id"%string (fun v => uval (SimulationAddress_site_id (EntityId_simulation_address (EnvironmentalProcessPdu_environmental_process_id v))));
  num 14 2 "environmental_process_id.simulation_address.application_id"%string (fun v => uval (SimulationAddress_application_id (EntityId_simulation_address (EnvironmentalProcessPdu_environmental_process_id v))));
  num 16 2 "environmental_process_id.entity_id"%string (fun v => uval (EntityId_entity_id (EnvironmentalProcessPdu_environmental_process_id v)));
  cod 18 1 EntityKind_spec "environment_type.kind"%string (fun v => code (EntityType_kind (EnvironmentalProcessPdu_environment_type v)));
  num 19 1 "environment_type.domain"%string (fun v => uval (EntityType_domain (EnvironmentalProcessPdu_environment_type v)));
  cod 20 2 Country_spec "environment_type.country"%string (fun v => code (EntityType_country (EnvironmentalProcessPdu_environment_type v)));
  num 22 1 "environment_type.category"%string (fun v => uval (EntityType_category (EnvironmentalProcessPdu_environment_type v)));
  num 23 1 "environment_type.subcategory"%string (fun v => uval (EntityType_subcategory (EnvironmentalProcessPdu_environment_type v)));
  num 24 1 "environment_type.specific"%string (fun v => uval (EntityType_specific (EnvironmentalProcessPdu_environment_type v)));
  num 25 1 "environment_type.extra"%string (fun v => uval (EntityType_extra (EnvironmentalProcessPdu_environment_type v)));
  num 26 1 "model_type"%string (fun v => uval (EnvironmentalProcessPdu_model_type v));
  num 27 1 "environment_status"%string (fun v => uval (EnvironmentalProcessPdu_environment_status v));
  num 28 2 "number_of_environment_records"%string (fun v => uval (EnvironmentalProcessPdu_number_of_environment_records v));
  num 30 2 "sequence_number"%string (fun v => uval (EnvironmentalProcessPdu_sequence_number v))].

Definition GriddedDataPdu_map : list (entry (pdu GriddedDataPdu)) := [
  num 12 2 "environmental_simulation_id.simulation_address.site_id"%string (fun v => uval (SimulationAddress_site_id (EntityId_simulation_address (GriddedDataPdu_environmental_simulation_id v))));
  num 14 2 "environmental_simulation_id.simulation_address.application_id"%string (fun v => uval (SimulationAddress_application_id (EntityId_simulation_address (GriddedDataPdu_environmental_simulation_id v))));
  num 16 2 "environmental_simulation_id.entity_id"%string (fun v => uval (EntityId_entity_id (GriddedDataPdu_environmental_simulation_id v)));
  num 18 2 "field_number"%string (fun v => uval (GriddedDataPdu_field_number v));
  num 20 2 "pdu_number"%string (fun v => uval (GriddedDataPdu_pdu_number v));
  num 22 2 "pdu_total"%string (fun v => uval (GriddedDataPdu_pdu_total v));
  cod 24 2 GriddedDataCoordinateSystem_spec "coordinate_system"%string (fun v => code (GriddedDataPdu_coordinate_system v));
  num 26 1 "number_of_grid_axes"%string (fun v => uval (GriddedDataPdu_number_of_grid_axes v));
  cod 27 1 GriddedDataConstantGrid_spec "constant_grid"%string (fun v => code (GriddedDataPdu_constant_grid v));
  cod 28 1 EntityKind_spec "environment_type.kind"%string (fun v => code (EntityType_kind (GriddedDataPdu_environment_type v)));
  num 29 1 "environment_type.domain"%string (fun v => uval (EntityType_domain (GriddedDataPdu_environment_type v)));
  cod 30 2 Country_spec "environment_type.country"%string (fun v => code (EntityType_country (GriddedDataPdu_environment_type v)));
  num 32 1 "environment_type.category"%string (fun v => uval (EntityType_category (GriddedDataPdu_environment_type v)));
  num 33 1 "environment_type.subcategory"%string (fun v => uval (EntityType_subcategory (GriddedDataPdu_environment_type v)));
  num 34 1 "environment_type.specific"%string (fun v => uval (EntityType_specific (GriddedDataPdu_environment_type v)));
  num 35 1 "environment_type.extra"%string (fun v => uval (EntityType_extra (GriddedDataPdu_environment_type v)));
  num 36 4 "orientation.psi"%string (fun v => uval (EulerAngles_psi (GriddedDataPdu_orientation v)));
  num 40 4 "orientation.theta"%string (fun v => uval (EulerAngles_theta (GriddedDataPdu_orientation v)));
  num 44 4 "orientation.phi"%string (fun v => uval (EulerAngles_phi (GriddedDataPdu_orientation v)));
  num 48 4 "sample_time.hour"%string (fun v => uval (ClockTime_hour (GriddedDataPdu_sample_time v)));
  num 52 4 "sample_time.time_past_hour"%string (fun v => uval (ClockTime_time_past_hour (GriddedDataPdu_sample_time v)));
  num 56 4 "total_values"%string (fun v => uval (GriddedDataPdu_total_values v));
  num 60 1 "vector_dimension"%string (fun v => uval (GriddedDataPdu_vector_dimension v));
  num 61 1 "padding"%string (fun v => uval (GriddedDataPdu_padding v));
  num 62 2 "padding2"%string (fun v => uval (GriddedDataPdu_padding2 v))].

Definition PointObjectStatePdu_map : list (entry (pdu PointObjectStatePdu)) := [
  num 12 2 "object_id.simulation_address.site_id"%string (fun v => uval (SimulationAddress_site_id (EntityId_simulation_address (PointObjectStatePdu_object_id v))));
  num 14 2 "object_id.simulation_address.application_id"%string (fun v => uval (SimulationAddress_application_id (EntityId_simulation_address (PointObjectStatePdu_object_id v))));
  num 16 2 "object_id.entity_id"%string (fun v => uval (EntityId_entity_id (PointObjectStatePdu_object_id v)));
  num 18 2 "referenced_object_id.simulation_address.site_id"%string (fun v => uval (SimulationAddress_site_id (EntityId_simulation_address (PointObjectStatePdu_referenced_object_id v))));
  num 20 2 "referenced_object_id.simulation_address.application_id"%string (fun v => uval (SimulationAddress_application_id (EntityId_simulation_address (PointObjectStatePdu_referenced_object_id v))));
  num 22 2 "referenced_object_id.entity_id"%string (fun v => uval (EntityId_entity_id (PointObjectStatePdu_referenced_object_id v)));
  num 24 2 "update_number"%string (fun v => uval (PointObjectStatePdu_update_number v));
  cod 26 1 ForceId_spec "force_id"%string (fun v => code (PointObjectStatePdu_force_id v));
  num 27 1 "modifications"%string (fun v => uval (PointObjectStatePdu_modifications v));
  num 28 1 "object_type.domain"%string (fun v => uval (ObjectType_domain (PointObjectStatePdu_object_type v)));
  num 29 1 "object_type.object_kind"%string (fun v => uval (ObjectType_object_kind (PointObjectStatePdu_object_type v)));
  num 30 1 "object_type.category"%string (fun v => uval (ObjectType_category (PointObjectStatePdu_object_type v)));
  num 31 1 "object_type.subcategory"%string (fun v => uval (ObjectType_subcategory (PointObjectStatePdu_object_type v)));
  num 32 8 "object_location.x"%string (fun v => uval (WorldCoordinate_x (PointObjectStatePdu_object_location v)));
  num 40 8 "object_location.y"%string (fun v => uval (WorldCoordinate_y (PointObjectStatePdu_object_location v)));
  num 48 8 "object_location.z"%string (fun v => uval (WorldCoordinate_z (PointObjectStatePdu_object_location v)));
  num 56 4 "object_orientation.psi"%string (fun v => uval (EulerAngles_psi (PointObjectStatePdu_object_orientation v)));
  num 60 4 "object_orientation.theta"%string (fun v => uval (EulerAngles_theta (PointObjectStatePdu_object_orientation v)));
  num 64 4 "object_orientation.phi"%string (fun v => uval (EulerAngles_phi (PointObjectStatePdu_object_orientation v)));
  num 68 4 "specific_object_appearance"%string (fun v => uval (PointObjectStatePdu_specific_object_appearance v));
  num 72 2 "general_object_appearance"%string (fun v => uval (PointObjectStatePdu_general_object_appearance v));
  num 74 2 "padding"%string (fun v => uval (PointObjectStatePdu_padding v));
  num 76 2 "requester_id.site_id"%string (fun v => uval (SimulationAddress_site_id (PointObjectStatePdu_requester_id v)));
  num 78 2 "requester_id.application_id"%string (fun v => uval (SimulationAddress_application_id (PointObjectStatePdu_requester_id v)));
  num 80 2 "receiving_id.site_id"%string (fun v => uval (SimulationAddress_site_id (PointObjectStatePdu_receiving_id v)));
  num 82 2 "receiving_id.application_id"%string (fun v => uval (SimulationAddress_application_id (PointObjectStatePdu_receiving_id v)));
  num 84 4 "padding2"%string (fun v => uval (PointObjectStatePdu_padding2 v))].

Definition LinearObjectStatePdu_map : list (entry (pdu LinearObjectStatePdu)) := [
  num 12 2 "object_id.simulation_address.site_id"%string (fun v => uval (SimulationAddress_site_id (ObjectIdentifier_simulation_address (LinearObjectStatePdu_object_id v))));
  num 14 2 "object_id.simulation_address.application_id"%string (fun v => uval (SimulationAddress_application_id (ObjectIdentifier_simulation_address (LinearObjectStatePdu_object_id v))));
  num 16 2 "object_id.object_number"%string (fun v => uval (ObjectIdentifier_object_number (LinearObjectStatePdu_object_id v)));
  num 18 2 "referenced_object_id.simulation_address.site_id"%string (fun v => uval (SimulationAddress_site_id (ObjectIdentifier_simulation_address (LinearObjectStatePdu_referenced_object_id v))));
  num 20 2 "referenced_object_id.simulation_address.application_id"%string (fun v => uval (SimulationAddress_application_id (ObjectIdentifier_simulation_address (LinearObjectStatePdu_referenced_object_id v))));
  num 22 2 "referenced_object_id.object_number"%string (fun v => uval (ObjectIdentifier_object_number (LinearObjectStatePdu_referenced_object_id v)));
  num 24 2 "update_number"%string (fun v => uval (LinearObjectStatePdu_update_number v));
  cod 26 1 ForceId_spec "force_id"%string (fun v => code (LinearObjectStatePdu_force_id v));
  num 27 1 "number_of_segments"%string (fun v => uval (LinearObjectStatePdu_number_of_segments v));
  num 28 2 "requester_id.site_id"%string (fun v => uval (SimulationAddress_site_id (LinearObjectStatePdu_requester_id v)));
  num 30 2 "requester_id.application_id"%string (fun v => uval (SimulationAddress_application_id (LinearObjectStatePdu_requester_id v)));
  num 32 2 "receiving_id.site_id"%string (fun v => uval (SimulationAddress_site_id (LinearObjectStatePdu_receiving_id v)));
  num 34 2 "receiving_id.application_id"%string (fun v => uval (SimulationAddress_application_id (LinearObjectStatePdu_receiving_id v)));
  num 36 1 "object_type.domain"%string (fun v => uval (ObjectType_domain (LinearObjectStatePdu_object_type v)));
  num 37 1 "object_type.object_kind"%string (fun v => uval (ObjectType_object_kind (LinearObjectStatePdu_object_type v)));
  num 38 1 "object_type.category"%string (fun v => uval (ObjectType_category (LinearObjectStatePdu_object_type v)));
  num 39 1 "object_type.subcategory"%string (fun v => uval (ObjectType_subcategory (LinearObjectStatePdu_object_type v)))].

Definition ArealObjectStatePdu_map : list (entry (pdu ArealObjectStatePdu)) := [
  num 12 2 "object_id.simulation_address.site_id"%string (fun v => uval (SimulationAddress_site_id (ObjectIdentifier_simulation_address (ArealObjectStatePdu_object_id v))));
  num 14 2 "object_id.simulation_address.application_id"%string (fun v => uval (SimulationAddress_application_id (ObjectIdentifier_simulation_address (ArealObjectStatePdu_object_id v))));
  num 16 2 "object_id.object_number"%string (fun v => uval (ObjectIdentifier_object_number (ArealObjectStatePdu_object_id v)));
  num 18 2 "referenced_object_id.simulation_address.site_id"%string (fun v => uval (SimulationAddress_site_id (ObjectIdentifier_simulation_address (ArealObjectStatePdu_referenced_object_id v))));
  num 20 2 "referenced_object_id.simulation_address.application_id"%string (fun v => uval (SimulationAddress_application_id (ObjectIdentifier_simulation_address (ArealObjectStatePdu_referenced_object_id v))));
  num 22 2 "referenced_object_id.object_number"%string (fun v => uval (ObjectIdentifier_object_number (ArealObjectStatePdu_referenced_object_id v)));
  num 24 2 "update_number"%string (fun v => uval (ArealObjectStatePdu_update_number v));
  cod 26 1 ForceId_spec "force_id"%string (fun v => code (ArealObjectStatePdu_force_id v));
  num 27 1 "modifications"%string (fun v => uval (ArealObjectStatePdu_modifications v));
  num 28 1 "object_type.domain"%string (fun v => uval (ObjectType_domain (ArealObjectStatePdu_object_type v)));
  num 29 1 "object_type.object_kind"%string (fun v => uval (ObjectType_object_kind (ArealObjectStatePdu_object_type v)));
  num 30 1 "object_type.category"%string (fun v => uval (ObjectType_category (ArealObjectStatePdu_object_type v)));
  num 31 1 "object_type.subcategory"%string (fun v => uval (ObjectType_subcategory (ArealObjectStatePdu_object_type v)));
  num 32 4 "specific_object_appearance"%string (fun v => uval (ArealObjectStatePdu_specific_object_appearance v));
  flg 36 2 32001 "general_object_appearance"%string (fun v => uval (bits (ArealObjectStatePdu_general_object_appearance v)));
  num 38 2 "number_of_points"%string (fun v => uval (ArealObjectStatePdu_number_of_points v));
  num 40 2 "requester_id.site_id"%string (fun v => uval (SimulationAddress_site_id (ArealObjectStatePdu_requester_id v)));
  num 42 2 "requester_id.application_id"%string (fun v => uval (SimulationAddress_application_id (ArealObjectStatePdu_requester_id v)));
  num 44 2 "receiving_id.site_id"%string (fun v => uval (SimulationAddress_site_id (ArealObjectStatePdu_receiving_id v)));
  num 46 2 "receiving_id.application_id"%string (fun v => uval (SimulationAddress_application_id (ArealObjectStatePdu_receiving_id v)))].

Definition FirePdu_map : list (entry (pdu FirePdu)) := [
  num 12 2 "firing_entity_id.simulation_address.site_id"%string (fun v => uval (SimulationAddress_site_id (EntityId_simulation_address (FirePdu_firing_entity_id v))));
  num 14 2 "firing_entity_id.simulation_address.application_id"%string (fun v => uval (SimulationAddress_application_id (EntityId_simulation_address (FirePdu_firing_entity_id v))));
  num 16 2 "firing_entity_id.entity_id"%string (fun v => uval (EntityId_entity_id (FirePdu_firing_entity_id v)));
  num 18 2 "target_entity_id.simulation_address.site_id"%string (fun v => uval (SimulationAddress_site_id (EntityId_simulation_address (FirePdu_target_entity_id v))));
  num 20 2 "target_entity_id.simulation_address.application_id"%string (fun v => uval (SimulationAddress_application_id (EntityId_simulation_address (FirePdu_target_entity_id v))));
  num 22 2 "target_entity_id.entity_id"%string (fun v => uval (EntityId_entity_id (FirePdu_target_entity_id v)));
  num 24 2 "munition_expendable_id.simulation_address.site_id"%string (fun v => uval (SimulationAddress_site_id (EntityId_simulation_address (FirePdu_munition_expendable_id v))));
  num 26 2 "munition_expendable_id.simulation_address.application_id"%string (fun v => uval (SimulationAddress_application_id (EntityId_simulation_address (FirePdu_munition_expendable_id v))));
  num 28 2 "munition_expendable_id.entity_id"%string (fun v => uval (EntityId_entity_id (FirePdu_munition_expendable_id v)));
  num 30 2 "event_id.simulation_address.site_id"%string (fun v => uval (SimulationAddress_site_id (EventId_simulation_address (FirePdu_event_id v))));
  num 32 2 "event_id.simulation_address.application_id"%string (fun v => uval (SimulationAddress_application_id (EventId_simulation_address (FirePdu_event_id v))));
  num 34 2 "event_id.event_identifier"%string (fun v => uval (EventId_event_identifier (FirePdu_event_id v)));
  num 36 4 "fire_mission_index"%string (fun v => uval (FirePdu_fire_mission_index v));
  num 40 8 "location_in_world_coordinates.x"%string (fun v => uval (WorldCoordinate_x (FirePdu_location_in_world_coordinates v)));
  num 48 8 "location_in_world_coordinates.y"%string (fun v => uval (WorldCoordinate_y (FirePdu_location_in_world_coordinates v)));
  num 56 8 "location_in_world_coordinates.z"%string (fun v => uval (WorldCoordinate_z (FirePdu_location_in_world_coordinates v)));
  cod 64 1 EntityKind_spec "descriptor.munition_type.kind"%string (fun v => code (EntityType_kind (MunitionDescriptor_munition_type (FirePdu_descriptor v))));
  num 65 1 "descriptor.munition_type.domain"%string (fun v => uval (EntityType_domain (MunitionDescriptor_munition_type (FirePdu_descriptor v))));
  cod 66 2 Country_spec "descriptor.munition_type.country"%string (fun v => code (EntityType_country (MunitionDescriptor_munition_type (FirePdu_descriptor v))));
  num 68 1 "descriptor.munition_type.category"%string (fun v => uval (EntityType_category (MunitionDescriptor_munition_type (FirePdu_descriptor v))));
  num 69 1 "descriptor.munition_type.subcategory"%string (fun v => uval (EntityType_subcategory (MunitionDescriptor_munition_type (FirePdu_descriptor v))));
  num 70 1 "descriptor.munition_type.specific"%string (fun v => uval (EntityType_specific (MunitionDescriptor_munition_type (FirePdu_descriptor v))));
  num 71 1 "descriptor.munition_type.extra"%string (fun v => uval (EntityType_extra (MunitionDescriptor_munition_type (FirePdu_descriptor v))));
  num 72 2 "descriptor.warhead"%string (fun v => uval (MunitionDescriptor_warhead (FirePdu_descriptor v)));
  num 74 2 "descriptor.fuse"%string (fun v => uval (MunitionDescriptor_fuse (FirePdu_descriptor v)));
  num 76 2 "descriptor.quantity"%string (fun v => uval (MunitionDescriptor_quantity (FirePdu_descriptor v)));
  num 78 2 "descriptor.rate"%string (fun v => uval (MunitionDescriptor_rate (FirePdu_descriptor v)));
  num 80 4 "velocity.first_vector_component"%string (fun v => uval (LinearVelocity_first_vector_component (FirePdu_velocity v)));
  num 84 4 "velocity.second_vector_component"%string (fun v => uval (LinearVelocity_second_vector_component (FirePdu_velocity v)));
  num 88 4 "velocity.third_vector_component"%string (fun v => uval (LinearVelocity_third_vector_component (FirePdu_velocity v)));
  num 92 4 "range"%string (fun v => uval (FirePdu_range v))].

Definition DetonationPdu_map : list (entry (pdu DetonationPdu)) := [
  num 12 2 "firing_entity_id.simulation_address.site_id"%string (fun v => uval (SimulationAddress_site_id (EntityId_simulation_address (DetonationPdu_firing_entity_id v))));
  num 14 2 "firing_entity_id.simulation_address.application_id"%string (fun v => uval (SimulationAddress_application_id (EntityId_simulation_address (DetonationPdu_firing_entity_id v))));
  num 16 2 "firing_entity_id.entity_id"%string (fun v => uval (EntityId_entity_id (DetonationPdu_firing_entity_id v)));
  num 18 2 "target_entity_id.simulation_address.site_id"%string (fun v => uval (SimulationAddress_site_id (EntityId_simulation_address (DetonationPdu_target_entity_id v))));
  num 20 2 "target_entity_id.simulation_address.application_id"%string (fun v => uval (SimulationAddress_application_id (EntityId_simulation_address (DetonationPdu_target_entity_id v))));
  num 22 2 "target_entity_id.entity_id"%string (fun v => uval (EntityId_entity_id (DetonationPdu_target_entity_id v)));
  num 24 2 "exploding_entity_id.simulation_address.site_id"%string (fun v => uval (SimulationAddress_site_id (EntityId_simulation_address (DetonationPdu_exploding_entity_id v))));
  num 26 2 "exploding_entity_id.simulation_address.application_id"%string (fun v => uval (SimulationAddress_application_id (EntityId_simulation_address (DetonationPdu_exploding_entity_id v))));
  num 28 2 "exploding_entity_id.entity_id"%string (fun v => uval (EntityId_entity_id (DetonationPdu_exploding_entity_id v)));
  num 30 2 "event_id.simulation_address.site_id"%string (fun v => uval (SimulationAddress_site_id (EventId_simulation_address (DetonationPdu_event_id v))));
  num 32 2 "event_id.simulation_address.application_id"%string (fun v => uval (SimulationAddress_application_id (EventId_simulation_address (DetonationPdu_event_id v))));
  num 34 2 "event_id.event_identifier"%string (fun v => uval (EventId_event_identifier (DetonationPdu_event_id v)));
  num 36 4 "velocity.first_vector_component"%string (fun v => uval (LinearVelocity_first_vector_component (DetonationPdu_velocity v)));
  num 40 4 "velocity.second_vector_component"%string (fun v => uval (LinearVelocity_second_vector_component (DetonationPdu_velocity v)));
  num 44 4 "velocity.third_vector_component"%string (fun v => uval (LinearVelocity_third_vector_component (DetonationPdu_velocity v)));
  num 48 8 "location_in_world_coordinates.x"%string (fun v => uval (WorldCoordinate_x (DetonationPdu_location_in_world_coordinates v)));
  num 56 8 "location_in_world_coordinates.y"%string (fun v => uval (WorldCoordinate_y (DetonationPdu_location_in_world_coordinates v)));
  num 64 8 "location_in_world_coordinates.z"%string (fun v => uval (WorldCoordinate_z (DetonationPdu_location_in_world_coordinates v)));
  cod 72 1 EntityKind_spec "descriptor.munition_type.kind"%string (fun v => code (EntityType_kind (MunitionDescriptor_munition_type (DetonationPdu_descriptor v))));
  num 73 1 "descriptor.munition_type.domain"%string (fun v => uval (EntityType_domain (MunitionDescriptor_munition_type (DetonationPdu_descriptor v))));
  cod 74 2 Country_spec "descriptor.munition_type.country"%string (fun v => code (EntityType_country (MunitionDescriptor_munition_type (DetonationPdu_descriptor v))));
  num 76 1 "descriptor.munition_type.category"%string (fun v => uval (EntityType_category (MunitionDescriptor_munition_type (DetonationPdu_descriptor v))));
  num 77 1 "descriptor.munition_type.subcategory"%string (fun v => uval (EntityType_subcategory (MunitionDescriptor_munition_type (DetonationPdu_descriptor v))));
  num 78 1 "descriptor.munition_type.specific"%string (fun v => uval (EntityType_specific (MunitionDescriptor_munition_type (DetonationPdu_descriptor v))));
  num 79 1 "descriptor.munition_type.extra"%string (fun v => uval (EntityType_extra (MunitionDescriptor_munition_type (DetonationPdu_descriptor v))));
  num 80 2 "descriptor.warhead"%string (fun v => uval (MunitionDescriptor_warhead (DetonationPdu_descriptor v)));
  num 82 2 "descriptor.fuse"%string (fun v => uval (MunitionDescriptor_fuse (DetonationPdu_descriptor v)));
  num 84 2 "descriptor.quantity"%string (fun v => uval (MunitionDescriptor_quantity (DetonationPdu_descriptor v)));
  num 86 2 "descriptor.rate"%string (fun v => uval (MunitionDescriptor_rate (DetonationPdu_descriptor v)));
  num 88 4 "location_in_entitys_coordinates.x_coordinate"%string (fun v => uval (EntityCoordinateVector_x_coordinate (DetonationPdu_location_in_entitys_coordinates v)));
  num 92 4 "location_in_entitys_coordinates.y_coordinate"%string (fun v => uval (EntityCoordinateVector_y_coordinate (DetonationPdu_location_in_entitys_coordinates v)));
  num 96 4 "location_in_entitys_coordinates.z_coordinate"%string (fun v => uval (EntityCoordinateVector_z_coordinate (DetonationPdu_location_in_entitys_coordinates v)));
  cod 100 1 DetonationResult_spec "detonation_result"%string (fun v => code (DetonationPdu_detonation_result v));
  num 101 1 "number_of_variable_parameters"%string (fun v => uval (DetonationPdu_number_of_variable_parameters v));
  num 102 2 "padding"%string (fun v => uval (DetonationPdu_padding v))].

Definition DirectedEnergyFirePdu_map : list (entry (pdu DirectedEnergyFirePdu)) := [
  num 12 2 "firing_entity_id.simulation_address.site_id"%string (fun v => uval (SimulationAddress_site_id (EntityId_simulation_address (DirectedEnergyFirePdu_firing_entity_id v))));
  num 14 2 "firing_entity_id.simulation_address.application_id"%string (fun v => uval (SimulationAddress_application_id (EntityId_simulation_address (DirectedEnergyFirePdu_firing_entity_id v))));
  num 16 2 "firing_entity_id.entity_id"%string (fun v => uval (EntityId_entity_id (DirectedEnergyFirePdu_firing_entity_id v)));
  num 18 2 "event_id.simulation_address.site_id"%string (fun v => uval (SimulationAddress_site_id (EventId_simulation_address (DirectedEnergyFirePdu_event_id v))));
  num 20 2 "event_id.simulation_address.application_id"%string (fun v => uval (SimulationAddress_application_id (EventId_simulation_address (DirectedEnergyFirePdu_event_id v))));
  num 22 2 "event_id.event_identifier"%string (fun v => uval (EventId_event_identifier (DirectedEnergyFirePdu_event_id v)));
  cod 24 1 EntityKind_spec "munition_type.kind"%string (fun v => code (EntityType_kind (DirectedEnergyFirePdu_munition_type v)));
  num 25 1 "munition_type.domain"%string (fun v => uval (EntityType_domain (DirectedEnergyFirePdu_munition_type v)));
  cod 26 2 Country_spec "munition_type.country"%string (fun v => code (EntityType_country (DirectedEnergyFirePdu_munition_type v)));
  num 28 1 "munition_type.category"%string (fun v => uval (EntityType_category (DirectedEnergyFirePdu_munition_type v)));
  num 29 1 "munition_type.subcategory"%string (fun v => uval (EntityType_subcategory (DirectedEnergyFirePdu_munition_type v)));
  num 30 1 "munition_type.specific"%string (fun v => uval (EntityType_specific (DirectedEnergyFirePdu_munition_type v)));
  num 31 1 "munition_type.extra"%string (fun v => uval (EntityType_extra (DirectedEnergyFirePdu_munition_type v)));
  num 32 4 "shot_start_time.hour"%string (fun v => uval (ClockTime_hour (DirectedEnergyFirePdu_shot_start_time v)));
  num 36 4 "shot_start_time.time_past_hour"%string (fun v => uval (ClockTime_time_past_hour (DirectedEnergyFirePdu_shot_start_time v)));
  num 40 4 "cumulative_shot_time"%string (fun v => uval (DirectedEnergyFirePdu_cumulative_shot_time v));
  num 44 4 "aperture_emitter_location.x_coordinate"%string (fun v => uval (EntityCoordinateVector_x_coordinate (DirectedEnergyFirePdu_aperture_emitter_location v)));
  num 48 4 "aperture_emitter_location.y_coordinate"%string (fun v => uval (EntityCoordinateVector_y_coordinate (DirectedEnergyFirePdu_aperture_emitter_location v)));
  num 52 4 "aperture_emitter_location.z_coordinate"%string (fun v => uval (EntityCoordinateVector_z_coordinate (DirectedEnergyFirePdu_aperture_emitter_location v)));
  num 56 4 "aperture_diameter"%string (fun v => uval (DirectedEnergyFirePdu_aperture_diameter v));
  num 60 4 "wavelength"%string (fun v => uval (DirectedEnergyFirePdu_wavelength v));
  num 64 4 "padding"%string (fun v => uval (DirectedEnergyFirePdu_padding v));
  num 68 4 "pulse_repetition_frequency"%string (fun v => uval (DirectedEnergyFirePdu_pulse_repetition_frequency v));
  num 72 4 "pulse_width"%string (fun v => uval (DirectedEnergyFirePdu_pulse_width v));
  num 76 2 "flags"%string (fun v => uval (DirectedEnergyFirePdu_flags v));
  cod 78 1 DEFirePulseShape_spec "pulse_shape"%string (fun v => code (DirectedEnergyFirePdu_pulse_shape v));
  num 79 1 "padding2"%string (fun v => uval (DirectedEnergyFirePdu_padding2 v));
  num 80 4 "padding3"%string (fun v => uval (DirectedEnergyFirePdu_padding3 v));
  num 84 2 "padding4"%string (fun v => uval (DirectedEnergyFirePdu_padding4 v));
  num 86 2 "number_of_de_records"%string (fun v => uval (DirectedEnergyFirePdu_number_of_de_records v))].

Definition EntityDamageStatusPdu_map : list (entry (pdu EntityDamageStatusPdu)) := [
  num 12 2 "damaged_entity_id.simulation_address.site_id"%string (fun v => uval (SimulationAddress_site_id (EntityId_simulation_address (EntityDamageStatusPdu_damaged_entity_id v))));
  num 14 2 "damaged_entity_id.simulation_address.application_id"%string (fun v => uval (SimulationAddress_application_id (EntityId_simulation_address (EntityDamageStatusPdu_damaged_entity_id v))));
  num 16 2 "damaged_entity_id.entity_id"%string (fun v => uval (EntityId_entity_id (EntityDamageStatusPdu_damaged_entity_id v)));
  num 18 2 "padding"%string (fun v => uval (EntityDamageStatusPdu_padding v));
  num 20 2 "padding2"%string (fun v => uval (EntityDamageStatusPdu_padding2 v));
  num 22 2 "number_of_damage_descriptions"%string (fun v => uval (EntityDamageStatusPdu_number_of_damage_descriptions v))].

(** All maps, with the end of the mapped part. *)
Record pdu_map := mk_pdu_map { pm_class : pdu_class; pm_entries : list (entry (pdu pm_class)); pm_end : nat }.
Definition wire_maps (m : profile) : list pdu_map := [
  mk_pdu_map ElectromagneticEmissionsPdu ElectromagneticEmissionsPdu_map 28;
  mk_pdu_map DesignatorPdu DesignatorPdu_map 88;
  mk_pdu_map UnderwaterAcousticPdu UnderwaterAcousticPdu_map 32;
  mk_pdu_map IFFPdu IFFPdu_map 88;
  mk_pdu_map SupplementalEmissionPdu SupplementalEmissionPdu_map 28;
  mk_pdu_map EntityStatePdu EntityStatePdu_map 129;
  mk_pdu_map CollisionPdu CollisionPdu_map 60;
  mk_pdu_map CollisionElasticPdu CollisionElasticPdu_map 100;
  mk_pdu_map EntityStateUpdatePdu EntityStateUpdatePdu_map 72;
  mk_pdu_map AttributePdu AttributePdu_map 32;
  mk_pdu_map AggregateStatePdu AggregateStatePdu_map 132;
  mk_pdu_map IsGroupOfPdu IsGroupOfPdu_map 40;
  mk_pdu_map (TransferOwnershipPdu m) (TransferOwnershipPdu_map m) 40;
  mk_pdu_map IsPartOfPdu IsPartOfPdu_map 52;
  mk_pdu_map InformationOperationsReportPdu InformationOperationsReportPdu_map 40;
  mk_pdu_map InformationOperationsActionPdu InformationOperationsActionPdu_map 56;
  mk_pdu_map ServiceRequestPdu ServiceRequestPdu_map 28;
  mk_pdu_map ResupplyOfferPdu ResupplyOfferPdu_map 28;
  mk_pdu_map ResupplyReceivedPdu ResupplyReceivedPdu_map 28;
  mk_pdu_map ResupplyCancelPdu ResupplyCancelPdu_map 24;
  mk_pdu_map RepairCompletePdu RepairCompletePdu_map 28;
  mk_pdu_map RepairResponsePdu RepairResponsePdu_map 28;
  mk_pdu_map MinefieldStatePdu MinefieldStatePdu_map 72;
  mk_pdu_map MinefieldQueryPdu MinefieldQueryPdu_map 40;
  mk_pdu_map MinefieldDataPdu MinefieldDataPdu_map 44;
  mk_pdu_map MinefieldResponseNackPdu MinefieldResponseNackPdu_map 26;
  mk_pdu_map TransmitterPdu TransmitterPdu_map 104;
  mk_pdu_map SignalPdu SignalPdu_map 32;
  mk_pdu_map ReceiverPdu ReceiverPdu_map 36;
  mk_pdu_map IntercomSignalPdu IntercomSignalPdu_map 32;
  mk_pdu_map IntercomControlPdu IntercomControlPdu_map 40;
  mk_pdu_map CreateEntityPdu CreateEntityPdu_map 28;
  mk_pdu_map RemoveEntityPdu RemoveEntityPdu_map 28;
  mk_pdu_map StartResumePdu StartResumePdu_map 44;
  mk_pdu_map StopFreezePdu StopFreezePdu_map 40;
  mk_pdu_map AcknowledgePdu AcknowledgePdu_map 32;
  mk_pdu_map ActionRequestPdu ActionRequestPdu_map 40;
  mk_pdu_map ActionResponsePdu ActionResponsePdu_map 40;
  mk_pdu_map DataQueryPdu DataQueryPdu_map 40;
  mk_pdu_map SetDataPdu SetDataPdu_map 40;
  mk_pdu_map DataPdu DataPdu_map 40;
  mk_pdu_map EventReportPdu EventReportPdu_map 40;
  mk_pdu_map CommentPdu CommentPdu_map 32;
  mk_pdu_map CreateEntityReliablePdu CreateEntityReliablePdu_map 32;
  mk_pdu_map RemoveEntityReliablePdu RemoveEntityReliablePdu_map 32;
  mk_pdu_map StartResumeReliablePdu StartResumeReliablePdu_map 48;
  mk_pdu_map StopFreezeReliablePdu StopFreezeReliablePdu_map 40;
  mk_pdu_map AcknowledgeReliablePdu AcknowledgeReliablePdu_map 32;
  mk_pdu_map ActionRequestReliablePdu ActionRequestReliablePdu_map 48;
  mk_pdu_map ActionResponseReliablePdu ActionResponseReliablePdu_map 40;
  mk_pdu_map DataQueryReliablePdu DataQueryReliablePdu_map 44;
  mk_pdu_map SetDataReliablePdu SetDataReliablePdu_map 40;
  mk_pdu_map DataReliablePdu DataReliablePdu_map 40;
  mk_pdu_map EventReportReliablePdu EventReportReliablePdu_map 40;
  mk_pdu_map CommentReliablePdu CommentReliablePdu_map 32;
  mk_pdu_map RecordQueryReliablePdu RecordQueryReliablePdu_map 40;
  mk_pdu_map (SetRecordReliablePdu m) (SetRecordReliablePdu_map m) 40;
  mk_pdu_map EnvironmentalProcessPdu EnvironmentalProcessPdu_map 32;
  mk_pdu_map GriddedDataPdu GriddedDataPdu_map 64;
  mk_pdu_map PointObjectStatePdu PointObjectStatePdu_map 88;
  mk_pdu_map LinearObjectStatePdu LinearObjectStatePdu_map 40;
  mk_pdu_map ArealObjectStatePdu ArealObjectStatePdu_map 48;
  mk_pdu_map FirePdu FirePdu_map 96;
  mk_pdu_map DetonationPdu DetonationPdu_map 104;
  mk_pdu_map DirectedEnergyFirePdu DirectedEnergyFirePdu_map 88;
  mk_pdu_map EntityDamageStatusPdu EntityDamageStatusPdu_map 24].
