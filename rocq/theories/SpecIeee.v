(** * Layouts of IEEE 1278.1 (for C78): literals only.

    Written down from the standard's PDU and record tables (1278.1-2012, clauses 6 and 7; the
    radio entity type is the record of 1278.1a), not from the repository. Each line gives
    the standard's field name, the field of the library's API that carries it and its size in
    octets. Records are spelled out once. EntityState is listed up to its variable parameter
    records; the other PDUs up to their first list. IFF is listed with layers 1 and 2, the only form the
    library has. Trusted: the standard was not at hand in the sandbox; the paddings of
    Action Request-R, Set Record-R and Directed Energy Fire follow the sizes of the
    repository's tests ([SpecTables]). *)
From Coq Require Import String List.
Import ListNotations.
Local Open Scope string_scope.

(** A field of a record: name in the standard, path below the API field, octets. *)
Definition ieee_record := list (string * string * nat).
Inductive ieee_format := Octets (n : nat) | Record_ (r : ieee_record).
(** A field of a PDU: name in the standard, API field, format. *)
Definition ieee_pdu := list (string * string * ieee_format).

Definition IeeeEntityIdentifier : ieee_record := [
  ("Site Number", "simulation_address.site_id", 2); ("Application Number", "simulation_address.application_id", 2); ("Entity Number", "entity_id", 2)].
Definition IeeeEventIdentifier : ieee_record := [
  ("Site Number", "simulation_address.site_id", 2); ("Application Number", "simulation_address.application_id", 2); ("Event Number", "event_identifier", 2)].
Definition IeeeSimulationIdentifier : ieee_record := [
  ("Site Number", "simulation_address.site_id", 2); ("Application Number", "simulation_address.application_id", 2); ("Reference Number", "reference_number", 2)].
Definition IeeeMinefieldIdentifier : ieee_record := [
  ("Site Number", "simulation_address.site_id", 2); ("Application Number", "simulation_address.application_id", 2); ("Minefield Number", "minefield_number", 2)].
Definition IeeeMinefieldAsEntity : ieee_record := [
  ("Site Number", "simulation_address.site_id", 2); ("Application Number", "simulation_address.application_id", 2); ("Minefield Number", "entity_id", 2)].
Definition IeeeObjectAsEntity : ieee_record := [
  ("Site Number", "simulation_address.site_id", 2); ("Application Number", "simulation_address.application_id", 2); ("Object Number", "entity_id", 2)].
Definition IeeeObjectIdentifier : ieee_record := [
  ("Site Number", "simulation_address.site_id", 2); ("Application Number", "simulation_address.application_id", 2); ("Object Number", "object_number", 2)].
Definition IeeeAggregateIdentifier : ieee_record := [
  ("Site Number", "site", 2); ("Application Number", "application", 2); ("Aggregate Number", "aggregate_id", 2)].
Definition IeeeSimulationAddress : ieee_record := [
  ("Site Number", "site_id", 2); ("Application Number", "application_id", 2)].
Definition IeeeEntityCoordinateVector : ieee_record := [
  ("x-coordinate", "x_coordinate", 4); ("y-coordinate", "y_coordinate", 4); ("z-coordinate", "z_coordinate", 4)].
Definition IeeeVector : ieee_record := [
  ("First Vector Component", "first_vector_component", 4); ("Second Vector Component", "second_vector_component", 4); ("Third Vector Component", "third_vector_component", 4)].
Definition IeeeDimensions : ieee_record := [
  ("x", "x", 4); ("y", "y", 4); ("z", "z", 4)].
Definition IeeeWorldCoordinates : ieee_record := [
  ("X-coordinate", "x", 8); ("Y-coordinate", "y", 8); ("Z-coordinate", "z", 8)].
Definition IeeeEulerAngles : ieee_record := [
  ("Psi", "psi", 4); ("Theta", "theta", 4); ("Phi", "phi", 4)].
Definition IeeeEntityType : ieee_record := [
  ("Kind", "kind", 1); ("Domain", "domain", 1); ("Country", "country", 2); ("Category", "category", 1); ("Subcategory", "subcategory", 1); ("Specific", "specific", 1); ("Extra", "extra", 1)].
Definition IeeeRadioEntityType : ieee_record := [
  ("Entity Kind", "entity_kind", 1); ("Domain", "domain", 1); ("Country", "country", 2); ("Category", "category", 1); ("Nomenclature Version", "nomenclature_version", 1); ("Nomenclature", "nomenclature", 2)].
Definition IeeeObjectType : ieee_record := [
  ("Domain", "domain", 1); ("Object Kind", "object_kind", 1); ("Category", "category", 1); ("Subcategory", "subcategory", 1)].
Definition IeeeModulationType : ieee_record := [
  ("Spread Spectrum", "spread_spectrum", 2); ("Major Modulation", "major", 2); ("Detail", "detail", 2); ("Radio System", "system", 2)].
Definition IeeeMunitionDescriptor : ieee_record := [
  ("Munition Type Kind", "munition_type.kind", 1); ("Munition Type Domain", "munition_type.domain", 1); ("Munition Type Country", "munition_type.country", 2); ("Munition Type Category", "munition_type.category", 1); ("Munition Type Subcategory", "munition_type.subcategory", 1); ("Munition Type Specific", "munition_type.specific", 1); ("Munition Type Extra", "munition_type.extra", 1); ("Warhead", "warhead", 2); ("Fuse", "fuse", 2); ("Quantity", "quantity", 2); ("Rate", "rate", 2)].
Definition IeeeClockTime : ieee_record := [
  ("Hour", "hour", 4); ("Time Past the Hour", "time_past_hour", 4)].
Definition IeeeRelationship : ieee_record := [
  ("Nature", "nature", 2); ("Position", "position", 2)].
Definition IeeeNamedLocation : ieee_record := [
  ("Station Name", "station_name", 2); ("Station Number", "station_number", 2)].
Definition IeeeSystemIdentifier : ieee_record := [
  ("System Type", "system_type", 2); ("System Name", "system_name", 2); ("System Mode", "system_mode", 1); ("Change/Options", "change_options", 1)].
Definition IeeeFundamentalOperationalData : ieee_record := [
  ("System Status", "system_status", 1); ("Data Field 1", "data_field1", 1); ("Information Layers", "information_layers", 1); ("Data Field 2", "data_field2", 1); ("Parameter 1", "parameter1", 2); ("Parameter 2", "parameter2", 2); ("Parameter 3", "parameter3", 2); ("Parameter 4", "parameter4", 2); ("Parameter 5", "parameter5", 2); ("Parameter 6", "parameter6", 2)].
Definition IeeeLayerHeader : ieee_record := [
  ("Layer Number", "layer_number", 1); ("Layer Specific Information", "layer_specific_information", 1); ("Length", "length", 2)].
Definition IeeeBeamData : ieee_record := [
  ("Beam Azimuth Center", "beam_azimuth_center", 4); ("Beam Azimuth Sweep", "beam_azimuth_sweep", 4); ("Beam Elevation Center", "beam_elevation_center", 4); ("Beam Elevation Sweep", "beam_elevation_sweep", 4); ("Beam Sweep Sync", "beam_sweep_sync", 4)].
Definition IeeeSecondaryOperationalData : ieee_record := [
  ("Operational Data 1", "operational_data1", 1); ("Operational Data 2", "operational_data2", 1); ("Number of IFF Fundamental Parameter Records", "number_of_iff_fundamental_parameter_records", 2)].
Definition IeeeDeadReckoningParameters : ieee_record := ("Dead Reckoning Algorithm", "dead_reckoning_algorithm", 1) :: repeat ("Other Parameters", "dead_reckoning_other_parameters", 1) 15 ++ [
  ("Entity Linear Acceleration x", "entity_linear_acceleration.first_vector_component", 4);
  ("Entity Linear Acceleration y", "entity_linear_acceleration.second_vector_component", 4);
  ("Entity Linear Acceleration z", "entity_linear_acceleration.third_vector_component", 4);
  ("Entity Angular Velocity x", "entity_angular_velocity.rate_about_x_axis", 4);
  ("Entity Angular Velocity y", "entity_angular_velocity.rate_about_y_axis", 4);
  ("Entity Angular Velocity z", "entity_angular_velocity.rate_about_z_axis", 4)].
Definition IeeeEntityMarking : ieee_record := ("Character Set", "entity_marking_character_set", 1) :: repeat ("Character String", "entity_marking_string", 1) 11.
Definition IeeeAggregateMarking : ieee_record := ("Character Set", "character_set", 1) :: repeat ("Character String", "characters", 1) 31.
Definition IeeeRecordSets : ieee_record := [
  ("Number of Record Sets", "number_of_record_sets", 4)].
Definition IeeeStandardRecords : ieee_record := [
  ("Number of Standard Variable Records", "number_of_standard_variable_records", 2)].

Definition ieee_layouts : list (string * ieee_pdu) := [
  ("EntityStatePdu", [
    ("Entity ID", "entity_id", Record_ IeeeEntityIdentifier);
    ("Force ID", "force_id", Octets 1);
    ("Number of Variable Parameter Records", "number_of_articulation_parameters", Octets 1);
    ("Entity Type", "entity_type", Record_ IeeeEntityType);
    ("Alternate Entity Type", "alternative_entity_type", Record_ IeeeEntityType);
    ("Entity Linear Velocity", "entity_linear_velocity", Record_ IeeeVector);
    ("Entity Location", "entity_location", Record_ IeeeWorldCoordinates);
    ("Entity Orientation", "entity_orientation", Record_ IeeeEulerAngles);
    ("Entity Appearance", "entity_appearance", Octets 4);
    ("Dead Reckoning Parameters", "dead_reckoning_parameters", Record_ IeeeDeadReckoningParameters);
    ("Entity Marking", "entity_marking", Record_ IeeeEntityMarking);
    ("Capabilities", "entity_capabilities", Octets 4)]);
  ("FirePdu", [
    ("Firing Entity ID", "firing_entity_id", Record_ IeeeEntityIdentifier);
    ("Target Entity ID", "target_entity_id", Record_ IeeeEntityIdentifier);
    ("Munition Expendable ID", "munition_expendable_id", Record_ IeeeEntityIdentifier);
    ("Event ID", "event_id", Record_ IeeeEventIdentifier);
    ("Fire Mission Index", "fire_mission_index", Octets 4);
    ("Location in World Coordinates", "location_in_world_coordinates", Record_ IeeeWorldCoordinates);
    ("Descriptor", "descriptor", Record_ IeeeMunitionDescriptor);
    ("Velocity", "velocity", Record_ IeeeVector);
    ("Range", "range", Octets 4)]);
  ("DetonationPdu", [
    ("Firing Entity ID", "firing_entity_id", Record_ IeeeEntityIdentifier);
    ("Target Entity ID", "target_entity_id", Record_ IeeeEntityIdentifier);
    ("Exploding Entity ID", "exploding_entity_id", Record_ IeeeEntityIdentifier);
    ("Event ID", "event_id", Record_ IeeeEventIdentifier);
    ("Velocity", "velocity", Record_ IeeeVector);
    ("Location in World Coordinates", "location_in_world_coordinates", Record_ IeeeWorldCoordinates);
    ("Descriptor", "descriptor", Record_ IeeeMunitionDescriptor);
    ("Location in Entity's Coordinates", "location_in_entitys_coordinates", Record_ IeeeEntityCoordinateVector);
    ("Detonation Result", "detonation_result", Octets 1);
    ("Number of Variable Parameter Records", "number_of_variable_parameters", Octets 1);
    ("Padding", "padding", Octets 2)]);
  ("CollisionPdu", [
    ("Issuing Entity ID", "issuing_entity_id", Record_ IeeeEntityIdentifier);
    ("Colliding Entity ID", "colliding_entity_id", Record_ IeeeEntityIdentifier);
    ("Event ID", "event_id", Record_ IeeeEventIdentifier);
    ("Collision Type", "collision_type", Octets 1);
    ("Padding", "padding", Octets 1);
    ("Velocity", "velocity", Record_ IeeeVector);
    ("Mass", "mass", Octets 4);
    ("Location with respect to entity", "location_wrt_entity", Record_ IeeeEntityCoordinateVector)]);
  ("ServiceRequestPdu", [
    ("Receiving Entity ID", "receiving_entity_id", Record_ IeeeEntityIdentifier);
    ("Servicing Entity ID", "servicing_entity_id", Record_ IeeeEntityIdentifier);
    ("Service Type Requested", "service_type_requested", Octets 1);
    ("Number of Supply Types", "number_of_supply_types", Octets 1);
    ("Padding", "padding", Octets 2)]);
  ("ResupplyOfferPdu", [
    ("Receiving Entity ID", "receiving_entity_id", Record_ IeeeEntityIdentifier);
    ("Supplying Entity ID", "supplying_entity_id", Record_ IeeeEntityIdentifier);
    ("Number of Supply Types", "number_of_supply_types", Octets 1);
    ("Padding", "padding", Octets 1);
    ("Padding", "padding2", Octets 2)]);
  ("ResupplyReceivedPdu", [
    ("Receiving Entity ID", "receiving_entity_id", Record_ IeeeEntityIdentifier);
    ("Supplying Entity ID", "supplying_entity_id", Record_ IeeeEntityIdentifier);
    ("Number of Supply Types", "number_of_supply_types", Octets 1);
    ("Padding", "padding", Octets 1);
    ("Padding", "padding2", Octets 2)]);
  ("ResupplyCancelPdu", [
    ("Receiving Entity ID", "receiving_entity_id", Record_ IeeeEntityIdentifier);
    ("Supplying Entity ID", "supplying_entity_id", Record_ IeeeEntityIdentifier)]);
  ("RepairCompletePdu", [
    ("Receiving Entity ID", "receiving_entity_id", Record_ IeeeEntityIdentifier);
    ("Repairing Entity ID", "repairing_entity_id", Record_ IeeeEntityIdentifier);
    ("Repair", "repair", Octets 2);
    ("Padding", "padding", Octets 2)]);
  ("RepairResponsePdu", [
    ("Receiving Entity ID", "receiving_entity_id", Record_ IeeeEntityIdentifier);
    ("Repairing Entity ID", "repairing_entity_id", Record_ IeeeEntityIdentifier);
    ("Repair Result", "repair_result", Octets 1);
    ("Padding", "padding", Octets 1);
    ("Padding", "padding2", Octets 2)]);
  ("CreateEntityPdu", [
    ("Originating Entity ID", "originating_entity_id", Record_ IeeeEntityIdentifier);
    ("Receiving Entity ID", "receiving_entity_id", Record_ IeeeEntityIdentifier);
    ("Request ID", "request_id", Octets 4)]);
  ("CreateEntityReliablePdu", [
    ("Originating Entity ID", "originating_entity_id", Record_ IeeeEntityIdentifier);
    ("Receiving Entity ID", "receiving_entity_id", Record_ IeeeEntityIdentifier);
    ("Required Reliability Service", "required_reliability_service", Octets 1);
    ("Padding", "padding", Octets 1);
    ("Padding", "padding2", Octets 2);
    ("Request ID", "request_id", Octets 4)]);
  ("RemoveEntityPdu", [
    ("Originating Entity ID", "originating_entity_id", Record_ IeeeEntityIdentifier);
    ("Receiving Entity ID", "receiving_entity_id", Record_ IeeeEntityIdentifier);
    ("Request ID", "request_id", Octets 4)]);
  ("RemoveEntityReliablePdu", [
    ("Originating Entity ID", "originating_entity_id", Record_ IeeeEntityIdentifier);
    ("Receiving Entity ID", "receiving_entity_id", Record_ IeeeEntityIdentifier);
    ("Required Reliability Service", "required_reliability_service", Octets 1);
    ("Padding", "padding", Octets 1);
    ("Padding", "padding2", Octets 2);
    ("Request ID", "request_id", Octets 4)]);
  ("StartResumePdu", [
    ("Originating Entity ID", "originating_entity_id", Record_ IeeeEntityIdentifier);
    ("Receiving Entity ID", "receiving_entity_id", Record_ IeeeEntityIdentifier);
    ("Real-World Time", "real_world_time", Record_ IeeeClockTime);
    ("Simulation Time", "simulation_time", Record_ IeeeClockTime);
    ("Request ID", "request_id", Octets 4)]);
  ("StartResumeReliablePdu", [
    ("Originating Entity ID", "originating_entity_id", Record_ IeeeEntityIdentifier);
    ("Receiving Entity ID", "receiving_entity_id", Record_ IeeeEntityIdentifier);
    ("Real-World Time", "real_world_time", Record_ IeeeClockTime);
    ("Simulation Time", "simulation_time", Record_ IeeeClockTime);
    ("Required Reliability Service", "required_reliability_service", Octets 1);
    ("Padding", "padding", Octets 1);
    ("Padding", "padding2", Octets 2);
    ("Request ID", "request_id", Octets 4)]);
  ("StopFreezePdu", [
    ("Originating Entity ID", "originating_entity_id", Record_ IeeeEntityIdentifier);
    ("Receiving Entity ID", "receiving_entity_id", Record_ IeeeEntityIdentifier);
    ("Real-World Time", "real_world_time", Record_ IeeeClockTime);
    ("Reason", "reason", Octets 1);
    ("Frozen Behavior", "frozen_behavior", Octets 1);
    ("Padding", "padding", Octets 2);
    ("Request ID", "request_id", Octets 4)]);
  ("StopFreezeReliablePdu", [
    ("Originating Entity ID", "originating_entity_id", Record_ IeeeEntityIdentifier);
    ("Receiving Entity ID", "receiving_entity_id", Record_ IeeeEntityIdentifier);
    ("Real-World Time", "real_world_time", Record_ IeeeClockTime);
    ("Reason", "reason", Octets 1);
    ("Frozen Behavior", "frozen_behavior", Octets 1);
    ("Required Reliability Service", "required_reliability_service", Octets 1);
    ("Padding", "padding", Octets 1);
    ("Request ID", "request_id", Octets 4)]);
  ("AcknowledgePdu", [
    ("Originating Entity ID", "originating_entity_id", Record_ IeeeEntityIdentifier);
    ("Receiving Entity ID", "receiving_entity_id", Record_ IeeeEntityIdentifier);
    ("Acknowledge Flag", "acknowledge_flag", Octets 2);
    ("Response Flag", "response_flag", Octets 2);
    ("Request ID", "request_id", Octets 4)]);
  ("ActionResponsePdu", [
    ("Originating Entity ID", "originating_entity_id", Record_ IeeeEntityIdentifier);
    ("Receiving Entity ID", "receiving_entity_id", Record_ IeeeEntityIdentifier);
    ("Request ID", "request_id", Octets 4);
    ("Request Status", "request_status", Octets 4);
    ("Number of Fixed Datum Records", "number_of_fixed_datum_records", Octets 4);
    ("Number of Variable Datum Records", "number_of_variable_datum_records", Octets 4)]);
  ("EventReportPdu", [
    ("Originating Entity ID", "originating_entity_id", Record_ IeeeEntityIdentifier);
    ("Receiving Entity ID", "receiving_entity_id", Record_ IeeeEntityIdentifier);
    ("Event Type", "event_type", Octets 4);
    ("Padding", "padding", Octets 4);
    ("Number of Fixed Datum Records", "number_of_fixed_datum_records", Octets 4);
    ("Number of Variable Datum Records", "number_of_variable_datum_records", Octets 4)]);
  ("CommentPdu", [
    ("Originating Entity ID", "originating_entity_id", Record_ IeeeEntityIdentifier);
    ("Receiving Entity ID", "receiving_entity_id", Record_ IeeeEntityIdentifier);
    ("Number of Fixed Datum Records", "number_of_fixed_datum_records", Octets 4);
    ("Number of Variable Datum Records", "number_of_variable_datum_records", Octets 4)]);
  ("AcknowledgeReliablePdu", [
    ("Originating Entity ID", "originating_entity_id", Record_ IeeeEntityIdentifier);
    ("Receiving Entity ID", "receiving_entity_id", Record_ IeeeEntityIdentifier);
    ("Acknowledge Flag", "acknowledge_flag", Octets 2);
    ("Response Flag", "response_flag", Octets 2);
    ("Request ID", "request_id", Octets 4)]);
  ("ActionResponseReliablePdu", [
    ("Originating Entity ID", "originating_entity_id", Record_ IeeeEntityIdentifier);
    ("Receiving Entity ID", "receiving_entity_id", Record_ IeeeEntityIdentifier);
    ("Request ID", "request_id", Octets 4);
    ("Request Status", "request_status", Octets 4);
    ("Number of Fixed Datum Records", "number_of_fixed_datum_records", Octets 4);
    ("Number of Variable Datum Records", "number_of_variable_datum_records", Octets 4)]);
  ("EventReportReliablePdu", [
    ("Originating Entity ID", "originating_entity_id", Record_ IeeeEntityIdentifier);
    ("Receiving Entity ID", "receiving_entity_id", Record_ IeeeEntityIdentifier);
    ("Event Type", "event_type", Octets 4);
    ("Padding", "padding", Octets 4);
    ("Number of Fixed Datum Records", "number_of_fixed_datum_records", Octets 4);
    ("Number of Variable Datum Records", "number_of_variable_datum_records", Octets 4)]);
  ("CommentReliablePdu", [
    ("Originating Entity ID", "originating_entity_id", Record_ IeeeEntityIdentifier);
    ("Receiving Entity ID", "receiving_entity_id", Record_ IeeeEntityIdentifier);
    ("Number of Fixed Datum Records", "number_of_fixed_datum_records", Octets 4);
    ("Number of Variable Datum Records", "number_of_variable_datum_records", Octets 4)]);
  ("ActionRequestPdu", [
    ("Originating Entity ID", "originating_entity_id", Record_ IeeeEntityIdentifier);
    ("Receiving Entity ID", "receiving_entity_id", Record_ IeeeEntityIdentifier);
    ("Request ID", "request_id", Octets 4);
    ("Action ID", "action_id", Octets 4);
    ("Number of Fixed Datum Records", "number_of_fixed_datum_records", Octets 4);
    ("Number of Variable Datum Records", "number_of_variable_datum_records", Octets 4)]);
  ("ActionRequestReliablePdu", [
    ("Originating Entity ID", "originating_entity_id", Record_ IeeeEntityIdentifier);
    ("Receiving Entity ID", "receiving_entity_id", Record_ IeeeEntityIdentifier);
    ("Required Reliability Service", "required_reliability_service", Octets 1);
    ("Padding", "padding", Octets 1);
    ("Padding", "padding2", Octets 2);
    ("Request ID", "request_id", Octets 4);
    ("Action ID", "action_id", Octets 4);
    ("Padding", "padding3", Octets 4);
    ("Number of Fixed Datum Records", "number_of_fixed_datum_records", Octets 4);
    ("Number of Variable Datum Records", "number_of_variable_datum_records", Octets 4)]);
  ("DataQueryPdu", [
    ("Originating Entity ID", "originating_entity_id", Record_ IeeeEntityIdentifier);
    ("Receiving Entity ID", "receiving_entity_id", Record_ IeeeEntityIdentifier);
    ("Request ID", "request_id", Octets 4);
    ("Time Interval", "time_interval", Octets 4);
    ("Number of Fixed Datum Records", "number_of_fixed_datum_records", Octets 4);
    ("Number of Variable Datum Records", "number_of_variable_datum_records", Octets 4)]);
  ("DataQueryReliablePdu", [
    ("Originating Entity ID", "originating_entity_id", Record_ IeeeEntityIdentifier);
    ("Receiving Entity ID", "receiving_entity_id", Record_ IeeeEntityIdentifier);
    ("Required Reliability Service", "required_reliability_service", Octets 1);
    ("Padding", "padding", Octets 1);
    ("Padding", "padding2", Octets 2);
    ("Request ID", "request_id", Octets 4);
    ("Time Interval", "time_interval", Octets 4);
    ("Number of Fixed Datum Records", "number_of_fixed_datum_records", Octets 4);
    ("Number of Variable Datum Records", "number_of_variable_datum_records", Octets 4)]);
  ("SetDataPdu", [
    ("Originating Entity ID", "originating_entity_id", Record_ IeeeEntityIdentifier);
    ("Receiving Entity ID", "receiving_entity_id", Record_ IeeeEntityIdentifier);
    ("Request ID", "request_id", Octets 4);
    ("Padding", "padding", Octets 4);
    ("Number of Fixed Datum Records", "number_of_fixed_datum_records", Octets 4);
    ("Number of Variable Datum Records", "number_of_variable_datum_records", Octets 4)]);
  ("DataPdu", [
    ("Originating Entity ID", "originating_entity_id", Record_ IeeeEntityIdentifier);
    ("Receiving Entity ID", "receiving_entity_id", Record_ IeeeEntityIdentifier);
    ("Request ID", "request_id", Octets 4);
    ("Padding", "padding", Octets 4);
    ("Number of Fixed Datum Records", "number_of_fixed_datum_records", Octets 4);
    ("Number of Variable Datum Records", "number_of_variable_datum_records", Octets 4)]);
  ("SetDataReliablePdu", [
    ("Originating Entity ID", "originating_entity_id", Record_ IeeeEntityIdentifier);
    ("Receiving Entity ID", "receiving_entity_id", Record_ IeeeEntityIdentifier);
    ("Required Reliability Service", "required_reliability_service", Octets 1);
    ("Padding", "padding", Octets 1);
    ("Padding", "padding2", Octets 2);
    ("Request ID", "request_id", Octets 4);
    ("Number of Fixed Datum Records", "number_of_fixed_datum_records", Octets 4);
    ("Number of Variable Datum Records", "number_of_variable_datum_records", Octets 4)]);
  ("DataReliablePdu", [
    ("Originating Entity ID", "originating_entity_id", Record_ IeeeEntityIdentifier);
    ("Receiving Entity ID", "receiving_entity_id", Record_ IeeeEntityIdentifier);
    ("Request ID", "request_id", Octets 4);
    ("Required Reliability Service", "required_reliability_service", Octets 1);
    ("Padding", "padding", Octets 1);
    ("Padding", "padding2", Octets 2);
    ("Number of Fixed Datum Records", "number_of_fixed_datum_records", Octets 4);
    ("Number of Variable Datum Records", "number_of_variable_datum_records", Octets 4)]);
  ("RecordQueryReliablePdu", [
    ("Originating Entity ID", "originating_entity_id", Record_ IeeeEntityIdentifier);
    ("Receiving Entity ID", "receiving_entity_id", Record_ IeeeEntityIdentifier);
    ("Request ID", "request_id", Octets 4);
    ("Required Reliability Service", "required_reliability_service", Octets 1);
    ("Padding", "padding", Octets 1);
    ("Event Type", "event_type", Octets 2);
    ("Time", "time", Octets 4);
    ("Number of Records", "number_of_records", Octets 4)]);
  ("SetRecordReliablePdu", [
    ("Originating Entity ID", "originating_entity_id", Record_ IeeeEntityIdentifier);
    ("Receiving Entity ID", "receiving_entity_id", Record_ IeeeEntityIdentifier);
    ("Request ID", "request_id", Octets 4);
    ("Required Reliability Service", "required_reliability_service", Octets 1);
    ("Padding", "padding", Octets 1);
    ("Padding", "padding2", Octets 2);
    ("Padding", "padding3", Octets 4);
    ("Record Sets", "record_sets", Record_ IeeeRecordSets)]);
  ("ElectromagneticEmissionsPdu", [
    ("Emitting Entity ID", "emitting_entity_id", Record_ IeeeEntityIdentifier);
    ("Event ID", "event_id", Record_ IeeeEventIdentifier);
    ("State Update Indicator", "state_update_indicator", Octets 1);
    ("Number of Systems", "number_of_systems", Octets 1);
    ("Padding", "padding", Octets 2)]);
  ("DesignatorPdu", [
    ("Designating Entity ID", "designating_entity_id", Record_ IeeeEntityIdentifier);
    ("Code Name", "code_name", Octets 2);
    ("Designated Entity ID", "designated_entity_id", Record_ IeeeEntityIdentifier);
    ("Designator Code", "designator_code", Octets 2);
    ("Designator Power", "designator_power", Octets 4);
    ("Designator Wavelength", "designator_wavelength", Octets 4);
    ("Designator Spot with respect to Designated Entity", "designator_spot_wrt_designated", Record_ IeeeEntityCoordinateVector);
    ("Designator Spot Location", "designator_spot_location", Record_ IeeeWorldCoordinates);
    ("Dead Reckoning Algorithm", "dead_reckoning_algorithm", Octets 1);
    ("Padding", "padding", Octets 1);
    ("Padding", "padding2", Octets 2);
    ("Entity Linear Acceleration", "entity_linear_acceleration", Record_ IeeeVector)]);
  ("TransmitterPdu", [
    ("Radio Reference ID", "entity_id", Record_ IeeeEntityIdentifier);
    ("Radio Number", "radio_id", Octets 2);
    ("Radio Type", "radio_entity_type", Record_ IeeeRadioEntityType);
    ("Transmit State", "transmit_state", Octets 1);
    ("Input Source", "input_source", Octets 1);
    ("Number of Variable Transmitter Parameters Records", "number_of_variable_transmitter_parameters_records", Octets 2);
    ("Antenna Location", "antenna_location", Record_ IeeeWorldCoordinates);
    ("Relative Antenna Location", "relative_antenna_location", Record_ IeeeEntityCoordinateVector);
    ("Antenna Pattern Type", "antenna_pattern_type", Octets 2);
    ("Antenna Pattern Length", "antenna_pattern_length", Octets 2);
    ("Frequency", "frequency", Octets 8);
    ("Transmit Frequency Bandwidth", "transmit_frequency_bandwidth", Octets 4);
    ("Power", "power", Octets 4);
    ("Modulation Type", "modulation_type", Record_ IeeeModulationType);
    ("Crypto System", "crypto_system", Octets 2);
    ("Crypto Key ID", "crypto_key_id", Octets 2);
    ("Length of Modulation Parameters", "modulation_parameter_length", Octets 1);
    ("Padding", "padding", Octets 1);
    ("Padding", "padding2", Octets 2)]);
  ("SignalPdu", [
    ("Radio Reference ID", "entity_id", Record_ IeeeEntityIdentifier);
    ("Radio Number", "radio_id", Octets 2);
    ("Encoding Scheme", "encoding_scheme", Octets 2);
    ("TDL Type", "tdl_type", Octets 2);
    ("Sample Rate", "sample_rate", Octets 4);
    ("Data Length", "data_length", Octets 2);
    ("Samples", "samples", Octets 2)]);
  ("ReceiverPdu", [
    ("Radio Reference ID", "entity_id", Record_ IeeeEntityIdentifier);
    ("Radio Number", "radio_id", Octets 2);
    ("Receiver State", "receiver_state", Octets 2);
    ("Padding", "padding", Octets 2);
    ("Received Power", "received_power", Octets 4);
    ("Transmitter Radio Reference ID", "transmitter_radio_reference_id", Record_ IeeeEntityIdentifier);
    ("Transmitter Radio Number", "transmitter_radio_id", Octets 2)]);
  ("IntercomSignalPdu", [
    ("Intercom Reference ID", "intercom_reference_id", Record_ IeeeEntityIdentifier);
    ("Intercom Number", "intercom_number", Octets 2);
    ("Encoding Scheme", "encoding_scheme", Octets 2);
    ("TDL Type", "tdl_type", Octets 2);
    ("Sample Rate", "sample_rate", Octets 4);
    ("Data Length", "data_length", Octets 2);
    ("Samples", "samples", Octets 2)]);
  ("IntercomControlPdu", [
    ("Control Type", "control_type", Octets 1);
    ("Communications Channel Type", "communications_channel_type", Octets 1);
    ("Source Intercom Reference ID", "source_intercom_reference_id", Record_ IeeeEntityIdentifier);
    ("Source Intercom Number", "source_intercom_number", Octets 2);
    ("Source Line ID", "source_line_id", Octets 1);
    ("Transmit Priority", "transmit_priority", Octets 1);
    ("Transmit Line State", "transmit_line_state", Octets 1);
    ("Command", "command", Octets 1);
    ("Master Intercom Reference ID", "master_intercom_reference_id", Record_ IeeeEntityIdentifier);
    ("Master Intercom Number", "master_intercom_number", Octets 2);
    ("Master Channel ID", "master_channel_id", Octets 2);
    ("Intercom Parameters Length", "intercom_parameters_length", Octets 4)]);
  ("UnderwaterAcousticPdu", [
    ("Emitting Entity ID", "emitting_entity_id", Record_ IeeeEntityIdentifier);
    ("Event ID", "event_id", Record_ IeeeEventIdentifier);
    ("State/Change Update Indicator", "state_change_update_indicator", Octets 1);
    ("Padding", "padding", Octets 1);
    ("Passive Parameter Index", "passive_parameter_index", Octets 2);
    ("Propulsion Plant Configuration", "propulsion_plant_configuration", Octets 1);
    ("Number of Shafts", "number_of_shafts", Octets 1);
    ("Number of APAs", "number_of_apas", Octets 1);
    ("Number of UA Emitter Systems", "number_of_ua_emitter_systems", Octets 1)]);
  ("SupplementalEmissionPdu", [
    ("Originating Entity ID", "originating_entity_id", Record_ IeeeEntityIdentifier);
    ("Infrared Signature Representation Index", "infrared_signature_representation_index", Octets 2);
    ("Acoustic Signature Representation Index", "acoustic_signature_representation_index", Octets 2);
    ("Radar Cross-Section Signature Representation Index", "radar_cross_section_signature_representation_index", Octets 2);
    ("Number of Propulsion Systems", "number_of_propulsion_systems", Octets 2);
    ("Number of Vectoring Nozzle Systems", "number_of_vectoring_nozzle_systems", Octets 2)]);
  ("IFFPdu", [
    ("Emitting Entity ID", "emitting_entity_id", Record_ IeeeEntityIdentifier);
    ("Event ID", "event_id", Record_ IeeeEventIdentifier);
    ("Relative Antenna Location", "relative_antenna_location", Record_ IeeeEntityCoordinateVector);
    ("System Identifier", "system_id", Record_ IeeeSystemIdentifier);
    ("System Designator", "system_designator", Octets 1);
    ("System Specific Data", "system_specific_data", Octets 1);
    ("Fundamental Operational Data", "fundamental_operational_data", Record_ IeeeFundamentalOperationalData);
    ("Layer 2 Header", "layer_header", Record_ IeeeLayerHeader);
    ("Beam Data", "beam_data", Record_ IeeeBeamData);
    ("Secondary Operational Data", "secondary_operational_data", Record_ IeeeSecondaryOperationalData)]);
  ("CollisionElasticPdu", [
    ("Issuing Entity ID", "issuing_entity_id", Record_ IeeeEntityIdentifier);
    ("Colliding Entity ID", "colliding_entity_id", Record_ IeeeEntityIdentifier);
    ("Collision Event ID", "event_id", Record_ IeeeEventIdentifier);
    ("Padding", "padding", Octets 2);
    ("Contact Velocity", "contact_velocity", Record_ IeeeVector);
    ("Mass", "mass", Octets 4);
    ("Location of Impact", "location_of_impact", Record_ IeeeEntityCoordinateVector);
    ("Collision Intermediate Result XX", "collision_intermediate_result_xx", Octets 4);
    ("Collision Intermediate Result XY", "collision_intermediate_result_xy", Octets 4);
    ("Collision Intermediate Result XZ", "collision_intermediate_result_xz", Octets 4);
    ("Collision Intermediate Result YY", "collision_intermediate_result_yy", Octets 4);
    ("Collision Intermediate Result YZ", "collision_intermediate_result_yz", Octets 4);
    ("Collision Intermediate Result ZZ", "collision_intermediate_result_zz", Octets 4);
    ("Unit Surface Normal", "unit_surface_normal", Record_ IeeeEntityCoordinateVector);
    ("Coefficient of Restitution", "coefficient_of_restitution", Octets 4)]);
  ("EntityStateUpdatePdu", [
    ("Entity ID", "entity_id", Record_ IeeeEntityIdentifier);
    ("Padding", "padding", Octets 1);
    ("Number of Variable Parameter Records", "number_of_variable_parameters", Octets 1);
    ("Entity Linear Velocity", "entity_linear_velocity", Record_ IeeeVector);
    ("Entity Location", "entity_location", Record_ IeeeWorldCoordinates);
    ("Entity Orientation", "entity_orientation", Record_ IeeeEulerAngles);
    ("Entity Appearance", "entity_appearance", Octets 4)]);
  ("AttributePdu", [
    ("Originating Simulation Address", "originating_simulation_address", Record_ IeeeSimulationAddress);
    ("Padding", "padding", Octets 4);
    ("Padding", "padding2", Octets 2);
    ("Attribute Record PDU Type", "attribute_record_pdu_type", Octets 1);
    ("Attribute Record Protocol Version", "attribute_record_protocol_version", Octets 1);
    ("Master Attribute Record Type", "master_attribute_record_type", Octets 4);
    ("Action Code", "action_code", Octets 1);
    ("Padding", "padding3", Octets 1);
    ("Number of Attribute Record Sets", "number_of_attribute_record_sets", Octets 2)]);
  ("AggregateStatePdu", [
    ("Aggregate ID", "aggregate_id", Record_ IeeeAggregateIdentifier);
    ("Force ID", "force_id", Octets 1);
    ("Aggregate State", "aggregate_state", Octets 1);
    ("Aggregate Type", "aggregate_type", Record_ IeeeEntityType);
    ("Formation", "formation", Octets 4);
    ("Aggregate Marking", "aggregate_marking", Record_ IeeeAggregateMarking);
    ("Dimensions", "dimensions", Record_ IeeeDimensions);
    ("Orientation", "orientation", Record_ IeeeEulerAngles);
    ("Center of Mass", "center_of_mass", Record_ IeeeWorldCoordinates);
    ("Velocity", "velocity", Record_ IeeeVector);
    ("Number of DIS Aggregates", "number_of_dis_aggregates", Octets 2);
    ("Number of DIS Entities", "number_of_dis_entities", Octets 2);
    ("Number of Silent Aggregate Types", "number_of_silent_aggregate_types", Octets 2);
    ("Number of Silent Entity Types", "number_of_silent_entity_types", Octets 2)]);
  ("IsGroupOfPdu", [
    ("Group Entity ID", "group_entity_id", Record_ IeeeEntityIdentifier);
    ("Grouped Entity Category", "grouped_entity_category", Octets 1);
    ("Number of Grouped Entities", "number_of_grouped_entities", Octets 1);
    ("Padding", "padding", Octets 4);
    ("Latitude", "latitude", Octets 8);
    ("Longitude", "longitude", Octets 8)]);
  ("TransferOwnershipPdu", [
    ("Originating ID", "originating_id", Record_ IeeeSimulationIdentifier);
    ("Receiving ID", "receiving_id", Record_ IeeeSimulationIdentifier);
    ("Request ID", "request_id", Octets 4);
    ("Required Reliability Service", "required_reliability_service", Octets 1);
    ("Transfer Type", "transfer_type", Octets 1);
    ("Transfer Entity ID", "transfer_entity_id", Record_ IeeeEntityIdentifier);
    ("Record Information", "record_information", Record_ IeeeRecordSets)]);
  ("IsPartOfPdu", [
    ("Originating Entity ID", "originating_entity_id", Record_ IeeeEntityIdentifier);
    ("Receiving Entity ID", "receiving_entity_id", Record_ IeeeEntityIdentifier);
    ("Relationship", "relationship", Record_ IeeeRelationship);
    ("Part Location", "part_location", Record_ IeeeDimensions);
    ("Named Location ID", "named_location_id", Record_ IeeeNamedLocation);
    ("Part Entity Type", "part_entity_type", Record_ IeeeEntityType)]);
  ("InformationOperationsReportPdu", [
    ("Originating Simulation ID", "originating_simulation_id", Record_ IeeeSimulationIdentifier);
    ("IO Simulation Source", "io_simulation_source", Octets 2);
    ("IO Report Type", "io_report_type", Octets 1);
    ("Padding", "padding", Octets 1);
    ("IO Attacker Entity ID", "io_attacker_entity_id", Record_ IeeeEntityIdentifier);
    ("IO Primary Target Entity ID", "primary_target_entity_id", Record_ IeeeEntityIdentifier);
    ("Padding", "padding2", Octets 2);
    ("Padding", "padding3", Octets 2);
    ("IO Records", "io_records", Record_ IeeeStandardRecords)]);
  ("InformationOperationsActionPdu", [
    ("Originating Simulation ID", "originating_simulation_id", Record_ IeeeSimulationIdentifier);
    ("Receiving Simulation ID", "receiving_simulation_id", Record_ IeeeSimulationIdentifier);
    ("Request ID", "request_id", Octets 4);
    ("IO Warfare Type", "io_warfare_type", Octets 2);
    ("IO Simulation Source", "io_simulation_source", Octets 2);
    ("IO Action Type", "io_action_type", Octets 2);
    ("IO Action Phase", "io_action_phase", Octets 2);
    ("Padding", "padding", Octets 4);
    ("IO Attacker Entity ID", "io_attacker_entity_id", Record_ IeeeEntityIdentifier);
    ("IO Primary Target Entity ID", "io_primary_target_entity_id", Record_ IeeeEntityIdentifier);
    ("Padding", "padding2", Octets 2);
    ("IO Records", "io_records", Record_ IeeeStandardRecords)]);
  ("MinefieldStatePdu", [
    ("Minefield ID", "minefield_id", Record_ IeeeMinefieldIdentifier);
    ("Minefield Sequence", "minefield_sequence", Octets 2);
    ("Force ID", "force_id", Octets 1);
    ("Number of Perimeter Points", "number_of_perimeter_points", Octets 1);
    ("Minefield Type", "minefield_type", Record_ IeeeEntityType);
    ("Number of Mine Types", "number_of_mine_types", Octets 2);
    ("Minefield Location", "minefield_location", Record_ IeeeWorldCoordinates);
    ("Minefield Orientation", "minefield_orientation", Record_ IeeeEulerAngles);
    ("Appearance", "appearance", Octets 2);
    ("Protocol Mode", "protocol_mode", Octets 2)]);
  ("MinefieldQueryPdu", [
    ("Minefield ID", "minefield_id", Record_ IeeeMinefieldIdentifier);
    ("Requesting Entity ID", "requesting_entity_id", Record_ IeeeEntityIdentifier);
    ("Request ID", "request_id", Octets 1);
    ("Number of Perimeter Points", "number_of_perimeter_points", Octets 1);
    ("Padding", "padding", Octets 1);
    ("Number of Sensor Types", "number_of_sensor_types", Octets 1);
    ("Data Filter", "data_filter", Octets 4);
    ("Requested Mine Type", "requested_mine_type", Record_ IeeeEntityType)]);
  ("MinefieldDataPdu", [
    ("Minefield ID", "minefield_id", Record_ IeeeMinefieldIdentifier);
    ("Requesting Entity ID", "requesting_entity_id", Record_ IeeeEntityIdentifier);
    ("Minefield Sequence Number", "minefield_sequence_number", Octets 2);
    ("Request ID", "request_id", Octets 1);
    ("PDU Sequence Number", "pdu_sequence_number", Octets 1);
    ("Number of PDUs", "number_of_pdus", Octets 1);
    ("Number of Mines in this PDU", "number_of_mines_in_this_pdu", Octets 1);
    ("Number of Sensor Types", "number_of_sensor_types", Octets 1);
    ("Padding", "padding", Octets 1);
    ("Data Filter", "data_filter", Octets 4);
    ("Mine Type", "mine_type", Record_ IeeeEntityType)]);
  ("MinefieldResponseNackPdu", [
    ("Minefield ID", "minefield_id", Record_ IeeeMinefieldAsEntity);
    ("Requesting Entity ID", "requesting_entity_id", Record_ IeeeEntityIdentifier);
    ("Request ID", "request_id", Octets 1);
    ("Number of Missing PDUs", "number_of_missing_pdus", Octets 1)]);
  ("EnvironmentalProcessPdu", [
    ("Environmental Process ID", "environmental_process_id", Record_ IeeeEntityIdentifier);
    ("Environment Type", "environment_type", Record_ IeeeEntityType);
    ("Model Type", "model_type", Octets 1);
    ("Environment Status", "environment_status", Octets 1);
    ("Number of Environment Records", "number_of_environment_records", Octets 2);
    ("Sequence Number", "sequence_number", Octets 2)]);
  ("GriddedDataPdu", [
    ("Environmental Simulation Application ID", "environmental_simulation_id", Record_ IeeeEntityIdentifier);
    ("Field Number", "field_number", Octets 2);
    ("PDU Number", "pdu_number", Octets 2);
    ("PDU Total", "pdu_total", Octets 2);
    ("Coordinate System", "coordinate_system", Octets 2);
    ("Number of Grid Axes", "number_of_grid_axes", Octets 1);
    ("Constant Grid", "constant_grid", Octets 1);
    ("Environment Type", "environment_type", Record_ IeeeEntityType);
    ("Orientation", "orientation", Record_ IeeeEulerAngles);
    ("Sample Time", "sample_time", Record_ IeeeClockTime);
    ("Total Values", "total_values", Octets 4);
    ("Vector Dimension", "vector_dimension", Octets 1);
    ("Padding", "padding", Octets 1);
    ("Padding", "padding2", Octets 2)]);
  ("PointObjectStatePdu", [
    ("Object ID", "object_id", Record_ IeeeObjectAsEntity);
    ("Referenced Object ID", "referenced_object_id", Record_ IeeeObjectAsEntity);
    ("Update Number", "update_number", Octets 2);
    ("Force ID", "force_id", Octets 1);
    ("Modifications", "modifications", Octets 1);
    ("Object Type", "object_type", Record_ IeeeObjectType);
    ("Object Location", "object_location", Record_ IeeeWorldCoordinates);
    ("Object Orientation", "object_orientation", Record_ IeeeEulerAngles);
    ("Specific Object Appearance", "specific_object_appearance", Octets 4);
    ("General Object Appearance", "general_object_appearance", Octets 2);
    ("Padding", "padding", Octets 2);
    ("Requester ID", "requester_id", Record_ IeeeSimulationAddress);
    ("Receiving ID", "receiving_id", Record_ IeeeSimulationAddress);
    ("Padding", "padding2", Octets 4)]);
  ("LinearObjectStatePdu", [
    ("Object ID", "object_id", Record_ IeeeObjectIdentifier);
    ("Referenced Object ID", "referenced_object_id", Record_ IeeeObjectIdentifier);
    ("Update Number", "update_number", Octets 2);
    ("Force ID", "force_id", Octets 1);
    ("Number of Linear Segments", "number_of_segments", Octets 1);
    ("Requester ID", "requester_id", Record_ IeeeSimulationAddress);
    ("Receiving ID", "receiving_id", Record_ IeeeSimulationAddress);
    ("Object Type", "object_type", Record_ IeeeObjectType)]);
  ("ArealObjectStatePdu", [
    ("Object ID", "object_id", Record_ IeeeObjectIdentifier);
    ("Referenced Object ID", "referenced_object_id", Record_ IeeeObjectIdentifier);
    ("Update Number", "update_number", Octets 2);
    ("Force ID", "force_id", Octets 1);
    ("Modifications", "modifications", Octets 1);
    ("Object Type", "object_type", Record_ IeeeObjectType);
    ("Specific Object Appearance", "specific_object_appearance", Octets 4);
    ("General Object Appearance", "general_object_appearance", Octets 2);
    ("Number of Points", "number_of_points", Octets 2);
    ("Requester ID", "requester_id", Record_ IeeeSimulationAddress);
    ("Receiving ID", "receiving_id", Record_ IeeeSimulationAddress)]);
  ("DirectedEnergyFirePdu", [
    ("Firing Entity ID", "firing_entity_id", Record_ IeeeEntityIdentifier);
    ("Event ID", "event_id", Record_ IeeeEventIdentifier);
    ("Munition Type", "munition_type", Record_ IeeeEntityType);
    ("Shot Start Time", "shot_start_time", Record_ IeeeClockTime);
    ("Cumulative Shot Time", "cumulative_shot_time", Octets 4);
    ("Aperture/Emitter Location", "aperture_emitter_location", Record_ IeeeEntityCoordinateVector);
    ("Aperture Diameter", "aperture_diameter", Octets 4);
    ("Wavelength", "wavelength", Octets 4);
    ("Padding", "padding", Octets 4);
    ("Pulse Repetition Frequency", "pulse_repetition_frequency", Octets 4);
    ("Pulse Width", "pulse_width", Octets 4);
    ("Flags", "flags", Octets 2);
    ("Pulse Shape", "pulse_shape", Octets 1);
    ("Padding", "padding2", Octets 1);
    ("Padding", "padding3", Octets 4);
    ("Padding", "padding4", Octets 2);
    ("Number of DE Records", "number_of_de_records", Octets 2)]);
  ("EntityDamageStatusPdu", [
    ("Damaged Entity ID", "damaged_entity_id", Record_ IeeeEntityIdentifier);
    ("Padding", "padding", Octets 2);
    ("Padding", "padding2", Octets 2);
    ("Number of Damage Descriptions", "number_of_damage_descriptions", Octets 2)])].

(** Records that occur in the lists of PDUs (those of variable size up to their own list). *)
Definition ieee_records : list (string * ieee_record) := [
  ("FixedDatumRecord", [
    ("Fixed Datum ID", "datum_id", 4);
    ("Fixed Datum Value", "datum_value", 4)]);
  ("SupplyQuantity", [
    ("Supply Type, Kind", "supply_type.kind", 1);
    ("Supply Type, Domain", "supply_type.domain", 1);
    ("Supply Type, Country", "supply_type.country", 2);
    ("Supply Type, Category", "supply_type.category", 1);
    ("Supply Type, Subcategory", "supply_type.subcategory", 1);
    ("Supply Type, Specific", "supply_type.specific", 1);
    ("Supply Type, Extra", "supply_type.extra", 1);
    ("Quantity", "quantity", 4)]);
  ("PropulsionSystemData", [
    ("Power Setting", "power_setting", 4);
    ("Engine RPM", "engine_rpm", 4)]);
  ("VectoringNozzleSystemData", [
    ("Horizontal Deflection Angle", "horizontal_deflection_angle", 4);
    ("Vertical Deflection Angle", "vertical_deflection_angle", 4)]);
  ("ShaftRPMs", [
    ("Current Shaft RPM", "current_shaft_rpms", 2);
    ("Ordered Shaft RPM", "ordered_shaft_rpms", 2);
    ("Shaft RPM Rate of Change", "shaft_rpm_rate_of_change", 4)]);
  ("ApaData", [
    ("Parameter Index", "parameter_index", 2);
    ("Parameter Value", "parameter_value", 2)]);
  ("AcousticEmitterSystem", [
    ("Acoustic System Name", "acoustic_name", 2);
    ("Acoustic Function", "acoustic_function", 1);
    ("Acoustic ID Number", "acoustic_id", 1)]);
  ("AcousticBeamFundamentalParameter", [
    ("Active Emission Parameter Index", "active_emission_parameter_index", 2);
    ("Scan Pattern", "scan_pattern", 2);
    ("Beam Center Azimuth", "beam_center_azimuth", 4);
    ("Azimuthal Beamwidth", "azimuthal_beamwidth", 4);
    ("Beam Center Depression/Elevation", "beam_center_de", 4);
    ("Depression/Elevation Beamwidth", "de_beamwidth", 4)]);
  ("AcousticBeamData", [
    ("Beam Data Length", "beam_data_length", 1);
    ("Beam ID Number", "beam_id_number", 1);
    ("Padding", "pad2", 2);
    ("Fundamental Data Parameters, Active Emission Parameter Index", "fundamental_data_parameters.active_emission_parameter_index", 2);
    ("Fundamental Data Parameters, Scan Pattern", "fundamental_data_parameters.scan_pattern", 2);
    ("Fundamental Data Parameters, Beam Center Azimuth", "fundamental_data_parameters.beam_center_azimuth", 4);
    ("Fundamental Data Parameters, Azimuthal Beamwidth", "fundamental_data_parameters.azimuthal_beamwidth", 4);
    ("Fundamental Data Parameters, Beam Center Depression/Elevation", "fundamental_data_parameters.beam_center_de", 4);
    ("Fundamental Data Parameters, Depression/Elevation Beamwidth", "fundamental_data_parameters.de_beamwidth", 4)]);
  ("FundamentalParameterData", [
    ("Frequency", "frequency", 4);
    ("Frequency Range", "frequency_range", 4);
    ("Effective Radiated Power", "effective_radiated_power", 4);
    ("Pulse Repetition Frequency", "pulse_repetition_frequency", 4);
    ("Pulse Width", "pulse_width", 4);
    ("Beam Azimuth Center", "beam_azimuth_center", 4);
    ("Beam Azimuth Sweep", "beam_azimuth_sweep", 4);
    ("Beam Elevation Center", "beam_elevation_center", 4);
    ("Beam Elevation Sweep", "beam_elevation_sweep", 4);
    ("Beam Sweep Sync", "beam_sweep_sync", 4)]);
  ("TrackJamTarget", [
    ("Track/Jam, Site Number", "track_jam.simulation_address.site_id", 2);
    ("Track/Jam, Application Number", "track_jam.simulation_address.application_id", 2);
    ("Track/Jam, Entity Number", "track_jam.entity_id", 2);
    ("Emitter Number", "emitter_id", 1);
    ("Beam Number", "beam_id", 1)]);
  ("EmitterSystem", [
    ("Emitter Name", "emitter_name", 2);
    ("Emitter Function", "function", 1);
    ("Emitter Number", "emitter_id_number", 1)]);
  ("IFFFundamentalParameterData", [
    ("ERP", "erp", 4);
    ("Frequency", "frequency", 4);
    ("PgRF", "pgrf", 4);
    ("Pulse Width", "pulse_width", 4);
    ("Burst Length", "burst_length", 4);
    ("Applicable Modes", "applicable_modes", 1);
    ("System-Specific Data", "system_specific_data", 1);
    ("System-Specific Data", "system_specific_data", 1);
    ("System-Specific Data", "system_specific_data", 1)]);
  ("LinearSegmentParameter", [
    ("Segment Number", "segment_number", 1);
    ("Segment Modification", "segment_modification", 1);
    ("General Segment Appearance", "general_segment_appearance", 2);
    ("Specific Segment Appearance", "specific_segment_appearance", 4);
    ("Segment Location, X-coordinate", "segment_location.x", 8);
    ("Segment Location, Y-coordinate", "segment_location.y", 8);
    ("Segment Location, Z-coordinate", "segment_location.z", 8);
    ("Segment Orientation, Psi", "segment_orientation.psi", 4);
    ("Segment Orientation, Theta", "segment_orientation.theta", 4);
    ("Segment Orientation, Phi", "segment_orientation.phi", 4);
    ("Segment Length", "segment_length", 4);
    ("Segment Width", "segment_width", 4);
    ("Segment Height", "segment_height", 4);
    ("Segment Depth", "segment_depth", 4);
    ("Padding", "padding", 4)]);
  ("Point", [
    ("x", "x", 4);
    ("y", "y", 4)]);
  ("DirectedEnergyDamage", [
    ("Record Type", "record_type", 4);
    ("Record Length", "record_length", 2);
    ("Padding", "padding", 2);
    ("Damage Location, x-coordinate", "damage_location.x_coordinate", 4);
    ("Damage Location, y-coordinate", "damage_location.y_coordinate", 4);
    ("Damage Location, z-coordinate", "damage_location.z_coordinate", 4);
    ("Damage Diameter", "damage_diameter", 4);
    ("Temperature", "temperature", 4);
    ("Component Identification", "component_identification", 1);
    ("Component Damage Status", "component_damage_status", 1);
    ("Component Visual Damage Status", "component_visual_damage_status", 1);
    ("Component Visual Smoke Color", "component_visual_smoke_color", 1);
    ("Fire Event ID, Site Number", "fire_event_id.simulation_address.site_id", 2);
    ("Fire Event ID, Application Number", "fire_event_id.simulation_address.application_id", 2);
    ("Fire Event ID, Event Number", "fire_event_id.event_identifier", 2);
    ("Padding", "padding2", 2)]);
  ("AttributeRecord", [
    ("Record Type", "record_type", 4);
    ("Record Length", "record_length", 2)]);
  ("AttributeRecordSet", [
    ("Entity ID, Site Number", "entity_id.simulation_address.site_id", 2);
    ("Entity ID, Application Number", "entity_id.simulation_address.application_id", 2);
    ("Entity ID, Entity Number", "entity_id.entity_id", 2);
    ("Number of Attribute Records", "number_of_attribute_records", 2)]);
  ("StandardVariableRecords", [
    ("Record Type", "record_type", 4);
    ("Record Length", "record_length", 2)]);
  ("StandardVariableSpecification", [
    ("Number of Standard Variable Records", "number_of_standard_variable_records", 2)]);
  ("ElectromagneticEmissionBeamData", [
    ("Beam Data Length", "beam_data_length", 1);
    ("Beam Number", "beam_id_number", 1);
    ("Beam Parameter Index", "beam_parameter_index", 2);
    ("Fundamental Parameter Data, Frequency", "fundamental_parameter_data.frequency", 4);
    ("Fundamental Parameter Data, Frequency Range", "fundamental_parameter_data.frequency_range", 4);
    ("Fundamental Parameter Data, Effective Radiated Power", "fundamental_parameter_data.effective_radiated_power", 4);
    ("Fundamental Parameter Data, Pulse Repetition Frequency", "fundamental_parameter_data.pulse_repetition_frequency", 4);
    ("Fundamental Parameter Data, Pulse Width", "fundamental_parameter_data.pulse_width", 4);
    ("Fundamental Parameter Data, Beam Azimuth Center", "fundamental_parameter_data.beam_azimuth_center", 4);
    ("Fundamental Parameter Data, Beam Azimuth Sweep", "fundamental_parameter_data.beam_azimuth_sweep", 4);
    ("Fundamental Parameter Data, Beam Elevation Center", "fundamental_parameter_data.beam_elevation_center", 4);
    ("Fundamental Parameter Data, Beam Elevation Sweep", "fundamental_parameter_data.beam_elevation_sweep", 4);
    ("Fundamental Parameter Data, Beam Sweep Sync", "fundamental_parameter_data.beam_sweep_sync", 4);
    ("Beam Function", "beam_function", 1);
    ("Number of Targets", "number_of_track_jam_targets", 1);
    ("High-Density Track/Jam", "high_density_track_jam", 1);
    ("Beam Status", "pad4", 1);
    ("Jamming Technique", "jamming_mode_sequence", 4)]);
  ("ElectromagneticEmissionSystemData", [
    ("System Data Length", "system_data_length", 1);
    ("Number of Beams", "number_of_beams", 1);
    ("Padding", "emissionspadding2", 2);
    ("Emitter System, Emitter Name", "emitter_system.emitter_name", 2);
    ("Emitter System, Emitter Function", "emitter_system.function", 1);
    ("Emitter System, Emitter Number", "emitter_system.emitter_id_number", 1);
    ("Location x", "location.x", 4);
    ("Location y", "location.y", 4);
    ("Location z", "location.z", 4)]);
  ("AcousticEmitterSystemData", [
    ("Emitter System Data Length", "emitter_system_data_length", 1);
    ("Number of Beams", "number_of_beams", 1);
    ("Padding", "pad2", 2);
    ("Acoustic Emitter System, Acoustic System Name", "acoustic_emitter_system.acoustic_name", 2);
    ("Acoustic Emitter System, Acoustic Function", "acoustic_emitter_system.acoustic_function", 1);
    ("Acoustic Emitter System, Acoustic ID Number", "acoustic_emitter_system.acoustic_id", 1);
    ("Location x", "emitter_location.x", 4);
    ("Location y", "emitter_location.y", 4);
    ("Location z", "emitter_location.z", 4)]);
  ("GridAxisDescriptor", [
    ("Domain Initial", "domain_initial", 8);
    ("Domain Final", "domain_final", 8);
    ("Domain Points", "domain_points", 2);
    ("Interleaf Factor", "interleaf_factor", 1);
    ("Axis Type", "axis_type", 1)])].

(** The fields with their offsets, a PDU's first field being at octet 12: (name in the
    standard, path in the API, offset, octets). *)
Definition placed := (string * string * nat * nat)%type.
Definition join (a b : string) : string := a ++ "." ++ b.
Definition flatten (f : string * string * ieee_format) : list (string * string * nat) :=
  let '(name, api, format) := f in
  match format with
  | Octets n => [(name, api, n)]
  | Record_ r => map (fun g : string * string * nat => let '(n2, a2, w) := g in (name ++ ", " ++ n2, join api a2, w)) r
  end.
Fixpoint place (off : nat) (l : list (string * string * nat)) : list placed :=
  match l with
  | [] => []
  | (name, api, w) :: l' => (name, api, off, w) :: place (off + w) l'
  end.
Definition ieee_fields (p : ieee_pdu) : list placed := place 12 (flat_map flatten p).
Definition octets (p : ieee_pdu) : nat := fold_right (fun (g : string * string * nat) n => snd g + n) 12 (flat_map flatten p).
