(** * Tables of the specification (literals only; see tools/gen_spec.py).

    [pdu_table]: PDU class name, PDU type number and protocol family number of
    IEEE 1278.1-2012 (SISO-REF-010 UID 4 and 5, written down from the standard, not
    from the repository), and the size in bits of a default PDU as listed in the
    repository's own unit tests. *)
From Coq Require Export String List NArith.
Export ListNotations.
Local Open Scope string_scope.
Local Open Scope N_scope.

Definition pdu_table : list (string * (N * N * N)) := [
  ("EntityStatePdu", (1, 1, 1152));
  ("FirePdu", (2, 2, 768));
  ("DetonationPdu", (3, 2, 832));
  ("CollisionPdu", (4, 1, 480));
  ("ServiceRequestPdu", (5, 3, 224));
  ("ResupplyOfferPdu", (6, 3, 224));
  ("ResupplyReceivedPdu", (7, 3, 224));
  ("ResupplyCancelPdu", (8, 3, 192));
  ("RepairCompletePdu", (9, 3, 224));
  ("RepairResponsePdu", (10, 3, 224));
  ("CreateEntityPdu", (11, 5, 224));
  ("RemoveEntityPdu", (12, 5, 224));
  ("StartResumePdu", (13, 5, 352));
  ("StopFreezePdu", (14, 5, 320));
  ("AcknowledgePdu", (15, 5, 256));
  ("ActionRequestPdu", (16, 5, 320));
  ("ActionResponsePdu", (17, 5, 320));
  ("DataQueryPdu", (18, 5, 320));
  ("SetDataPdu", (19, 5, 320));
  ("DataPdu", (20, 5, 320));
  ("EventReportPdu", (21, 5, 320));
  ("CommentPdu", (22, 5, 256));
  ("ElectromagneticEmissionsPdu", (23, 6, 224));
  ("DesignatorPdu", (24, 6, 704));
  ("TransmitterPdu", (25, 4, 832));
  ("SignalPdu", (26, 4, 256));
  ("ReceiverPdu", (27, 4, 288));
  ("IFFPdu", (28, 6, 704));
  ("UnderwaterAcousticPdu", (29, 6, 256));
  ("SupplementalEmissionPdu", (30, 6, 224));
  ("IntercomSignalPdu", (31, 4, 256));
  ("IntercomControlPdu", (32, 4, 320));
  ("AggregateStatePdu", (33, 7, 1088));
  ("IsGroupOfPdu", (34, 7, 320));
  ("TransferOwnershipPdu", (35, 7, 320));
  ("IsPartOfPdu", (36, 7, 416));
  ("MinefieldStatePdu", (37, 8, 576));
  ("MinefieldQueryPdu", (38, 8, 320));
  ("MinefieldDataPdu", (39, 8, 352));
  ("MinefieldResponseNackPdu", (40, 8, 208));
  ("EnvironmentalProcessPdu", (41, 9, 256));
  ("GriddedDataPdu", (42, 9, 512));
  ("PointObjectStatePdu", (43, 9, 704));
  ("LinearObjectStatePdu", (44, 9, 320));
  ("ArealObjectStatePdu", (45, 9, 384));
  ("CreateEntityReliablePdu", (51, 10, 256));
  ("RemoveEntityReliablePdu", (52, 10, 256));
  ("StartResumeReliablePdu", (53, 10, 384));
  ("StopFreezeReliablePdu", (54, 10, 320));
  ("AcknowledgeReliablePdu", (55, 10, 256));
  ("ActionRequestReliablePdu", (56, 10, 384));
  ("ActionResponseReliablePdu", (57, 10, 320));
  ("DataQueryReliablePdu", (58, 10, 352));
  ("SetDataReliablePdu", (59, 10, 320));
  ("DataReliablePdu", (60, 10, 320));
  ("EventReportReliablePdu", (61, 10, 320));
  ("CommentReliablePdu", (62, 10, 256));
  ("SetRecordReliablePdu", (64, 10, 320));
  ("RecordQueryReliablePdu", (65, 10, 320));
  ("CollisionElasticPdu", (66, 1, 800));
  ("EntityStateUpdatePdu", (67, 1, 576));
  ("DirectedEnergyFirePdu", (68, 2, 704));
  ("EntityDamageStatusPdu", (69, 2, 192));
  ("InformationOperationsActionPdu", (70, 13, 448));
  ("InformationOperationsReportPdu", (71, 13, 320));
  ("AttributePdu", (72, 1, 256))
].

(** The variable-length (list) fields of each class that has some. *)
Definition list_fields_table : list (string * list string) := [
  ("ElectromagneticEmissionsPdu", ["systems"]);
  ("UnderwaterAcousticPdu", ["shaft_rpms"; "apa_data"; "emitter_systems"]);
  ("IFFPdu", ["iff_parameters"]);
  ("SupplementalEmissionPdu", ["propulsion_system_data"; "vectoring_nozzle_system_data"]);
  ("EntityStatePdu", ["articulation_parameter"]);
  ("EntityStateUpdatePdu", ["variable_parameter_records"]);
  ("AttributePdu", ["attribute_record_sets"]);
  ("AggregateStatePdu", ["aggregate_id_list"; "entity_id_list"; "padding"; "silent_aggregate_system_list"; "silent_entity_system_list"; "variable_datum_list"]);
  ("IsGroupOfPdu", ["grouped_entity_descriptions"]);
  ("ServiceRequestPdu", ["supplies"]);
  ("ResupplyOfferPdu", ["supplies"]);
  ("ResupplyReceivedPdu", ["supplies"]);
  ("MinefieldStatePdu", ["perimeter_points"; "mine_type"]);
  ("MinefieldQueryPdu", ["requested_perimeter_points"; "sensor_types"]);
  ("MinefieldDataPdu", ["sensor_types"; "mine_location"; "ground_burial_depth_offset"; "water_burial_depth_offset"; "snow_burial_depth_offset"; "mine_orientation"; "thermal_contrast"; "reflectance"; "mine_emplacement_time"; "mine_entity_id"; "fusing"; "scalar_detection_coefficient"; "paint_scheme"; "number_of_trip_wires"; "number_of_vertices"; "vertices"]);
  ("MinefieldResponseNackPdu", ["missing_pdu_sequence_numbers"]);
  ("TransmitterPdu", ["modulation_parameters"; "antenna_pattern"; "variable_transmitter_parameters"]);
  ("SignalPdu", ["data"]);
  ("IntercomSignalPdu", ["data"]);
  ("IntercomControlPdu", ["intercom_parameters"]);
  ("ActionRequestPdu", ["fixed_datum_records"; "variable_datum_records"]);
  ("ActionResponsePdu", ["fixed_datum_records"; "variable_datum_records"]);
  ("DataQueryPdu", ["fixed_datum_records"; "variable_datum_records"]);
  ("SetDataPdu", ["fixed_datum_records"; "variable_datum_records"]);
  ("DataPdu", ["fixed_datum_records"; "variable_datum_records"]);
  ("EventReportPdu", ["fixed_datum_records"; "variable_datum_records"]);
  ("CommentPdu", ["fixed_datum_records"; "variable_datum_records"]);
  ("ActionRequestReliablePdu", ["fixed_datum_records"; "variable_datum_records"]);
  ("ActionResponseReliablePdu", ["fixed_datum_records"; "variable_datum_records"]);
  ("DataQueryReliablePdu", ["fixed_datum_ids"; "variable_datum_ids"]);
  ("SetDataReliablePdu", ["fixed_datum_records"; "variable_datum_records"]);
  ("DataReliablePdu", ["fixed_datum_records"; "variable_datum_records"]);
  ("EventReportReliablePdu", ["fixed_datum_records"; "variable_datum_records"]);
  ("CommentReliablePdu", ["fixed_datum_records"; "variable_datum_records"]);
  ("RecordQueryReliablePdu", ["record_ids"]);
  ("EnvironmentalProcessPdu", ["environment_records"]);
  ("GriddedDataPdu", ["grid_axis_descriptors"; "grid_data_list"]);
  ("LinearObjectStatePdu", ["linear_segment_parameters"]);
  ("ArealObjectStatePdu", ["object_location"]);
  ("DetonationPdu", ["variable_parameters"]);
  ("DirectedEnergyFirePdu", ["damage_descriptions"]);
  ("EntityDamageStatusPdu", ["damage_descriptions"])
].
