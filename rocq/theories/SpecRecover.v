(** * The lists behind the fixed part of a datagram (specification only).

    Generated by tools/gen_spec_recover.py. [deserialize] of the crate never reads the list
    fields of a PDU: it returns them empty and leaves their bytes in the buffer. This file says,
    per class, what is in those bytes: which lists in which order, how many elements the fixed
    part announces, and which function of the crate reads one element. *)
From Verif Require Import Base EnumModel Enums Header PduMacro DataTypes Bitflags Pdus PduFields Spec Wire SpecDatum SpecLayout.

(** A list of a class: its elements, the [deserialize] of the element type, what is required of
    an element (for records that contain counts: that these are right), and the number of
    elements announced by the fixed part of the PDU. *)
Record sent_list (c : pdu_class) := mk_sent_list {
  sl_name : string;
  sl_type : Type;
  sl_list : pdu c -> list sl_type;
  sl_read : reader sl_type;
  sl_good : sl_type -> Prop;
  sl_announced : pdu c -> N
}.
Arguments mk_sent_list {c}.
Arguments sl_name {c}.
Arguments sl_type {c}.
Arguments sl_list {c}.
Arguments sl_read {c}.
Arguments sl_good {c}.
Arguments sl_announced {c}.
(** The lists of a class that can be read one after the other, and what follows them. *)
Record recovery := mk_recovery {
  rv_class : pdu_class;
  rv_lists : list (sent_list rv_class);
  rv_rest : pdu rv_class -> bytes
}.

(** Reading the lists from [bs], [count l] elements for list [l], returns the lists of [p] and
    leaves [rest]. *)
Fixpoint reads_back {c} (count : sent_list c -> N) (p : pdu c) (ls : list (sent_list c)) (bs rest : bytes) : Prop :=
  match ls with
  | [] => bs = rest
  | l :: ls' => exists left, repeat_read (N.to_nat (count l)) (sl_read l) bs = Ok (sl_list l p, left) /\
                             reads_back count p ls' left rest
  end.

Definition any_value {A} (x : A) : Prop := True.
(** A variable datum whose value has as many bytes as its bit length says. The crate's own
    [deserialize] returns it with as many zero bytes in front and leaves the padding unread
    (C24); the caller drops both. *)
Definition datum_filled (v : VariableDatumRecord) : Prop :=
  N.of_nat (length (VariableDatumRecord_value v)) = datum_bytes (uval (VariableDatumRecord_length_bits v)).
Definition mended_datum : reader VariableDatumRecord := fun bs =>
  match VariableDatumRecord_deserialize bs with
  | Ok (v, rest) =>
      let bits := uval (VariableDatumRecord_length_bits v) in
      Ok (mk_VariableDatumRecord (VariableDatumRecord_datum_id v) (VariableDatumRecord_length_bits v)
            (skipn (N.to_nat (datum_bytes bits)) (VariableDatumRecord_value v)),
          skipn (N.to_nat (datum_padding bits)) rest)
  | Panic e => Panic e
  end.
(** A regular grid axis (an irregular one takes all that follows as its padding). *)
Definition regular_axis (v : GridAxisDescriptor) : Prop :=
  match GridAxisDescriptor_data v with FixedSpacing _ _ => code (GridAxisDescriptor_axis_type v) = 0 | _ => False end.

Definition ElectromagneticEmissionsPdu_lists : recovery := mk_recovery ElectromagneticEmissionsPdu [
  mk_sent_list "systems"%string (ElectromagneticEmissionSystemData) ElectromagneticEmissionsPdu_systems (ElectromagneticEmissionSystemData_deserialize)
    counted_EmissionSystemData (fun p => uval (ElectromagneticEmissionsPdu_number_of_systems p))]
  (fun p => []).

Definition UnderwaterAcousticPdu_lists : recovery := mk_recovery UnderwaterAcousticPdu [
  mk_sent_list "shaft_rpms"%string (ShaftRPMs) UnderwaterAcousticPdu_shaft_rpms (ShaftRPMs_deserialize)
    any_value (fun p => uval (UnderwaterAcousticPdu_number_of_shafts p));
  mk_sent_list "apa_data"%string (ApaData) UnderwaterAcousticPdu_apa_data (ApaData_deserialize)
    any_value (fun p => uval (UnderwaterAcousticPdu_number_of_apas p));
  mk_sent_list "emitter_systems"%string (AcousticEmitterSystem) UnderwaterAcousticPdu_emitter_systems (AcousticEmitterSystem_deserialize)
    any_value (fun p => uval (UnderwaterAcousticPdu_number_of_ua_emitter_systems p))]
  (fun p => []).

Definition IFFPdu_lists : recovery := mk_recovery IFFPdu [
  mk_sent_list "iff_parameters"%string (IFFFundamentalParameterData) IFFPdu_iff_parameters (IFFFundamentalParameterData_deserialize)
    any_value (fun p => (uval (header_length (header p)) - 88) / 24)]
  (fun p => []).

Definition SupplementalEmissionPdu_lists : recovery := mk_recovery SupplementalEmissionPdu [
  mk_sent_list "propulsion_system_data"%string (PropulsionSystemData) SupplementalEmissionPdu_propulsion_system_data (PropulsionSystemData_deserialize)
    any_value (fun p => uval (SupplementalEmissionPdu_number_of_propulsion_systems p));
  mk_sent_list "vectoring_nozzle_system_data"%string (VectoringNozzleSystemData) SupplementalEmissionPdu_vectoring_nozzle_system_data (VectoringNozzleSystemData_deserialize)
    any_value (fun p => uval (SupplementalEmissionPdu_number_of_vectoring_nozzle_systems p))]
  (fun p => []).

Definition EntityStateUpdatePdu_lists : recovery := mk_recovery EntityStateUpdatePdu [
  mk_sent_list "variable_parameter_records"%string (VariableParameter) EntityStateUpdatePdu_variable_parameter_records (VariableParameter_deserialize)
    any_value (fun p => uval (EntityStateUpdatePdu_number_of_variable_parameters p))]
  (fun p => []).

Definition AttributePdu_lists : recovery := mk_recovery AttributePdu [
  mk_sent_list "attribute_record_sets"%string (AttributeRecordSet) AttributePdu_attribute_record_sets (AttributeRecordSet_deserialize)
    counted_AttributeRecordSet (fun p => uval (AttributePdu_number_of_attribute_record_sets p))]
  (fun p => []).

Definition IsGroupOfPdu_lists : recovery := mk_recovery IsGroupOfPdu [
  mk_sent_list "grouped_entity_descriptions"%string (uint 8) IsGroupOfPdu_grouped_entity_descriptions (get_uint 8)
    any_value (fun p => uval (IsGroupOfPdu_number_of_grouped_entities p))]
  (fun p => []).

Definition ServiceRequestPdu_lists : recovery := mk_recovery ServiceRequestPdu [
  mk_sent_list "supplies"%string (SupplyQuantity) ServiceRequestPdu_supplies (SupplyQuantity_deserialize)
    any_value (fun p => uval (ServiceRequestPdu_number_of_supply_types p))]
  (fun p => []).

Definition ResupplyOfferPdu_lists : recovery := mk_recovery ResupplyOfferPdu [
  mk_sent_list "supplies"%string (SupplyQuantity) ResupplyOfferPdu_supplies (SupplyQuantity_deserialize)
    any_value (fun p => uval (ResupplyOfferPdu_number_of_supply_types p))]
  (fun p => []).

Definition ResupplyReceivedPdu_lists : recovery := mk_recovery ResupplyReceivedPdu [
  mk_sent_list "supplies"%string (SupplyQuantity) ResupplyReceivedPdu_supplies (SupplyQuantity_deserialize)
    any_value (fun p => uval (ResupplyReceivedPdu_number_of_supply_types p))]
  (fun p => []).

Definition MinefieldStatePdu_lists : recovery := mk_recovery MinefieldStatePdu [
  mk_sent_list "perimeter_points"%string (Point) MinefieldStatePdu_perimeter_points (Point_deserialize)
    any_value (fun p => uval (MinefieldStatePdu_number_of_perimeter_points p));
  mk_sent_list "mine_type"%string (EntityType) MinefieldStatePdu_mine_type (EntityType_deserialize)
    any_value (fun p => uval (MinefieldStatePdu_number_of_mine_types p))]
  (fun p => []).

Definition MinefieldQueryPdu_lists : recovery := mk_recovery MinefieldQueryPdu [
  mk_sent_list "requested_perimeter_points"%string (Point) MinefieldQueryPdu_requested_perimeter_points (Point_deserialize)
    any_value (fun p => uval (MinefieldQueryPdu_number_of_perimeter_points p));
  mk_sent_list "sensor_types"%string (MinefieldSensorTypes) MinefieldQueryPdu_sensor_types (enum_deserialize MinefieldSensorTypes_spec)
    any_value (fun p => uval (MinefieldQueryPdu_number_of_sensor_types p))]
  (fun p => []).

Definition MinefieldDataPdu_lists : recovery := mk_recovery MinefieldDataPdu [
  mk_sent_list "sensor_types"%string (MinefieldSensorTypes) MinefieldDataPdu_sensor_types (enum_deserialize MinefieldSensorTypes_spec)
    any_value (fun p => uval (MinefieldDataPdu_number_of_sensor_types p));
  mk_sent_list "mine_location"%string (EntityCoordinateVector) MinefieldDataPdu_mine_location (EntityCoordinateVector_deserialize)
    any_value (fun p => uval (MinefieldDataPdu_number_of_mines_in_this_pdu p))]
  (fun p => 
  each (maybe be) (MinefieldDataPdu_ground_burial_depth_offset p) ++
  each (maybe be) (MinefieldDataPdu_water_burial_depth_offset p) ++
  each (maybe be) (MinefieldDataPdu_snow_burial_depth_offset p) ++
  each (maybe EulerAngles_serialize) (MinefieldDataPdu_mine_orientation p) ++
  each (maybe be) (MinefieldDataPdu_thermal_contrast p) ++
  each (maybe be) (MinefieldDataPdu_reflectance p) ++
  each (maybe ClockTime_serialize) (MinefieldDataPdu_mine_emplacement_time p) ++
  each (maybe be) (MinefieldDataPdu_mine_entity_id p) ++
  each (maybe be) (MinefieldDataPdu_fusing p) ++
  each (maybe be) (MinefieldDataPdu_scalar_detection_coefficient p) ++
  each (maybe be) (MinefieldDataPdu_paint_scheme p) ++
  each (maybe be) (MinefieldDataPdu_number_of_trip_wires p) ++
  each (maybe be) (MinefieldDataPdu_number_of_vertices p) ++
  each (maybe (each EntityCoordinateVector_serialize)) (MinefieldDataPdu_vertices p)).

Definition MinefieldResponseNackPdu_lists : recovery := mk_recovery MinefieldResponseNackPdu [
  mk_sent_list "missing_pdu_sequence_numbers"%string (uint 8) MinefieldResponseNackPdu_missing_pdu_sequence_numbers (get_uint 8)
    any_value (fun p => uval (MinefieldResponseNackPdu_number_of_missing_pdus p))]
  (fun p => []).

Definition SignalPdu_lists : recovery := mk_recovery SignalPdu [
  mk_sent_list "data"%string (uint 1) SignalPdu_data (get_uint 1)
    any_value (fun p => (uval (SignalPdu_data_length p) + 7) / 8)]
  (fun p => []).

Definition IntercomSignalPdu_lists : recovery := mk_recovery IntercomSignalPdu [
  mk_sent_list "data"%string (uint 1) IntercomSignalPdu_data (get_uint 1)
    any_value (fun p => (uval (IntercomSignalPdu_data_length p) + 7) / 8)]
  (fun p => []).

Definition IntercomControlPdu_lists : recovery := mk_recovery IntercomControlPdu [
  mk_sent_list "intercom_parameters"%string (IntercomCommunicationsParameters) IntercomControlPdu_intercom_parameters (IntercomCommunicationsParameters_deserialize)
    any_value (fun p => uval (IntercomControlPdu_intercom_parameters_length p) / 8)]
  (fun p => []).

Definition ActionRequestPdu_lists : recovery := mk_recovery ActionRequestPdu [
  mk_sent_list "fixed_datum_records"%string (FixedDatumRecord) ActionRequestPdu_fixed_datum_records (FixedDatumRecord_deserialize)
    any_value (fun p => uval (ActionRequestPdu_number_of_fixed_datum_records p));
  mk_sent_list "variable_datum_records"%string (VariableDatumRecord) ActionRequestPdu_variable_datum_records (mended_datum)
    datum_filled (fun p => uval (ActionRequestPdu_number_of_variable_datum_records p))]
  (fun p => []).

Definition ActionResponsePdu_lists : recovery := mk_recovery ActionResponsePdu [
  mk_sent_list "fixed_datum_records"%string (FixedDatumRecord) ActionResponsePdu_fixed_datum_records (FixedDatumRecord_deserialize)
    any_value (fun p => uval (ActionResponsePdu_number_of_fixed_datum_records p));
  mk_sent_list "variable_datum_records"%string (VariableDatumRecord) ActionResponsePdu_variable_datum_records (mended_datum)
    datum_filled (fun p => uval (ActionResponsePdu_number_of_variable_datum_records p))]
  (fun p => []).

Definition DataQueryPdu_lists : recovery := mk_recovery DataQueryPdu [
  mk_sent_list "fixed_datum_records"%string (FixedDatumRecord) DataQueryPdu_fixed_datum_records (FixedDatumRecord_deserialize)
    any_value (fun p => uval (DataQueryPdu_number_of_fixed_datum_records p));
  mk_sent_list "variable_datum_records"%string (VariableDatumRecord) DataQueryPdu_variable_datum_records (mended_datum)
    datum_filled (fun p => uval (DataQueryPdu_number_of_variable_datum_records p))]
  (fun p => []).

Definition SetDataPdu_lists : recovery := mk_recovery SetDataPdu [
  mk_sent_list "fixed_datum_records"%string (FixedDatumRecord) SetDataPdu_fixed_datum_records (FixedDatumRecord_deserialize)
    any_value (fun p => uval (SetDataPdu_number_of_fixed_datum_records p));
  mk_sent_list "variable_datum_records"%string (VariableDatumRecord) SetDataPdu_variable_datum_records (mended_datum)
    datum_filled (fun p => uval (SetDataPdu_number_of_variable_datum_records p))]
  (fun p => []).

Definition DataPdu_lists : recovery := mk_recovery DataPdu [
  mk_sent_list "fixed_datum_records"%string (FixedDatumRecord) DataPdu_fixed_datum_records (FixedDatumRecord_deserialize)
    any_value (fun p => uval (DataPdu_number_of_fixed_datum_records p));
  mk_sent_list "variable_datum_records"%string (VariableDatumRecord) DataPdu_variable_datum_records (mended_datum)
    datum_filled (fun p => uval (DataPdu_number_of_variable_datum_records p))]
  (fun p => []).

Definition EventReportPdu_lists : recovery := mk_recovery EventReportPdu [
  mk_sent_list "fixed_datum_records"%string (FixedDatumRecord) EventReportPdu_fixed_datum_records (FixedDatumRecord_deserialize)
    any_value (fun p => uval (EventReportPdu_number_of_fixed_datum_records p));
  mk_sent_list "variable_datum_records"%string (VariableDatumRecord) EventReportPdu_variable_datum_records (mended_datum)
    datum_filled (fun p => uval (EventReportPdu_number_of_variable_datum_records p))]
  (fun p => []).

Definition CommentPdu_lists : recovery := mk_recovery CommentPdu [
  mk_sent_list "fixed_datum_records"%string (FixedDatumRecord) CommentPdu_fixed_datum_records (FixedDatumRecord_deserialize)
    any_value (fun p => uval (CommentPdu_number_of_fixed_datum_records p));
  mk_sent_list "variable_datum_records"%string (VariableDatumRecord) CommentPdu_variable_datum_records (mended_datum)
    datum_filled (fun p => uval (CommentPdu_number_of_variable_datum_records p))]
  (fun p => []).

Definition ActionRequestReliablePdu_lists : recovery := mk_recovery ActionRequestReliablePdu [
  mk_sent_list "fixed_datum_records"%string (FixedDatumRecord) ActionRequestReliablePdu_fixed_datum_records (FixedDatumRecord_deserialize)
    any_value (fun p => uval (ActionRequestReliablePdu_number_of_fixed_datum_records p));
  mk_sent_list "variable_datum_records"%string (VariableDatumRecord) ActionRequestReliablePdu_variable_datum_records (mended_datum)
    datum_filled (fun p => uval (ActionRequestReliablePdu_number_of_variable_datum_records p))]
  (fun p => []).

Definition ActionResponseReliablePdu_lists : recovery := mk_recovery ActionResponseReliablePdu [
  mk_sent_list "fixed_datum_records"%string (FixedDatumRecord) ActionResponseReliablePdu_fixed_datum_records (FixedDatumRecord_deserialize)
    any_value (fun p => uval (ActionResponseReliablePdu_number_of_fixed_datum_records p));
  mk_sent_list "variable_datum_records"%string (VariableDatumRecord) ActionResponseReliablePdu_variable_datum_records (mended_datum)
    datum_filled (fun p => uval (ActionResponseReliablePdu_number_of_variable_datum_records p))]
  (fun p => []).

Definition DataQueryReliablePdu_lists : recovery := mk_recovery DataQueryReliablePdu [
  mk_sent_list "fixed_datum_ids"%string (VariableRecordTypes) DataQueryReliablePdu_fixed_datum_ids (enum_deserialize VariableRecordTypes_spec)
    any_value (fun p => uval (DataQueryReliablePdu_number_of_fixed_datum_records p));
  mk_sent_list "variable_datum_ids"%string (VariableRecordTypes) DataQueryReliablePdu_variable_datum_ids (enum_deserialize VariableRecordTypes_spec)
    any_value (fun p => uval (DataQueryReliablePdu_number_of_variable_datum_records p))]
  (fun p => []).

Definition SetDataReliablePdu_lists : recovery := mk_recovery SetDataReliablePdu [
  mk_sent_list "fixed_datum_records"%string (FixedDatumRecord) SetDataReliablePdu_fixed_datum_records (FixedDatumRecord_deserialize)
    any_value (fun p => uval (SetDataReliablePdu_number_of_fixed_datum_records p));
  mk_sent_list "variable_datum_records"%string (VariableDatumRecord) SetDataReliablePdu_variable_datum_records (mended_datum)
    datum_filled (fun p => uval (SetDataReliablePdu_number_of_variable_datum_records p))]
  (fun p => []).

Definition DataReliablePdu_lists : recovery := mk_recovery DataReliablePdu [
  mk_sent_list "fixed_datum_records"%string (FixedDatumRecord) DataReliablePdu_fixed_datum_records (FixedDatumRecord_deserialize)
    any_value (fun p => uval (DataReliablePdu_number_of_fixed_datum_records p));
  mk_sent_list "variable_datum_records"%string (VariableDatumRecord) DataReliablePdu_variable_datum_records (mended_datum)
    datum_filled (fun p => uval (DataReliablePdu_number_of_variable_datum_records p))]
  (fun p => []).

Definition EventReportReliablePdu_lists : recovery := mk_recovery EventReportReliablePdu [
  mk_sent_list "fixed_datum_records"%string (FixedDatumRecord) EventReportReliablePdu_fixed_datum_records (FixedDatumRecord_deserialize)
    any_value (fun p => uval (EventReportReliablePdu_number_of_fixed_datum_records p));
  mk_sent_list "variable_datum_records"%string (VariableDatumRecord) EventReportReliablePdu_variable_datum_records (mended_datum)
    datum_filled (fun p => uval (EventReportReliablePdu_number_of_variable_datum_records p))]
  (fun p => []).

Definition CommentReliablePdu_lists : recovery := mk_recovery CommentReliablePdu [
  mk_sent_list "fixed_datum_records"%string (FixedDatumRecord) CommentReliablePdu_fixed_datum_records (FixedDatumRecord_deserialize)
    any_value (fun p => uval (CommentReliablePdu_number_of_fixed_datum_records p));
  mk_sent_list "variable_datum_records"%string (VariableDatumRecord) CommentReliablePdu_variable_datum_records (mended_datum)
    datum_filled (fun p => uval (CommentReliablePdu_number_of_variable_datum_records p))]
  (fun p => []).

Definition RecordQueryReliablePdu_lists : recovery := mk_recovery RecordQueryReliablePdu [
  mk_sent_list "record_ids"%string (uint 4) RecordQueryReliablePdu_record_ids (get_uint 4)
    any_value (fun p => uval (RecordQueryReliablePdu_number_of_records p))]
  (fun p => []).

Definition EnvironmentalProcessPdu_lists : recovery := mk_recovery EnvironmentalProcessPdu [
  mk_sent_list "environment_records"%string (Environment) EnvironmentalProcessPdu_environment_records (Environment_deserialize)
    any_value (fun p => uval (EnvironmentalProcessPdu_number_of_environment_records p))]
  (fun p => []).

Definition GriddedDataPdu_lists : recovery := mk_recovery GriddedDataPdu [
  mk_sent_list "grid_axis_descriptors"%string (GridAxisDescriptor) GriddedDataPdu_grid_axis_descriptors (GridAxisDescriptor_deserialize)
    regular_axis (fun p => uval (GriddedDataPdu_number_of_grid_axes p))]
  (fun p => each GridDataRecord_serialize (GriddedDataPdu_grid_data_list p)).

Definition LinearObjectStatePdu_lists : recovery := mk_recovery LinearObjectStatePdu [
  mk_sent_list "linear_segment_parameters"%string (LinearSegmentParameter) LinearObjectStatePdu_linear_segment_parameters (LinearSegmentParameter_deserialize)
    any_value (fun p => uval (LinearObjectStatePdu_number_of_segments p))]
  (fun p => []).

Definition ArealObjectStatePdu_lists : recovery := mk_recovery ArealObjectStatePdu [
  mk_sent_list "object_location"%string (WorldCoordinate) ArealObjectStatePdu_object_location (WorldCoordinate_deserialize)
    any_value (fun p => uval (ArealObjectStatePdu_number_of_points p))]
  (fun p => []).

Definition DetonationPdu_lists : recovery := mk_recovery DetonationPdu [
  mk_sent_list "variable_parameters"%string (VariableParameter) DetonationPdu_variable_parameters (VariableParameter_deserialize)
    any_value (fun p => uval (DetonationPdu_number_of_variable_parameters p))]
  (fun p => []).

Definition DirectedEnergyFirePdu_lists : recovery := mk_recovery DirectedEnergyFirePdu [
  mk_sent_list "damage_descriptions"%string (DirectedEnergyDamage) DirectedEnergyFirePdu_damage_descriptions (DirectedEnergyDamage_deserialize)
    any_value (fun p => uval (DirectedEnergyFirePdu_number_of_de_records p))]
  (fun p => []).

Definition EntityDamageStatusPdu_lists : recovery := mk_recovery EntityDamageStatusPdu [
  mk_sent_list "damage_descriptions"%string (DirectedEnergyDamage) EntityDamageStatusPdu_damage_descriptions (DirectedEnergyDamage_deserialize)
    any_value (fun p => uval (EntityDamageStatusPdu_number_of_damage_descriptions p))]
  (fun p => []).

Definition recoveries : list recovery := [
  ElectromagneticEmissionsPdu_lists;
  UnderwaterAcousticPdu_lists;
  IFFPdu_lists;
  SupplementalEmissionPdu_lists;
  EntityStateUpdatePdu_lists;
  AttributePdu_lists;
  IsGroupOfPdu_lists;
  ServiceRequestPdu_lists;
  ResupplyOfferPdu_lists;
  ResupplyReceivedPdu_lists;
  MinefieldStatePdu_lists;
  MinefieldQueryPdu_lists;
  MinefieldDataPdu_lists;
  MinefieldResponseNackPdu_lists;
  SignalPdu_lists;
  IntercomSignalPdu_lists;
  IntercomControlPdu_lists;
  ActionRequestPdu_lists;
  ActionResponsePdu_lists;
  DataQueryPdu_lists;
  SetDataPdu_lists;
  DataPdu_lists;
  EventReportPdu_lists;
  CommentPdu_lists;
  ActionRequestReliablePdu_lists;
  ActionResponseReliablePdu_lists;
  DataQueryReliablePdu_lists;
  SetDataReliablePdu_lists;
  DataReliablePdu_lists;
  EventReportReliablePdu_lists;
  CommentReliablePdu_lists;
  RecordQueryReliablePdu_lists;
  EnvironmentalProcessPdu_lists;
  GriddedDataPdu_lists;
  LinearObjectStatePdu_lists;
  ArealObjectStatePdu_lists;
  DetonationPdu_lists;
  DirectedEnergyFirePdu_lists;
  EntityDamageStatusPdu_lists].

(** The lists of an aggregate state before the number of variable data. The length of the
    padding is not announced anywhere: the caller must know it (it aligns the lists before it
    to 32 bits). *)
Definition aggregate_lists : list (sent_list AggregateStatePdu) := [
  mk_sent_list "aggregate_id_list"%string (AggregateId) AggregateStatePdu_aggregate_id_list (AggregateId_deserialize)
    any_value (fun p => uval (AggregateStatePdu_number_of_dis_aggregates p));
  mk_sent_list "entity_id_list"%string (EntityId) AggregateStatePdu_entity_id_list (EntityId_deserialize)
    any_value (fun p => uval (AggregateStatePdu_number_of_dis_entities p));
  mk_sent_list "padding"%string (uint 1) AggregateStatePdu_padding (get_uint 1)
    any_value (fun p => N.of_nat (length (AggregateStatePdu_padding p)));
  mk_sent_list "silent_aggregate_system_list"%string (EntityType) AggregateStatePdu_silent_aggregate_system_list (EntityType_deserialize)
    any_value (fun p => uval (AggregateStatePdu_number_of_silent_aggregate_types p));
  mk_sent_list "silent_entity_system_list"%string (EntityType) AggregateStatePdu_silent_entity_system_list (EntityType_deserialize)
    any_value (fun p => uval (AggregateStatePdu_number_of_silent_entity_types p))].
