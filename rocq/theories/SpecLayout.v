(** * Complete wire layouts: variable-size records and whole PDUs.

    Generated by tools/gen_spec_layout.py. A layout is a wire map of the numbers at fixed
    offsets ([WireMaps] for the PDU classes) followed by the elements of each list, one after
    the other, list by list in the order in which the struct declares them. *)
From Verif Require Import Base EnumModel Enums Header PduMacro DataTypes Bitflags Pdus PduFields Spec Wire WireMaps.

(** The bytes of the numbers of a wire map, one after the other. *)
Definition laid_out {T} (es : list (entry T)) (v : T) : bytes :=
  List.concat (map (fun e => big_endian (en_width e) (en_put e v)) es).
(** A number in as many big-endian bytes as its type has; the code of an enumeration in [w]
    bytes; the concatenation of the encodings of the elements of a list; an optional field:
    nothing when absent. *)
Definition be {k} (x : uint k) : bytes := big_endian k (uval x).
Definition coded {e} (w : nat) (x : enum e) : bytes := big_endian w (code x).
Definition each {A} (f : A -> bytes) (l : list A) : bytes := List.concat (map f l).
Definition maybe {A} (f : A -> bytes) (o : option A) : bytes := match o with Some x => f x | None => [] end.

(** ** Records that end with a counted list *)
Record variable_type := mk_variable_type {
  vt_name : string;
  vt_type : Type;
  vt_map : list (entry vt_type);       (** the numbers before the list *)
  vt_head : nat;                       (** how many bytes they take *)
  vt_tail : vt_type -> bytes;          (** the list *)
  vt_counted : vt_type -> Prop;        (** the count is the length of the list *)
  vt_serialize : vt_type -> bytes;
  vt_deserialize : reader vt_type
}.

Definition AttributeRecord_head : list (entry AttributeRecord) := [
  num 0 4 "record_type"%string (fun v => uval (AttributeRecord_record_type v));
  num 4 2 "record_length"%string (fun v => uval (AttributeRecord_record_length v))].
Definition AttributeRecord_vt : variable_type := mk_variable_type "AttributeRecord"%string AttributeRecord AttributeRecord_head 6
  (fun v => each be (AttributeRecord_record_specific_fields v)) counted_AttributeRecord AttributeRecord_serialize AttributeRecord_deserialize.

Definition AttributeRecordSet_head : list (entry AttributeRecordSet) := [
  num 0 2 "entity_id.simulation_address.site_id"%string (fun v => uval (SimulationAddress_site_id (EntityId_simulation_address (AttributeRecordSet_entity_id v))));
  num 2 2 "entity_id.simulation_address.application_id"%string (fun v => uval (SimulationAddress_application_id (EntityId_simulation_address (AttributeRecordSet_entity_id v))));
  num 4 2 "entity_id.entity_id"%string (fun v => uval (EntityId_entity_id (AttributeRecordSet_entity_id v)));
  num 6 2 "number_of_attribute_records"%string (fun v => uval (AttributeRecordSet_number_of_attribute_records v))].
Definition AttributeRecordSet_vt : variable_type := mk_variable_type "AttributeRecordSet"%string AttributeRecordSet AttributeRecordSet_head 8
  (fun v => each AttributeRecord_serialize (AttributeRecordSet_attribute_records v)) counted_AttributeRecordSet AttributeRecordSet_serialize AttributeRecordSet_deserialize.

Definition StandardVariableRecords_head : list (entry StandardVariableRecords) := [
  num 0 4 "record_type"%string (fun v => uval (StandardVariableRecords_record_type v));
  num 4 2 "record_length"%string (fun v => uval (StandardVariableRecords_record_length v))].
Definition StandardVariableRecords_vt : variable_type := mk_variable_type "StandardVariableRecords"%string StandardVariableRecords StandardVariableRecords_head 6
  (fun v => each be (StandardVariableRecords_record_specific_fields v)) counted_StandardVariableRecords StandardVariableRecords_serialize StandardVariableRecords_deserialize.
Definition StandardVariableSpecification_vt : variable_type := mk_variable_type "StandardVariableSpecification"%string StandardVariableSpecification StandardVariableSpecification_map 2
  (fun v => each StandardVariableRecords_serialize (StandardVariableSpecification_standard_variable_records v)) counted_StandardVariableSpecification StandardVariableSpecification_serialize StandardVariableSpecification_deserialize.

Definition ElectromagneticEmissionBeamData_head : list (entry ElectromagneticEmissionBeamData) := [
  num 0 1 "beam_data_length"%string (fun v => uval (ElectromagneticEmissionBeamData_beam_data_length v));
  num 1 1 "beam_id_number"%string (fun v => uval (ElectromagneticEmissionBeamData_beam_id_number v));
  num 2 2 "beam_parameter_index"%string (fun v => uval (ElectromagneticEmissionBeamData_beam_parameter_index v));
  num 4 4 "fundamental_parameter_data.frequency"%string (fun v => uval (FundamentalParameterData_frequency (ElectromagneticEmissionBeamData_fundamental_parameter_data v)));
  num 8 4 "fundamental_parameter_data.frequency_range"%string (fun v => uval (FundamentalParameterData_frequency_range (ElectromagneticEmissionBeamData_fundamental_parameter_data v)));
  num 12 4 "fundamental_parameter_data.effective_radiated_power"%string (fun v => uval (FundamentalParameterData_effective_radiated_power (ElectromagneticEmissionBeamData_fundamental_parameter_data v)));
  num 16 4 "fundamental_parameter_data.pulse_repetition_frequency"%string (fun v => uval (FundamentalParameterData_pulse_repetition_frequency (ElectromagneticEmissionBeamData_fundamental_parameter_data v)));
  num 20 4 "fundamental_parameter_data.pulse_width"%string (fun v => uval (FundamentalParameterData_pulse_width (ElectromagneticEmissionBeamData_fundamental_parameter_data v)));
  num 24 4 "fundamental_parameter_data.beam_azimuth_center"%string (fun v => uval (FundamentalParameterData_beam_azimuth_center (ElectromagneticEmissionBeamData_fundamental_parameter_data v)));
  num 28 4 "fundamental_parameter_data.beam_azimuth_sweep"%string (fun v => uval (FundamentalParameterData_beam_azimuth_sweep (ElectromagneticEmissionBeamData_fundamental_parameter_data v)));
  num 32 4 "fundamental_parameter_data.beam_elevation_center"%string (fun v => uval (FundamentalParameterData_beam_elevation_center (ElectromagneticEmissionBeamData_fundamental_parameter_data v)));
  num 36 4 "fundamental_parameter_data.beam_elevation_sweep"%string (fun v => uval (FundamentalParameterData_beam_elevation_sweep (ElectromagneticEmissionBeamData_fundamental_parameter_data v)));
  num 40 4 "fundamental_parameter_data.beam_sweep_sync"%string (fun v => uval (FundamentalParameterData_beam_sweep_sync (ElectromagneticEmissionBeamData_fundamental_parameter_data v)));
  num 44 1 "beam_function"%string (fun v => uval (ElectromagneticEmissionBeamData_beam_function v));
  num 45 1 "number_of_track_jam_targets"%string (fun v => uval (ElectromagneticEmissionBeamData_number_of_track_jam_targets v));
  num 46 1 "high_density_track_jam"%string (fun v => uval (ElectromagneticEmissionBeamData_high_density_track_jam v));
  num 47 1 "pad4"%string (fun v => uval (ElectromagneticEmissionBeamData_pad4 v));
  num 48 4 "jamming_mode_sequence"%string (fun v => uval (ElectromagneticEmissionBeamData_jamming_mode_sequence v))].
Definition ElectromagneticEmissionBeamData_vt : variable_type := mk_variable_type "ElectromagneticEmissionBeamData"%string ElectromagneticEmissionBeamData ElectromagneticEmissionBeamData_head 52
  (fun v => each TrackJamTarget_serialize (ElectromagneticEmissionBeamData_track_jam_targets v)) counted_EmissionBeamData ElectromagneticEmissionBeamData_serialize ElectromagneticEmissionBeamData_deserialize.

Definition ElectromagneticEmissionSystemData_head : list (entry ElectromagneticEmissionSystemData) := [
  num 0 1 "system_data_length"%string (fun v => uval (ElectromagneticEmissionSystemData_system_data_length v));
  num 1 1 "number_of_beams"%string (fun v => uval (ElectromagneticEmissionSystemData_number_of_beams v));
  num 2 2 "emissionspadding2"%string (fun v => uval (ElectromagneticEmissionSystemData_emissionspadding2 v));
  cod 4 2 EmitterName_spec "emitter_system.emitter_name"%string (fun v => code (EmitterSystem_emitter_name (ElectromagneticEmissionSystemData_emitter_system v)));
  cod 6 1 EmitterSystemFunction_spec "emitter_system.function"%string (fun v => code (EmitterSystem_function (ElectromagneticEmissionSystemData_emitter_system v)));
  num 7 1 "emitter_system.emitter_id_number"%string (fun v => uval (EmitterSystem_emitter_id_number (ElectromagneticEmissionSystemData_emitter_system v)));
  num 8 4 "location.x"%string (fun v => uval (Vector3Float_x (ElectromagneticEmissionSystemData_location v)));
  num 12 4 "location.y"%string (fun v => uval (Vector3Float_y (ElectromagneticEmissionSystemData_location v)));
  num 16 4 "location.z"%string (fun v => uval (Vector3Float_z (ElectromagneticEmissionSystemData_location v)))].
Definition ElectromagneticEmissionSystemData_vt : variable_type := mk_variable_type "ElectromagneticEmissionSystemData"%string ElectromagneticEmissionSystemData ElectromagneticEmissionSystemData_head 20
  (fun v => each ElectromagneticEmissionBeamData_serialize (ElectromagneticEmissionSystemData_beam_data_records v)) counted_EmissionSystemData ElectromagneticEmissionSystemData_serialize ElectromagneticEmissionSystemData_deserialize.

Definition AcousticEmitterSystemData_head : list (entry AcousticEmitterSystemData) := [
  num 0 1 "emitter_system_data_length"%string (fun v => uval (AcousticEmitterSystemData_emitter_system_data_length v));
  num 1 1 "number_of_beams"%string (fun v => uval (AcousticEmitterSystemData_number_of_beams v));
  num 2 2 "pad2"%string (fun v => uval (AcousticEmitterSystemData_pad2 v));
  cod 4 2 UAAcousticSystemName_spec "acoustic_emitter_system.acoustic_name"%string (fun v => code (AcousticEmitterSystem_acoustic_name (AcousticEmitterSystemData_acoustic_emitter_system v)));
  cod 6 1 UAAcousticEmitterSystemFunction_spec "acoustic_emitter_system.acoustic_function"%string (fun v => code (AcousticEmitterSystem_acoustic_function (AcousticEmitterSystemData_acoustic_emitter_system v)));
  num 7 1 "acoustic_emitter_system.acoustic_id"%string (fun v => uval (AcousticEmitterSystem_acoustic_id (AcousticEmitterSystemData_acoustic_emitter_system v)));
  num 8 4 "emitter_location.x"%string (fun v => uval (Vector3Float_x (AcousticEmitterSystemData_emitter_location v)));
  num 12 4 "emitter_location.y"%string (fun v => uval (Vector3Float_y (AcousticEmitterSystemData_emitter_location v)));
  num 16 4 "emitter_location.z"%string (fun v => uval (Vector3Float_z (AcousticEmitterSystemData_emitter_location v)))].
Definition AcousticEmitterSystemData_vt : variable_type := mk_variable_type "AcousticEmitterSystemData"%string AcousticEmitterSystemData AcousticEmitterSystemData_head 20
  (fun v => each AcousticBeamData_serialize (AcousticEmitterSystemData_beam_records v)) counted_AcousticEmitterSystemData AcousticEmitterSystemData_serialize AcousticEmitterSystemData_deserialize.

Definition variable_types : list variable_type := [
  AttributeRecord_vt;
  AttributeRecordSet_vt;
  StandardVariableRecords_vt;
  StandardVariableSpecification_vt;
  ElectromagneticEmissionBeamData_vt;
  ElectromagneticEmissionSystemData_vt;
  AcousticEmitterSystemData_vt].

Definition GridAxisDescriptor_head : list (entry GridAxisDescriptor) := [
  num 0 8 "domain_initial"%string (fun v => uval (GridAxisDescriptor_domain_initial v));
  num 8 8 "domain_final"%string (fun v => uval (GridAxisDescriptor_domain_final v));
  num 16 2 "domain_points"%string (fun v => uval (GridAxisDescriptor_domain_points v));
  num 18 1 "interleaf_factor"%string (fun v => uval (GridAxisDescriptor_interleaf_factor v));
  cod 19 1 GridAxisDescriptorAxisType_spec "axis_type"%string (fun v => code (GridAxisDescriptor_axis_type v))].

(** A record-specification element: 12 bytes and as many values as the 16-bit product of record
    length and record count says. *)
Definition element_sent (v : RecordSpecificationElement) : bytes :=
  be (RecordSpecificationElement_record_id v) ++ be (RecordSpecificationElement_record_set_serial_number v) ++
  be (RecordSpecificationElement_record_length v) ++ be (RecordSpecificationElement_record_count v) ++
  firstn (N.to_nat (element_product v mod 65536)) (RecordSpecificationElement_record_values v).

(** What follows the 20 bytes of a grid axis, and the data of a grid record. *)
Definition axis_data (d : GridAxisType) : bytes :=
  match d with
  | FixedSpacing n i => be n ++ be i
  | VariableSpacing n i scale offset values padding => be n ++ be i ++ be scale ++ be offset ++ each be values ++ padding
  end.
Definition grid_data (d : DataRepresentationType) : bytes :=
  match d with
  | Type0 n values padding => be n ++ values ++ padding
  | Type1 scale offset n values padding => be scale ++ be offset ++ be n ++ each be values ++ padding
  | Type2 n padding values => be n ++ be padding ++ each be values
  end.
(** The counts inside are right, and a trailing [padding] is all that is left of the input. *)
Definition axis_data_read (d : GridAxisType) (rest : bytes) : Prop :=
  match d with
  | FixedSpacing _ _ => True
  | VariableSpacing n _ _ _ values _ => counts n values /\ rest = []
  end.
Definition grid_data_read (d : DataRepresentationType) (rest : bytes) : Prop :=
  match d with
  | Type0 n values _ => counts n values /\ rest = []
  | Type1 _ _ n values _ => counts n values /\ rest = []
  | Type2 n _ values => counts n values
  end.
(** Which alternative a code selects. *)
Definition axis_kind (d : GridAxisType) : N := match d with FixedSpacing _ _ => 0 | VariableSpacing _ _ _ _ _ _ => 1 end.
Definition grid_kind (d : DataRepresentationType) : N := match d with Type0 _ _ _ => 0 | Type1 _ _ _ _ _ => 1 | Type2 _ _ _ => 2 end.

(** ** Whole PDUs: the wire map of the class, where it ends, and what follows *)
Record pdu_layout := mk_pdu_layout {
  pl_class : pdu_class;
  pl_map : list (entry (pdu pl_class));
  pl_end : nat;
  pl_tail : pdu pl_class -> bytes
}.

Definition ElectromagneticEmissionsPdu_tail (p : pdu ElectromagneticEmissionsPdu) : bytes :=
  each ElectromagneticEmissionSystemData_serialize (ElectromagneticEmissionsPdu_systems p).

Definition UnderwaterAcousticPdu_tail (p : pdu UnderwaterAcousticPdu) : bytes :=
  each ShaftRPMs_serialize (UnderwaterAcousticPdu_shaft_rpms p) ++
  each ApaData_serialize (UnderwaterAcousticPdu_apa_data p) ++
  each AcousticEmitterSystem_serialize (UnderwaterAcousticPdu_emitter_systems p).

Definition IFFPdu_tail (p : pdu IFFPdu) : bytes :=
  each IFFFundamentalParameterData_serialize (IFFPdu_iff_parameters p).

Definition SupplementalEmissionPdu_tail (p : pdu SupplementalEmissionPdu) : bytes :=
  each PropulsionSystemData_serialize (SupplementalEmissionPdu_propulsion_system_data p) ++
  each VectoringNozzleSystemData_serialize (SupplementalEmissionPdu_vectoring_nozzle_system_data p).

Definition EntityStatePdu_tail (p : pdu EntityStatePdu) : bytes :=
  EntityMarking_entity_marking_string (EntityStatePdu_entity_marking p) ++
  coded 4 (EntityStatePdu_entity_capabilities p) ++
  each VariableParameter_serialize (EntityStatePdu_articulation_parameter p).

Definition EntityStateUpdatePdu_tail (p : pdu EntityStateUpdatePdu) : bytes :=
  each VariableParameter_serialize (EntityStateUpdatePdu_variable_parameter_records p).

Definition AttributePdu_tail (p : pdu AttributePdu) : bytes :=
  each AttributeRecordSet_serialize (AttributePdu_attribute_record_sets p).

Definition AggregateStatePdu_tail (p : pdu AggregateStatePdu) : bytes :=
  each AggregateId_serialize (AggregateStatePdu_aggregate_id_list p) ++
  each EntityId_serialize (AggregateStatePdu_entity_id_list p) ++
  each be (AggregateStatePdu_padding p) ++
  each EntityType_serialize (AggregateStatePdu_silent_aggregate_system_list p) ++
  each EntityType_serialize (AggregateStatePdu_silent_entity_system_list p) ++
  be (AggregateStatePdu_number_of_variable_datum_records p) ++
  each VariableDatumRecord_serialize (AggregateStatePdu_variable_datum_list p).

Definition IsGroupOfPdu_tail (p : pdu IsGroupOfPdu) : bytes :=
  each be (IsGroupOfPdu_grouped_entity_descriptions p).

Definition TransferOwnershipPdu_tail {m} (p : pdu (TransferOwnershipPdu m)) : bytes :=
  each element_sent (RecordSpecification_record_sets (TransferOwnershipPdu_record_information p)).

Definition InformationOperationsReportPdu_tail (p : pdu InformationOperationsReportPdu) : bytes :=
  each StandardVariableRecords_serialize (StandardVariableSpecification_standard_variable_records (InformationOperationsReportPdu_io_records p)).

Definition InformationOperationsActionPdu_tail (p : pdu InformationOperationsActionPdu) : bytes :=
  each StandardVariableRecords_serialize (StandardVariableSpecification_standard_variable_records (InformationOperationsActionPdu_io_records p)).

Definition ServiceRequestPdu_tail (p : pdu ServiceRequestPdu) : bytes :=
  each SupplyQuantity_serialize (ServiceRequestPdu_supplies p).

Definition ResupplyOfferPdu_tail (p : pdu ResupplyOfferPdu) : bytes :=
  each SupplyQuantity_serialize (ResupplyOfferPdu_supplies p).

Definition ResupplyReceivedPdu_tail (p : pdu ResupplyReceivedPdu) : bytes :=
  each SupplyQuantity_serialize (ResupplyReceivedPdu_supplies p).

Definition MinefieldStatePdu_tail (p : pdu MinefieldStatePdu) : bytes :=
  each Point_serialize (MinefieldStatePdu_perimeter_points p) ++
  each EntityType_serialize (MinefieldStatePdu_mine_type p).

Definition MinefieldQueryPdu_tail (p : pdu MinefieldQueryPdu) : bytes :=
  each Point_serialize (MinefieldQueryPdu_requested_perimeter_points p) ++
  each (coded 1) (MinefieldQueryPdu_sensor_types p).

Definition MinefieldDataPdu_tail (p : pdu MinefieldDataPdu) : bytes :=
  each (coded 1) (MinefieldDataPdu_sensor_types p) ++
  each EntityCoordinateVector_serialize (MinefieldDataPdu_mine_location p) ++
  each (maybe be) (MinefieldDataPdu_ground_burial_depth_offset p) ++
  each (maybe be) (MinefieldDataPdu_water_burial_depth_offset p) ++
  each (maybe be) (MinefieldDataPdu_snow_burial_depth_offset p) ++
  each (maybe EulerAngles_serialize) (MinefieldDataPdu_mine_orientation p) ++
  each (maybe be) (MinefieldDataPdu_thermal_contrast p) ++
  each (maybe be) (MinefieldDataPdu_reflectance p) ++
  each (maybe ClockTime_serialize) (MinefieldDataPdu_mine_emplacement_time p) ++
  each (maybe be) (MinefieldDataPdu_mine_entity_id p) ++
  each (maybe be) (MinefieldDataPdu_fusing p) ++
  each (maybe be) (MinefieldDataPdu_scalar_detection_coefficient p) ++
  each (maybe be) (MinefieldDataPdu_paint_scheme p) ++
  each (maybe be) (MinefieldDataPdu_number_of_trip_wires p) ++
  each (maybe be) (MinefieldDataPdu_number_of_vertices p) ++
  each (maybe (each EntityCoordinateVector_serialize)) (MinefieldDataPdu_vertices p).

Definition MinefieldResponseNackPdu_tail (p : pdu MinefieldResponseNackPdu) : bytes :=
  each be (MinefieldResponseNackPdu_missing_pdu_sequence_numbers p).

Definition TransmitterPdu_tail (p : pdu TransmitterPdu) : bytes :=
  maybe ModulationParameters_serialize (TransmitterPdu_modulation_parameters p) ++
  maybe AntennaPattern_serialize (TransmitterPdu_antenna_pattern p) ++
  each VariableTransmitterParameters_serialize (TransmitterPdu_variable_transmitter_parameters p).

Definition SignalPdu_tail (p : pdu SignalPdu) : bytes :=
  each be (SignalPdu_data p).

Definition IntercomSignalPdu_tail (p : pdu IntercomSignalPdu) : bytes :=
  each be (IntercomSignalPdu_data p).

Definition IntercomControlPdu_tail (p : pdu IntercomControlPdu) : bytes :=
  each IntercomCommunicationsParameters_serialize (IntercomControlPdu_intercom_parameters p).

Definition ActionRequestPdu_tail (p : pdu ActionRequestPdu) : bytes :=
  each FixedDatumRecord_serialize (ActionRequestPdu_fixed_datum_records p) ++
  each VariableDatumRecord_serialize (ActionRequestPdu_variable_datum_records p).

Definition ActionResponsePdu_tail (p : pdu ActionResponsePdu) : bytes :=
  each FixedDatumRecord_serialize (ActionResponsePdu_fixed_datum_records p) ++
  each VariableDatumRecord_serialize (ActionResponsePdu_variable_datum_records p).

Definition DataQueryPdu_tail (p : pdu DataQueryPdu) : bytes :=
  each FixedDatumRecord_serialize (DataQueryPdu_fixed_datum_records p) ++
  each VariableDatumRecord_serialize (DataQueryPdu_variable_datum_records p).

Definition SetDataPdu_tail (p : pdu SetDataPdu) : bytes :=
  each FixedDatumRecord_serialize (SetDataPdu_fixed_datum_records p) ++
  each VariableDatumRecord_serialize (SetDataPdu_variable_datum_records p).

Definition DataPdu_tail (p : pdu DataPdu) : bytes :=
  each FixedDatumRecord_serialize (DataPdu_fixed_datum_records p) ++
  each VariableDatumRecord_serialize (DataPdu_variable_datum_records p).

Definition EventReportPdu_tail (p : pdu EventReportPdu) : bytes :=
  each FixedDatumRecord_serialize (EventReportPdu_fixed_datum_records p) ++
  each VariableDatumRecord_serialize (EventReportPdu_variable_datum_records p).

Definition CommentPdu_tail (p : pdu CommentPdu) : bytes :=
  each FixedDatumRecord_serialize (CommentPdu_fixed_datum_records p) ++
  each VariableDatumRecord_serialize (CommentPdu_variable_datum_records p).

Definition ActionRequestReliablePdu_tail (p : pdu ActionRequestReliablePdu) : bytes :=
  each FixedDatumRecord_serialize (ActionRequestReliablePdu_fixed_datum_records p) ++
  each VariableDatumRecord_serialize (ActionRequestReliablePdu_variable_datum_records p).

Definition ActionResponseReliablePdu_tail (p : pdu ActionResponseReliablePdu) : bytes :=
  each FixedDatumRecord_serialize (ActionResponseReliablePdu_fixed_datum_records p) ++
  each VariableDatumRecord_serialize (ActionResponseReliablePdu_variable_datum_records p).

Definition DataQueryReliablePdu_tail (p : pdu DataQueryReliablePdu) : bytes :=
  each (coded 4) (DataQueryReliablePdu_fixed_datum_ids p) ++
  each (coded 4) (DataQueryReliablePdu_variable_datum_ids p).

Definition SetDataReliablePdu_tail (p : pdu SetDataReliablePdu) : bytes :=
  each FixedDatumRecord_serialize (SetDataReliablePdu_fixed_datum_records p) ++
  each VariableDatumRecord_serialize (SetDataReliablePdu_variable_datum_records p).

Definition DataReliablePdu_tail (p : pdu DataReliablePdu) : bytes :=
  each FixedDatumRecord_serialize (DataReliablePdu_fixed_datum_records p) ++
  each VariableDatumRecord_serialize (DataReliablePdu_variable_datum_records p).

Definition EventReportReliablePdu_tail (p : pdu EventReportReliablePdu) : bytes :=
  each FixedDatumRecord_serialize (EventReportReliablePdu_fixed_datum_records p) ++
  each VariableDatumRecord_serialize (EventReportReliablePdu_variable_datum_records p).

Definition CommentReliablePdu_tail (p : pdu CommentReliablePdu) : bytes :=
  each FixedDatumRecord_serialize (CommentReliablePdu_fixed_datum_records p) ++
  each VariableDatumRecord_serialize (CommentReliablePdu_variable_datum_records p).

Definition RecordQueryReliablePdu_tail (p : pdu RecordQueryReliablePdu) : bytes :=
  each be (RecordQueryReliablePdu_record_ids p).

Definition SetRecordReliablePdu_tail {m} (p : pdu (SetRecordReliablePdu m)) : bytes :=
  each element_sent (RecordSpecification_record_sets (SetRecordReliablePdu_record_sets p)).

Definition EnvironmentalProcessPdu_tail (p : pdu EnvironmentalProcessPdu) : bytes :=
  each Environment_serialize (EnvironmentalProcessPdu_environment_records p).

Definition GriddedDataPdu_tail (p : pdu GriddedDataPdu) : bytes :=
  each GridAxisDescriptor_serialize (GriddedDataPdu_grid_axis_descriptors p) ++
  each GridDataRecord_serialize (GriddedDataPdu_grid_data_list p).

Definition LinearObjectStatePdu_tail (p : pdu LinearObjectStatePdu) : bytes :=
  each LinearSegmentParameter_serialize (LinearObjectStatePdu_linear_segment_parameters p).

Definition ArealObjectStatePdu_tail (p : pdu ArealObjectStatePdu) : bytes :=
  each WorldCoordinate_serialize (ArealObjectStatePdu_object_location p).

Definition DetonationPdu_tail (p : pdu DetonationPdu) : bytes :=
  each VariableParameter_serialize (DetonationPdu_variable_parameters p).

Definition DirectedEnergyFirePdu_tail (p : pdu DirectedEnergyFirePdu) : bytes :=
  each DirectedEnergyDamage_serialize (DirectedEnergyFirePdu_damage_descriptions p).

Definition EntityDamageStatusPdu_tail (p : pdu EntityDamageStatusPdu) : bytes :=
  each DirectedEnergyDamage_serialize (EntityDamageStatusPdu_damage_descriptions p).

Definition layouts (m : profile) : list pdu_layout := [
  mk_pdu_layout ElectromagneticEmissionsPdu ElectromagneticEmissionsPdu_map 28 ElectromagneticEmissionsPdu_tail;
  mk_pdu_layout DesignatorPdu DesignatorPdu_map 88 (fun _ => []);
  mk_pdu_layout UnderwaterAcousticPdu UnderwaterAcousticPdu_map 32 UnderwaterAcousticPdu_tail;
  mk_pdu_layout IFFPdu IFFPdu_map 88 IFFPdu_tail;
  mk_pdu_layout SupplementalEmissionPdu SupplementalEmissionPdu_map 28 SupplementalEmissionPdu_tail;
  mk_pdu_layout EntityStatePdu EntityStatePdu_map 129 EntityStatePdu_tail;
  mk_pdu_layout CollisionPdu CollisionPdu_map 60 (fun _ => []);
  mk_pdu_layout CollisionElasticPdu CollisionElasticPdu_map 100 (fun _ => []);
  mk_pdu_layout EntityStateUpdatePdu EntityStateUpdatePdu_map 72 EntityStateUpdatePdu_tail;
  mk_pdu_layout AttributePdu AttributePdu_map 32 AttributePdu_tail;
  mk_pdu_layout AggregateStatePdu AggregateStatePdu_map 132 AggregateStatePdu_tail;
  mk_pdu_layout IsGroupOfPdu IsGroupOfPdu_map 40 IsGroupOfPdu_tail;
  mk_pdu_layout (TransferOwnershipPdu m) (TransferOwnershipPdu_map m) 40 TransferOwnershipPdu_tail;
  mk_pdu_layout IsPartOfPdu IsPartOfPdu_map 52 (fun _ => []);
  mk_pdu_layout InformationOperationsReportPdu InformationOperationsReportPdu_map 40 InformationOperationsReportPdu_tail;
  mk_pdu_layout InformationOperationsActionPdu InformationOperationsActionPdu_map 56 InformationOperationsActionPdu_tail;
  mk_pdu_layout ServiceRequestPdu ServiceRequestPdu_map 28 ServiceRequestPdu_tail;
  mk_pdu_layout ResupplyOfferPdu ResupplyOfferPdu_map 28 ResupplyOfferPdu_tail;
  mk_pdu_layout ResupplyReceivedPdu ResupplyReceivedPdu_map 28 ResupplyReceivedPdu_tail;
  mk_pdu_layout ResupplyCancelPdu ResupplyCancelPdu_map 24 (fun _ => []);
  mk_pdu_layout RepairCompletePdu RepairCompletePdu_map 28 (fun _ => []);
  mk_pdu_layout RepairResponsePdu RepairResponsePdu_map 28 (fun _ => []);
  mk_pdu_layout MinefieldStatePdu MinefieldStatePdu_map 72 MinefieldStatePdu_tail;
  mk_pdu_layout MinefieldQueryPdu MinefieldQueryPdu_map 40 MinefieldQueryPdu_tail;
  mk_pdu_layout MinefieldDataPdu MinefieldDataPdu_map 44 MinefieldDataPdu_tail;
  mk_pdu_layout MinefieldResponseNackPdu MinefieldResponseNackPdu_map 26 MinefieldResponseNackPdu_tail;
  mk_pdu_layout TransmitterPdu TransmitterPdu_map 104 TransmitterPdu_tail;
  mk_pdu_layout SignalPdu SignalPdu_map 32 SignalPdu_tail;
  mk_pdu_layout ReceiverPdu ReceiverPdu_map 36 (fun _ => []);
  mk_pdu_layout IntercomSignalPdu IntercomSignalPdu_map 32 IntercomSignalPdu_tail;
  mk_pdu_layout IntercomControlPdu IntercomControlPdu_map 40 IntercomControlPdu_tail;
  mk_pdu_layout CreateEntityPdu CreateEntityPdu_map 28 (fun _ => []);
  mk_pdu_layout RemoveEntityPdu RemoveEntityPdu_map 28 (fun _ => []);
  mk_pdu_layout StartResumePdu StartResumePdu_map 44 (fun _ => []);
  mk_pdu_layout StopFreezePdu StopFreezePdu_map 40 (fun _ => []);
  mk_pdu_layout AcknowledgePdu AcknowledgePdu_map 32 (fun _ => []);
  mk_pdu_layout ActionRequestPdu ActionRequestPdu_map 40 ActionRequestPdu_tail;
  mk_pdu_layout ActionResponsePdu ActionResponsePdu_map 40 ActionResponsePdu_tail;
  mk_pdu_layout DataQueryPdu DataQueryPdu_map 40 DataQueryPdu_tail;
  mk_pdu_layout SetDataPdu SetDataPdu_map 40 SetDataPdu_tail;
  mk_pdu_layout DataPdu DataPdu_map 40 DataPdu_tail;
  mk_pdu_layout EventReportPdu EventReportPdu_map 40 EventReportPdu_tail;
  mk_pdu_layout CommentPdu CommentPdu_map 32 CommentPdu_tail;
  mk_pdu_layout CreateEntityReliablePdu CreateEntityReliablePdu_map 32 (fun _ => []);
  mk_pdu_layout RemoveEntityReliablePdu RemoveEntityReliablePdu_map 32 (fun _ => []);
  mk_pdu_layout StartResumeReliablePdu StartResumeReliablePdu_map 48 (fun _ => []);
  mk_pdu_layout StopFreezeReliablePdu StopFreezeReliablePdu_map 40 (fun _ => []);
  mk_pdu_layout AcknowledgeReliablePdu AcknowledgeReliablePdu_map 32 (fun _ => []);
  mk_pdu_layout ActionRequestReliablePdu ActionRequestReliablePdu_map 48 ActionRequestReliablePdu_tail;
  mk_pdu_layout ActionResponseReliablePdu ActionResponseReliablePdu_map 40 ActionResponseReliablePdu_tail;
  mk_pdu_layout DataQueryReliablePdu DataQueryReliablePdu_map 44 DataQueryReliablePdu_tail;
  mk_pdu_layout SetDataReliablePdu SetDataReliablePdu_map 40 SetDataReliablePdu_tail;
  mk_pdu_layout DataReliablePdu DataReliablePdu_map 40 DataReliablePdu_tail;
  mk_pdu_layout EventReportReliablePdu EventReportReliablePdu_map 40 EventReportReliablePdu_tail;
  mk_pdu_layout CommentReliablePdu CommentReliablePdu_map 32 CommentReliablePdu_tail;
  mk_pdu_layout RecordQueryReliablePdu RecordQueryReliablePdu_map 40 RecordQueryReliablePdu_tail;
  mk_pdu_layout (SetRecordReliablePdu m) (SetRecordReliablePdu_map m) 40 SetRecordReliablePdu_tail;
  mk_pdu_layout EnvironmentalProcessPdu EnvironmentalProcessPdu_map 32 EnvironmentalProcessPdu_tail;
  mk_pdu_layout GriddedDataPdu GriddedDataPdu_map 64 GriddedDataPdu_tail;
  mk_pdu_layout PointObjectStatePdu PointObjectStatePdu_map 88 (fun _ => []);
  mk_pdu_layout LinearObjectStatePdu LinearObjectStatePdu_map 40 LinearObjectStatePdu_tail;
  mk_pdu_layout ArealObjectStatePdu ArealObjectStatePdu_map 48 ArealObjectStatePdu_tail;
  mk_pdu_layout FirePdu FirePdu_map 96 (fun _ => []);
  mk_pdu_layout DetonationPdu DetonationPdu_map 104 DetonationPdu_tail;
  mk_pdu_layout DirectedEnergyFirePdu DirectedEnergyFirePdu_map 88 DirectedEnergyFirePdu_tail;
  mk_pdu_layout EntityDamageStatusPdu EntityDamageStatusPdu_map 24 EntityDamageStatusPdu_tail].
