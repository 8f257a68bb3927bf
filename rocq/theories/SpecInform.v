(** * Which PDUs does a datagram determine? Vocabulary for C56 (specification only). *)
From Verif Require Import Base EnumModel Enums Header PduMacro DataTypes Bitflags Pdus PduFields Spec Wire SpecDatum.

(** Two successful [serialize] calls on PDUs of class [c] satisfying [honest] that append the
    same bytes leave the same PDU behind: no two different PDUs share a datagram. *)
Definition datagram_determines (c : pdu_class) (honest : pdu c -> Prop) : Prop :=
  forall (p q p' q' : pdu c) (buf1 buf2 out : bytes), honest p -> honest q ->
  serialize c p buf1 = Ok (ROk tt, p', buf1 ++ out) ->
  serialize c q buf2 = Ok (ROk tt, q', buf2 ++ out) -> p' = q'.

(** [pad] bytes of padding bring [used] bytes to the next multiple of [a]. *)
Definition aligns (a used pad : nat) : Prop := (pad < a /\ (used + pad) mod a = 0)%nat.

(** A variable datum holding exactly the bytes of its declared bit length. *)
Definition datum_exact (d : VariableDatumRecord) : Prop :=
  N.of_nat (length (VariableDatumRecord_value d)) = datum_bytes (uval (VariableDatumRecord_length_bits d)).

(** A grid axis whose type agrees with its data, with counted values padded to 64 bits. *)
Definition axis_honest (v : GridAxisDescriptor) : Prop :=
  match GridAxisDescriptor_data v with
  | FixedSpacing _ _ => code (GridAxisDescriptor_axis_type v) = 0
  | VariableSpacing n _ _ _ xs pad =>
      code (GridAxisDescriptor_axis_type v) <> 0 /\ counts n xs /\ aligns 8 (2 * length xs) (length pad)
  end.
(** A grid data record whose representation agrees with its data, with counted values padded
    to 32 bits. *)
Definition grid_data_honest (v : GridDataRecord) : Prop :=
  match GridDataRecord_data v with
  | Type0 n d pad => code (GridDataRecord_data_representation v) = 0 /\ counts n d /\ aligns 4 (2 + length d) (length pad)
  | Type1 _ _ n d pad => code (GridDataRecord_data_representation v) = 1 /\ counts n d /\ aligns 4 (2 + 2 * length d) (length pad)
  | Type2 n _ d => code (GridDataRecord_data_representation v) = 2 /\ counts n d
  end.
Definition transmitter_parameter_counted (v : VariableTransmitterParameters) : Prop :=
  counts (VariableTransmitterParameters_record_length v) (VariableTransmitterParameters_record_specific_fields v).
(** The reference number, which is not written, is zero. *)
Definition no_reference (v : SimulationIdentifier) : Prop := uval (SimulationIdentifier_reference_number v) = 0.
(** One entry per mine, none missing. *)
Definition per_mine {A} (n : u8) (l : list (option A)) : Prop := counts n l /\ Forall (fun x => x <> None) l.
Definition vertices_counted {A} (n : option u8) (l : option (list A)) : Prop :=
  match n, l with Some n, Some l => counts n l | _, _ => False end.

(** Conditions under which the datagram determines the PDU, for the classes that need one:
    the count fields of all lists but the last are right, padding is canonical, and fields
    that are not written hold zero. *)
Definition condition := { c : pdu_class & pdu c -> Prop }.
Definition when (c : pdu_class) (f : pdu c -> Prop) : condition := existT _ c f.
Definition conditions (m : profile) : list condition := [
  when ElectromagneticEmissionsPdu (fun p => Forall counted_EmissionSystemData (ElectromagneticEmissionsPdu_systems p));
  when UnderwaterAcousticPdu (fun p =>
    counts (UnderwaterAcousticPdu_number_of_shafts p) (UnderwaterAcousticPdu_shaft_rpms p) /\
    counts (UnderwaterAcousticPdu_number_of_apas p) (UnderwaterAcousticPdu_apa_data p));
  when SupplementalEmissionPdu (fun p =>
    counts (SupplementalEmissionPdu_number_of_propulsion_systems p) (SupplementalEmissionPdu_propulsion_system_data p));
  when EntityStatePdu (fun p =>
    length (EntityMarking_entity_marking_string (EntityStatePdu_entity_marking p)) = 11%nat /\
    elems (DeadReckoningParameters_dead_reckoning_other_parameters (EntityStatePdu_dead_reckoning_parameters p)) = repeat (B 0) 15);
  when AttributePdu (fun p => Forall counted_AttributeRecordSet (AttributePdu_attribute_record_sets p));
  when AggregateStatePdu (fun p =>
    counts (AggregateStatePdu_number_of_dis_aggregates p) (AggregateStatePdu_aggregate_id_list p) /\
    counts (AggregateStatePdu_number_of_dis_entities p) (AggregateStatePdu_entity_id_list p) /\
    aligns 4 (6 * length (AggregateStatePdu_aggregate_id_list p) + 6 * length (AggregateStatePdu_entity_id_list p))
             (length (AggregateStatePdu_padding p)) /\
    counts (AggregateStatePdu_number_of_silent_aggregate_types p) (AggregateStatePdu_silent_aggregate_system_list p) /\
    counts (AggregateStatePdu_number_of_silent_entity_types p) (AggregateStatePdu_silent_entity_system_list p) /\
    Forall datum_exact (AggregateStatePdu_variable_datum_list p));
  when (TransferOwnershipPdu m) (fun p : pdu (TransferOwnershipPdu m) =>
    no_reference (TransferOwnershipPdu_originating_id p) /\ no_reference (TransferOwnershipPdu_receiving_id p) /\
    specification_exact m (TransferOwnershipPdu_record_information p));
  when InformationOperationsActionPdu (fun p =>
    no_reference (InformationOperationsActionPdu_originating_simulation_id p) /\
    no_reference (InformationOperationsActionPdu_receiving_simulation_id p) /\
    counted_StandardVariableSpecification (InformationOperationsActionPdu_io_records p));
  when InformationOperationsReportPdu (fun p =>
    no_reference (InformationOperationsReportPdu_originating_simulation_id p) /\
    counted_StandardVariableSpecification (InformationOperationsReportPdu_io_records p));
  when MinefieldStatePdu (fun p => counts (MinefieldStatePdu_number_of_perimeter_points p) (MinefieldStatePdu_perimeter_points p));
  when MinefieldQueryPdu (fun p => counts (MinefieldQueryPdu_number_of_perimeter_points p) (MinefieldQueryPdu_requested_perimeter_points p));
  when MinefieldDataPdu (fun p =>
    let n := MinefieldDataPdu_number_of_mines_in_this_pdu p in
    counts (MinefieldDataPdu_number_of_sensor_types p) (MinefieldDataPdu_sensor_types p) /\
    counts n (MinefieldDataPdu_mine_location p) /\
    per_mine n (MinefieldDataPdu_ground_burial_depth_offset p) /\
    per_mine n (MinefieldDataPdu_water_burial_depth_offset p) /\
    per_mine n (MinefieldDataPdu_snow_burial_depth_offset p) /\
    per_mine n (MinefieldDataPdu_mine_orientation p) /\
    per_mine n (MinefieldDataPdu_thermal_contrast p) /\
    per_mine n (MinefieldDataPdu_reflectance p) /\
    per_mine n (MinefieldDataPdu_mine_emplacement_time p) /\
    per_mine n (MinefieldDataPdu_mine_entity_id p) /\
    per_mine n (MinefieldDataPdu_fusing p) /\
    per_mine n (MinefieldDataPdu_scalar_detection_coefficient p) /\
    per_mine n (MinefieldDataPdu_paint_scheme p) /\
    per_mine n (MinefieldDataPdu_number_of_trip_wires p) /\
    per_mine n (MinefieldDataPdu_number_of_vertices p) /\
    Forall2 vertices_counted (MinefieldDataPdu_number_of_vertices p) (MinefieldDataPdu_vertices p));
  when TransmitterPdu (fun p =>
    match TransmitterPdu_modulation_parameters p with
    | None => True
    | Some x => (1 <= length (ModulationParameters_record_specific_fields x) <= 255)%nat
    end /\
    match TransmitterPdu_antenna_pattern p with
    | None => uval (TransmitterPdu_antenna_pattern_length p) = 0
    | Some x => uval (TransmitterPdu_antenna_pattern_length p) <> 0 /\
                counts (TransmitterPdu_antenna_pattern_length p) (AntennaPattern_record_specific_fields x)
    end /\
    Forall transmitter_parameter_counted (TransmitterPdu_variable_transmitter_parameters p));
  when ActionRequestPdu (fun p => counts (ActionRequestPdu_number_of_fixed_datum_records p) (ActionRequestPdu_fixed_datum_records p) /\
    Forall datum_exact (ActionRequestPdu_variable_datum_records p));
  when ActionResponsePdu (fun p => counts (ActionResponsePdu_number_of_fixed_datum_records p) (ActionResponsePdu_fixed_datum_records p) /\
    Forall datum_exact (ActionResponsePdu_variable_datum_records p));
  when DataQueryPdu (fun p => counts (DataQueryPdu_number_of_fixed_datum_records p) (DataQueryPdu_fixed_datum_records p) /\
    Forall datum_exact (DataQueryPdu_variable_datum_records p));
  when SetDataPdu (fun p => counts (SetDataPdu_number_of_fixed_datum_records p) (SetDataPdu_fixed_datum_records p) /\
    Forall datum_exact (SetDataPdu_variable_datum_records p));
  when DataPdu (fun p => counts (DataPdu_number_of_fixed_datum_records p) (DataPdu_fixed_datum_records p) /\
    Forall datum_exact (DataPdu_variable_datum_records p));
  when EventReportPdu (fun p => counts (EventReportPdu_number_of_fixed_datum_records p) (EventReportPdu_fixed_datum_records p) /\
    Forall datum_exact (EventReportPdu_variable_datum_records p));
  when CommentPdu (fun p => counts (CommentPdu_number_of_fixed_datum_records p) (CommentPdu_fixed_datum_records p) /\
    Forall datum_exact (CommentPdu_variable_datum_records p));
  when ActionRequestReliablePdu (fun p =>
    counts (ActionRequestReliablePdu_number_of_fixed_datum_records p) (ActionRequestReliablePdu_fixed_datum_records p) /\
    Forall datum_exact (ActionRequestReliablePdu_variable_datum_records p));
  when ActionResponseReliablePdu (fun p =>
    counts (ActionResponseReliablePdu_number_of_fixed_datum_records p) (ActionResponseReliablePdu_fixed_datum_records p) /\
    Forall datum_exact (ActionResponseReliablePdu_variable_datum_records p));
  when DataQueryReliablePdu (fun p =>
    counts (DataQueryReliablePdu_number_of_fixed_datum_records p) (DataQueryReliablePdu_fixed_datum_ids p));
  when SetDataReliablePdu (fun p =>
    counts (SetDataReliablePdu_number_of_fixed_datum_records p) (SetDataReliablePdu_fixed_datum_records p) /\
    Forall datum_exact (SetDataReliablePdu_variable_datum_records p));
  when DataReliablePdu (fun p =>
    counts (DataReliablePdu_number_of_fixed_datum_records p) (DataReliablePdu_fixed_datum_records p) /\
    Forall datum_exact (DataReliablePdu_variable_datum_records p));
  when EventReportReliablePdu (fun p =>
    counts (EventReportReliablePdu_number_of_fixed_datum_records p) (EventReportReliablePdu_fixed_datum_records p) /\
    Forall datum_exact (EventReportReliablePdu_variable_datum_records p));
  when CommentReliablePdu (fun p =>
    counts (CommentReliablePdu_number_of_fixed_datum_records p) (CommentReliablePdu_fixed_datum_records p) /\
    Forall datum_exact (CommentReliablePdu_variable_datum_records p));
  when (SetRecordReliablePdu m) (fun p : pdu (SetRecordReliablePdu m) => specification_exact m (SetRecordReliablePdu_record_sets p));
  when GriddedDataPdu (fun p =>
    counts (GriddedDataPdu_number_of_grid_axes p) (GriddedDataPdu_grid_axis_descriptors p) /\
    Forall axis_honest (GriddedDataPdu_grid_axis_descriptors p) /\ Forall grid_data_honest (GriddedDataPdu_grid_data_list p))].
(** Names of the classes in the table. *)
Definition conditional_pdus : list string := map (fun k => cls_name (projT1 k)) (conditions Checked).
