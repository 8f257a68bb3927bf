(** * Constructors of the record types (C50).
    The list of conjuncts in [C50_arguments_on_wire] is generated by tools/gen_new.py from
    the parameter lists of the Rust functions: the claim is that the arguments appear on the
    wire in the order in which they are passed. *)
From Verif Require Import Base BaseFacts EnumModel Enums EnumFacts Fixed Header PduMacro DataTypes DataTypesFacts Spec Wire WireProofs RecordFacts DatumFacts Constructors.
(** Byte strings are spelled with [big_endian] ([Wire]).  *)

(** ** Specification vocabulary *)
(** The axis-dependent tail of a grid axis record and the data of a grid record. *)
Definition axis_wire (d : GridAxisType) : bytes :=
  match d with
  | FixedSpacing n i => big_endian 2 (uval n) ++ big_endian 2 (uval i)
  | VariableSpacing n i s o xs pad =>
      big_endian 2 (uval n) ++ big_endian 2 (uval i) ++ big_endian 8 (uval s) ++ big_endian 8 (uval o) ++
      flat_map (fun x => big_endian 2 (uval x)) xs ++ flat_map (fun x => big_endian 1 (uval x)) pad
  end.
Definition grid_wire (d : DataRepresentationType) : bytes :=
  match d with
  | Type0 n d p => big_endian 2 (uval n) ++ flat_map (fun x => big_endian 1 (uval x)) d ++ flat_map (fun x => big_endian 1 (uval x)) p
  | Type1 s o n d p => big_endian 4 (uval s) ++ big_endian 4 (uval o) ++ big_endian 2 (uval n) ++
      flat_map (fun x => big_endian 2 (uval x)) d ++ flat_map (fun x => big_endian 1 (uval x)) p
  | Type2 n p d => big_endian 2 (uval n) ++ big_endian 2 (uval p) ++ flat_map (fun x => big_endian 4 (uval x)) d
  end.

(** ** Proofs *)
Lemma be_encode_app k : forall n, be_encode (S k) n = be_encode k (n / 256) ++ [as_u8 n].
Proof.
  induction k as [|k IH]; intros n; [cbn; now rewrite N.div_1_r|].
  change (be_encode (S (S k)) n) with (as_u8 (n / 256 ^ N.of_nat (S k)) :: be_encode (S k) n). rewrite IH.
  cbn [be_encode app]. f_equal. f_equal. rewrite N.div_div by (try discriminate; apply N.pow_nonzero; discriminate).
  rewrite Nat2N.inj_succ, N.pow_succ_r'. reflexivity.
Qed.
Lemma B_mod n : B (n mod 256) = as_u8 n.
Proof. apply uint_eq. unfold B, as_u8, as_uint. cbn [uval]. change (256 ^ N.of_nat 1) with 256. apply N.mod_mod. discriminate. Qed.
Lemma be_encode_mod k : forall n, be_encode k (n mod 256 ^ N.of_nat k) = be_encode k n.
Proof.
  induction k as [|k IH]; intros n; [reflexivity|]. rewrite !be_encode_app.
  assert (P : 256 ^ N.of_nat k <> 0) by (apply N.pow_nonzero; discriminate).
  rewrite Nat2N.inj_succ, N.pow_succ_r'. rewrite N.mod_mul_r by (assumption || discriminate).
  assert (D : (n mod 256 + 256 * ((n / 256) mod 256 ^ N.of_nat k)) / 256 = (n / 256) mod 256 ^ N.of_nat k).
  { rewrite N.add_comm, N.mul_comm, N.div_add_l by discriminate. rewrite (N.div_small (n mod 256)) by (apply N.mod_lt; discriminate). apply N.add_0_r. }
  rewrite D, IH. f_equal. f_equal. rewrite <- (B_mod n). rewrite <- (B_mod (_ + _)). f_equal.
  rewrite N.mul_comm, N.mod_add by discriminate. apply N.mod_mod. discriminate.
Qed.
Lemma put_bytes k (u : uint k) : put_uint u = big_endian k (uval u).
Proof. symmetry. apply big_endian_eq. Qed.
Lemma put_code_bytes k n : put_uint (as_uint k n) = big_endian k n.
Proof. rewrite big_endian_eq. unfold put_uint, as_uint. cbn [uval]. apply be_encode_mod. Qed.
Lemma concat_put_bytes k (l : list (uint k)) : List.concat (map put_uint l) = flat_map (fun x => big_endian k (uval x)) l.
Proof. rewrite flat_map_concat_map. f_equal. apply map_ext. intros. apply put_bytes. Qed.
Lemma raw_bytes (l : bytes) : List.concat (map put_u8 l) = l.
Proof. apply concat_put_u8. Qed.
Ltac wire_eq := rewrite <- ?concat_put_bytes; rewrite <- ?put_bytes; rewrite <- ?put_code_bytes;
  first [reflexivity
    | unfold EntityId_serialize, EntityId_new, EventId_serialize, EventId_new, SimulationAddress_serialize; rewrite <- app_assoc; reflexivity].
Ltac wires := intros; cbv [axis_wire grid_wire];
  try (match goal with d : GridAxisType |- _ => destruct d | d : DataRepresentationType |- _ => destruct d end);
  first [wire_eq | match goal with x : list u8 |- _ => rewrite <- (raw_bytes x) at 2 end; wire_eq].

(** ** C50: what is passed to a constructor is what is sent. *)
Theorem C50_arguments_on_wire :
  (forall (active_emission_parameter_index : u16) (scan_pattern : u16) (beam_center_azimuth : f32) (azimuthal_beamwidth : f32) (beam_center_de : f32) (de_beamwidth : f32),
    AcousticBeamFundamentalParameter_serialize (AcousticBeamFundamentalParameter_new active_emission_parameter_index scan_pattern beam_center_azimuth azimuthal_beamwidth beam_center_de de_beamwidth) =
    big_endian 2 (uval active_emission_parameter_index) ++ big_endian 2 (uval scan_pattern) ++ big_endian 4 (uval beam_center_azimuth) ++ big_endian 4 (uval azimuthal_beamwidth) ++ big_endian 4 (uval beam_center_de) ++ big_endian 4 (uval de_beamwidth)) /\
  (forall (beam_data_length : u16) (beam_id_number : u8) (pad2 : u16) (fundamental_data_parameters : AcousticBeamFundamentalParameter),
    AcousticBeamData_serialize (AcousticBeamData_new beam_data_length beam_id_number pad2 fundamental_data_parameters) =
    big_endian 2 (uval beam_data_length) ++ big_endian 1 (uval beam_id_number) ++ big_endian 2 (uval pad2) ++ AcousticBeamFundamentalParameter_serialize fundamental_data_parameters) /\
  (forall (acoustic_name : enum UAAcousticSystemName_spec) (acoustic_function : enum UAAcousticEmitterSystemFunction_spec) (acoustic_id : u8),
    AcousticEmitterSystem_serialize (AcousticEmitterSystem_new acoustic_name acoustic_function acoustic_id) =
    big_endian 2 (code acoustic_name) ++ big_endian 1 (code acoustic_function) ++ big_endian 1 (uval acoustic_id)) /\
  (forall (x : f32) (y : f32) (z : f32),
    Vector3Float_serialize (Vector3Float_new x y z) =
    big_endian 4 (uval x) ++ big_endian 4 (uval y) ++ big_endian 4 (uval z)) /\
  (forall (emitter_system_data_length : u8) (number_of_beams : u8) (pad2 : u16) (acoustic_emitter_system : AcousticEmitterSystem) (emitter_location : Vector3Float) (beam_records : list AcousticBeamData),
    AcousticEmitterSystemData_serialize (AcousticEmitterSystemData_new emitter_system_data_length number_of_beams pad2 acoustic_emitter_system emitter_location beam_records) =
    big_endian 1 (uval emitter_system_data_length) ++ big_endian 1 (uval number_of_beams) ++ big_endian 2 (uval pad2) ++ AcousticEmitterSystem_serialize acoustic_emitter_system ++ Vector3Float_serialize emitter_location ++ List.concat (map AcousticBeamData_serialize beam_records)) /\
  (forall (site : u16) (application : u16) (aggregate_id : u16),
    AggregateId_serialize (AggregateId_new site application aggregate_id) =
    big_endian 2 (uval site) ++ big_endian 2 (uval application) ++ big_endian 2 (uval aggregate_id)) /\
  (forall (character_set : u8) (characters : array i8 31),
    AggregateMarking_serialize (AggregateMarking_new character_set characters) =
    big_endian 1 (uval character_set) ++ flat_map (fun x => big_endian 1 (uval x)) (elems characters)) /\
  (forall (parameter_index : u16) (parameter_value : i16),
    ApaData_serialize (ApaData_new parameter_index parameter_value) =
    big_endian 2 (uval parameter_index) ++ big_endian 2 (uval parameter_value)) /\
  (forall (site_id : u16) (application_id : u16),
    SimulationAddress_serialize (SimulationAddress_new site_id application_id) =
    big_endian 2 (uval site_id) ++ big_endian 2 (uval application_id)) /\
  (forall (site_id : u16) (application_id : u16) (entity_id : u16),
    EntityId_serialize (EntityId_new site_id application_id entity_id) =
    big_endian 2 (uval site_id) ++ big_endian 2 (uval application_id) ++ big_endian 2 (uval entity_id)) /\
  (forall (beam_azimuth_center : f32) (beam_azimuth_sweep : f32) (beam_elevation_center : f32) (beam_elevation_sweep : f32) (beam_sweep_sync : f32),
    BeamData_serialize (BeamData_new beam_azimuth_center beam_azimuth_sweep beam_elevation_center beam_elevation_sweep beam_sweep_sync) =
    big_endian 4 (uval beam_azimuth_center) ++ big_endian 4 (uval beam_azimuth_sweep) ++ big_endian 4 (uval beam_elevation_center) ++ big_endian 4 (uval beam_elevation_sweep) ++ big_endian 4 (uval beam_sweep_sync)) /\
  (forall (h : u32) (p : u32),
    ClockTime_serialize (ClockTime_new h p) =
    big_endian 4 (uval h) ++ big_endian 4 (uval p)) /\
  (forall (x : f32) (y : f32) (z : f32),
    LinearAcceleration_serialize (LinearAcceleration_new x y z) =
    big_endian 4 (uval x) ++ big_endian 4 (uval y) ++ big_endian 4 (uval z)) /\
  (forall (dead_reckoning_algorithm : enum DeadReckoningAlgorithm_spec) (entity_linear_acceleration : LinearAcceleration) (entity_angular_velocity : AngularVelocity),
    DeadReckoningParameters_serialize (DeadReckoningParameters_new dead_reckoning_algorithm entity_linear_acceleration entity_angular_velocity) =
    big_endian 1 (code dead_reckoning_algorithm) ++ big_endian 15 0 ++ LinearAcceleration_serialize entity_linear_acceleration ++ AngularVelocity_serialize entity_angular_velocity) /\
  (forall (x : f32) (y : f32) (z : f32),
    EntityCoordinateVector_serialize (EntityCoordinateVector_new x y z) =
    big_endian 4 (uval x) ++ big_endian 4 (uval y) ++ big_endian 4 (uval z)) /\
  (forall (site_identifier : u16) (application_identifier : u16) (event_identifier : u16),
    EventId_serialize (EventId_new site_identifier application_identifier event_identifier) =
    big_endian 2 (uval site_identifier) ++ big_endian 2 (uval application_identifier) ++ big_endian 2 (uval event_identifier)) /\
  (forall (record_type : u32) (record_length : u16) (damage_location : EntityCoordinateVector) (damage_diameter : f32) (temperature : f32) (component_identification : enum ComponentIdentification_spec) (component_damage_status : enum ComponentDamageStatus_spec) (component_visual_damage_status : u8) (component_visual_smoke_color : enum ComponentVisualSmokeColor_spec) (fire_event_id : EventId),
    DirectedEnergyDamage_serialize (DirectedEnergyDamage_new record_type record_length damage_location damage_diameter temperature component_identification component_damage_status component_visual_damage_status component_visual_smoke_color fire_event_id) =
    big_endian 4 (uval record_type) ++ big_endian 2 (uval record_length) ++ big_endian 2 0 ++ EntityCoordinateVector_serialize damage_location ++ big_endian 4 (uval damage_diameter) ++ big_endian 4 (uval temperature) ++ big_endian 1 (code component_identification) ++ big_endian 1 (code component_damage_status) ++ big_endian 1 (uval component_visual_damage_status) ++ big_endian 1 (code component_visual_smoke_color) ++ EventId_serialize fire_event_id ++ big_endian 2 0) /\
  (forall (name : enum EmitterName_spec) (function : enum EmitterSystemFunction_spec) (id : u8),
    EmitterSystem_serialize (EmitterSystem_new name function id) =
    big_endian 2 (code name) ++ big_endian 1 (code function) ++ big_endian 1 (uval id)) /\
  (forall (entity_marking_character_set : enum EntityMarkingCharacterSet_spec) (entity_marking_string : bytes),
    EntityMarking_serialize (EntityMarking_new entity_marking_character_set entity_marking_string) =
    big_endian 1 (code entity_marking_character_set) ++ entity_marking_string) /\
  (forall (kind : enum EntityKind_spec) (domain : u8) (country : enum Country_spec) (category : u8) (subcategory : u8) (specific : u8) (extra : u8),
    EntityType_serialize (EntityType_new kind domain country category subcategory specific extra) =
    big_endian 1 (code kind) ++ big_endian 1 (uval domain) ++ big_endian 2 (code country) ++ big_endian 1 (uval category) ++ big_endian 1 (uval subcategory) ++ big_endian 1 (uval specific) ++ big_endian 1 (uval extra)) /\
  (forall (environment_type : u32) (length : u16) (index : u8) (padding : u8),
    Environment_serialize (Environment_new environment_type length index padding) =
    big_endian 4 (uval environment_type) ++ big_endian 2 (uval length) ++ big_endian 1 (uval index) ++ big_endian 1 (uval padding)) /\
  (forall (psi : f32) (theta : f32) (phi : f32),
    EulerAngles_serialize (EulerAngles_new psi theta phi) =
    big_endian 4 (uval psi) ++ big_endian 4 (uval theta) ++ big_endian 4 (uval phi)) /\
  (forall (system_status : u8) (data_field1 : u8) (information_layers : u8) (data_field2 : u8) (parameter1 : u16) (parameter2 : u16) (parameter3 : u16) (parameter4 : u16) (parameter5 : u16) (parameter6 : u16),
    FundamentalOperationalData_serialize (FundamentalOperationalData_new system_status data_field1 information_layers data_field2 parameter1 parameter2 parameter3 parameter4 parameter5 parameter6) =
    big_endian 1 (uval system_status) ++ big_endian 1 (uval data_field1) ++ big_endian 1 (uval information_layers) ++ big_endian 1 (uval data_field2) ++ big_endian 2 (uval parameter1) ++ big_endian 2 (uval parameter2) ++ big_endian 2 (uval parameter3) ++ big_endian 2 (uval parameter4) ++ big_endian 2 (uval parameter5) ++ big_endian 2 (uval parameter6)) /\
  (forall (domain_initial : f64) (domain_final : f64) (domain_points : u16) (interleaf_factor : u8) (axis_type : enum GridAxisDescriptorAxisType_spec) (data : GridAxisType),
    GridAxisDescriptor_serialize (GridAxisDescriptor_new domain_initial domain_final domain_points interleaf_factor axis_type data) =
    big_endian 8 (uval domain_initial) ++ big_endian 8 (uval domain_final) ++ big_endian 2 (uval domain_points) ++ big_endian 1 (uval interleaf_factor) ++ big_endian 1 (code axis_type) ++ axis_wire data) /\
  (forall (sample_type : enum GriddedDataSampleType_spec) (data_representation : enum GriddedDataDataRepresentation_spec) (data : DataRepresentationType),
    GridDataRecord_serialize (GridDataRecord_new sample_type data_representation data) =
    big_endian 2 (code sample_type) ++ big_endian 2 (code data_representation) ++ grid_wire data) /\
  (forall (erp : f32) (frequency : f32) (pgrf : f32) (pulse_width : f32) (burst_length : u32) (applicable_modes : u8) (system_specific_data : array u8 3),
    IFFFundamentalParameterData_serialize (IFFFundamentalParameterData_new erp frequency pgrf pulse_width burst_length applicable_modes system_specific_data) =
    big_endian 4 (uval erp) ++ big_endian 4 (uval frequency) ++ big_endian 4 (uval pgrf) ++ big_endian 4 (uval pulse_width) ++ big_endian 4 (uval burst_length) ++ big_endian 1 (uval applicable_modes) ++ flat_map (fun x => big_endian 1 (uval x)) (elems system_specific_data)) /\
  (forall (record_type : u16) (record_length : u16) (record_specific_field : u32),
    IntercomCommunicationsParameters_serialize (IntercomCommunicationsParameters_new record_type record_length record_specific_field) =
    big_endian 2 (uval record_type) ++ big_endian 2 (uval record_length) ++ big_endian 4 (uval record_specific_field)) /\
  (forall (layer_number : u8) (layer_specific_information : u8) (length : u16),
    LayerHeader_serialize (LayerHeader_new layer_number layer_specific_information length) =
    big_endian 1 (uval layer_number) ++ big_endian 1 (uval layer_specific_information) ++ big_endian 2 (uval length)) /\
  (forall (x : f64) (y : f64) (z : f64),
    WorldCoordinate_serialize (WorldCoordinate_new x y z) =
    big_endian 8 (uval x) ++ big_endian 8 (uval y) ++ big_endian 8 (uval z)) /\
  (forall (segment_number : u8) (segment_modification : u8) (general_segment_appearance : u32) (specific_segment_appearance : u32) (segment_location : WorldCoordinate) (segment_orientation : EulerAngles) (segment_length : f32) (segment_width : f32) (segment_height : f32) (segment_depth : f32),
    LinearSegmentParameter_serialize (LinearSegmentParameter_new segment_number segment_modification general_segment_appearance specific_segment_appearance segment_location segment_orientation segment_length segment_width segment_height segment_depth) =
    big_endian 1 (uval segment_number) ++ big_endian 1 (uval segment_modification) ++ big_endian 4 (uval general_segment_appearance) ++ big_endian 4 (uval specific_segment_appearance) ++ WorldCoordinate_serialize segment_location ++ EulerAngles_serialize segment_orientation ++ big_endian 4 (uval segment_length) ++ big_endian 4 (uval segment_width) ++ big_endian 4 (uval segment_height) ++ big_endian 4 (uval segment_depth) ++ big_endian 4 0) /\
  (forall (x : f32) (y : f32) (z : f32),
    LinearVelocity_serialize (LinearVelocity_new x y z) =
    big_endian 4 (uval x) ++ big_endian 4 (uval y) ++ big_endian 4 (uval z)) /\
  (forall (simulation_address : SimulationAddress) (minefield_number : u16),
    MinefieldIdentifier_serialize (MinefieldIdentifier_new simulation_address minefield_number) =
    SimulationAddress_serialize simulation_address ++ big_endian 2 (uval minefield_number)) /\
  (forall (spread_spectrum : u16) (major : u16) (detail : u16) (system : u16),
    ModulationType_serialize (ModulationType_new spread_spectrum major detail system) =
    big_endian 2 (uval spread_spectrum) ++ big_endian 2 (uval major) ++ big_endian 2 (uval detail) ++ big_endian 2 (uval system)) /\
  (forall (munition_type : EntityType) (warhead : u16) (fuse : u16) (quantity : u16) (rate : u16),
    MunitionDescriptor_serialize (MunitionDescriptor_new munition_type warhead fuse quantity rate) =
    EntityType_serialize munition_type ++ big_endian 2 (uval warhead) ++ big_endian 2 (uval fuse) ++ big_endian 2 (uval quantity) ++ big_endian 2 (uval rate)) /\
  (forall (station_name : u16) (station_number : u16),
    NamedLocation_serialize (NamedLocation_new station_name station_number) =
    big_endian 2 (uval station_name) ++ big_endian 2 (uval station_number)) /\
  (forall (domain : u8) (object_kind : u8) (category : u8) (subcategory : u8),
    ObjectType_serialize (ObjectType_new domain object_kind category subcategory) =
    big_endian 1 (uval domain) ++ big_endian 1 (uval object_kind) ++ big_endian 1 (uval category) ++ big_endian 1 (uval subcategory)) /\
  (forall (x : f32) (y : f32),
    Point_serialize (Point_new x y) =
    big_endian 4 (uval x) ++ big_endian 4 (uval y)) /\
  (forall (power_setting : f32) (engine_rpm : f32),
    PropulsionSystemData_serialize (PropulsionSystemData_new power_setting engine_rpm) =
    big_endian 4 (uval power_setting) ++ big_endian 4 (uval engine_rpm)) /\
  (forall (entity_kind : u8) (domain : u8) (country : u16) (category : u8) (nomenclature_version : u8) (nomenclature : u16),
    RadioEntityType_serialize (RadioEntityType_new entity_kind domain country category nomenclature_version nomenclature) =
    big_endian 1 (uval entity_kind) ++ big_endian 1 (uval domain) ++ big_endian 2 (uval country) ++ big_endian 1 (uval category) ++ big_endian 1 (uval nomenclature_version) ++ big_endian 2 (uval nomenclature)) /\
  (forall (nature : u16) (position : u16),
    Relationship_serialize (Relationship_new nature position) =
    big_endian 2 (uval nature) ++ big_endian 2 (uval position)) /\
  (forall (operational_data1 : u8) (operational_data2 : u8) (number_of_iff_fundamental_parameter_records : u16),
    SecondaryOperationalData_serialize (SecondaryOperationalData_new operational_data1 operational_data2 number_of_iff_fundamental_parameter_records) =
    big_endian 1 (uval operational_data1) ++ big_endian 1 (uval operational_data2) ++ big_endian 2 (uval number_of_iff_fundamental_parameter_records)) /\
  (forall (current_shaft_rpms : i16) (ordered_shaft_rpms : i16) (shaft_rpm_rate_of_change : i32),
    ShaftRPMs_serialize (ShaftRPMs_new current_shaft_rpms ordered_shaft_rpms shaft_rpm_rate_of_change) =
    big_endian 2 (uval current_shaft_rpms) ++ big_endian 2 (uval ordered_shaft_rpms) ++ big_endian 4 (uval shaft_rpm_rate_of_change)) /\
  (forall (record_type : u32) (record_length : u16) (record_specific_fields : list u8),
    StandardVariableRecords_serialize (StandardVariableRecords_new record_type record_length record_specific_fields) =
    big_endian 4 (uval record_type) ++ big_endian 2 (uval record_length) ++ record_specific_fields) /\
  (forall (number_of_standard_variable_records : u16) (standard_variable_records : list StandardVariableRecords),
    StandardVariableSpecification_serialize (StandardVariableSpecification_new number_of_standard_variable_records standard_variable_records) =
    big_endian 2 (uval number_of_standard_variable_records) ++ List.concat (map StandardVariableRecords_serialize standard_variable_records)) /\
  (forall (supply_type : EntityType) (quantity : f32),
    SupplyQuantity_serialize (SupplyQuantity_new supply_type quantity) =
    EntityType_serialize supply_type ++ big_endian 4 (uval quantity)) /\
  (forall (system_type : u16) (system_name : u16) (system_mode : u8) (change_options : u8),
    SystemId_serialize (SystemId_new system_type system_name system_mode change_options) =
    big_endian 2 (uval system_type) ++ big_endian 2 (uval system_name) ++ big_endian 1 (uval system_mode) ++ big_endian 1 (uval change_options)) /\
  (forall (record_type : u8) (variable_parameter_field1 : f64) (variable_parameter_field2 : u32) (variable_parameter_field3 : u16) (variable_parameter_field4 : u8),
    VariableParameter_serialize (VariableParameter_new record_type variable_parameter_field1 variable_parameter_field2 variable_parameter_field3 variable_parameter_field4) =
    big_endian 1 (uval record_type) ++ big_endian 8 (uval variable_parameter_field1) ++ big_endian 4 (uval variable_parameter_field2) ++ big_endian 2 (uval variable_parameter_field3) ++ big_endian 1 (uval variable_parameter_field4)) /\
  (forall (x : f64) (y : f64) (z : f64),
    Vector3Double_serialize (Vector3Double_new x y z) =
    big_endian 8 (uval x) ++ big_endian 8 (uval y) ++ big_endian 8 (uval z)) /\
  (forall (horizontal_deflection_angle : f32) (vertical_deflection_angle : f32),
    VectoringNozzleSystemData_serialize (VectoringNozzleSystemData_new horizontal_deflection_angle vertical_deflection_angle) =
    big_endian 4 (uval horizontal_deflection_angle) ++ big_endian 4 (uval vertical_deflection_angle)) /\
  (forall (x : f32) (y : f32) (z : f32),
    VelocityVector_serialize (VelocityVector_new x y z) =
    big_endian 4 (uval x) ++ big_endian 4 (uval y) ++ big_endian 4 (uval z)).
Proof.
  repeat match goal with |- _ /\ _ => split end; wires.
Qed.

(** The two constructors whose [serialize] can panic (C25): the fields hold the arguments. *)
Theorem C50_record_specification :
  (forall (id serial : u32) (len count : u16) (values : list u8),
    let v := RecordSpecificationElement_new id serial len count values in
    RecordSpecificationElement_record_id v = id /\ RecordSpecificationElement_record_set_serial_number v = serial /\
    RecordSpecificationElement_record_length v = len /\ RecordSpecificationElement_record_count v = count /\
    RecordSpecificationElement_record_values v = values /\
    (uval len * uval count = lenN values -> lenN values <= 65535 -> forall m,
      RecordSpecificationElement_serialize m v =
        Ok (big_endian 4 (uval id) ++ big_endian 4 (uval serial) ++ big_endian 2 (uval len) ++ big_endian 2 (uval count) ++ values))) /\
  (forall (n : u32) (sets : list RecordSpecificationElement) m,
    let v := RecordSpecification_new n sets in
    RecordSpecification_number_of_record_sets v = n /\ RecordSpecification_record_sets v = sets /\
    (forall out, map (RecordSpecificationElement_serialize m) sets = map Ok out ->
      RecordSpecification_serialize m v = Ok (big_endian 4 (uval n) ++ List.concat out))).
Proof.
  split.
  - intros id serial len count values v. repeat (split; [reflexivity|]). intros L S m.
    assert (M : mul_u16 m len count = Ok (as_u16 (uval len * uval count))).
    { unfold mul_u16. destruct (N.ltb_spec (uval len * uval count) 65536) as [H|H]; [reflexivity|lia]. }
    unfold RecordSpecificationElement_serialize. cbn [v RecordSpecificationElement_new RecordSpecificationElement_record_length RecordSpecificationElement_record_count
      RecordSpecificationElement_record_id RecordSpecificationElement_record_set_serial_number RecordSpecificationElement_record_values]. rewrite M.
    assert (K : N.to_nat (uval (as_u16 (uval len * uval count))) = length values).
    { unfold as_u16. rewrite as_uint_val by (change (256 ^ N.of_nat 2) with 65536; lia). rewrite L. unfold lenN. lia. }
    rewrite K. unfold put_indexed. rewrite Nat.leb_refl, firstn_all, raw_bytes. cbn [wapp].
    unfold put_u32, put_u16. rewrite !put_bytes, <- !app_assoc. reflexivity.
  - intros n sets m v. split; [reflexivity|]. split; [reflexivity|]. intros out E.
    unfold RecordSpecification_serialize. cbn [v RecordSpecification_new RecordSpecification_number_of_record_sets RecordSpecification_record_sets].
    rewrite E. assert (W : wconcat (map Ok out) = Ok (List.concat out)).
    { clear. induction out as [|b out IH]; [reflexivity|]. cbn [map wconcat List.concat]. rewrite IH. reflexivity. }
    rewrite W. cbn [wapp]. unfold put_u32. rewrite put_bytes. reflexivity.
Qed.

(** The constructors without parameters give the default value: all zero, except that a
    simulation address starts as site 1, application 1. *)
Theorem C50_empty_constructors :
  AngularVelocity_serialize AngularVelocity_new = repeat (B 0) 12 /\ AngularVelocity_new = AngularVelocity_default /\
  AntennaPattern_serialize AntennaPattern_new = [] /\ AntennaPattern_new = AntennaPattern_default /\
  AttributeRecord_serialize AttributeRecord_new = repeat (B 0) 6 /\ AttributeRecord_new = AttributeRecord_default /\
  AttributeRecordSet_serialize AttributeRecordSet_new = map B [0; 1; 0; 1; 0; 0; 0; 0] /\ AttributeRecordSet_new = AttributeRecordSet_default /\
  ModulationParameters_serialize ModulationParameters_new = [] /\ ModulationParameters_new = ModulationParameters_default /\
  ObjectIdentifier_serialize ObjectIdentifier_new = map B [0; 1; 0; 1; 0; 0] /\ ObjectIdentifier_new = ObjectIdentifier_default /\
  SimulationIdentifier_serialize SimulationIdentifier_new = map B [0; 1; 0; 1; 0; 0] /\ SimulationIdentifier_new = SimulationIdentifier_default /\
  VariableTransmitterParameters_serialize VariableTransmitterParameters_new = repeat (B 0) 6 /\
  VariableTransmitterParameters_new = VariableTransmitterParameters_default.
Proof. repeat split; try reflexivity; vm_compute; reflexivity. Qed.

(** A munition: the entity type first, then four numbers. *)
Example C50_example :
  map uval (MunitionDescriptor_serialize (MunitionDescriptor_new EntityType_default (as_u16 1) (as_u16 2) (as_u16 3) (as_u16 0x0405)))
  = [0; 0; 0; 0; 0; 0; 0; 0; 0; 1; 0; 2; 0; 3; 4; 5].
Proof. vm_compute. reflexivity. Qed.
Example C50_element_example : forall m, RecordSpecificationElement_serialize m (RecordSpecificationElement_new (as_u32 1) (as_u32 2) (as_u16 2) (as_u16 1) [B 8; B 9])
  = Ok (map B [0; 0; 0; 1; 0; 0; 0; 2; 0; 2; 0; 1; 8; 9]).
Proof. intros m. apply (proj1 C50_record_specification); vm_compute; [reflexivity | discriminate]. Qed.

(** What the theorems above rest on (one traversal for all of them; not part of the model). *)
Definition Prop_New_theorems : True :=
  let _ := @C50_arguments_on_wire in
  let _ := @C50_record_specification in
  let _ := @C50_empty_constructors in
  I.
Print Assumptions Prop_New_theorems.
