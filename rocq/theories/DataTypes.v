(** * Record types of [src/common/data_types/*.rs].
    Generated by tools/gen_dt.py from the Rust source (the irregular types are
    transcribed by hand in tools/hand_dt.v and spliced in). For each Rust struct [T]:
    a record [T], [T_default] ([Default]), [T_serialize], [T_deserialize] (inherent
    methods), [T_LENGTH] ([SerializedLength]), [T_field_len] ([FieldLen]) and
    [T_codec], the three field traits, whose [serialize_field]/[deserialize_field]
    forward to the inherent methods unless stated otherwise. All line numbers are in
    src/common/data_types/. [serialize] and [deserialize] are transcribed separately.
    [put_*]/[get_*] on f32/f64 move bit patterns. *)
From Verif Require Import Base EnumModel Enums Header PduMacro.

(** ** AcousticBeamFundamentalParameter *)

(** acoustic_beam_fundamental_parameter.rs:9-16. *)
Record AcousticBeamFundamentalParameter := mk_AcousticBeamFundamentalParameter {
  AcousticBeamFundamentalParameter_active_emission_parameter_index : u16;
  AcousticBeamFundamentalParameter_scan_pattern : u16;
  AcousticBeamFundamentalParameter_beam_center_azimuth : f32;
  AcousticBeamFundamentalParameter_azimuthal_beamwidth : f32;
  AcousticBeamFundamentalParameter_beam_center_de : f32;
  AcousticBeamFundamentalParameter_de_beamwidth : f32
}.

(** acoustic_beam_fundamental_parameter.rs:9-16: [derive(Default)]. *)
Definition AcousticBeamFundamentalParameter_default : AcousticBeamFundamentalParameter := mk_AcousticBeamFundamentalParameter
  (as_uint 2 0)
  (as_uint 2 0)
  (as_uint 4 0)
  (as_uint 4 0)
  (as_uint 4 0)
  (as_uint 4 0).

(** acoustic_beam_fundamental_parameter.rs:38-45. *)
Definition AcousticBeamFundamentalParameter_serialize (v : AcousticBeamFundamentalParameter) : bytes :=
  put_u16 (AcousticBeamFundamentalParameter_active_emission_parameter_index v) ++
  put_u16 (AcousticBeamFundamentalParameter_scan_pattern v) ++
  put_f32 (AcousticBeamFundamentalParameter_beam_center_azimuth v) ++
  put_f32 (AcousticBeamFundamentalParameter_azimuthal_beamwidth v) ++
  put_f32 (AcousticBeamFundamentalParameter_beam_center_de v) ++
  put_f32 (AcousticBeamFundamentalParameter_de_beamwidth v).

(** acoustic_beam_fundamental_parameter.rs:47-56. *)
Definition AcousticBeamFundamentalParameter_deserialize : reader AcousticBeamFundamentalParameter :=
  let* active_emission_parameter_index := get_u16 in
  let* scan_pattern := get_u16 in
  let* beam_center_azimuth := get_f32 in
  let* azimuthal_beamwidth := get_f32 in
  let* beam_center_de := get_f32 in
  let* de_beamwidth := get_f32 in
  ret (mk_AcousticBeamFundamentalParameter active_emission_parameter_index scan_pattern beam_center_azimuth azimuthal_beamwidth beam_center_de de_beamwidth).

(** ** AcousticBeamData *)

(** acoustic_beam_data.rs:12-17. *)
Record AcousticBeamData := mk_AcousticBeamData {
  AcousticBeamData_beam_data_length : u16;
  AcousticBeamData_beam_id_number : u8;
  AcousticBeamData_pad2 : u16;
  AcousticBeamData_fundamental_data_parameters : AcousticBeamFundamentalParameter
}.

(** acoustic_beam_data.rs:12-17: [derive(Default)]. *)
Definition AcousticBeamData_default : AcousticBeamData := mk_AcousticBeamData
  (as_uint 2 0)
  (as_uint 1 0)
  (as_uint 2 0)
  (AcousticBeamFundamentalParameter_default).

(** acoustic_beam_data.rs:35-40. *)
Definition AcousticBeamData_serialize (v : AcousticBeamData) : bytes :=
  put_u16 (AcousticBeamData_beam_data_length v) ++
  put_u8 (AcousticBeamData_beam_id_number v) ++
  put_u16 (AcousticBeamData_pad2 v) ++
  AcousticBeamFundamentalParameter_serialize (AcousticBeamData_fundamental_data_parameters v).

(** acoustic_beam_data.rs:42-49. *)
Definition AcousticBeamData_deserialize : reader AcousticBeamData :=
  let* beam_data_length := get_u16 in
  let* beam_id_number := get_u8 in
  let* pad2 := get_u16 in
  let* fundamental_data_parameters := AcousticBeamFundamentalParameter_deserialize in
  ret (mk_AcousticBeamData beam_data_length beam_id_number pad2 fundamental_data_parameters).

(** ** AcousticEmitterSystem *)

(** acoustic_emitter_system.rs:16-20. *)
Record AcousticEmitterSystem := mk_AcousticEmitterSystem {
  AcousticEmitterSystem_acoustic_name : enum UAAcousticSystemName_spec;
  AcousticEmitterSystem_acoustic_function : enum UAAcousticEmitterSystemFunction_spec;
  AcousticEmitterSystem_acoustic_id : u8
}.

(** acoustic_emitter_system.rs:16-20: [derive(Default)]. *)
Definition AcousticEmitterSystem_default : AcousticEmitterSystem := mk_AcousticEmitterSystem
  (enum_default UAAcousticSystemName_spec)
  (enum_default UAAcousticEmitterSystemFunction_spec)
  (as_uint 1 0).

(** acoustic_emitter_system.rs:36-40. *)
Definition AcousticEmitterSystem_serialize (v : AcousticEmitterSystem) : bytes :=
  put_u16 (as_u16 (code (AcousticEmitterSystem_acoustic_name v))) ++
  put_u8 (as_u8 (code (AcousticEmitterSystem_acoustic_function v))) ++
  put_u8 (AcousticEmitterSystem_acoustic_id v).

(** acoustic_emitter_system.rs:42-48. *)
Definition AcousticEmitterSystem_deserialize : reader AcousticEmitterSystem :=
  let* acoustic_name := enum_deserialize UAAcousticSystemName_spec in
  let* acoustic_function := enum_deserialize UAAcousticEmitterSystemFunction_spec in
  let* acoustic_id := get_u8 in
  ret (mk_AcousticEmitterSystem acoustic_name acoustic_function acoustic_id).

(** acoustic_emitter_system.rs:64-66. *)
Definition AcousticEmitterSystem_field_len (v : AcousticEmitterSystem) : N := UAAcousticSystemName_field_len (AcousticEmitterSystem_acoustic_name v) + UAAcousticEmitterSystemFunction_field_len (AcousticEmitterSystem_acoustic_function v) + 1.

(** Field traits of AcousticEmitterSystem. *)
Definition AcousticEmitterSystem_codec : codec AcousticEmitterSystem :=
  mk_codec (fun v => Ok (AcousticEmitterSystem_serialize v)) AcousticEmitterSystem_deserialize AcousticEmitterSystem_field_len.

(** ** Vector3Float *)

(** vector3_float.rs:13-20. *)
Record Vector3Float := mk_Vector3Float {
  Vector3Float_x : f32;
  Vector3Float_y : f32;
  Vector3Float_z : f32
}.

(** vector3_float.rs:13-20: [derive(Default)]. *)
Definition Vector3Float_default : Vector3Float := mk_Vector3Float
  (as_uint 4 0)
  (as_uint 4 0)
  (as_uint 4 0).

(** vector3_float.rs:95-99. *)
Definition Vector3Float_serialize (v : Vector3Float) : bytes :=
  put_f32 (Vector3Float_x v) ++
  put_f32 (Vector3Float_y v) ++
  put_f32 (Vector3Float_z v).

(** vector3_float.rs:101-107. *)
Definition Vector3Float_deserialize : reader Vector3Float :=
  let* x := get_f32 in
  let* y := get_f32 in
  let* z := get_f32 in
  ret (mk_Vector3Float x y z).

(** vector3_float.rs:155-157. *)
Definition Vector3Float_field_len (v : Vector3Float) : N := 12.

(** Field traits of Vector3Float. *)
Definition Vector3Float_codec : codec Vector3Float :=
  mk_codec (fun v => Ok (Vector3Float_serialize v)) Vector3Float_deserialize Vector3Float_field_len.

(** ** AcousticEmitterSystemData *)

(** acoustic_emitter_system_data.rs:13-20. *)
Record AcousticEmitterSystemData := mk_AcousticEmitterSystemData {
  AcousticEmitterSystemData_emitter_system_data_length : u8;
  AcousticEmitterSystemData_number_of_beams : u8;
  AcousticEmitterSystemData_pad2 : u16;
  AcousticEmitterSystemData_acoustic_emitter_system : AcousticEmitterSystem;
  AcousticEmitterSystemData_emitter_location : Vector3Float;
  AcousticEmitterSystemData_beam_records : list AcousticBeamData
}.

(** acoustic_emitter_system_data.rs:13-20: [derive(Default)]. *)
Definition AcousticEmitterSystemData_default : AcousticEmitterSystemData := mk_AcousticEmitterSystemData
  (as_uint 1 0)
  (as_uint 1 0)
  (as_uint 2 0)
  (AcousticEmitterSystem_default)
  (Vector3Float_default)
  ([]).

(** acoustic_emitter_system_data.rs:42-51. *)
Definition AcousticEmitterSystemData_serialize (v : AcousticEmitterSystemData) : bytes :=
  put_u8 (AcousticEmitterSystemData_emitter_system_data_length v) ++
  put_u8 (AcousticEmitterSystemData_number_of_beams v) ++
  put_u16 (AcousticEmitterSystemData_pad2 v) ++
  AcousticEmitterSystem_serialize (AcousticEmitterSystemData_acoustic_emitter_system v) ++
  Vector3Float_serialize (AcousticEmitterSystemData_emitter_location v) ++
  List.concat (map AcousticBeamData_serialize (AcousticEmitterSystemData_beam_records v)).

(** acoustic_emitter_system_data.rs:53-71. *)
Definition AcousticEmitterSystemData_deserialize : reader AcousticEmitterSystemData :=
  let* emitter_system_data_length := get_u8 in
  let* number_of_beams := get_u8 in
  let* pad2 := get_u16 in
  let* acoustic_emitter_system := AcousticEmitterSystem_deserialize in
  let* emitter_location := Vector3Float_deserialize in
  let* beam_records := repeat_read (N.to_nat (uval number_of_beams)) AcousticBeamData_deserialize in
  ret (mk_AcousticEmitterSystemData emitter_system_data_length number_of_beams pad2 acoustic_emitter_system emitter_location beam_records).

(** ** AggregateId *)

(** aggregate_id.rs:11-15. *)
Record AggregateId := mk_AggregateId {
  AggregateId_site : u16;
  AggregateId_application : u16;
  AggregateId_aggregate_id : u16
}.

(** aggregate_id.rs:11-15: [derive(Default)]. *)
Definition AggregateId_default : AggregateId := mk_AggregateId
  (as_uint 2 0)
  (as_uint 2 0)
  (as_uint 2 0).

(** aggregate_id.rs:27-31. *)
Definition AggregateId_serialize (v : AggregateId) : bytes :=
  put_u16 (AggregateId_site v) ++
  put_u16 (AggregateId_application v) ++
  put_u16 (AggregateId_aggregate_id v).

(** aggregate_id.rs:33-39. *)
Definition AggregateId_deserialize : reader AggregateId :=
  let* site := get_u16 in
  let* application := get_u16 in
  let* aggregate_id := get_u16 in
  ret (mk_AggregateId site application aggregate_id).

(** aggregate_id.rs:55-57. *)
Definition AggregateId_field_len (v : AggregateId) : N := 6.

(** Field traits of AggregateId. *)
Definition AggregateId_codec : codec AggregateId :=
  mk_codec (fun v => Ok (AggregateId_serialize v)) AggregateId_deserialize AggregateId_field_len.

(** ** AggregateMarking *)

(** aggregate_marking.rs:11-14. *)
Record AggregateMarking := mk_AggregateMarking {
  AggregateMarking_character_set : u8;
  AggregateMarking_characters : array i8 31
}.

(** aggregate_marking.rs:11-14: [derive(Default)]. *)
Definition AggregateMarking_default : AggregateMarking := mk_AggregateMarking
  (as_uint 1 0)
  (array_repeat (as_uint 1 0) 31).

(** aggregate_marking.rs:25-30. *)
Definition AggregateMarking_serialize (v : AggregateMarking) : bytes :=
  put_u8 (AggregateMarking_character_set v) ++
  List.concat (map put_i8 (elems (AggregateMarking_characters v))).

(** aggregate_marking.rs:32-43. *)
Definition AggregateMarking_deserialize : reader AggregateMarking :=
  let* character_set := get_u8 in
  let* characters := read_array 31 (as_uint 1 0) get_i8 in
  ret (mk_AggregateMarking character_set characters).

(** aggregate_marking.rs:59-61. *)
Definition AggregateMarking_field_len (v : AggregateMarking) : N := 32.

(** Field traits of AggregateMarking. *)
Definition AggregateMarking_codec : codec AggregateMarking :=
  mk_codec (fun v => Ok (AggregateMarking_serialize v)) AggregateMarking_deserialize AggregateMarking_field_len.

(** ** AngularVelocity *)

(** angular_velocity_vector.rs:14-21. *)
Record AngularVelocity := mk_AngularVelocity {
  AngularVelocity_rate_about_x_axis : f32;
  AngularVelocity_rate_about_y_axis : f32;
  AngularVelocity_rate_about_z_axis : f32
}.

(** angular_velocity_vector.rs:14-21: [derive(Default)]. *)
Definition AngularVelocity_default : AngularVelocity := mk_AngularVelocity
  (as_uint 4 0)
  (as_uint 4 0)
  (as_uint 4 0).

(** angular_velocity_vector.rs:31-35. *)
Definition AngularVelocity_serialize (v : AngularVelocity) : bytes :=
  put_f32 (AngularVelocity_rate_about_x_axis v) ++
  put_f32 (AngularVelocity_rate_about_y_axis v) ++
  put_f32 (AngularVelocity_rate_about_z_axis v).

(** angular_velocity_vector.rs:38-44. *)
Definition AngularVelocity_deserialize : reader AngularVelocity :=
  let* rate_about_x_axis := get_f32 in
  let* rate_about_y_axis := get_f32 in
  let* rate_about_z_axis := get_f32 in
  ret (mk_AngularVelocity rate_about_x_axis rate_about_y_axis rate_about_z_axis).

(** angular_velocity_vector.rs:48-48. *)
Definition AngularVelocity_LENGTH : N := 12.

(** ** AntennaPattern *)

(** antenna_pattern.rs:9-11 (the field is private). *)
Record AntennaPattern := mk_AntennaPattern { AntennaPattern_record_specific_fields : list u8 }.

(** antenna_pattern.rs:8-11 [derive(Default)], 40-44 [new]. *)
Definition AntennaPattern_default : AntennaPattern := mk_AntennaPattern [].

(** antenna_pattern.rs:46-50. *)
Definition AntennaPattern_serialize (v : AntennaPattern) : bytes :=
  List.concat (map put_u8 (AntennaPattern_record_specific_fields v)).

(** antenna_pattern.rs:52-65. *)
Definition AntennaPattern_deserialize (length : u16) : reader (option AntennaPattern) :=
  if uval length =? 0 then ret None
  else let* record_specific_fields := repeat_read (N.to_nat (uval length)) get_u8 in
       ret (Some (mk_AntennaPattern record_specific_fields)).

(** antenna_pattern.rs:25-30 [deserialize_with_len]. *)
Definition AntennaPattern_deserialize_with_len (len : N) : reader AntennaPattern :=
  match try_uint 2 len with
  | None => rfail ExpectFailed
  | Some l => let* r := AntennaPattern_deserialize l in
              ret (match r with Some x => x | None => AntennaPattern_default end)
  end.

(** antenna_pattern.rs:33-35. *)
Definition AntennaPattern_field_len (v : AntennaPattern) : N := lenN (AntennaPattern_record_specific_fields v).

(** Field traits (antenna_pattern.rs:13-36); [deserialize_field] returns the default. *)
Definition AntennaPattern_codec : codec AntennaPattern :=
  mk_codec (fun v => Ok (AntennaPattern_serialize v)) (ret AntennaPattern_default) AntennaPattern_field_len.

(** ** ApaData *)

(** apa_data.rs:16-19. *)
Record ApaData := mk_ApaData {
  ApaData_parameter_index : u16;
  ApaData_parameter_value : i16
}.

(** apa_data.rs:16-19: [derive(Default)]. *)
Definition ApaData_default : ApaData := mk_ApaData
  (as_uint 2 0)
  (as_uint 2 0).

(** apa_data.rs:30-33. *)
Definition ApaData_serialize (v : ApaData) : bytes :=
  put_u16 (ApaData_parameter_index v) ++
  put_i16 (ApaData_parameter_value v).

(** apa_data.rs:35-40. *)
Definition ApaData_deserialize : reader ApaData :=
  let* parameter_index := get_u16 in
  let* parameter_value := get_i16 in
  ret (mk_ApaData parameter_index parameter_value).

(** apa_data.rs:62-62. *)
Definition ApaData_LENGTH : N := 4.

(** apa_data.rs:56-58. *)
Definition ApaData_field_len (v : ApaData) : N := ApaData_LENGTH.

(** Field traits of ApaData. *)
Definition ApaData_codec : codec ApaData :=
  mk_codec (fun v => Ok (ApaData_serialize v)) ApaData_deserialize ApaData_field_len.

(** ** AttributeRecord *)

(** attribute_record.rs:12-16. *)
Record AttributeRecord := mk_AttributeRecord {
  AttributeRecord_record_type : u32;
  AttributeRecord_record_length : u16;
  AttributeRecord_record_specific_fields : list u8
}.

(** attribute_record.rs:12-16: [derive(Default)]. *)
Definition AttributeRecord_default : AttributeRecord := mk_AttributeRecord
  (as_uint 4 0)
  (as_uint 2 0)
  ([]).

(** attribute_record.rs:28-34. *)
Definition AttributeRecord_serialize (v : AttributeRecord) : bytes :=
  put_u32 (AttributeRecord_record_type v) ++
  put_u16 (AttributeRecord_record_length v) ++
  List.concat (map put_u8 (AttributeRecord_record_specific_fields v)).

(** attribute_record.rs:36-48. *)
Definition AttributeRecord_deserialize : reader AttributeRecord :=
  let* record_type := get_u32 in
  let* record_length := get_u16 in
  let* record_specific_fields := repeat_read (N.to_nat (uval record_length)) get_u8 in
  ret (mk_AttributeRecord record_type record_length record_specific_fields).

(** attribute_record.rs:64-66. *)
Definition AttributeRecord_field_len (v : AttributeRecord) : N := 4 + 2 + c_len (vec_codec u8_codec) (AttributeRecord_record_specific_fields v).

(** Field traits of AttributeRecord. *)
Definition AttributeRecord_codec : codec AttributeRecord :=
  mk_codec (fun v => Ok (AttributeRecord_serialize v)) AttributeRecord_deserialize AttributeRecord_field_len.

(** ** SimulationAddress *)

(** simulation_address.rs:16-25. *)
Record SimulationAddress := mk_SimulationAddress {
  SimulationAddress_site_id : u16;
  SimulationAddress_application_id : u16
}.

(** simulation_address.rs:28-33. *)
Definition SimulationAddress_default : SimulationAddress := mk_SimulationAddress
  (as_uint 2 1)
  (as_uint 2 1).

(** simulation_address.rs:45-48. *)
Definition SimulationAddress_serialize (v : SimulationAddress) : bytes :=
  put_u16 (SimulationAddress_site_id v) ++
  put_u16 (SimulationAddress_application_id v).

(** simulation_address.rs:50-55. *)
Definition SimulationAddress_deserialize : reader SimulationAddress :=
  let* site_id := get_u16 in
  let* application_id := get_u16 in
  ret (mk_SimulationAddress site_id application_id).

(** simulation_address.rs:77-77. *)
Definition SimulationAddress_LENGTH : N := 4.

(** simulation_address.rs:71-73. *)
Definition SimulationAddress_field_len (v : SimulationAddress) : N := SimulationAddress_LENGTH.

(** Field traits of SimulationAddress. *)
Definition SimulationAddress_codec : codec SimulationAddress :=
  mk_codec (fun v => Ok (SimulationAddress_serialize v)) SimulationAddress_deserialize SimulationAddress_field_len.

(** ** EntityId *)

(** entity_id.rs:15-20. *)
Record EntityId := mk_EntityId {
  EntityId_simulation_address : SimulationAddress;
  EntityId_entity_id : u16
}.

(** entity_id.rs:13-20: [derive(Default)]. *)
Definition EntityId_default : EntityId := mk_EntityId SimulationAddress_default (as_uint 2 0).

(** entity_id.rs:24-29 [new]. *)
Definition EntityId_new (site_id application_id entity_id : u16) : EntityId :=
  mk_EntityId (mk_SimulationAddress site_id application_id) entity_id.

(** entity_id.rs:31-34. *)
Definition EntityId_serialize (v : EntityId) : bytes :=
  SimulationAddress_serialize (EntityId_simulation_address v) ++
  put_u16 (EntityId_entity_id v).

(** entity_id.rs:43-48. *)
Definition EntityId_deserialize_simulation_address : reader SimulationAddress :=
  let* site_id := get_u16 in
  let* application_id := get_u16 in
  ret (mk_SimulationAddress site_id application_id).

(** entity_id.rs:36-41. *)
Definition EntityId_deserialize : reader EntityId :=
  let* simulation_address := EntityId_deserialize_simulation_address in
  let* entity_id := get_u16 in
  ret (mk_EntityId simulation_address entity_id).

(** entity_id.rs:70-70. *)
Definition EntityId_LENGTH : N := 6.

(** entity_id.rs:64-66. *)
Definition EntityId_field_len (v : EntityId) : N := EntityId_LENGTH.

(** Field traits of EntityId (entity_id.rs:51-67). *)
Definition EntityId_codec : codec EntityId :=
  mk_codec (fun v => Ok (EntityId_serialize v)) EntityId_deserialize EntityId_field_len.

(** ** AttributeRecordSet *)

(** attribute_record_set.rs:18-22. *)
Record AttributeRecordSet := mk_AttributeRecordSet {
  AttributeRecordSet_entity_id : EntityId;
  AttributeRecordSet_number_of_attribute_records : u16;
  AttributeRecordSet_attribute_records : list AttributeRecord
}.

(** attribute_record_set.rs:18-22: [derive(Default)]. *)
Definition AttributeRecordSet_default : AttributeRecordSet := mk_AttributeRecordSet
  (EntityId_default)
  (as_uint 2 0)
  ([]).

(** attribute_record_set.rs:34-40. *)
Definition AttributeRecordSet_serialize (v : AttributeRecordSet) : bytes :=
  EntityId_serialize (AttributeRecordSet_entity_id v) ++
  put_u16 (AttributeRecordSet_number_of_attribute_records v) ++
  List.concat (map AttributeRecord_serialize (AttributeRecordSet_attribute_records v)).

(** attribute_record_set.rs:42-54. *)
Definition AttributeRecordSet_deserialize : reader AttributeRecordSet :=
  let* entity_id := EntityId_deserialize in
  let* number_of_attribute_records := get_u16 in
  let* attribute_records := repeat_read (N.to_nat (uval number_of_attribute_records)) AttributeRecord_deserialize in
  ret (mk_AttributeRecordSet entity_id number_of_attribute_records attribute_records).

(** attribute_record_set.rs:70-72. *)
Definition AttributeRecordSet_field_len (v : AttributeRecordSet) : N := EntityId_LENGTH + 2 + c_len (vec_codec AttributeRecord_codec) (AttributeRecordSet_attribute_records v).

(** Field traits of AttributeRecordSet. *)
Definition AttributeRecordSet_codec : codec AttributeRecordSet :=
  mk_codec (fun v => Ok (AttributeRecordSet_serialize v)) AttributeRecordSet_deserialize AttributeRecordSet_field_len.

(** ** BeamData *)

(** beam_data.rs:16-22. *)
Record BeamData := mk_BeamData {
  BeamData_beam_azimuth_center : f32;
  BeamData_beam_azimuth_sweep : f32;
  BeamData_beam_elevation_center : f32;
  BeamData_beam_elevation_sweep : f32;
  BeamData_beam_sweep_sync : f32
}.

(** beam_data.rs:16-22: [derive(Default)]. *)
Definition BeamData_default : BeamData := mk_BeamData
  (as_uint 4 0)
  (as_uint 4 0)
  (as_uint 4 0)
  (as_uint 4 0)
  (as_uint 4 0).

(** beam_data.rs:42-48. *)
Definition BeamData_serialize (v : BeamData) : bytes :=
  put_f32 (BeamData_beam_azimuth_center v) ++
  put_f32 (BeamData_beam_azimuth_sweep v) ++
  put_f32 (BeamData_beam_elevation_center v) ++
  put_f32 (BeamData_beam_elevation_sweep v) ++
  put_f32 (BeamData_beam_sweep_sync v).

(** beam_data.rs:50-58. *)
Definition BeamData_deserialize : reader BeamData :=
  let* beam_azimuth_center := get_f32 in
  let* beam_azimuth_sweep := get_f32 in
  let* beam_elevation_center := get_f32 in
  let* beam_elevation_sweep := get_f32 in
  let* beam_sweep_sync := get_f32 in
  ret (mk_BeamData beam_azimuth_center beam_azimuth_sweep beam_elevation_center beam_elevation_sweep beam_sweep_sync).

(** beam_data.rs:80-80. *)
Definition BeamData_LENGTH : N := 20.

(** beam_data.rs:74-76. *)
Definition BeamData_field_len (v : BeamData) : N := BeamData_LENGTH.

(** Field traits of BeamData. *)
Definition BeamData_codec : codec BeamData :=
  mk_codec (fun v => Ok (BeamData_serialize v)) BeamData_deserialize BeamData_field_len.

(** ** ClockTime *)

(** clock_time.rs:13-18. *)
Record ClockTime := mk_ClockTime {
  ClockTime_hour : u32;
  ClockTime_time_past_hour : u32
}.

(** clock_time.rs:13-18: [derive(Default)]. *)
Definition ClockTime_default : ClockTime := mk_ClockTime
  (as_uint 4 0)
  (as_uint 4 0).

(** clock_time.rs:29-32. *)
Definition ClockTime_serialize (v : ClockTime) : bytes :=
  put_u32 (ClockTime_hour v) ++
  put_u32 (ClockTime_time_past_hour v).

(** clock_time.rs:34-39. *)
Definition ClockTime_deserialize : reader ClockTime :=
  let* hour := get_u32 in
  let* time_past_hour := get_u32 in
  ret (mk_ClockTime hour time_past_hour).

(** clock_time.rs:55-57. *)
Definition ClockTime_field_len (v : ClockTime) : N := 8.

(** Field traits of ClockTime. *)
Definition ClockTime_codec : codec ClockTime :=
  mk_codec (fun v => Ok (ClockTime_serialize v)) ClockTime_deserialize ClockTime_field_len.

(** ** FixedDatumRecord *)

(** datum_records.rs:12-15. *)
Record FixedDatumRecord := mk_FixedDatumRecord {
  FixedDatumRecord_datum_id : u32;
  FixedDatumRecord_datum_value : u32
}.

(** datum_records.rs:18-21. *)
Definition FixedDatumRecord_serialize (v : FixedDatumRecord) : bytes :=
  put_u32 (FixedDatumRecord_datum_id v) ++
  put_u32 (FixedDatumRecord_datum_value v).

(** datum_records.rs:23-30. *)
Definition FixedDatumRecord_deserialize : reader FixedDatumRecord :=
  let* datum_id := get_u32 in
  let* datum_value := get_u32 in
  ret (mk_FixedDatumRecord datum_id datum_value).

(** datum_records.rs:46-48. *)
Definition FixedDatumRecord_field_len (v : FixedDatumRecord) : N := 8.

(** Field traits of FixedDatumRecord. *)
Definition FixedDatumRecord_codec : codec FixedDatumRecord :=
  mk_codec (fun v => Ok (FixedDatumRecord_serialize v)) FixedDatumRecord_deserialize FixedDatumRecord_field_len.

(** ** VariableDatumRecord *)

(** datum_records.rs:52-56. *)
Record VariableDatumRecord := mk_VariableDatumRecord {
  VariableDatumRecord_datum_id : u32;
  VariableDatumRecord_length_bits : u32;
  VariableDatumRecord_value : list u8
}.

(** datum_records.rs:59-61: [(length_bits as usize).div_ceil(8)]. *)
Definition VariableDatumRecord_bytes_count (length_bits : u32) : N :=
  let q := uval length_bits / 8 in
  if uval length_bits mod 8 =? 0 then q else q + 1.

(** datum_records.rs:63-83. (The check at 67-70 has an empty body.) *)
Definition VariableDatumRecord_serialize (v : VariableDatumRecord) : bytes :=
  let pad_bits := (64 - uval (VariableDatumRecord_length_bits v) mod 64) mod 64 in
  let pad_bytes := pad_bits / 8 in
  put_u32 (VariableDatumRecord_datum_id v) ++
  put_u32 (VariableDatumRecord_length_bits v) ++
  List.concat (map put_u8 (VariableDatumRecord_value v)) ++
  (if 0 <? pad_bytes then List.concat (map put_u8 (zero_bytes (N.to_nat pad_bytes))) else []).

(** datum_records.rs:85-100: [value] starts as [value_bytes] zeros and is pushed to. *)
Definition VariableDatumRecord_deserialize : reader VariableDatumRecord :=
  let* datum_id := get_u32 in
  let* length_bits := get_u32 in
  let* pushed := repeat_read (N.to_nat (VariableDatumRecord_bytes_count length_bits)) get_u8 in
  ret (mk_VariableDatumRecord datum_id length_bits
         (zero_bytes (N.to_nat (VariableDatumRecord_bytes_count length_bits)) ++ pushed)).

(** datum_records.rs:116-118. *)
Definition VariableDatumRecord_field_len (v : VariableDatumRecord) : N :=
  c_len u32_codec (VariableDatumRecord_datum_id v) + c_len u32_codec (VariableDatumRecord_length_bits v)
  + c_len (vec_codec u8_codec) (VariableDatumRecord_value v).

(** Field traits of VariableDatumRecord (datum_records.rs:103-119). *)
Definition VariableDatumRecord_codec : codec VariableDatumRecord :=
  mk_codec (fun v => Ok (VariableDatumRecord_serialize v)) VariableDatumRecord_deserialize VariableDatumRecord_field_len.

(** ** LinearAcceleration *)

(** linear_acceleration.rs:14-18. *)
Record LinearAcceleration := mk_LinearAcceleration {
  LinearAcceleration_first_vector_component : f32;
  LinearAcceleration_second_vector_component : f32;
  LinearAcceleration_third_vector_component : f32
}.

(** linear_acceleration.rs:14-18: [derive(Default)]. *)
Definition LinearAcceleration_default : LinearAcceleration := mk_LinearAcceleration
  (as_uint 4 0)
  (as_uint 4 0)
  (as_uint 4 0).

(** linear_acceleration.rs:30-34. *)
Definition LinearAcceleration_serialize (v : LinearAcceleration) : bytes :=
  put_f32 (LinearAcceleration_first_vector_component v) ++
  put_f32 (LinearAcceleration_second_vector_component v) ++
  put_f32 (LinearAcceleration_third_vector_component v).

(** linear_acceleration.rs:36-42. *)
Definition LinearAcceleration_deserialize : reader LinearAcceleration :=
  let* first_vector_component := get_f32 in
  let* second_vector_component := get_f32 in
  let* third_vector_component := get_f32 in
  ret (mk_LinearAcceleration first_vector_component second_vector_component third_vector_component).

(** linear_acceleration.rs:64-64. *)
Definition LinearAcceleration_LENGTH : N := 12.

(** linear_acceleration.rs:58-60. *)
Definition LinearAcceleration_field_len (v : LinearAcceleration) : N := LinearAcceleration_LENGTH.

(** Field traits of LinearAcceleration. *)
Definition LinearAcceleration_codec : codec LinearAcceleration :=
  mk_codec (fun v => Ok (LinearAcceleration_serialize v)) LinearAcceleration_deserialize LinearAcceleration_field_len.

(** ** DeadReckoningParameters *)

(** dead_reckoning_parameters.rs:21-26. *)
Record DeadReckoningParameters := mk_DeadReckoningParameters {
  DeadReckoningParameters_dead_reckoning_algorithm : enum DeadReckoningAlgorithm_spec;
  DeadReckoningParameters_dead_reckoning_other_parameters : array u8 15;
  DeadReckoningParameters_entity_linear_acceleration : LinearAcceleration;
  DeadReckoningParameters_entity_angular_velocity : AngularVelocity
}.

(** dead_reckoning_parameters.rs:21-26: [derive(Default)]. *)
Definition DeadReckoningParameters_default : DeadReckoningParameters := mk_DeadReckoningParameters
  (enum_default DeadReckoningAlgorithm_spec)
  (array_repeat (as_uint 1 0) 15)
  (LinearAcceleration_default)
  (AngularVelocity_default).

(** dead_reckoning_parameters.rs:43-48. *)
Definition DeadReckoningParameters_serialize (v : DeadReckoningParameters) : bytes :=
  put_u8 (as_u8 (code (DeadReckoningParameters_dead_reckoning_algorithm v))) ++
  zero_bytes 15 ++
  LinearAcceleration_serialize (DeadReckoningParameters_entity_linear_acceleration v) ++
  AngularVelocity_serialize (DeadReckoningParameters_entity_angular_velocity v).

(** dead_reckoning_parameters.rs:50-64. *)
Definition DeadReckoningParameters_deserialize : reader DeadReckoningParameters :=
  let* dead_reckoning_algorithm := enum_deserialize DeadReckoningAlgorithm_spec in
  let* dead_reckoning_other_parameters := read_array 15 (as_uint 1 0) get_u8 in
  let* entity_linear_acceleration := LinearAcceleration_deserialize in
  let* entity_angular_velocity := AngularVelocity_deserialize in
  ret (mk_DeadReckoningParameters dead_reckoning_algorithm dead_reckoning_other_parameters entity_linear_acceleration entity_angular_velocity).

(** dead_reckoning_parameters.rs:86-86. *)
Definition DeadReckoningParameters_LENGTH : N := 40.

(** dead_reckoning_parameters.rs:80-82. *)
Definition DeadReckoningParameters_field_len (v : DeadReckoningParameters) : N := DeadReckoningParameters_LENGTH.

(** Field traits of DeadReckoningParameters. *)
Definition DeadReckoningParameters_codec : codec DeadReckoningParameters :=
  mk_codec (fun v => Ok (DeadReckoningParameters_serialize v)) DeadReckoningParameters_deserialize DeadReckoningParameters_field_len.

(** ** EntityCoordinateVector *)

(** entity_coordinate_vector.rs:16-23. *)
Record EntityCoordinateVector := mk_EntityCoordinateVector {
  EntityCoordinateVector_x_coordinate : f32;
  EntityCoordinateVector_y_coordinate : f32;
  EntityCoordinateVector_z_coordinate : f32
}.

(** entity_coordinate_vector.rs:16-23: [derive(Default)]. *)
Definition EntityCoordinateVector_default : EntityCoordinateVector := mk_EntityCoordinateVector
  (as_uint 4 0)
  (as_uint 4 0)
  (as_uint 4 0).

(** entity_coordinate_vector.rs:35-39. *)
Definition EntityCoordinateVector_serialize (v : EntityCoordinateVector) : bytes :=
  put_f32 (EntityCoordinateVector_x_coordinate v) ++
  put_f32 (EntityCoordinateVector_y_coordinate v) ++
  put_f32 (EntityCoordinateVector_z_coordinate v).

(** entity_coordinate_vector.rs:41-47. *)
Definition EntityCoordinateVector_deserialize : reader EntityCoordinateVector :=
  let* x_coordinate := get_f32 in
  let* y_coordinate := get_f32 in
  let* z_coordinate := get_f32 in
  ret (mk_EntityCoordinateVector x_coordinate y_coordinate z_coordinate).

(** entity_coordinate_vector.rs:69-69. *)
Definition EntityCoordinateVector_LENGTH : N := 12.

(** entity_coordinate_vector.rs:63-65. *)
Definition EntityCoordinateVector_field_len (v : EntityCoordinateVector) : N := EntityCoordinateVector_LENGTH.

(** Field traits of EntityCoordinateVector. *)
Definition EntityCoordinateVector_codec : codec EntityCoordinateVector :=
  mk_codec (fun v => Ok (EntityCoordinateVector_serialize v)) EntityCoordinateVector_deserialize EntityCoordinateVector_field_len.

(** ** EventId *)

(** event_id.rs:16-19. *)
Record EventId := mk_EventId {
  EventId_simulation_address : SimulationAddress;
  EventId_event_identifier : u16
}.

(** event_id.rs:16-19: [derive(Default)]. *)
Definition EventId_default : EventId := mk_EventId
  (SimulationAddress_default)
  (as_uint 2 0).

(** event_id.rs:34-37. *)
Definition EventId_serialize (v : EventId) : bytes :=
  SimulationAddress_serialize (EventId_simulation_address v) ++
  put_u16 (EventId_event_identifier v).

(** event_id.rs:39-44. *)
Definition EventId_deserialize : reader EventId :=
  let* simulation_address := SimulationAddress_deserialize in
  let* event_identifier := get_u16 in
  ret (mk_EventId simulation_address event_identifier).

(** event_id.rs:66-66. *)
Definition EventId_LENGTH : N := SimulationAddress_LENGTH + 2.

(** event_id.rs:60-62. *)
Definition EventId_field_len (v : EventId) : N := EventId_LENGTH.

(** Field traits of EventId. *)
Definition EventId_codec : codec EventId :=
  mk_codec (fun v => Ok (EventId_serialize v)) EventId_deserialize EventId_field_len.

(** ** DirectedEnergyDamage *)

(** directed_energy_damage.rs:17-30. *)
Record DirectedEnergyDamage := mk_DirectedEnergyDamage {
  DirectedEnergyDamage_record_type : u32;
  DirectedEnergyDamage_record_length : u16;
  DirectedEnergyDamage_padding : u16;
  DirectedEnergyDamage_damage_location : EntityCoordinateVector;
  DirectedEnergyDamage_damage_diameter : f32;
  DirectedEnergyDamage_temperature : f32;
  DirectedEnergyDamage_component_identification : enum ComponentIdentification_spec;
  DirectedEnergyDamage_component_damage_status : enum ComponentDamageStatus_spec;
  DirectedEnergyDamage_component_visual_damage_status : u8;
  DirectedEnergyDamage_component_visual_smoke_color : enum ComponentVisualSmokeColor_spec;
  DirectedEnergyDamage_fire_event_id : EventId;
  DirectedEnergyDamage_padding2 : u16
}.

(** directed_energy_damage.rs:17-30: [derive(Default)]. *)
Definition DirectedEnergyDamage_default : DirectedEnergyDamage := mk_DirectedEnergyDamage
  (as_uint 4 0)
  (as_uint 2 0)
  (as_uint 2 0)
  (EntityCoordinateVector_default)
  (as_uint 4 0)
  (as_uint 4 0)
  (enum_default ComponentIdentification_spec)
  (enum_default ComponentDamageStatus_spec)
  (as_uint 1 0)
  (enum_default ComponentVisualSmokeColor_spec)
  (EventId_default)
  (as_uint 2 0).

(** directed_energy_damage.rs:63-76. *)
Definition DirectedEnergyDamage_serialize (v : DirectedEnergyDamage) : bytes :=
  put_u32 (DirectedEnergyDamage_record_type v) ++
  put_u16 (DirectedEnergyDamage_record_length v) ++
  put_u16 (DirectedEnergyDamage_padding v) ++
  EntityCoordinateVector_serialize (DirectedEnergyDamage_damage_location v) ++
  put_f32 (DirectedEnergyDamage_damage_diameter v) ++
  put_f32 (DirectedEnergyDamage_temperature v) ++
  put_u8 (as_u8 (code (DirectedEnergyDamage_component_identification v))) ++
  put_u8 (as_u8 (code (DirectedEnergyDamage_component_damage_status v))) ++
  put_u8 (DirectedEnergyDamage_component_visual_damage_status v) ++
  put_u8 (as_u8 (code (DirectedEnergyDamage_component_visual_smoke_color v))) ++
  EventId_serialize (DirectedEnergyDamage_fire_event_id v) ++
  put_u16 (DirectedEnergyDamage_padding2 v).

(** directed_energy_damage.rs:78-93. *)
Definition DirectedEnergyDamage_deserialize : reader DirectedEnergyDamage :=
  let* record_type := get_u32 in
  let* record_length := get_u16 in
  let* padding := get_u16 in
  let* damage_location := EntityCoordinateVector_deserialize in
  let* damage_diameter := get_f32 in
  let* temperature := get_f32 in
  let* component_identification := enum_deserialize ComponentIdentification_spec in
  let* component_damage_status := enum_deserialize ComponentDamageStatus_spec in
  let* component_visual_damage_status := get_u8 in
  let* component_visual_smoke_color := enum_deserialize ComponentVisualSmokeColor_spec in
  let* fire_event_id := EventId_deserialize in
  let* padding2 := get_u16 in
  ret (mk_DirectedEnergyDamage record_type record_length padding damage_location damage_diameter temperature component_identification component_damage_status component_visual_damage_status component_visual_smoke_color fire_event_id padding2).

(** directed_energy_damage.rs:109-122. *)
Definition DirectedEnergyDamage_field_len (v : DirectedEnergyDamage) : N := c_len u32_codec (DirectedEnergyDamage_record_type v) + c_len u16_codec (DirectedEnergyDamage_record_length v) + c_len u16_codec (DirectedEnergyDamage_padding v) + EntityCoordinateVector_field_len (DirectedEnergyDamage_damage_location v) + c_len f32_codec (DirectedEnergyDamage_damage_diameter v) + c_len f32_codec (DirectedEnergyDamage_temperature v) + ComponentIdentification_field_len (DirectedEnergyDamage_component_identification v) + ComponentDamageStatus_field_len (DirectedEnergyDamage_component_damage_status v) + c_len u8_codec (DirectedEnergyDamage_component_visual_damage_status v) + ComponentVisualSmokeColor_field_len (DirectedEnergyDamage_component_visual_smoke_color v) + EventId_field_len (DirectedEnergyDamage_fire_event_id v) + c_len u16_codec (DirectedEnergyDamage_padding2 v).

(** Field traits of DirectedEnergyDamage. *)
Definition DirectedEnergyDamage_codec : codec DirectedEnergyDamage :=
  mk_codec (fun v => Ok (DirectedEnergyDamage_serialize v)) DirectedEnergyDamage_deserialize DirectedEnergyDamage_field_len.

(** ** FundamentalParameterData *)

(** fundamental_parameter_data.rs:11-22. *)
Record FundamentalParameterData := mk_FundamentalParameterData {
  FundamentalParameterData_frequency : f32;
  FundamentalParameterData_frequency_range : f32;
  FundamentalParameterData_effective_radiated_power : f32;
  FundamentalParameterData_pulse_repetition_frequency : f32;
  FundamentalParameterData_pulse_width : f32;
  FundamentalParameterData_beam_azimuth_center : f32;
  FundamentalParameterData_beam_azimuth_sweep : f32;
  FundamentalParameterData_beam_elevation_center : f32;
  FundamentalParameterData_beam_elevation_sweep : f32;
  FundamentalParameterData_beam_sweep_sync : f32
}.

(** fundamental_parameter_data.rs:11-22: [derive(Default)]. *)
Definition FundamentalParameterData_default : FundamentalParameterData := mk_FundamentalParameterData
  (as_uint 4 0)
  (as_uint 4 0)
  (as_uint 4 0)
  (as_uint 4 0)
  (as_uint 4 0)
  (as_uint 4 0)
  (as_uint 4 0)
  (as_uint 4 0)
  (as_uint 4 0)
  (as_uint 4 0).

(** fundamental_parameter_data.rs:25-36. *)
Definition FundamentalParameterData_serialize (v : FundamentalParameterData) : bytes :=
  put_f32 (FundamentalParameterData_frequency v) ++
  put_f32 (FundamentalParameterData_frequency_range v) ++
  put_f32 (FundamentalParameterData_effective_radiated_power v) ++
  put_f32 (FundamentalParameterData_pulse_repetition_frequency v) ++
  put_f32 (FundamentalParameterData_pulse_width v) ++
  put_f32 (FundamentalParameterData_beam_azimuth_center v) ++
  put_f32 (FundamentalParameterData_beam_azimuth_sweep v) ++
  put_f32 (FundamentalParameterData_beam_elevation_center v) ++
  put_f32 (FundamentalParameterData_beam_elevation_sweep v) ++
  put_f32 (FundamentalParameterData_beam_sweep_sync v).

(** fundamental_parameter_data.rs:38-51. *)
Definition FundamentalParameterData_deserialize : reader FundamentalParameterData :=
  let* frequency := get_f32 in
  let* frequency_range := get_f32 in
  let* effective_radiated_power := get_f32 in
  let* pulse_repetition_frequency := get_f32 in
  let* pulse_width := get_f32 in
  let* beam_azimuth_center := get_f32 in
  let* beam_azimuth_sweep := get_f32 in
  let* beam_elevation_center := get_f32 in
  let* beam_elevation_sweep := get_f32 in
  let* beam_sweep_sync := get_f32 in
  ret (mk_FundamentalParameterData frequency frequency_range effective_radiated_power pulse_repetition_frequency pulse_width beam_azimuth_center beam_azimuth_sweep beam_elevation_center beam_elevation_sweep beam_sweep_sync).

(** fundamental_parameter_data.rs:67-69. *)
Definition FundamentalParameterData_field_len (v : FundamentalParameterData) : N := 40.

(** Field traits of FundamentalParameterData. *)
Definition FundamentalParameterData_codec : codec FundamentalParameterData :=
  mk_codec (fun v => Ok (FundamentalParameterData_serialize v)) FundamentalParameterData_deserialize FundamentalParameterData_field_len.

(** ** TrackJamTarget *)

(** track_jam_target.rs:14-18. *)
Record TrackJamTarget := mk_TrackJamTarget {
  TrackJamTarget_track_jam : EntityId;
  TrackJamTarget_emitter_id : u8;
  TrackJamTarget_beam_id : u8
}.

(** track_jam_target.rs:14-18: [derive(Default)]. *)
Definition TrackJamTarget_default : TrackJamTarget := mk_TrackJamTarget
  (EntityId_default)
  (as_uint 1 0)
  (as_uint 1 0).

(** track_jam_target.rs:21-25. *)
Definition TrackJamTarget_serialize (v : TrackJamTarget) : bytes :=
  EntityId_serialize (TrackJamTarget_track_jam v) ++
  put_u8 (TrackJamTarget_emitter_id v) ++
  put_u8 (TrackJamTarget_beam_id v).

(** track_jam_target.rs:27-33. *)
Definition TrackJamTarget_deserialize : reader TrackJamTarget :=
  let* track_jam := EntityId_deserialize in
  let* emitter_id := get_u8 in
  let* beam_id := get_u8 in
  ret (mk_TrackJamTarget track_jam emitter_id beam_id).

(** track_jam_target.rs:49-51. *)
Definition TrackJamTarget_field_len (v : TrackJamTarget) : N := EntityId_LENGTH + 1 + 1.

(** Field traits of TrackJamTarget. *)
Definition TrackJamTarget_codec : codec TrackJamTarget :=
  mk_codec (fun v => Ok (TrackJamTarget_serialize v)) TrackJamTarget_deserialize TrackJamTarget_field_len.

(** ** ElectromagneticEmissionBeamData *)

(** electromagnetic_emission_beam_data.rs:10-21. *)
Record ElectromagneticEmissionBeamData := mk_ElectromagneticEmissionBeamData {
  ElectromagneticEmissionBeamData_beam_data_length : u8;
  ElectromagneticEmissionBeamData_beam_id_number : u8;
  ElectromagneticEmissionBeamData_beam_parameter_index : u16;
  ElectromagneticEmissionBeamData_fundamental_parameter_data : FundamentalParameterData;
  ElectromagneticEmissionBeamData_beam_function : u8;
  ElectromagneticEmissionBeamData_number_of_track_jam_targets : u8;
  ElectromagneticEmissionBeamData_high_density_track_jam : u8;
  ElectromagneticEmissionBeamData_pad4 : u8;
  ElectromagneticEmissionBeamData_jamming_mode_sequence : u32;
  ElectromagneticEmissionBeamData_track_jam_targets : list TrackJamTarget
}.

(** electromagnetic_emission_beam_data.rs:10-21: [derive(Default)]. *)
Definition ElectromagneticEmissionBeamData_default : ElectromagneticEmissionBeamData := mk_ElectromagneticEmissionBeamData
  (as_uint 1 0)
  (as_uint 1 0)
  (as_uint 2 0)
  (FundamentalParameterData_default)
  (as_uint 1 0)
  (as_uint 1 0)
  (as_uint 1 0)
  (as_uint 1 0)
  (as_uint 4 0)
  ([]).

(** electromagnetic_emission_beam_data.rs:24-37. *)
Definition ElectromagneticEmissionBeamData_serialize (v : ElectromagneticEmissionBeamData) : bytes :=
  put_u8 (ElectromagneticEmissionBeamData_beam_data_length v) ++
  put_u8 (ElectromagneticEmissionBeamData_beam_id_number v) ++
  put_u16 (ElectromagneticEmissionBeamData_beam_parameter_index v) ++
  FundamentalParameterData_serialize (ElectromagneticEmissionBeamData_fundamental_parameter_data v) ++
  put_u8 (ElectromagneticEmissionBeamData_beam_function v) ++
  put_u8 (ElectromagneticEmissionBeamData_number_of_track_jam_targets v) ++
  put_u8 (ElectromagneticEmissionBeamData_high_density_track_jam v) ++
  put_u8 (ElectromagneticEmissionBeamData_pad4 v) ++
  put_u32 (ElectromagneticEmissionBeamData_jamming_mode_sequence v) ++
  List.concat (map TrackJamTarget_serialize (ElectromagneticEmissionBeamData_track_jam_targets v)).

(** electromagnetic_emission_beam_data.rs:39-66. *)
Definition ElectromagneticEmissionBeamData_deserialize : reader ElectromagneticEmissionBeamData :=
  let* beam_data_length := get_u8 in
  let* beam_id_number := get_u8 in
  let* beam_parameter_index := get_u16 in
  let* fundamental_parameter_data := FundamentalParameterData_deserialize in
  let* beam_function := get_u8 in
  let* number_of_track_jam_targets := get_u8 in
  let* high_density_track_jam := get_u8 in
  let* pad4 := get_u8 in
  let* jamming_mode_sequence := get_u32 in
  let* track_jam_targets := repeat_read (N.to_nat (uval number_of_track_jam_targets)) TrackJamTarget_deserialize in
  ret (mk_ElectromagneticEmissionBeamData beam_data_length beam_id_number beam_parameter_index fundamental_parameter_data beam_function number_of_track_jam_targets high_density_track_jam pad4 jamming_mode_sequence track_jam_targets).

(** electromagnetic_emission_beam_data.rs:82-92. *)
Definition ElectromagneticEmissionBeamData_field_len (v : ElectromagneticEmissionBeamData) : N := 1 + 1 + 2 + FundamentalParameterData_field_len (ElectromagneticEmissionBeamData_fundamental_parameter_data v) + 1 + 1 + 1 + 1 + 4 + c_len (vec_codec TrackJamTarget_codec) (ElectromagneticEmissionBeamData_track_jam_targets v).

(** Field traits of ElectromagneticEmissionBeamData. *)
Definition ElectromagneticEmissionBeamData_codec : codec ElectromagneticEmissionBeamData :=
  mk_codec (fun v => Ok (ElectromagneticEmissionBeamData_serialize v)) ElectromagneticEmissionBeamData_deserialize ElectromagneticEmissionBeamData_field_len.

(** ** EmitterSystem *)

(** emitter_system.rs:13-17. *)
Record EmitterSystem := mk_EmitterSystem {
  EmitterSystem_emitter_name : enum EmitterName_spec;
  EmitterSystem_function : enum EmitterSystemFunction_spec;
  EmitterSystem_emitter_id_number : u8
}.

(** emitter_system.rs:20-26. *)
Definition EmitterSystem_default : EmitterSystem := mk_EmitterSystem
  (enum_default EmitterName_spec)
  (variant EmitterSystemFunction_spec 0 eq_refl)
  (as_uint 1 0).

(** emitter_system.rs:39-43. *)
Definition EmitterSystem_serialize (v : EmitterSystem) : bytes :=
  put_u16 (as_u16 (code (EmitterSystem_emitter_name v))) ++
  put_u8 (as_u8 (code (EmitterSystem_function v))) ++
  put_u8 (EmitterSystem_emitter_id_number v).

(** emitter_system.rs:46-52. *)
Definition EmitterSystem_deserialize : reader EmitterSystem :=
  let* emitter_name := enum_deserialize EmitterName_spec in
  let* function := enum_deserialize EmitterSystemFunction_spec in
  let* emitter_id_number := get_u8 in
  ret (mk_EmitterSystem emitter_name function emitter_id_number).

(** emitter_system.rs:56-56. *)
Definition EmitterSystem_LENGTH : N := 4.

(** ** ElectromagneticEmissionSystemData *)

(** electromagnetic_emission_system_data.rs:13-20. *)
Record ElectromagneticEmissionSystemData := mk_ElectromagneticEmissionSystemData {
  ElectromagneticEmissionSystemData_system_data_length : u8;
  ElectromagneticEmissionSystemData_number_of_beams : u8;
  ElectromagneticEmissionSystemData_emissionspadding2 : u16;
  ElectromagneticEmissionSystemData_emitter_system : EmitterSystem;
  ElectromagneticEmissionSystemData_location : Vector3Float;
  ElectromagneticEmissionSystemData_beam_data_records : list ElectromagneticEmissionBeamData
}.

(** electromagnetic_emission_system_data.rs:13-20: [derive(Default)]. *)
Definition ElectromagneticEmissionSystemData_default : ElectromagneticEmissionSystemData := mk_ElectromagneticEmissionSystemData
  (as_uint 1 0)
  (as_uint 1 0)
  (as_uint 2 0)
  (EmitterSystem_default)
  (Vector3Float_default)
  ([]).

(** electromagnetic_emission_system_data.rs:23-32. *)
Definition ElectromagneticEmissionSystemData_serialize (v : ElectromagneticEmissionSystemData) : bytes :=
  put_u8 (ElectromagneticEmissionSystemData_system_data_length v) ++
  put_u8 (ElectromagneticEmissionSystemData_number_of_beams v) ++
  put_u16 (ElectromagneticEmissionSystemData_emissionspadding2 v) ++
  EmitterSystem_serialize (ElectromagneticEmissionSystemData_emitter_system v) ++
  Vector3Float_serialize (ElectromagneticEmissionSystemData_location v) ++
  List.concat (map ElectromagneticEmissionBeamData_serialize (ElectromagneticEmissionSystemData_beam_data_records v)).

(** electromagnetic_emission_system_data.rs:34-53. *)
Definition ElectromagneticEmissionSystemData_deserialize : reader ElectromagneticEmissionSystemData :=
  let* system_data_length := get_u8 in
  let* number_of_beams := get_u8 in
  let* emissionspadding2 := get_u16 in
  let* emitter_system := EmitterSystem_deserialize in
  let* location := Vector3Float_deserialize in
  let* beam_data_records := repeat_read (N.to_nat (uval number_of_beams)) ElectromagneticEmissionBeamData_deserialize in
  ret (mk_ElectromagneticEmissionSystemData system_data_length number_of_beams emissionspadding2 emitter_system location beam_data_records).

(** electromagnetic_emission_system_data.rs:69-75. *)
Definition ElectromagneticEmissionSystemData_field_len (v : ElectromagneticEmissionSystemData) : N := 1 + 1 + 2 + EmitterSystem_LENGTH + Vector3Float_field_len (ElectromagneticEmissionSystemData_location v) + c_len (vec_codec ElectromagneticEmissionBeamData_codec) (ElectromagneticEmissionSystemData_beam_data_records v).

(** Field traits of ElectromagneticEmissionSystemData. *)
Definition ElectromagneticEmissionSystemData_codec : codec ElectromagneticEmissionSystemData :=
  mk_codec (fun v => Ok (ElectromagneticEmissionSystemData_serialize v)) ElectromagneticEmissionSystemData_deserialize ElectromagneticEmissionSystemData_field_len.

(** ** EntityMarking *)

(** entity_marking.rs:7-11. The Rust [String] is modelled by its bytes. *)
Record EntityMarking := mk_EntityMarking {
  EntityMarking_entity_marking_character_set : enum EntityMarkingCharacterSet_spec;
  EntityMarking_entity_marking_string : bytes
}.

(** entity_marking.rs:7-11: [derive(Default)]. *)
Definition EntityMarking_default : EntityMarking :=
  mk_EntityMarking (enum_default EntityMarkingCharacterSet_spec) [].

(** entity_marking.rs:25-29. *)
Definition EntityMarking_serialize (v : EntityMarking) : bytes :=
  put_u8 (as_u8 (code (EntityMarking_entity_marking_character_set v))) ++
  EntityMarking_entity_marking_string v.

(** [usize::to_string]: ASCII decimal digits. *)
Fixpoint ascii_digits (d : Decimal.uint) : bytes :=
  match d with
  | Decimal.Nil => []
  | Decimal.D0 d' => as_u8 48 :: ascii_digits d'
  | Decimal.D1 d' => as_u8 49 :: ascii_digits d'
  | Decimal.D2 d' => as_u8 50 :: ascii_digits d'
  | Decimal.D3 d' => as_u8 51 :: ascii_digits d'
  | Decimal.D4 d' => as_u8 52 :: ascii_digits d'
  | Decimal.D5 d' => as_u8 53 :: ascii_digits d'
  | Decimal.D6 d' => as_u8 54 :: ascii_digits d'
  | Decimal.D7 d' => as_u8 55 :: ascii_digits d'
  | Decimal.D8 d' => as_u8 56 :: ascii_digits d'
  | Decimal.D9 d' => as_u8 57 :: ascii_digits d'
  end.
Definition usize_to_string (n : N) : bytes := ascii_digits (N.to_uint n).

(** [bytes::Buf::remaining]: does not consume. *)
Definition remaining : reader N := fun bs => Ok (lenN bs, bs).

(** entity_marking.rs:31-36: the string is [buf.remaining().to_string()]. *)
Definition EntityMarking_deserialize : reader EntityMarking :=
  let* entity_marking_character_set := enum_deserialize EntityMarkingCharacterSet_spec in
  let* n := remaining in
  ret (mk_EntityMarking entity_marking_character_set (usize_to_string n)).

(** entity_marking.rs:58-58. *)
Definition EntityMarking_LENGTH : N := 12.

(** entity_marking.rs:52-54. *)
Definition EntityMarking_field_len (v : EntityMarking) : N := EntityMarking_LENGTH.

(** Field traits of EntityMarking (entity_marking.rs:39-55). *)
Definition EntityMarking_codec : codec EntityMarking :=
  mk_codec (fun v => Ok (EntityMarking_serialize v)) EntityMarking_deserialize EntityMarking_field_len.

(** ** EntityType *)

(** entity_type.rs:16-24. *)
Record EntityType := mk_EntityType {
  EntityType_kind : enum EntityKind_spec;
  EntityType_domain : u8;
  EntityType_country : enum Country_spec;
  EntityType_category : u8;
  EntityType_subcategory : u8;
  EntityType_specific : u8;
  EntityType_extra : u8
}.

(** entity_type.rs:16-24: [derive(Default)]. *)
Definition EntityType_default : EntityType := mk_EntityType
  (enum_default EntityKind_spec)
  (as_uint 1 0)
  (enum_default Country_spec)
  (as_uint 1 0)
  (as_uint 1 0)
  (as_uint 1 0)
  (as_uint 1 0).

(** entity_type.rs:48-56. *)
Definition EntityType_serialize (v : EntityType) : bytes :=
  put_u8 (as_u8 (code (EntityType_kind v))) ++
  put_u8 (EntityType_domain v) ++
  put_u16 (as_u16 (code (EntityType_country v))) ++
  put_u8 (EntityType_category v) ++
  put_u8 (EntityType_subcategory v) ++
  put_u8 (EntityType_specific v) ++
  put_u8 (EntityType_extra v).

(** entity_type.rs:58-68. *)
Definition EntityType_deserialize : reader EntityType :=
  let* kind := enum_deserialize EntityKind_spec in
  let* domain := get_u8 in
  let* country := enum_deserialize Country_spec in
  let* category := get_u8 in
  let* subcategory := get_u8 in
  let* specific := get_u8 in
  let* extra := get_u8 in
  ret (mk_EntityType kind domain country category subcategory specific extra).

(** entity_type.rs:90-90. *)
Definition EntityType_LENGTH : N := 8.

(** entity_type.rs:84-86. *)
Definition EntityType_field_len (v : EntityType) : N := EntityType_LENGTH.

(** Field traits of EntityType. *)
Definition EntityType_codec : codec EntityType :=
  mk_codec (fun v => Ok (EntityType_serialize v)) EntityType_deserialize EntityType_field_len.

(** ** Environment *)

(** environment.rs:11-16. *)
Record Environment := mk_Environment {
  Environment_environment_type : u32;
  Environment_length : u16;
  Environment_index : u8;
  Environment_padding : u8
}.

(** environment.rs:11-16: [derive(Default)]. *)
Definition Environment_default : Environment := mk_Environment
  (as_uint 4 0)
  (as_uint 2 0)
  (as_uint 1 0)
  (as_uint 1 0).

(** environment.rs:29-34. *)
Definition Environment_serialize (v : Environment) : bytes :=
  put_u32 (Environment_environment_type v) ++
  put_u16 (Environment_length v) ++
  put_u8 (Environment_index v) ++
  put_u8 (Environment_padding v).

(** environment.rs:36-43. *)
Definition Environment_deserialize : reader Environment :=
  let* environment_type := get_u32 in
  let* length := get_u16 in
  let* index := get_u8 in
  let* padding := get_u8 in
  ret (mk_Environment environment_type length index padding).

(** environment.rs:59-64. *)
Definition Environment_field_len (v : Environment) : N := c_len u32_codec (Environment_environment_type v) + c_len u16_codec (Environment_length v) + c_len u8_codec (Environment_index v) + c_len u8_codec (Environment_padding v).

(** Field traits of Environment. *)
Definition Environment_codec : codec Environment :=
  mk_codec (fun v => Ok (Environment_serialize v)) Environment_deserialize Environment_field_len.

(** ** EulerAngles *)

(** euler_angles.rs:16-23. *)
Record EulerAngles := mk_EulerAngles {
  EulerAngles_psi : f32;
  EulerAngles_theta : f32;
  EulerAngles_phi : f32
}.

(** euler_angles.rs:16-23: [derive(Default)]. *)
Definition EulerAngles_default : EulerAngles := mk_EulerAngles
  (as_uint 4 0)
  (as_uint 4 0)
  (as_uint 4 0).

(** euler_angles.rs:32-36. *)
Definition EulerAngles_serialize (v : EulerAngles) : bytes :=
  put_f32 (EulerAngles_psi v) ++
  put_f32 (EulerAngles_theta v) ++
  put_f32 (EulerAngles_phi v).

(** euler_angles.rs:38-44. *)
Definition EulerAngles_deserialize : reader EulerAngles :=
  let* psi := get_f32 in
  let* theta := get_f32 in
  let* phi := get_f32 in
  ret (mk_EulerAngles psi theta phi).

(** euler_angles.rs:66-66. *)
Definition EulerAngles_LENGTH : N := 12.

(** euler_angles.rs:60-62. *)
Definition EulerAngles_field_len (v : EulerAngles) : N := EulerAngles_LENGTH.

(** Field traits of EulerAngles. *)
Definition EulerAngles_codec : codec EulerAngles :=
  mk_codec (fun v => Ok (EulerAngles_serialize v)) EulerAngles_deserialize EulerAngles_field_len.

(** ** FundamentalOperationalData *)

(** fundamental_operational_data.rs:14-25. *)
Record FundamentalOperationalData := mk_FundamentalOperationalData {
  FundamentalOperationalData_system_status : u8;
  FundamentalOperationalData_data_field1 : u8;
  FundamentalOperationalData_information_layers : u8;
  FundamentalOperationalData_data_field2 : u8;
  FundamentalOperationalData_parameter1 : u16;
  FundamentalOperationalData_parameter2 : u16;
  FundamentalOperationalData_parameter3 : u16;
  FundamentalOperationalData_parameter4 : u16;
  FundamentalOperationalData_parameter5 : u16;
  FundamentalOperationalData_parameter6 : u16
}.

(** fundamental_operational_data.rs:14-25: [derive(Default)]. *)
Definition FundamentalOperationalData_default : FundamentalOperationalData := mk_FundamentalOperationalData
  (as_uint 1 0)
  (as_uint 1 0)
  (as_uint 1 0)
  (as_uint 1 0)
  (as_uint 2 0)
  (as_uint 2 0)
  (as_uint 2 0)
  (as_uint 2 0)
  (as_uint 2 0)
  (as_uint 2 0).

(** fundamental_operational_data.rs:56-67. *)
Definition FundamentalOperationalData_serialize (v : FundamentalOperationalData) : bytes :=
  put_u8 (FundamentalOperationalData_system_status v) ++
  put_u8 (FundamentalOperationalData_data_field1 v) ++
  put_u8 (FundamentalOperationalData_information_layers v) ++
  put_u8 (FundamentalOperationalData_data_field2 v) ++
  put_u16 (FundamentalOperationalData_parameter1 v) ++
  put_u16 (FundamentalOperationalData_parameter2 v) ++
  put_u16 (FundamentalOperationalData_parameter3 v) ++
  put_u16 (FundamentalOperationalData_parameter4 v) ++
  put_u16 (FundamentalOperationalData_parameter5 v) ++
  put_u16 (FundamentalOperationalData_parameter6 v).

(** fundamental_operational_data.rs:69-82. *)
Definition FundamentalOperationalData_deserialize : reader FundamentalOperationalData :=
  let* system_status := get_u8 in
  let* data_field1 := get_u8 in
  let* information_layers := get_u8 in
  let* data_field2 := get_u8 in
  let* parameter1 := get_u16 in
  let* parameter2 := get_u16 in
  let* parameter3 := get_u16 in
  let* parameter4 := get_u16 in
  let* parameter5 := get_u16 in
  let* parameter6 := get_u16 in
  ret (mk_FundamentalOperationalData system_status data_field1 information_layers data_field2 parameter1 parameter2 parameter3 parameter4 parameter5 parameter6).

(** fundamental_operational_data.rs:104-104. *)
Definition FundamentalOperationalData_LENGTH : N := 16.

(** fundamental_operational_data.rs:98-100. *)
Definition FundamentalOperationalData_field_len (v : FundamentalOperationalData) : N := FundamentalOperationalData_LENGTH.

(** Field traits of FundamentalOperationalData. *)
Definition FundamentalOperationalData_codec : codec FundamentalOperationalData :=
  mk_codec (fun v => Ok (FundamentalOperationalData_serialize v)) FundamentalOperationalData_deserialize FundamentalOperationalData_field_len.

(** ** GridAxisDescriptor *)

(** grid_axis_descriptor.rs:14-27. *)
Inductive GridAxisType :=
| FixedSpacing (number_of_points_on_x_axis initial_index : u16)
| VariableSpacing (number_of_points_on_x_axis initial_index : u16)
    (coordinate_scale_x coordinate_offset_x : f64) (x_values : list u16) (padding : list u8).

(** grid_axis_descriptor.rs:29-53. *)
Definition GridAxisType_field_len (v : GridAxisType) : N :=
  match v with
  | FixedSpacing n i => c_len u16_codec n + c_len u16_codec i
  | VariableSpacing n i s o xs pad =>
      c_len u16_codec n + c_len u16_codec i + c_len f64_codec s + c_len f64_codec o
      + c_len (vec_codec u16_codec) xs + c_len (vec_codec u8_codec) pad
  end.

(** grid_axis_descriptor.rs:56-63. *)
Record GridAxisDescriptor := mk_GridAxisDescriptor {
  GridAxisDescriptor_domain_initial : f64;
  GridAxisDescriptor_domain_final : f64;
  GridAxisDescriptor_domain_points : u16;
  GridAxisDescriptor_interleaf_factor : u8;
  GridAxisDescriptor_axis_type : enum GridAxisDescriptorAxisType_spec;
  GridAxisDescriptor_data : GridAxisType
}.

(** grid_axis_descriptor.rs:85-119. *)
Definition GridAxisDescriptor_serialize (v : GridAxisDescriptor) : bytes :=
  put_f64 (GridAxisDescriptor_domain_initial v) ++
  put_f64 (GridAxisDescriptor_domain_final v) ++
  put_u16 (GridAxisDescriptor_domain_points v) ++
  put_u8 (GridAxisDescriptor_interleaf_factor v) ++
  put_u8 (as_u8 (code (GridAxisDescriptor_axis_type v))) ++
  match GridAxisDescriptor_data v with
  | FixedSpacing n i => put_u16 n ++ put_u16 i
  | VariableSpacing n i s o xs pad =>
      put_u16 n ++ put_u16 i ++ put_f64 s ++ put_f64 o ++
      List.concat (map put_u16 xs) ++ List.concat (map put_u8 pad)
  end.

(** grid_axis_descriptor.rs:121-165. Codes of GridAxisDescriptorAxisType (enums.rs):
    RegularAxis = 0, IrregularAxis = 1. *)
Definition GridAxisDescriptor_deserialize : reader GridAxisDescriptor :=
  let* domain_initial := get_f64 in
  let* domain_final := get_f64 in
  let* domain_points := get_u16 in
  let* interleaf_factor := get_u8 in
  let* axis_type := enum_deserialize GridAxisDescriptorAxisType_spec in
  let* data :=
    (if code axis_type =? 0 then
       let* n := get_u16 in
       let* i := get_u16 in
       ret (FixedSpacing n i)
     else
       let* n := get_u16 in
       let* i := get_u16 in
       let* s := get_f64 in
       let* o := get_f64 in
       let* xs := repeat_read (N.to_nat (uval n)) get_u16 in
       let* pad := read_remaining in
       ret (VariableSpacing n i s o xs pad)) in
  ret (mk_GridAxisDescriptor domain_initial domain_final domain_points interleaf_factor axis_type data).

(** grid_axis_descriptor.rs:181-188. *)
Definition GridAxisDescriptor_field_len (v : GridAxisDescriptor) : N :=
  c_len f64_codec (GridAxisDescriptor_domain_initial v) + c_len f64_codec (GridAxisDescriptor_domain_final v)
  + c_len u16_codec (GridAxisDescriptor_domain_points v) + c_len u8_codec (GridAxisDescriptor_interleaf_factor v)
  + GridAxisDescriptorAxisType_field_len (GridAxisDescriptor_axis_type v)
  + GridAxisType_field_len (GridAxisDescriptor_data v).

(** Field traits of GridAxisDescriptor (grid_axis_descriptor.rs:168-189). *)
Definition GridAxisDescriptor_codec : codec GridAxisDescriptor :=
  mk_codec (fun v => Ok (GridAxisDescriptor_serialize v)) GridAxisDescriptor_deserialize GridAxisDescriptor_field_len.

(** ** GridDataRecord *)

(** grid_data_record.rs:14-32. *)
Inductive DataRepresentationType :=
| Type0 (number_of_octets : u16) (data_values : list u8) (padding : list u8)
| Type1 (field_scale field_offset : f32) (number_of_values : u16) (data_values : list u16) (padding : list u8)
| Type2 (number_of_values : u16) (padding : u16) (data_values : list f32).

(** grid_data_record.rs:34-62. *)
Definition DataRepresentationType_field_len (v : DataRepresentationType) : N :=
  match v with
  | Type0 n d p => c_len u16_codec n + c_len (vec_codec u8_codec) d + c_len (vec_codec u8_codec) p
  | Type1 s o n d p =>
      c_len f32_codec s + c_len f32_codec o + c_len u16_codec n
      + c_len (vec_codec u16_codec) d + c_len (vec_codec u8_codec) p
  | Type2 n p d => c_len u16_codec n + c_len u16_codec p + c_len (vec_codec f32_codec) d
  end.

(** grid_data_record.rs:65-69. *)
Record GridDataRecord := mk_GridDataRecord {
  GridDataRecord_sample_type : enum GriddedDataSampleType_spec;
  GridDataRecord_data_representation : enum GriddedDataDataRepresentation_spec;
  GridDataRecord_data : DataRepresentationType
}.

(** grid_data_record.rs:85-131: the two enumerations are written as u16. *)
Definition GridDataRecord_serialize (v : GridDataRecord) : bytes :=
  put_u16 (as_u16 (code (GridDataRecord_sample_type v))) ++
  put_u16 (as_u16 (code (GridDataRecord_data_representation v))) ++
  match GridDataRecord_data v with
  | Type0 n d p => put_u16 n ++ List.concat (map put_u8 d) ++ List.concat (map put_u8 p)
  | Type1 s o n d p =>
      put_f32 s ++ put_f32 o ++ put_u16 n ++ List.concat (map put_u16 d) ++ List.concat (map put_u8 p)
  | Type2 n p d => put_u16 n ++ put_u16 p ++ List.concat (map put_f32 d)
  end.

(** grid_data_record.rs:133-196: the two enumerations are read with their own
    [deserialize], i.e. as u8. Codes: Type0 = 0, Type1 = 1, Type2 = 2. *)
Definition GridDataRecord_deserialize : reader GridDataRecord :=
  let* sample_type := enum_deserialize GriddedDataSampleType_spec in
  let* data_representation := enum_deserialize GriddedDataDataRepresentation_spec in
  let* data :=
    (if code data_representation =? 0 then
       let* n := get_u16 in
       let* d := repeat_read (N.to_nat (uval n)) get_u8 in
       let* p := read_remaining in
       ret (Type0 n d p)
     else if code data_representation =? 1 then
       let* s := get_f32 in
       let* o := get_f32 in
       let* n := get_u16 in
       let* d := repeat_read (N.to_nat (uval n)) get_u16 in
       let* p := read_remaining in
       ret (Type1 s o n d p)
     else
       let* n := get_u16 in
       let* p := get_u16 in
       let* d := repeat_read (N.to_nat (uval n)) get_f32 in
       ret (Type2 n p d)) in
  ret (mk_GridDataRecord sample_type data_representation data).

(** grid_data_record.rs:212-214. *)
Definition GridDataRecord_field_len (v : GridDataRecord) : N :=
  GriddedDataSampleType_field_len (GridDataRecord_sample_type v)
  + GriddedDataDataRepresentation_field_len (GridDataRecord_data_representation v)
  + DataRepresentationType_field_len (GridDataRecord_data v).

(** Field traits of GridDataRecord (grid_data_record.rs:199-215). *)
Definition GridDataRecord_codec : codec GridDataRecord :=
  mk_codec (fun v => Ok (GridDataRecord_serialize v)) GridDataRecord_deserialize GridDataRecord_field_len.

(** ** IFFFundamentalParameterData *)

(** iff_fundamental_parameter_data.rs:14-22. *)
Record IFFFundamentalParameterData := mk_IFFFundamentalParameterData {
  IFFFundamentalParameterData_erp : f32;
  IFFFundamentalParameterData_frequency : f32;
  IFFFundamentalParameterData_pgrf : f32;
  IFFFundamentalParameterData_pulse_width : f32;
  IFFFundamentalParameterData_burst_length : u32;
  IFFFundamentalParameterData_applicable_modes : u8;
  IFFFundamentalParameterData_system_specific_data : array u8 3
}.

(** iff_fundamental_parameter_data.rs:25-35. *)
Definition IFFFundamentalParameterData_default : IFFFundamentalParameterData := mk_IFFFundamentalParameterData
  (as_uint 4 0)
  (as_uint 4 0)
  (as_uint 4 0)
  (as_uint 4 0)
  (as_uint 4 0)
  (as_uint 1 0)
  (array_repeat (as_uint 1 0) 3).

(** iff_fundamental_parameter_data.rs:60-70. *)
Definition IFFFundamentalParameterData_serialize (v : IFFFundamentalParameterData) : bytes :=
  put_f32 (IFFFundamentalParameterData_erp v) ++
  put_f32 (IFFFundamentalParameterData_frequency v) ++
  put_f32 (IFFFundamentalParameterData_pgrf v) ++
  put_f32 (IFFFundamentalParameterData_pulse_width v) ++
  put_u32 (IFFFundamentalParameterData_burst_length v) ++
  put_u8 (IFFFundamentalParameterData_applicable_modes v) ++
  List.concat (map put_u8 (elems (IFFFundamentalParameterData_system_specific_data v))).

(** iff_fundamental_parameter_data.rs:72-92. *)
Definition IFFFundamentalParameterData_deserialize : reader IFFFundamentalParameterData :=
  let* erp := get_f32 in
  let* frequency := get_f32 in
  let* pgrf := get_f32 in
  let* pulse_width := get_f32 in
  let* burst_length := get_u32 in
  let* applicable_modes := get_u8 in
  let* system_specific_data := read_array 3 (as_uint 1 0) get_u8 in
  ret (mk_IFFFundamentalParameterData erp frequency pgrf pulse_width burst_length applicable_modes system_specific_data).

(** iff_fundamental_parameter_data.rs:114-114. *)
Definition IFFFundamentalParameterData_LENGTH : N := 24.

(** iff_fundamental_parameter_data.rs:108-110. *)
Definition IFFFundamentalParameterData_field_len (v : IFFFundamentalParameterData) : N := IFFFundamentalParameterData_LENGTH.

(** Field traits of IFFFundamentalParameterData. *)
Definition IFFFundamentalParameterData_codec : codec IFFFundamentalParameterData :=
  mk_codec (fun v => Ok (IFFFundamentalParameterData_serialize v)) IFFFundamentalParameterData_deserialize IFFFundamentalParameterData_field_len.

(** ** IntercomCommunicationsParameters *)

(** intercom_communications_parameters.rs:10-14. *)
Record IntercomCommunicationsParameters := mk_IntercomCommunicationsParameters {
  IntercomCommunicationsParameters_record_type : u16;
  IntercomCommunicationsParameters_record_length : u16;
  IntercomCommunicationsParameters_record_specific_field : u32
}.

(** intercom_communications_parameters.rs:10-14: [derive(Default)]. *)
Definition IntercomCommunicationsParameters_default : IntercomCommunicationsParameters := mk_IntercomCommunicationsParameters
  (as_uint 2 0)
  (as_uint 2 0)
  (as_uint 4 0).

(** intercom_communications_parameters.rs:44-48. *)
Definition IntercomCommunicationsParameters_serialize (v : IntercomCommunicationsParameters) : bytes :=
  put_u16 (IntercomCommunicationsParameters_record_type v) ++
  put_u16 (IntercomCommunicationsParameters_record_length v) ++
  put_u32 (IntercomCommunicationsParameters_record_specific_field v).

(** intercom_communications_parameters.rs:50-56. *)
Definition IntercomCommunicationsParameters_deserialize : reader IntercomCommunicationsParameters :=
  let* record_type := get_u16 in
  let* record_length := get_u16 in
  let* record_specific_field := get_u32 in
  ret (mk_IntercomCommunicationsParameters record_type record_length record_specific_field).

(** intercom_communications_parameters.rs:29-31. *)
Definition IntercomCommunicationsParameters_field_len (v : IntercomCommunicationsParameters) : N := 2 + 2 + 4.

(** Field traits of IntercomCommunicationsParameters. *)
Definition IntercomCommunicationsParameters_codec : codec IntercomCommunicationsParameters :=
  mk_codec (fun v => Ok (IntercomCommunicationsParameters_serialize v)) IntercomCommunicationsParameters_deserialize IntercomCommunicationsParameters_field_len.

(** ** LayerHeader *)

(** layer_header.rs:16-20. *)
Record LayerHeader := mk_LayerHeader {
  LayerHeader_layer_number : u8;
  LayerHeader_layer_specific_information : u8;
  LayerHeader_length : u16
}.

(** layer_header.rs:16-20: [derive(Default)]. *)
Definition LayerHeader_default : LayerHeader := mk_LayerHeader
  (as_uint 1 0)
  (as_uint 1 0)
  (as_uint 2 0).

(** layer_header.rs:32-36. *)
Definition LayerHeader_serialize (v : LayerHeader) : bytes :=
  put_u8 (LayerHeader_layer_number v) ++
  put_u8 (LayerHeader_layer_specific_information v) ++
  put_u16 (LayerHeader_length v).

(** layer_header.rs:38-44. *)
Definition LayerHeader_deserialize : reader LayerHeader :=
  let* layer_number := get_u8 in
  let* layer_specific_information := get_u8 in
  let* length := get_u16 in
  ret (mk_LayerHeader layer_number layer_specific_information length).

(** layer_header.rs:66-66. *)
Definition LayerHeader_LENGTH : N := 4.

(** layer_header.rs:60-62. *)
Definition LayerHeader_field_len (v : LayerHeader) : N := LayerHeader_LENGTH.

(** Field traits of LayerHeader. *)
Definition LayerHeader_codec : codec LayerHeader :=
  mk_codec (fun v => Ok (LayerHeader_serialize v)) LayerHeader_deserialize LayerHeader_field_len.

(** ** WorldCoordinate *)

(** world_coordinate.rs:16-23. *)
Record WorldCoordinate := mk_WorldCoordinate {
  WorldCoordinate_x : f64;
  WorldCoordinate_y : f64;
  WorldCoordinate_z : f64
}.

(** world_coordinate.rs:16-23: [derive(Default)]. *)
Definition WorldCoordinate_default : WorldCoordinate := mk_WorldCoordinate
  (as_uint 8 0)
  (as_uint 8 0)
  (as_uint 8 0).

(** world_coordinate.rs:41-45. *)
Definition WorldCoordinate_serialize (v : WorldCoordinate) : bytes :=
  put_f64 (WorldCoordinate_x v) ++
  put_f64 (WorldCoordinate_y v) ++
  put_f64 (WorldCoordinate_z v).

(** world_coordinate.rs:47-53. *)
Definition WorldCoordinate_deserialize : reader WorldCoordinate :=
  let* x := get_f64 in
  let* y := get_f64 in
  let* z := get_f64 in
  ret (mk_WorldCoordinate x y z).

(** world_coordinate.rs:75-75. *)
Definition WorldCoordinate_LENGTH : N := 24.

(** world_coordinate.rs:69-71. *)
Definition WorldCoordinate_field_len (v : WorldCoordinate) : N := WorldCoordinate_LENGTH.

(** Field traits of WorldCoordinate. *)
Definition WorldCoordinate_codec : codec WorldCoordinate :=
  mk_codec (fun v => Ok (WorldCoordinate_serialize v)) WorldCoordinate_deserialize WorldCoordinate_field_len.

(** ** LinearSegmentParameter *)

(** linear_segment_parameter.rs:14-26. *)
Record LinearSegmentParameter := mk_LinearSegmentParameter {
  LinearSegmentParameter_segment_number : u8;
  LinearSegmentParameter_segment_modification : u8;
  LinearSegmentParameter_general_segment_appearance : u32;
  LinearSegmentParameter_specific_segment_appearance : u32;
  LinearSegmentParameter_segment_location : WorldCoordinate;
  LinearSegmentParameter_segment_orientation : EulerAngles;
  LinearSegmentParameter_segment_length : f32;
  LinearSegmentParameter_segment_width : f32;
  LinearSegmentParameter_segment_height : f32;
  LinearSegmentParameter_segment_depth : f32;
  LinearSegmentParameter_padding : u32
}.

(** linear_segment_parameter.rs:14-26: [derive(Default)]. *)
Definition LinearSegmentParameter_default : LinearSegmentParameter := mk_LinearSegmentParameter
  (as_uint 1 0)
  (as_uint 1 0)
  (as_uint 4 0)
  (as_uint 4 0)
  (WorldCoordinate_default)
  (EulerAngles_default)
  (as_uint 4 0)
  (as_uint 4 0)
  (as_uint 4 0)
  (as_uint 4 0)
  (as_uint 4 0).

(** linear_segment_parameter.rs:58-70. *)
Definition LinearSegmentParameter_serialize (v : LinearSegmentParameter) : bytes :=
  put_u8 (LinearSegmentParameter_segment_number v) ++
  put_u8 (LinearSegmentParameter_segment_modification v) ++
  put_u32 (LinearSegmentParameter_general_segment_appearance v) ++
  put_u32 (LinearSegmentParameter_specific_segment_appearance v) ++
  WorldCoordinate_serialize (LinearSegmentParameter_segment_location v) ++
  EulerAngles_serialize (LinearSegmentParameter_segment_orientation v) ++
  put_f32 (LinearSegmentParameter_segment_length v) ++
  put_f32 (LinearSegmentParameter_segment_width v) ++
  put_f32 (LinearSegmentParameter_segment_height v) ++
  put_f32 (LinearSegmentParameter_segment_depth v) ++
  put_u32 (LinearSegmentParameter_padding v).

(** linear_segment_parameter.rs:72-86. *)
Definition LinearSegmentParameter_deserialize : reader LinearSegmentParameter :=
  let* segment_number := get_u8 in
  let* segment_modification := get_u8 in
  let* general_segment_appearance := get_u32 in
  let* specific_segment_appearance := get_u32 in
  let* segment_location := WorldCoordinate_deserialize in
  let* segment_orientation := EulerAngles_deserialize in
  let* segment_length := get_f32 in
  let* segment_width := get_f32 in
  let* segment_height := get_f32 in
  let* segment_depth := get_f32 in
  let* padding := get_u32 in
  ret (mk_LinearSegmentParameter segment_number segment_modification general_segment_appearance specific_segment_appearance segment_location segment_orientation segment_length segment_width segment_height segment_depth padding).

(** linear_segment_parameter.rs:102-114. *)
Definition LinearSegmentParameter_field_len (v : LinearSegmentParameter) : N := c_len u8_codec (LinearSegmentParameter_segment_number v) + c_len u8_codec (LinearSegmentParameter_segment_modification v) + c_len u32_codec (LinearSegmentParameter_general_segment_appearance v) + c_len u32_codec (LinearSegmentParameter_specific_segment_appearance v) + WorldCoordinate_field_len (LinearSegmentParameter_segment_location v) + EulerAngles_field_len (LinearSegmentParameter_segment_orientation v) + c_len f32_codec (LinearSegmentParameter_segment_length v) + c_len f32_codec (LinearSegmentParameter_segment_width v) + c_len f32_codec (LinearSegmentParameter_segment_height v) + c_len f32_codec (LinearSegmentParameter_segment_depth v) + c_len u32_codec (LinearSegmentParameter_padding v).

(** Field traits of LinearSegmentParameter. *)
Definition LinearSegmentParameter_codec : codec LinearSegmentParameter :=
  mk_codec (fun v => Ok (LinearSegmentParameter_serialize v)) LinearSegmentParameter_deserialize LinearSegmentParameter_field_len.

(** ** LinearVelocity *)

(** linear_velocity.rs:14-18. *)
Record LinearVelocity := mk_LinearVelocity {
  LinearVelocity_first_vector_component : f32;
  LinearVelocity_second_vector_component : f32;
  LinearVelocity_third_vector_component : f32
}.

(** linear_velocity.rs:14-18: [derive(Default)]. *)
Definition LinearVelocity_default : LinearVelocity := mk_LinearVelocity
  (as_uint 4 0)
  (as_uint 4 0)
  (as_uint 4 0).

(** linear_velocity.rs:30-34. *)
Definition LinearVelocity_serialize (v : LinearVelocity) : bytes :=
  put_f32 (LinearVelocity_first_vector_component v) ++
  put_f32 (LinearVelocity_second_vector_component v) ++
  put_f32 (LinearVelocity_third_vector_component v).

(** linear_velocity.rs:36-42. *)
Definition LinearVelocity_deserialize : reader LinearVelocity :=
  let* first_vector_component := get_f32 in
  let* second_vector_component := get_f32 in
  let* third_vector_component := get_f32 in
  ret (mk_LinearVelocity first_vector_component second_vector_component third_vector_component).

(** linear_velocity.rs:64-64. *)
Definition LinearVelocity_LENGTH : N := 12.

(** linear_velocity.rs:58-60. *)
Definition LinearVelocity_field_len (v : LinearVelocity) : N := LinearVelocity_LENGTH.

(** Field traits of LinearVelocity. *)
Definition LinearVelocity_codec : codec LinearVelocity :=
  mk_codec (fun v => Ok (LinearVelocity_serialize v)) LinearVelocity_deserialize LinearVelocity_field_len.

(** ** MinefieldIdentifier *)

(** minefield_identifier.rs:14-17. *)
Record MinefieldIdentifier := mk_MinefieldIdentifier {
  MinefieldIdentifier_simulation_address : SimulationAddress;
  MinefieldIdentifier_minefield_number : u16
}.

(** minefield_identifier.rs:14-17: [derive(Default)]. *)
Definition MinefieldIdentifier_default : MinefieldIdentifier := mk_MinefieldIdentifier
  (SimulationAddress_default)
  (as_uint 2 0).

(** minefield_identifier.rs:28-31. *)
Definition MinefieldIdentifier_serialize (v : MinefieldIdentifier) : bytes :=
  SimulationAddress_serialize (MinefieldIdentifier_simulation_address v) ++
  put_u16 (MinefieldIdentifier_minefield_number v).

(** minefield_identifier.rs:33-38. *)
Definition MinefieldIdentifier_deserialize : reader MinefieldIdentifier :=
  let* simulation_address := SimulationAddress_deserialize in
  let* minefield_number := get_u16 in
  ret (mk_MinefieldIdentifier simulation_address minefield_number).

(** minefield_identifier.rs:54-56. *)
Definition MinefieldIdentifier_field_len (v : MinefieldIdentifier) : N := SimulationAddress_field_len (MinefieldIdentifier_simulation_address v) + c_len u16_codec (MinefieldIdentifier_minefield_number v).

(** Field traits of MinefieldIdentifier. *)
Definition MinefieldIdentifier_codec : codec MinefieldIdentifier :=
  mk_codec (fun v => Ok (MinefieldIdentifier_serialize v)) MinefieldIdentifier_deserialize MinefieldIdentifier_field_len.

(** ** ModulationParameters *)

(** modulation_parameters.rs:11-13 (the field is private). *)
Record ModulationParameters := mk_ModulationParameters { ModulationParameters_record_specific_fields : list u8 }.

(** modulation_parameters.rs:10-13 [derive(Default)], 17-21 [new]. *)
Definition ModulationParameters_default : ModulationParameters := mk_ModulationParameters [].

(** modulation_parameters.rs:23-27. *)
Definition ModulationParameters_serialize (v : ModulationParameters) : bytes :=
  List.concat (map put_u8 (ModulationParameters_record_specific_fields v)).

(** modulation_parameters.rs:29-42. *)
Definition ModulationParameters_deserialize (length : u8) : reader (option ModulationParameters) :=
  if uval length =? 0 then ret None
  else let* record_specific_fields := repeat_read (N.to_nat (uval length)) get_u8 in
       ret (Some (mk_ModulationParameters record_specific_fields)).

(** modulation_parameters.rs:58-64 [deserialize_with_len]. *)
Definition ModulationParameters_deserialize_with_len (len : N) : reader ModulationParameters :=
  match try_uint 1 len with
  | None => rfail ExpectFailed
  | Some l => let* r := ModulationParameters_deserialize l in
              ret (match r with Some x => x | None => ModulationParameters_default end)
  end.

(** modulation_parameters.rs:67-69. *)
Definition ModulationParameters_field_len (v : ModulationParameters) : N :=
  c_len (vec_codec u8_codec) (ModulationParameters_record_specific_fields v).

(** Field traits (modulation_parameters.rs:45-70); [deserialize_field] returns the default. *)
Definition ModulationParameters_codec : codec ModulationParameters :=
  mk_codec (fun v => Ok (ModulationParameters_serialize v)) (ret ModulationParameters_default) ModulationParameters_field_len.

(** ** ModulationType *)

(** modulation_type.rs:11-16. *)
Record ModulationType := mk_ModulationType {
  ModulationType_spread_spectrum : u16;
  ModulationType_major : u16;
  ModulationType_detail : u16;
  ModulationType_system : u16
}.

(** modulation_type.rs:11-16: [derive(Default)]. *)
Definition ModulationType_default : ModulationType := mk_ModulationType
  (as_uint 2 0)
  (as_uint 2 0)
  (as_uint 2 0)
  (as_uint 2 0).

(** modulation_type.rs:29-34. *)
Definition ModulationType_serialize (v : ModulationType) : bytes :=
  put_u16 (ModulationType_spread_spectrum v) ++
  put_u16 (ModulationType_major v) ++
  put_u16 (ModulationType_detail v) ++
  put_u16 (ModulationType_system v).

(** modulation_type.rs:36-43. *)
Definition ModulationType_deserialize : reader ModulationType :=
  let* spread_spectrum := get_u16 in
  let* major := get_u16 in
  let* detail := get_u16 in
  let* system := get_u16 in
  ret (mk_ModulationType spread_spectrum major detail system).

(** modulation_type.rs:59-64. *)
Definition ModulationType_field_len (v : ModulationType) : N := c_len u16_codec (ModulationType_spread_spectrum v) + c_len u16_codec (ModulationType_major v) + c_len u16_codec (ModulationType_detail v) + c_len u16_codec (ModulationType_system v).

(** Field traits of ModulationType. *)
Definition ModulationType_codec : codec ModulationType :=
  mk_codec (fun v => Ok (ModulationType_serialize v)) ModulationType_deserialize ModulationType_field_len.

(** ** MunitionDescriptor *)

(** munition_descriptor.rs:14-20. *)
Record MunitionDescriptor := mk_MunitionDescriptor {
  MunitionDescriptor_munition_type : EntityType;
  MunitionDescriptor_warhead : u16;
  MunitionDescriptor_fuse : u16;
  MunitionDescriptor_quantity : u16;
  MunitionDescriptor_rate : u16
}.

(** munition_descriptor.rs:14-20: [derive(Default)]. *)
Definition MunitionDescriptor_default : MunitionDescriptor := mk_MunitionDescriptor
  (EntityType_default)
  (as_uint 2 0)
  (as_uint 2 0)
  (as_uint 2 0)
  (as_uint 2 0).

(** munition_descriptor.rs:40-46. *)
Definition MunitionDescriptor_serialize (v : MunitionDescriptor) : bytes :=
  EntityType_serialize (MunitionDescriptor_munition_type v) ++
  put_u16 (MunitionDescriptor_warhead v) ++
  put_u16 (MunitionDescriptor_fuse v) ++
  put_u16 (MunitionDescriptor_quantity v) ++
  put_u16 (MunitionDescriptor_rate v).

(** munition_descriptor.rs:48-56. *)
Definition MunitionDescriptor_deserialize : reader MunitionDescriptor :=
  let* munition_type := EntityType_deserialize in
  let* warhead := get_u16 in
  let* fuse := get_u16 in
  let* quantity := get_u16 in
  let* rate := get_u16 in
  ret (mk_MunitionDescriptor munition_type warhead fuse quantity rate).

(** munition_descriptor.rs:72-78. *)
Definition MunitionDescriptor_field_len (v : MunitionDescriptor) : N := EntityType_field_len (MunitionDescriptor_munition_type v) + c_len u16_codec (MunitionDescriptor_warhead v) + c_len u16_codec (MunitionDescriptor_fuse v) + c_len u16_codec (MunitionDescriptor_quantity v) + c_len u16_codec (MunitionDescriptor_rate v).

(** Field traits of MunitionDescriptor. *)
Definition MunitionDescriptor_codec : codec MunitionDescriptor :=
  mk_codec (fun v => Ok (MunitionDescriptor_serialize v)) MunitionDescriptor_deserialize MunitionDescriptor_field_len.

(** ** NamedLocation *)

(** named_location.rs:11-14. *)
Record NamedLocation := mk_NamedLocation {
  NamedLocation_station_name : u16;
  NamedLocation_station_number : u16
}.

(** named_location.rs:11-14: [derive(Default)]. *)
Definition NamedLocation_default : NamedLocation := mk_NamedLocation
  (as_uint 2 0)
  (as_uint 2 0).

(** named_location.rs:25-28. *)
Definition NamedLocation_serialize (v : NamedLocation) : bytes :=
  put_u16 (NamedLocation_station_name v) ++
  put_u16 (NamedLocation_station_number v).

(** named_location.rs:30-35. *)
Definition NamedLocation_deserialize : reader NamedLocation :=
  let* station_name := get_u16 in
  let* station_number := get_u16 in
  ret (mk_NamedLocation station_name station_number).

(** named_location.rs:51-53. *)
Definition NamedLocation_field_len (v : NamedLocation) : N := 4.

(** Field traits of NamedLocation. *)
Definition NamedLocation_codec : codec NamedLocation :=
  mk_codec (fun v => Ok (NamedLocation_serialize v)) NamedLocation_deserialize NamedLocation_field_len.

(** ** ObjectIdentifier *)

(** object_identifier.rs:14-17. *)
Record ObjectIdentifier := mk_ObjectIdentifier {
  ObjectIdentifier_simulation_address : SimulationAddress;
  ObjectIdentifier_object_number : u16
}.

(** object_identifier.rs:14-17: [derive(Default)]. *)
Definition ObjectIdentifier_default : ObjectIdentifier := mk_ObjectIdentifier
  (SimulationAddress_default)
  (as_uint 2 0).

(** object_identifier.rs:25-28. *)
Definition ObjectIdentifier_serialize (v : ObjectIdentifier) : bytes :=
  SimulationAddress_serialize (ObjectIdentifier_simulation_address v) ++
  put_u16 (ObjectIdentifier_object_number v).

(** object_identifier.rs:30-35. *)
Definition ObjectIdentifier_deserialize : reader ObjectIdentifier :=
  let* simulation_address := SimulationAddress_deserialize in
  let* object_number := get_u16 in
  ret (mk_ObjectIdentifier simulation_address object_number).

(** object_identifier.rs:51-53. *)
Definition ObjectIdentifier_field_len (v : ObjectIdentifier) : N := SimulationAddress_field_len (ObjectIdentifier_simulation_address v) + c_len u16_codec (ObjectIdentifier_object_number v).

(** Field traits of ObjectIdentifier. *)
Definition ObjectIdentifier_codec : codec ObjectIdentifier :=
  mk_codec (fun v => Ok (ObjectIdentifier_serialize v)) ObjectIdentifier_deserialize ObjectIdentifier_field_len.

(** ** ObjectType *)

(** object_type.rs:11-16. *)
Record ObjectType := mk_ObjectType {
  ObjectType_domain : u8;
  ObjectType_object_kind : u8;
  ObjectType_category : u8;
  ObjectType_subcategory : u8
}.

(** object_type.rs:11-16: [derive(Default)]. *)
Definition ObjectType_default : ObjectType := mk_ObjectType
  (as_uint 1 0)
  (as_uint 1 0)
  (as_uint 1 0)
  (as_uint 1 0).

(** object_type.rs:29-34. *)
Definition ObjectType_serialize (v : ObjectType) : bytes :=
  put_u8 (ObjectType_domain v) ++
  put_u8 (ObjectType_object_kind v) ++
  put_u8 (ObjectType_category v) ++
  put_u8 (ObjectType_subcategory v).

(** object_type.rs:36-43. *)
Definition ObjectType_deserialize : reader ObjectType :=
  let* domain := get_u8 in
  let* object_kind := get_u8 in
  let* category := get_u8 in
  let* subcategory := get_u8 in
  ret (mk_ObjectType domain object_kind category subcategory).

(** object_type.rs:59-61. *)
Definition ObjectType_field_len (v : ObjectType) : N := 4.

(** Field traits of ObjectType. *)
Definition ObjectType_codec : codec ObjectType :=
  mk_codec (fun v => Ok (ObjectType_serialize v)) ObjectType_deserialize ObjectType_field_len.

(** ** Point *)

(** point.rs:11-14. *)
Record Point := mk_Point {
  Point_x : f32;
  Point_y : f32
}.

(** point.rs:11-14: [derive(Default)]. *)
Definition Point_default : Point := mk_Point
  (as_uint 4 0)
  (as_uint 4 0).

(** point.rs:22-25. *)
Definition Point_serialize (v : Point) : bytes :=
  put_f32 (Point_x v) ++
  put_f32 (Point_y v).

(** point.rs:27-32. *)
Definition Point_deserialize : reader Point :=
  let* x := get_f32 in
  let* y := get_f32 in
  ret (mk_Point x y).

(** point.rs:48-50. *)
Definition Point_field_len (v : Point) : N := c_len f32_codec (Point_x v) + c_len f32_codec (Point_y v).

(** Field traits of Point. *)
Definition Point_codec : codec Point :=
  mk_codec (fun v => Ok (Point_serialize v)) Point_deserialize Point_field_len.

(** ** PropulsionSystemData *)

(** propulsion_system_data.rs:14-17. *)
Record PropulsionSystemData := mk_PropulsionSystemData {
  PropulsionSystemData_power_setting : f32;
  PropulsionSystemData_engine_rpm : f32
}.

(** propulsion_system_data.rs:14-17: [derive(Default)]. *)
Definition PropulsionSystemData_default : PropulsionSystemData := mk_PropulsionSystemData
  (as_uint 4 0)
  (as_uint 4 0).

(** propulsion_system_data.rs:28-31. *)
Definition PropulsionSystemData_serialize (v : PropulsionSystemData) : bytes :=
  put_f32 (PropulsionSystemData_power_setting v) ++
  put_f32 (PropulsionSystemData_engine_rpm v).

(** propulsion_system_data.rs:33-38. *)
Definition PropulsionSystemData_deserialize : reader PropulsionSystemData :=
  let* power_setting := get_f32 in
  let* engine_rpm := get_f32 in
  ret (mk_PropulsionSystemData power_setting engine_rpm).

(** propulsion_system_data.rs:60-60. *)
Definition PropulsionSystemData_LENGTH : N := 8.

(** propulsion_system_data.rs:54-56. *)
Definition PropulsionSystemData_field_len (v : PropulsionSystemData) : N := PropulsionSystemData_LENGTH.

(** Field traits of PropulsionSystemData. *)
Definition PropulsionSystemData_codec : codec PropulsionSystemData :=
  mk_codec (fun v => Ok (PropulsionSystemData_serialize v)) PropulsionSystemData_deserialize PropulsionSystemData_field_len.

(** ** RadioEntityType *)

(** radio_entity_type.rs:11-18. *)
Record RadioEntityType := mk_RadioEntityType {
  RadioEntityType_entity_kind : u8;
  RadioEntityType_domain : u8;
  RadioEntityType_country : u16;
  RadioEntityType_category : u8;
  RadioEntityType_nomenclature_version : u8;
  RadioEntityType_nomenclature : u16
}.

(** radio_entity_type.rs:11-18: [derive(Default)]. *)
Definition RadioEntityType_default : RadioEntityType := mk_RadioEntityType
  (as_uint 1 0)
  (as_uint 1 0)
  (as_uint 2 0)
  (as_uint 1 0)
  (as_uint 1 0)
  (as_uint 2 0).

(** radio_entity_type.rs:40-47. *)
Definition RadioEntityType_serialize (v : RadioEntityType) : bytes :=
  put_u8 (RadioEntityType_entity_kind v) ++
  put_u8 (RadioEntityType_domain v) ++
  put_u16 (RadioEntityType_country v) ++
  put_u8 (RadioEntityType_category v) ++
  put_u8 (RadioEntityType_nomenclature_version v) ++
  put_u16 (RadioEntityType_nomenclature v).

(** radio_entity_type.rs:49-58. *)
Definition RadioEntityType_deserialize : reader RadioEntityType :=
  let* entity_kind := get_u8 in
  let* domain := get_u8 in
  let* country := get_u16 in
  let* category := get_u8 in
  let* nomenclature_version := get_u8 in
  let* nomenclature := get_u16 in
  ret (mk_RadioEntityType entity_kind domain country category nomenclature_version nomenclature).

(** radio_entity_type.rs:74-81. *)
Definition RadioEntityType_field_len (v : RadioEntityType) : N := c_len u8_codec (RadioEntityType_entity_kind v) + c_len u8_codec (RadioEntityType_domain v) + c_len u16_codec (RadioEntityType_country v) + c_len u8_codec (RadioEntityType_category v) + c_len u8_codec (RadioEntityType_nomenclature_version v) + c_len u16_codec (RadioEntityType_nomenclature v).

(** Field traits of RadioEntityType. *)
Definition RadioEntityType_codec : codec RadioEntityType :=
  mk_codec (fun v => Ok (RadioEntityType_serialize v)) RadioEntityType_deserialize RadioEntityType_field_len.

(** ** RecordSpecificationElement *)

(** record_specification_element.rs:11-17. *)
Record RecordSpecificationElement := mk_RecordSpecificationElement {
  RecordSpecificationElement_record_id : u32;
  RecordSpecificationElement_record_set_serial_number : u32;
  RecordSpecificationElement_record_length : u16;
  RecordSpecificationElement_record_count : u16;
  RecordSpecificationElement_record_values : list u8
}.

(** [a * b] on u16: panics on overflow in a [Checked] build, wraps otherwise. *)
Definition mul_u16 (m : profile) (a b : u16) : outcome u16 :=
  if uval a * uval b <? 65536 then Ok (as_u16 (uval a * uval b))
  else match m with
       | Checked => Panic ArithOverflow
       | Wrapping => Ok (as_u16 (uval a * uval b))
       end.

(** [for i in 0..n { buf.put_u8(values[i]) }]. *)
Definition put_indexed (n : nat) (l : list u8) : writer :=
  if Nat.leb n (length l) then Ok (List.concat (map put_u8 (firstn n l))) else Panic IndexOutOfBounds.

(** record_specification_element.rs:37-46. *)
Definition RecordSpecificationElement_serialize (m : profile) (v : RecordSpecificationElement) : writer :=
  wapp (Ok (put_u32 (RecordSpecificationElement_record_id v) ++
            put_u32 (RecordSpecificationElement_record_set_serial_number v) ++
            put_u16 (RecordSpecificationElement_record_length v) ++
            put_u16 (RecordSpecificationElement_record_count v)))
       (match mul_u16 m (RecordSpecificationElement_record_length v) (RecordSpecificationElement_record_count v) with
        | Ok n => put_indexed (N.to_nat (uval n)) (RecordSpecificationElement_record_values v)
        | Panic p => Panic p
        end).

(** Lift a computation that may panic into a reader. *)
Definition rlift {A} (o : outcome A) : reader A :=
  fun bs => match o with Ok a => Ok (a, bs) | Panic p => Panic p end.

(** record_specification_element.rs:48-66. *)
Definition RecordSpecificationElement_deserialize (m : profile) : reader RecordSpecificationElement :=
  let* record_id := get_u32 in
  let* record_set_serial_number := get_u32 in
  let* record_length := get_u16 in
  let* record_count := get_u16 in
  let* num_record_values := rlift (mul_u16 m record_length record_count) in
  let* record_values := repeat_read (N.to_nat (uval num_record_values)) get_u8 in
  ret (mk_RecordSpecificationElement record_id record_set_serial_number record_length record_count record_values).

(** record_specification_element.rs:82-88. *)
Definition RecordSpecificationElement_field_len (v : RecordSpecificationElement) : N :=
  c_len u32_codec (RecordSpecificationElement_record_id v)
  + c_len u32_codec (RecordSpecificationElement_record_set_serial_number v)
  + c_len u16_codec (RecordSpecificationElement_record_length v)
  + c_len u16_codec (RecordSpecificationElement_record_count v)
  + c_len (vec_codec u8_codec) (RecordSpecificationElement_record_values v).

(** Field traits of RecordSpecificationElement (record_specification_element.rs:69-89). *)
Definition RecordSpecificationElement_codec (m : profile) : codec RecordSpecificationElement :=
  mk_codec (RecordSpecificationElement_serialize m) (RecordSpecificationElement_deserialize m) RecordSpecificationElement_field_len.

(** ** RecordSpecification *)

(** record_specification.rs:13-16. *)
Record RecordSpecification := mk_RecordSpecification {
  RecordSpecification_number_of_record_sets : u32;
  RecordSpecification_record_sets : list RecordSpecificationElement
}.

(** record_specification.rs:12-16: [derive(Default)]. *)
Definition RecordSpecification_default : RecordSpecification := mk_RecordSpecification (as_uint 4 0) [].

(** record_specification.rs:30-35. *)
Definition RecordSpecification_serialize (m : profile) (v : RecordSpecification) : writer :=
  wapp (Ok (put_u32 (RecordSpecification_number_of_record_sets v)))
       (wconcat (map (RecordSpecificationElement_serialize m) (RecordSpecification_record_sets v))).

(** record_specification.rs:37-47. *)
Definition RecordSpecification_deserialize (m : profile) : reader RecordSpecification :=
  let* number_of_record_sets := get_u32 in
  let* record_sets := repeat_read (N.to_nat (uval number_of_record_sets)) (RecordSpecificationElement_deserialize m) in
  ret (mk_RecordSpecification number_of_record_sets record_sets).

(** record_specification.rs:63-65. *)
Definition RecordSpecification_field_len (m : profile) (v : RecordSpecification) : N :=
  4 + c_len (vec_codec (RecordSpecificationElement_codec m)) (RecordSpecification_record_sets v).

(** Field traits of RecordSpecification (record_specification.rs:50-66). *)
Definition RecordSpecification_codec (m : profile) : codec RecordSpecification :=
  mk_codec (RecordSpecification_serialize m) (RecordSpecification_deserialize m) (RecordSpecification_field_len m).

(** ** Relationship *)

(** relationship.rs:11-14. *)
Record Relationship := mk_Relationship {
  Relationship_nature : u16;
  Relationship_position : u16
}.

(** relationship.rs:11-14: [derive(Default)]. *)
Definition Relationship_default : Relationship := mk_Relationship
  (as_uint 2 0)
  (as_uint 2 0).

(** relationship.rs:22-25. *)
Definition Relationship_serialize (v : Relationship) : bytes :=
  put_u16 (Relationship_nature v) ++
  put_u16 (Relationship_position v).

(** relationship.rs:27-32. *)
Definition Relationship_deserialize : reader Relationship :=
  let* nature := get_u16 in
  let* position := get_u16 in
  ret (mk_Relationship nature position).

(** relationship.rs:48-50. *)
Definition Relationship_field_len (v : Relationship) : N := 4.

(** Field traits of Relationship. *)
Definition Relationship_codec : codec Relationship :=
  mk_codec (fun v => Ok (Relationship_serialize v)) Relationship_deserialize Relationship_field_len.

(** ** SecondaryOperationalData *)

(** secondary_operational_data.rs:14-18. *)
Record SecondaryOperationalData := mk_SecondaryOperationalData {
  SecondaryOperationalData_operational_data1 : u8;
  SecondaryOperationalData_operational_data2 : u8;
  SecondaryOperationalData_number_of_iff_fundamental_parameter_records : u16
}.

(** secondary_operational_data.rs:14-18: [derive(Default)]. *)
Definition SecondaryOperationalData_default : SecondaryOperationalData := mk_SecondaryOperationalData
  (as_uint 1 0)
  (as_uint 1 0)
  (as_uint 2 0).

(** secondary_operational_data.rs:34-38. *)
Definition SecondaryOperationalData_serialize (v : SecondaryOperationalData) : bytes :=
  put_u8 (SecondaryOperationalData_operational_data1 v) ++
  put_u8 (SecondaryOperationalData_operational_data2 v) ++
  put_u16 (SecondaryOperationalData_number_of_iff_fundamental_parameter_records v).

(** secondary_operational_data.rs:40-46. *)
Definition SecondaryOperationalData_deserialize : reader SecondaryOperationalData :=
  let* operational_data1 := get_u8 in
  let* operational_data2 := get_u8 in
  let* number_of_iff_fundamental_parameter_records := get_u16 in
  ret (mk_SecondaryOperationalData operational_data1 operational_data2 number_of_iff_fundamental_parameter_records).

(** secondary_operational_data.rs:68-68. *)
Definition SecondaryOperationalData_LENGTH : N := 4.

(** secondary_operational_data.rs:62-64. *)
Definition SecondaryOperationalData_field_len (v : SecondaryOperationalData) : N := SecondaryOperationalData_LENGTH.

(** Field traits of SecondaryOperationalData. *)
Definition SecondaryOperationalData_codec : codec SecondaryOperationalData :=
  mk_codec (fun v => Ok (SecondaryOperationalData_serialize v)) SecondaryOperationalData_deserialize SecondaryOperationalData_field_len.

(** ** ShaftRPMs *)

(** shaft_rpms.rs:16-20. *)
Record ShaftRPMs := mk_ShaftRPMs {
  ShaftRPMs_current_shaft_rpms : i16;
  ShaftRPMs_ordered_shaft_rpms : i16;
  ShaftRPMs_shaft_rpm_rate_of_change : i32
}.

(** shaft_rpms.rs:16-20: [derive(Default)]. *)
Definition ShaftRPMs_default : ShaftRPMs := mk_ShaftRPMs
  (as_uint 2 0)
  (as_uint 2 0)
  (as_uint 4 0).

(** shaft_rpms.rs:36-40. *)
Definition ShaftRPMs_serialize (v : ShaftRPMs) : bytes :=
  put_i16 (ShaftRPMs_current_shaft_rpms v) ++
  put_i16 (ShaftRPMs_ordered_shaft_rpms v) ++
  put_i32 (ShaftRPMs_shaft_rpm_rate_of_change v).

(** shaft_rpms.rs:42-48. *)
Definition ShaftRPMs_deserialize : reader ShaftRPMs :=
  let* current_shaft_rpms := get_i16 in
  let* ordered_shaft_rpms := get_i16 in
  let* shaft_rpm_rate_of_change := get_i32 in
  ret (mk_ShaftRPMs current_shaft_rpms ordered_shaft_rpms shaft_rpm_rate_of_change).

(** shaft_rpms.rs:70-70. *)
Definition ShaftRPMs_LENGTH : N := 8.

(** shaft_rpms.rs:64-66. *)
Definition ShaftRPMs_field_len (v : ShaftRPMs) : N := ShaftRPMs_LENGTH.

(** Field traits of ShaftRPMs. *)
Definition ShaftRPMs_codec : codec ShaftRPMs :=
  mk_codec (fun v => Ok (ShaftRPMs_serialize v)) ShaftRPMs_deserialize ShaftRPMs_field_len.

(** ** SimulationIdentifier *)

(** simulation_id.rs:15-18. *)
Record SimulationIdentifier := mk_SimulationIdentifier {
  SimulationIdentifier_simulation_address : SimulationAddress;
  SimulationIdentifier_reference_number : u16
}.

(** simulation_id.rs:15-18: [derive(Default)]. *)
Definition SimulationIdentifier_default : SimulationIdentifier := mk_SimulationIdentifier
  (SimulationAddress_default)
  (as_uint 2 0).

(** simulation_id.rs:29-32. *)
Definition SimulationIdentifier_serialize (v : SimulationIdentifier) : bytes :=
  SimulationAddress_serialize (SimulationIdentifier_simulation_address v) ++
  put_u16 (as_u16 0).

(** simulation_id.rs:34-39. *)
Definition SimulationIdentifier_deserialize : reader SimulationIdentifier :=
  let* simulation_address := SimulationAddress_deserialize in
  let* reference_number := get_u16 in
  ret (mk_SimulationIdentifier simulation_address reference_number).

(** simulation_id.rs:61-61. *)
Definition SimulationIdentifier_LENGTH : N := SimulationAddress_LENGTH + 2.

(** simulation_id.rs:55-57. *)
Definition SimulationIdentifier_field_len (v : SimulationIdentifier) : N := SimulationIdentifier_LENGTH.

(** Field traits of SimulationIdentifier. *)
Definition SimulationIdentifier_codec : codec SimulationIdentifier :=
  mk_codec (fun v => Ok (SimulationIdentifier_serialize v)) SimulationIdentifier_deserialize SimulationIdentifier_field_len.

(** ** StandardVariableRecords *)

(** standard_variable_records.rs:11-15. *)
Record StandardVariableRecords := mk_StandardVariableRecords {
  StandardVariableRecords_record_type : u32;
  StandardVariableRecords_record_length : u16;
  StandardVariableRecords_record_specific_fields : list u8
}.

(** standard_variable_records.rs:11-15: [derive(Default)]. *)
Definition StandardVariableRecords_default : StandardVariableRecords := mk_StandardVariableRecords
  (as_uint 4 0)
  (as_uint 2 0)
  ([]).

(** standard_variable_records.rs:31-37. *)
Definition StandardVariableRecords_serialize (v : StandardVariableRecords) : bytes :=
  put_u32 (StandardVariableRecords_record_type v) ++
  put_u16 (StandardVariableRecords_record_length v) ++
  List.concat (map put_u8 (StandardVariableRecords_record_specific_fields v)).

(** standard_variable_records.rs:39-51. *)
Definition StandardVariableRecords_deserialize : reader StandardVariableRecords :=
  let* record_type := get_u32 in
  let* record_length := get_u16 in
  let* record_specific_fields := repeat_read (N.to_nat (uval record_length)) get_u8 in
  ret (mk_StandardVariableRecords record_type record_length record_specific_fields).

(** standard_variable_records.rs:67-69. *)
Definition StandardVariableRecords_field_len (v : StandardVariableRecords) : N := 4 + 2 + c_len (vec_codec u8_codec) (StandardVariableRecords_record_specific_fields v).

(** Field traits of StandardVariableRecords. *)
Definition StandardVariableRecords_codec : codec StandardVariableRecords :=
  mk_codec (fun v => Ok (StandardVariableRecords_serialize v)) StandardVariableRecords_deserialize StandardVariableRecords_field_len.

(** ** StandardVariableSpecification *)

(** standard_variable_specification.rs:11-14. *)
Record StandardVariableSpecification := mk_StandardVariableSpecification {
  StandardVariableSpecification_number_of_standard_variable_records : u16;
  StandardVariableSpecification_standard_variable_records : list StandardVariableRecords
}.

(** standard_variable_specification.rs:10-14: [derive(Default)]. *)
Definition StandardVariableSpecification_default : StandardVariableSpecification :=
  mk_StandardVariableSpecification (as_uint 2 0) [].

(** standard_variable_specification.rs:28-33. *)
Definition StandardVariableSpecification_serialize (v : StandardVariableSpecification) : bytes :=
  put_u16 (StandardVariableSpecification_number_of_standard_variable_records v) ++
  List.concat (map StandardVariableRecords_serialize (StandardVariableSpecification_standard_variable_records v)).

(** standard_variable_specification.rs:35-45. *)
Definition StandardVariableSpecification_deserialize : reader StandardVariableSpecification :=
  let* number_of_standard_variable_records := get_u16 in
  let* standard_variable_records :=
    repeat_read (N.to_nat (uval number_of_standard_variable_records)) StandardVariableRecords_deserialize in
  ret (mk_StandardVariableSpecification number_of_standard_variable_records standard_variable_records).

(** standard_variable_specification.rs:49-52 [serialize_field]. *)
Definition StandardVariableSpecification_serialize_field (v : StandardVariableSpecification) : writer :=
  wapp (Ok (put_u16 (StandardVariableSpecification_number_of_standard_variable_records v)))
       (c_ser (vec_codec StandardVariableRecords_codec) (StandardVariableSpecification_standard_variable_records v)).

(** standard_variable_specification.rs:56-66 [deserialize_field]. *)
Definition StandardVariableSpecification_deserialize_field : reader StandardVariableSpecification :=
  let* number_of_standard_variable_records := get_u16 in
  let* records :=
    repeat_read (N.to_nat (uval number_of_standard_variable_records)) (c_des StandardVariableRecords_codec) in
  ret (mk_StandardVariableSpecification number_of_standard_variable_records records).

(** standard_variable_specification.rs:70-72. *)
Definition StandardVariableSpecification_field_len (v : StandardVariableSpecification) : N :=
  2 + c_len (vec_codec StandardVariableRecords_codec) (StandardVariableSpecification_standard_variable_records v).

(** Field traits (standard_variable_specification.rs:48-73). *)
Definition StandardVariableSpecification_codec : codec StandardVariableSpecification :=
  mk_codec StandardVariableSpecification_serialize_field StandardVariableSpecification_deserialize_field
           StandardVariableSpecification_field_len.

(** ** SupplyQuantity *)

(** supply_quantity.rs:14-17. *)
Record SupplyQuantity := mk_SupplyQuantity {
  SupplyQuantity_supply_type : EntityType;
  SupplyQuantity_quantity : f32
}.

(** supply_quantity.rs:14-17: [derive(Default)]. *)
Definition SupplyQuantity_default : SupplyQuantity := mk_SupplyQuantity
  (EntityType_default)
  (as_uint 4 0).

(** supply_quantity.rs:28-31. *)
Definition SupplyQuantity_serialize (v : SupplyQuantity) : bytes :=
  EntityType_serialize (SupplyQuantity_supply_type v) ++
  put_f32 (SupplyQuantity_quantity v).

(** supply_quantity.rs:33-38. *)
Definition SupplyQuantity_deserialize : reader SupplyQuantity :=
  let* supply_type := EntityType_deserialize in
  let* quantity := get_f32 in
  ret (mk_SupplyQuantity supply_type quantity).

(** supply_quantity.rs:54-56. *)
Definition SupplyQuantity_field_len (v : SupplyQuantity) : N := EntityType_field_len (SupplyQuantity_supply_type v) + c_len f32_codec (SupplyQuantity_quantity v).

(** Field traits of SupplyQuantity. *)
Definition SupplyQuantity_codec : codec SupplyQuantity :=
  mk_codec (fun v => Ok (SupplyQuantity_serialize v)) SupplyQuantity_deserialize SupplyQuantity_field_len.

(** ** SystemId *)

(** system_id.rs:14-19. *)
Record SystemId := mk_SystemId {
  SystemId_system_type : u16;
  SystemId_system_name : u16;
  SystemId_system_mode : u8;
  SystemId_change_options : u8
}.

(** system_id.rs:14-19: [derive(Default)]. *)
Definition SystemId_default : SystemId := mk_SystemId
  (as_uint 2 0)
  (as_uint 2 0)
  (as_uint 1 0)
  (as_uint 1 0).

(** system_id.rs:37-42. *)
Definition SystemId_serialize (v : SystemId) : bytes :=
  put_u16 (SystemId_system_type v) ++
  put_u16 (SystemId_system_name v) ++
  put_u8 (SystemId_system_mode v) ++
  put_u8 (SystemId_change_options v).

(** system_id.rs:44-51. *)
Definition SystemId_deserialize : reader SystemId :=
  let* system_type := get_u16 in
  let* system_name := get_u16 in
  let* system_mode := get_u8 in
  let* change_options := get_u8 in
  ret (mk_SystemId system_type system_name system_mode change_options).

(** system_id.rs:73-73. *)
Definition SystemId_LENGTH : N := 6.

(** system_id.rs:67-69. *)
Definition SystemId_field_len (v : SystemId) : N := SystemId_LENGTH.

(** Field traits of SystemId. *)
Definition SystemId_codec : codec SystemId :=
  mk_codec (fun v => Ok (SystemId_serialize v)) SystemId_deserialize SystemId_field_len.

(** ** VariableParameter *)

(** variable_parameter.rs:14-20. *)
Record VariableParameter := mk_VariableParameter {
  VariableParameter_record_type : u8;
  VariableParameter_variable_parameter_field1 : f64;
  VariableParameter_variable_parameter_field2 : u32;
  VariableParameter_variable_parameter_field3 : u16;
  VariableParameter_variable_parameter_field4 : u8
}.

(** variable_parameter.rs:14-20: [derive(Default)]. *)
Definition VariableParameter_default : VariableParameter := mk_VariableParameter
  (as_uint 1 0)
  (as_uint 8 0)
  (as_uint 4 0)
  (as_uint 2 0)
  (as_uint 1 0).

(** variable_parameter.rs:40-46. *)
Definition VariableParameter_serialize (v : VariableParameter) : bytes :=
  put_u8 (VariableParameter_record_type v) ++
  put_f64 (VariableParameter_variable_parameter_field1 v) ++
  put_u32 (VariableParameter_variable_parameter_field2 v) ++
  put_u16 (VariableParameter_variable_parameter_field3 v) ++
  put_u8 (VariableParameter_variable_parameter_field4 v).

(** variable_parameter.rs:48-56. *)
Definition VariableParameter_deserialize : reader VariableParameter :=
  let* record_type := get_u8 in
  let* variable_parameter_field1 := get_f64 in
  let* variable_parameter_field2 := get_u32 in
  let* variable_parameter_field3 := get_u16 in
  let* variable_parameter_field4 := get_u8 in
  ret (mk_VariableParameter record_type variable_parameter_field1 variable_parameter_field2 variable_parameter_field3 variable_parameter_field4).

(** variable_parameter.rs:78-78. *)
Definition VariableParameter_LENGTH : N := 16.

(** variable_parameter.rs:72-74. *)
Definition VariableParameter_field_len (v : VariableParameter) : N := VariableParameter_LENGTH.

(** Field traits of VariableParameter. *)
Definition VariableParameter_codec : codec VariableParameter :=
  mk_codec (fun v => Ok (VariableParameter_serialize v)) VariableParameter_deserialize VariableParameter_field_len.

(** ** VariableTransmitterParameters *)

(** variable_transmitter_parameters.rs:11-15. *)
Record VariableTransmitterParameters := mk_VariableTransmitterParameters {
  VariableTransmitterParameters_record_type : enum VariableParameterRecordType_spec;
  VariableTransmitterParameters_record_length : u16;
  VariableTransmitterParameters_record_specific_fields : list u8
}.

(** variable_transmitter_parameters.rs:11-15: [derive(Default)]. *)
Definition VariableTransmitterParameters_default : VariableTransmitterParameters := mk_VariableTransmitterParameters
  (enum_default VariableParameterRecordType_spec)
  (as_uint 2 0)
  ([]).

(** variable_transmitter_parameters.rs:41-47. *)
Definition VariableTransmitterParameters_serialize (v : VariableTransmitterParameters) : bytes :=
  put_u32 (as_u32 (code (VariableTransmitterParameters_record_type v))) ++
  put_u16 (VariableTransmitterParameters_record_length v) ++
  List.concat (map put_u8 (VariableTransmitterParameters_record_specific_fields v)).

(** variable_transmitter_parameters.rs:49-62. *)
Definition VariableTransmitterParameters_deserialize : reader VariableTransmitterParameters :=
  let* record_type := enum_deserialize VariableParameterRecordType_spec in
  let* record_length := get_u16 in
  let* record_specific_fields := repeat_read (N.to_nat (uval record_length)) get_u8 in
  ret (mk_VariableTransmitterParameters record_type record_length record_specific_fields).

(** variable_transmitter_parameters.rs:30-32. *)
Definition VariableTransmitterParameters_field_len (v : VariableTransmitterParameters) : N := 4 + 2 + lenN (VariableTransmitterParameters_record_specific_fields v).

(** Field traits of VariableTransmitterParameters. *)
Definition VariableTransmitterParameters_codec : codec VariableTransmitterParameters :=
  mk_codec (fun v => Ok (VariableTransmitterParameters_serialize v)) VariableTransmitterParameters_deserialize VariableTransmitterParameters_field_len.

(** ** Vector3Double *)

(** vector3_double.rs:13-20. *)
Record Vector3Double := mk_Vector3Double {
  Vector3Double_x : f64;
  Vector3Double_y : f64;
  Vector3Double_z : f64
}.

(** vector3_double.rs:13-20: [derive(Default)]. *)
Definition Vector3Double_default : Vector3Double := mk_Vector3Double
  (as_uint 8 0)
  (as_uint 8 0)
  (as_uint 8 0).

(** vector3_double.rs:28-32. *)
Definition Vector3Double_serialize (v : Vector3Double) : bytes :=
  put_f64 (Vector3Double_x v) ++
  put_f64 (Vector3Double_y v) ++
  put_f64 (Vector3Double_z v).

(** vector3_double.rs:34-40. *)
Definition Vector3Double_deserialize : reader Vector3Double :=
  let* x := get_f64 in
  let* y := get_f64 in
  let* z := get_f64 in
  ret (mk_Vector3Double x y z).

(** vector3_double.rs:44-44. *)
Definition Vector3Double_LENGTH : N := 24.

(** ** VectoringNozzleSystemData *)

(** vectoring_nozzle_system_data.rs:14-17. *)
Record VectoringNozzleSystemData := mk_VectoringNozzleSystemData {
  VectoringNozzleSystemData_horizontal_deflection_angle : f32;
  VectoringNozzleSystemData_vertical_deflection_angle : f32
}.

(** vectoring_nozzle_system_data.rs:14-17: [derive(Default)]. *)
Definition VectoringNozzleSystemData_default : VectoringNozzleSystemData := mk_VectoringNozzleSystemData
  (as_uint 4 0)
  (as_uint 4 0).

(** vectoring_nozzle_system_data.rs:28-31. *)
Definition VectoringNozzleSystemData_serialize (v : VectoringNozzleSystemData) : bytes :=
  put_f32 (VectoringNozzleSystemData_horizontal_deflection_angle v) ++
  put_f32 (VectoringNozzleSystemData_vertical_deflection_angle v).

(** vectoring_nozzle_system_data.rs:33-38. *)
Definition VectoringNozzleSystemData_deserialize : reader VectoringNozzleSystemData :=
  let* horizontal_deflection_angle := get_f32 in
  let* vertical_deflection_angle := get_f32 in
  ret (mk_VectoringNozzleSystemData horizontal_deflection_angle vertical_deflection_angle).

(** vectoring_nozzle_system_data.rs:60-60. *)
Definition VectoringNozzleSystemData_LENGTH : N := 8.

(** vectoring_nozzle_system_data.rs:54-56. *)
Definition VectoringNozzleSystemData_field_len (v : VectoringNozzleSystemData) : N := VectoringNozzleSystemData_LENGTH.

(** Field traits of VectoringNozzleSystemData. *)
Definition VectoringNozzleSystemData_codec : codec VectoringNozzleSystemData :=
  mk_codec (fun v => Ok (VectoringNozzleSystemData_serialize v)) VectoringNozzleSystemData_deserialize VectoringNozzleSystemData_field_len.

(** ** VelocityVector *)

(** velocity_vector.rs:9-13. *)
Record VelocityVector := mk_VelocityVector {
  VelocityVector_first_vector_component : f32;
  VelocityVector_second_vector_component : f32;
  VelocityVector_third_vector_component : f32
}.

(** velocity_vector.rs:9-13: [derive(Default)]. *)
Definition VelocityVector_default : VelocityVector := mk_VelocityVector
  (as_uint 4 0)
  (as_uint 4 0)
  (as_uint 4 0).

(** velocity_vector.rs:25-29. *)
Definition VelocityVector_serialize (v : VelocityVector) : bytes :=
  put_f32 (VelocityVector_first_vector_component v) ++
  put_f32 (VelocityVector_second_vector_component v) ++
  put_f32 (VelocityVector_third_vector_component v).

(** velocity_vector.rs:31-37. *)
Definition VelocityVector_deserialize : reader VelocityVector :=
  let* first_vector_component := get_f32 in
  let* second_vector_component := get_f32 in
  let* third_vector_component := get_f32 in
  ret (mk_VelocityVector first_vector_component second_vector_component third_vector_component).

