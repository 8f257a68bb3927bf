(*@@ EntityMarking *)
(** entity_marking.rs:7-11. The Rust [String] is modelled by its bytes. *)
Record EntityMarking := mk_EntityMarking {
  EntityMarking_entity_marking_character_set : enum EntityMarkingCharacterSet_spec;
  EntityMarking_entity_marking_string : bytes
}.

(** entity_marking.rs:7-11: [derive(Default)]. *)
Definition EntityMarking_default : EntityMarking :=
  mk_EntityMarking (enum_default EntityMarkingCharacterSet_spec) [].

(** entity_marking.rs:25-29. *)
Definition EntityMarking_serialize (v : EntityMarking) : bytes :=
  put_u8 (as_u8 (code (EntityMarking_entity_marking_character_set v))) ++
  EntityMarking_entity_marking_string v.

(** [usize::to_string]: ASCII decimal digits. *)
Fixpoint ascii_digits (d : Decimal.uint) : bytes :=
  match d with
  | Decimal.Nil => []
  | Decimal.D0 d' => as_u8 48 :: ascii_digits d'
  | Decimal.D1 d' => as_u8 49 :: ascii_digits d'
  | Decimal.D2 d' => as_u8 50 :: ascii_digits d'
  | Decimal.D3 d' => as_u8 51 :: ascii_digits d'
  | Decimal.D4 d' => as_u8 52 :: ascii_digits d'
  | Decimal.D5 d' => as_u8 53 :: ascii_digits d'
  | Decimal.D6 d' => as_u8 54 :: ascii_digits d'
  | Decimal.D7 d' => as_u8 55 :: ascii_digits d'
  | Decimal.D8 d' => as_u8 56 :: ascii_digits d'
  | Decimal.D9 d' => as_u8 57 :: ascii_digits d'
  end.
Definition usize_to_string (n : N) : bytes := ascii_digits (N.to_uint n).

(** [bytes::Buf::remaining]: does not consume. *)
Definition remaining : reader N := fun bs => Ok (lenN bs, bs).

(** entity_marking.rs:31-36: the string is [buf.remaining().to_string()]. *)
Definition EntityMarking_deserialize : reader EntityMarking :=
  let* entity_marking_character_set := enum_deserialize EntityMarkingCharacterSet_spec in
  let* n := remaining in
  ret (mk_EntityMarking entity_marking_character_set (usize_to_string n)).

(** entity_marking.rs:58-58. *)
Definition EntityMarking_LENGTH : N := 12.

(** entity_marking.rs:52-54. *)
Definition EntityMarking_field_len (v : EntityMarking) : N := EntityMarking_LENGTH.

(** Field traits of EntityMarking (entity_marking.rs:39-55). *)
Definition EntityMarking_codec : codec EntityMarking :=
  mk_codec (fun v => Ok (EntityMarking_serialize v)) EntityMarking_deserialize EntityMarking_field_len.

(*@@ VariableDatumRecord *)
(** datum_records.rs:52-56. *)
Record VariableDatumRecord := mk_VariableDatumRecord {
  VariableDatumRecord_datum_id : u32;
  VariableDatumRecord_length_bits : u32;
  VariableDatumRecord_value : list u8
}.

(** datum_records.rs:59-61: [(length_bits as usize).div_ceil(8)]. *)
Definition VariableDatumRecord_bytes_count (length_bits : u32) : N :=
  let q := uval length_bits / 8 in
  if uval length_bits mod 8 =? 0 then q else q + 1.

(** datum_records.rs:63-83. (The check at 67-70 has an empty body.) *)
Definition VariableDatumRecord_serialize (v : VariableDatumRecord) : bytes :=
  let pad_bits := (64 - uval (VariableDatumRecord_length_bits v) mod 64) mod 64 in
  let pad_bytes := pad_bits / 8 in
  put_u32 (VariableDatumRecord_datum_id v) ++
  put_u32 (VariableDatumRecord_length_bits v) ++
  List.concat (map put_u8 (VariableDatumRecord_value v)) ++
  (if 0 <? pad_bytes then List.concat (map put_u8 (zero_bytes (N.to_nat pad_bytes))) else []).

(** datum_records.rs:85-100: [value] starts as [value_bytes] zeros and is pushed to. *)
Definition VariableDatumRecord_deserialize : reader VariableDatumRecord :=
  let* datum_id := get_u32 in
  let* length_bits := get_u32 in
  let* pushed := repeat_read (N.to_nat (VariableDatumRecord_bytes_count length_bits)) get_u8 in
  ret (mk_VariableDatumRecord datum_id length_bits
         (zero_bytes (N.to_nat (VariableDatumRecord_bytes_count length_bits)) ++ pushed)).

(** datum_records.rs:116-118. *)
Definition VariableDatumRecord_field_len (v : VariableDatumRecord) : N :=
  c_len u32_codec (VariableDatumRecord_datum_id v) + c_len u32_codec (VariableDatumRecord_length_bits v)
  + c_len (vec_codec u8_codec) (VariableDatumRecord_value v).

(** Field traits of VariableDatumRecord (datum_records.rs:103-119). *)
Definition VariableDatumRecord_codec : codec VariableDatumRecord :=
  mk_codec (fun v => Ok (VariableDatumRecord_serialize v)) VariableDatumRecord_deserialize VariableDatumRecord_field_len.

(*@@ RecordSpecificationElement *)
(** record_specification_element.rs:11-17. *)
Record RecordSpecificationElement := mk_RecordSpecificationElement {
  RecordSpecificationElement_record_id : u32;
  RecordSpecificationElement_record_set_serial_number : u32;
  RecordSpecificationElement_record_length : u16;
  RecordSpecificationElement_record_count : u16;
  RecordSpecificationElement_record_values : list u8
}.

(** [a * b] on u16: panics on overflow in a [Checked] build, wraps otherwise. *)
Definition mul_u16 (m : profile) (a b : u16) : outcome u16 :=
  if uval a * uval b <? 65536 then Ok (as_u16 (uval a * uval b))
  else match m with
       | Checked => Panic ArithOverflow
       | Wrapping => Ok (as_u16 (uval a * uval b))
       end.

(** [for i in 0..n { buf.put_u8(values[i]) }]. *)
Definition put_indexed (n : nat) (l : list u8) : writer :=
  if Nat.leb n (length l) then Ok (List.concat (map put_u8 (firstn n l))) else Panic IndexOutOfBounds.

(** record_specification_element.rs:37-46. *)
Definition RecordSpecificationElement_serialize (m : profile) (v : RecordSpecificationElement) : writer :=
  wapp (Ok (put_u32 (RecordSpecificationElement_record_id v) ++
            put_u32 (RecordSpecificationElement_record_set_serial_number v) ++
            put_u16 (RecordSpecificationElement_record_length v) ++
            put_u16 (RecordSpecificationElement_record_count v)))
       (match mul_u16 m (RecordSpecificationElement_record_length v) (RecordSpecificationElement_record_count v) with
        | Ok n => put_indexed (N.to_nat (uval n)) (RecordSpecificationElement_record_values v)
        | Panic p => Panic p
        end).

(** Lift a computation that may panic into a reader. *)
Definition rlift {A} (o : outcome A) : reader A :=
  fun bs => match o with Ok a => Ok (a, bs) | Panic p => Panic p end.

(** record_specification_element.rs:48-66. *)
Definition RecordSpecificationElement_deserialize (m : profile) : reader RecordSpecificationElement :=
  let* record_id := get_u32 in
  let* record_set_serial_number := get_u32 in
  let* record_length := get_u16 in
  let* record_count := get_u16 in
  let* num_record_values := rlift (mul_u16 m record_length record_count) in
  let* record_values := repeat_read (N.to_nat (uval num_record_values)) get_u8 in
  ret (mk_RecordSpecificationElement record_id record_set_serial_number record_length record_count record_values).

(** record_specification_element.rs:82-88. *)
Definition RecordSpecificationElement_field_len (v : RecordSpecificationElement) : N :=
  c_len u32_codec (RecordSpecificationElement_record_id v)
  + c_len u32_codec (RecordSpecificationElement_record_set_serial_number v)
  + c_len u16_codec (RecordSpecificationElement_record_length v)
  + c_len u16_codec (RecordSpecificationElement_record_count v)
  + c_len (vec_codec u8_codec) (RecordSpecificationElement_record_values v).

(** Field traits of RecordSpecificationElement (record_specification_element.rs:69-89). *)
Definition RecordSpecificationElement_codec (m : profile) : codec RecordSpecificationElement :=
  mk_codec (RecordSpecificationElement_serialize m) (RecordSpecificationElement_deserialize m) RecordSpecificationElement_field_len.

(*@@ RecordSpecification *)
(** record_specification.rs:13-16. *)
Record RecordSpecification := mk_RecordSpecification {
  RecordSpecification_number_of_record_sets : u32;
  RecordSpecification_record_sets : list RecordSpecificationElement
}.

(** record_specification.rs:12-16: [derive(Default)]. *)
Definition RecordSpecification_default : RecordSpecification := mk_RecordSpecification (as_uint 4 0) [].

(** record_specification.rs:30-35. *)
Definition RecordSpecification_serialize (m : profile) (v : RecordSpecification) : writer :=
  wapp (Ok (put_u32 (RecordSpecification_number_of_record_sets v)))
       (wconcat (map (RecordSpecificationElement_serialize m) (RecordSpecification_record_sets v))).

(** record_specification.rs:37-47. *)
Definition RecordSpecification_deserialize (m : profile) : reader RecordSpecification :=
  let* number_of_record_sets := get_u32 in
  let* record_sets := repeat_read (N.to_nat (uval number_of_record_sets)) (RecordSpecificationElement_deserialize m) in
  ret (mk_RecordSpecification number_of_record_sets record_sets).

(** record_specification.rs:63-65. *)
Definition RecordSpecification_field_len (m : profile) (v : RecordSpecification) : N :=
  4 + c_len (vec_codec (RecordSpecificationElement_codec m)) (RecordSpecification_record_sets v).

(** Field traits of RecordSpecification (record_specification.rs:50-66). *)
Definition RecordSpecification_codec (m : profile) : codec RecordSpecification :=
  mk_codec (RecordSpecification_serialize m) (RecordSpecification_deserialize m) (RecordSpecification_field_len m).

(*@@ GridAxisDescriptor *)
(** grid_axis_descriptor.rs:14-27. *)
Inductive GridAxisType :=
| FixedSpacing (number_of_points_on_x_axis initial_index : u16)
| VariableSpacing (number_of_points_on_x_axis initial_index : u16)
    (coordinate_scale_x coordinate_offset_x : f64) (x_values : list u16) (padding : list u8).

(** grid_axis_descriptor.rs:29-53. *)
Definition GridAxisType_field_len (v : GridAxisType) : N :=
  match v with
  | FixedSpacing n i => c_len u16_codec n + c_len u16_codec i
  | VariableSpacing n i s o xs pad =>
      c_len u16_codec n + c_len u16_codec i + c_len f64_codec s + c_len f64_codec o
      + c_len (vec_codec u16_codec) xs + c_len (vec_codec u8_codec) pad
  end.

(** grid_axis_descriptor.rs:56-63. *)
Record GridAxisDescriptor := mk_GridAxisDescriptor {
  GridAxisDescriptor_domain_initial : f64;
  GridAxisDescriptor_domain_final : f64;
  GridAxisDescriptor_domain_points : u16;
  GridAxisDescriptor_interleaf_factor : u8;
  GridAxisDescriptor_axis_type : enum GridAxisDescriptorAxisType_spec;
  GridAxisDescriptor_data : GridAxisType
}.

(** grid_axis_descriptor.rs:85-119. *)
Definition GridAxisDescriptor_serialize (v : GridAxisDescriptor) : bytes :=
  put_f64 (GridAxisDescriptor_domain_initial v) ++
  put_f64 (GridAxisDescriptor_domain_final v) ++
  put_u16 (GridAxisDescriptor_domain_points v) ++
  put_u8 (GridAxisDescriptor_interleaf_factor v) ++
  put_u8 (as_u8 (code (GridAxisDescriptor_axis_type v))) ++
  match GridAxisDescriptor_data v with
  | FixedSpacing n i => put_u16 n ++ put_u16 i
  | VariableSpacing n i s o xs pad =>
      put_u16 n ++ put_u16 i ++ put_f64 s ++ put_f64 o ++
      List.concat (map put_u16 xs) ++ List.concat (map put_u8 pad)
  end.

(** grid_axis_descriptor.rs:121-165. Codes of GridAxisDescriptorAxisType (enums.rs):
    RegularAxis = 0, IrregularAxis = 1. *)
Definition GridAxisDescriptor_deserialize : reader GridAxisDescriptor :=
  let* domain_initial := get_f64 in
  let* domain_final := get_f64 in
  let* domain_points := get_u16 in
  let* interleaf_factor := get_u8 in
  let* axis_type := enum_deserialize GridAxisDescriptorAxisType_spec in
  let* data :=
    (if code axis_type =? 0 then
       let* n := get_u16 in
       let* i := get_u16 in
       ret (FixedSpacing n i)
     else
       let* n := get_u16 in
       let* i := get_u16 in
       let* s := get_f64 in
       let* o := get_f64 in
       let* xs := repeat_read (N.to_nat (uval n)) get_u16 in
       let* pad := read_remaining in
       ret (VariableSpacing n i s o xs pad)) in
  ret (mk_GridAxisDescriptor domain_initial domain_final domain_points interleaf_factor axis_type data).

(** grid_axis_descriptor.rs:181-188. *)
Definition GridAxisDescriptor_field_len (v : GridAxisDescriptor) : N :=
  c_len f64_codec (GridAxisDescriptor_domain_initial v) + c_len f64_codec (GridAxisDescriptor_domain_final v)
  + c_len u16_codec (GridAxisDescriptor_domain_points v) + c_len u8_codec (GridAxisDescriptor_interleaf_factor v)
  + GridAxisDescriptorAxisType_field_len (GridAxisDescriptor_axis_type v)
  + GridAxisType_field_len (GridAxisDescriptor_data v).

(** Field traits of GridAxisDescriptor (grid_axis_descriptor.rs:168-189). *)
Definition GridAxisDescriptor_codec : codec GridAxisDescriptor :=
  mk_codec (fun v => Ok (GridAxisDescriptor_serialize v)) GridAxisDescriptor_deserialize GridAxisDescriptor_field_len.

(*@@ GridDataRecord *)
(** grid_data_record.rs:14-32. *)
Inductive DataRepresentationType :=
| Type0 (number_of_octets : u16) (data_values : list u8) (padding : list u8)
| Type1 (field_scale field_offset : f32) (number_of_values : u16) (data_values : list u16) (padding : list u8)
| Type2 (number_of_values : u16) (padding : u16) (data_values : list f32).

(** grid_data_record.rs:34-62. *)
Definition DataRepresentationType_field_len (v : DataRepresentationType) : N :=
  match v with
  | Type0 n d p => c_len u16_codec n + c_len (vec_codec u8_codec) d + c_len (vec_codec u8_codec) p
  | Type1 s o n d p =>
      c_len f32_codec s + c_len f32_codec o + c_len u16_codec n
      + c_len (vec_codec u16_codec) d + c_len (vec_codec u8_codec) p
  | Type2 n p d => c_len u16_codec n + c_len u16_codec p + c_len (vec_codec f32_codec) d
  end.

(** grid_data_record.rs:65-69. *)
Record GridDataRecord := mk_GridDataRecord {
  GridDataRecord_sample_type : enum GriddedDataSampleType_spec;
  GridDataRecord_data_representation : enum GriddedDataDataRepresentation_spec;
  GridDataRecord_data : DataRepresentationType
}.

(** grid_data_record.rs:85-131: the two enumerations are written as u16. *)
Definition GridDataRecord_serialize (v : GridDataRecord) : bytes :=
  put_u16 (as_u16 (code (GridDataRecord_sample_type v))) ++
  put_u16 (as_u16 (code (GridDataRecord_data_representation v))) ++
  match GridDataRecord_data v with
  | Type0 n d p => put_u16 n ++ List.concat (map put_u8 d) ++ List.concat (map put_u8 p)
  | Type1 s o n d p =>
      put_f32 s ++ put_f32 o ++ put_u16 n ++ List.concat (map put_u16 d) ++ List.concat (map put_u8 p)
  | Type2 n p d => put_u16 n ++ put_u16 p ++ List.concat (map put_f32 d)
  end.

(** grid_data_record.rs:133-196: the two enumerations are read with their own
    [deserialize], i.e. as u8. Codes: Type0 = 0, Type1 = 1, Type2 = 2. *)
Definition GridDataRecord_deserialize : reader GridDataRecord :=
  let* sample_type := enum_deserialize GriddedDataSampleType_spec in
  let* data_representation := enum_deserialize GriddedDataDataRepresentation_spec in
  let* data :=
    (if code data_representation =? 0 then
       let* n := get_u16 in
       let* d := repeat_read (N.to_nat (uval n)) get_u8 in
       let* p := read_remaining in
       ret (Type0 n d p)
     else if code data_representation =? 1 then
       let* s := get_f32 in
       let* o := get_f32 in
       let* n := get_u16 in
       let* d := repeat_read (N.to_nat (uval n)) get_u16 in
       let* p := read_remaining in
       ret (Type1 s o n d p)
     else
       let* n := get_u16 in
       let* p := get_u16 in
       let* d := repeat_read (N.to_nat (uval n)) get_f32 in
       ret (Type2 n p d)) in
  ret (mk_GridDataRecord sample_type data_representation data).

(** grid_data_record.rs:212-214. *)
Definition GridDataRecord_field_len (v : GridDataRecord) : N :=
  GriddedDataSampleType_field_len (GridDataRecord_sample_type v)
  + GriddedDataDataRepresentation_field_len (GridDataRecord_data_representation v)
  + DataRepresentationType_field_len (GridDataRecord_data v).

(** Field traits of GridDataRecord (grid_data_record.rs:199-215). *)
Definition GridDataRecord_codec : codec GridDataRecord :=
  mk_codec (fun v => Ok (GridDataRecord_serialize v)) GridDataRecord_deserialize GridDataRecord_field_len.

(*@@ AntennaPattern *)
(** antenna_pattern.rs:9-11 (the field is private). *)
Record AntennaPattern := mk_AntennaPattern { AntennaPattern_record_specific_fields : list u8 }.

(** antenna_pattern.rs:8-11 [derive(Default)], 40-44 [new]. *)
Definition AntennaPattern_default : AntennaPattern := mk_AntennaPattern [].

(** antenna_pattern.rs:46-50. *)
Definition AntennaPattern_serialize (v : AntennaPattern) : bytes :=
  List.concat (map put_u8 (AntennaPattern_record_specific_fields v)).

(** antenna_pattern.rs:52-65. *)
Definition AntennaPattern_deserialize (length : u16) : reader (option AntennaPattern) :=
  if uval length =? 0 then ret None
  else let* record_specific_fields := repeat_read (N.to_nat (uval length)) get_u8 in
       ret (Some (mk_AntennaPattern record_specific_fields)).

(** antenna_pattern.rs:25-30 [deserialize_with_len]. *)
Definition AntennaPattern_deserialize_with_len (len : N) : reader AntennaPattern :=
  match try_uint 2 len with
  | None => rfail ExpectFailed
  | Some l => let* r := AntennaPattern_deserialize l in
              ret (match r with Some x => x | None => AntennaPattern_default end)
  end.

(** antenna_pattern.rs:33-35. *)
Definition AntennaPattern_field_len (v : AntennaPattern) : N := lenN (AntennaPattern_record_specific_fields v).

(** Field traits (antenna_pattern.rs:13-36); [deserialize_field] returns the default. *)
Definition AntennaPattern_codec : codec AntennaPattern :=
  mk_codec (fun v => Ok (AntennaPattern_serialize v)) (ret AntennaPattern_default) AntennaPattern_field_len.

(*@@ ModulationParameters *)
(** modulation_parameters.rs:11-13 (the field is private). *)
Record ModulationParameters := mk_ModulationParameters { ModulationParameters_record_specific_fields : list u8 }.

(** modulation_parameters.rs:10-13 [derive(Default)], 17-21 [new]. *)
Definition ModulationParameters_default : ModulationParameters := mk_ModulationParameters [].

(** modulation_parameters.rs:23-27. *)
Definition ModulationParameters_serialize (v : ModulationParameters) : bytes :=
  List.concat (map put_u8 (ModulationParameters_record_specific_fields v)).

(** modulation_parameters.rs:29-42. *)
Definition ModulationParameters_deserialize (length : u8) : reader (option ModulationParameters) :=
  if uval length =? 0 then ret None
  else let* record_specific_fields := repeat_read (N.to_nat (uval length)) get_u8 in
       ret (Some (mk_ModulationParameters record_specific_fields)).

(** modulation_parameters.rs:58-64 [deserialize_with_len]. *)
Definition ModulationParameters_deserialize_with_len (len : N) : reader ModulationParameters :=
  match try_uint 1 len with
  | None => rfail ExpectFailed
  | Some l => let* r := ModulationParameters_deserialize l in
              ret (match r with Some x => x | None => ModulationParameters_default end)
  end.

(** modulation_parameters.rs:67-69. *)
Definition ModulationParameters_field_len (v : ModulationParameters) : N :=
  c_len (vec_codec u8_codec) (ModulationParameters_record_specific_fields v).

(** Field traits (modulation_parameters.rs:45-70); [deserialize_field] returns the default. *)
Definition ModulationParameters_codec : codec ModulationParameters :=
  mk_codec (fun v => Ok (ModulationParameters_serialize v)) (ret ModulationParameters_default) ModulationParameters_field_len.

(*@@ StandardVariableSpecification *)
(** standard_variable_specification.rs:11-14. *)
Record StandardVariableSpecification := mk_StandardVariableSpecification {
  StandardVariableSpecification_number_of_standard_variable_records : u16;
  StandardVariableSpecification_standard_variable_records : list StandardVariableRecords
}.

(** standard_variable_specification.rs:10-14: [derive(Default)]. *)
Definition StandardVariableSpecification_default : StandardVariableSpecification :=
  mk_StandardVariableSpecification (as_uint 2 0) [].

(** standard_variable_specification.rs:28-33. *)
Definition StandardVariableSpecification_serialize (v : StandardVariableSpecification) : bytes :=
  put_u16 (StandardVariableSpecification_number_of_standard_variable_records v) ++
  List.concat (map StandardVariableRecords_serialize (StandardVariableSpecification_standard_variable_records v)).

(** standard_variable_specification.rs:35-45. *)
Definition StandardVariableSpecification_deserialize : reader StandardVariableSpecification :=
  let* number_of_standard_variable_records := get_u16 in
  let* standard_variable_records :=
    repeat_read (N.to_nat (uval number_of_standard_variable_records)) StandardVariableRecords_deserialize in
  ret (mk_StandardVariableSpecification number_of_standard_variable_records standard_variable_records).

(** standard_variable_specification.rs:49-52 [serialize_field]. *)
Definition StandardVariableSpecification_serialize_field (v : StandardVariableSpecification) : writer :=
  wapp (Ok (put_u16 (StandardVariableSpecification_number_of_standard_variable_records v)))
       (c_ser (vec_codec StandardVariableRecords_codec) (StandardVariableSpecification_standard_variable_records v)).

(** standard_variable_specification.rs:56-66 [deserialize_field]. *)
Definition StandardVariableSpecification_deserialize_field : reader StandardVariableSpecification :=
  let* number_of_standard_variable_records := get_u16 in
  let* records :=
    repeat_read (N.to_nat (uval number_of_standard_variable_records)) (c_des StandardVariableRecords_codec) in
  ret (mk_StandardVariableSpecification number_of_standard_variable_records records).

(** standard_variable_specification.rs:70-72. *)
Definition StandardVariableSpecification_field_len (v : StandardVariableSpecification) : N :=
  2 + c_len (vec_codec StandardVariableRecords_codec) (StandardVariableSpecification_standard_variable_records v).

(** Field traits (standard_variable_specification.rs:48-73). *)
Definition StandardVariableSpecification_codec : codec StandardVariableSpecification :=
  mk_codec StandardVariableSpecification_serialize_field StandardVariableSpecification_deserialize_field
           StandardVariableSpecification_field_len.

(*@@ EntityId *)
(** entity_id.rs:15-20. *)
Record EntityId := mk_EntityId {
  EntityId_simulation_address : SimulationAddress;
  EntityId_entity_id : u16
}.

(** entity_id.rs:13-20: [derive(Default)]. *)
Definition EntityId_default : EntityId := mk_EntityId SimulationAddress_default (as_uint 2 0).

(** entity_id.rs:24-29 [new]. *)
Definition EntityId_new (site_id application_id entity_id : u16) : EntityId :=
  mk_EntityId (mk_SimulationAddress site_id application_id) entity_id.

(** entity_id.rs:31-34. *)
Definition EntityId_serialize (v : EntityId) : bytes :=
  SimulationAddress_serialize (EntityId_simulation_address v) ++
  put_u16 (EntityId_entity_id v).

(** entity_id.rs:43-48. *)
Definition EntityId_deserialize_simulation_address : reader SimulationAddress :=
  let* site_id := get_u16 in
  let* application_id := get_u16 in
  ret (mk_SimulationAddress site_id application_id).

(** entity_id.rs:36-41. *)
Definition EntityId_deserialize : reader EntityId :=
  let* simulation_address := EntityId_deserialize_simulation_address in
  let* entity_id := get_u16 in
  ret (mk_EntityId simulation_address entity_id).

(** entity_id.rs:70-70. *)
Definition EntityId_LENGTH : N := 6.

(** entity_id.rs:64-66. *)
Definition EntityId_field_len (v : EntityId) : N := EntityId_LENGTH.

(** Field traits of EntityId (entity_id.rs:51-67). *)
Definition EntityId_codec : codec EntityId :=
  mk_codec (fun v => Ok (EntityId_serialize v)) EntityId_deserialize EntityId_field_len.
