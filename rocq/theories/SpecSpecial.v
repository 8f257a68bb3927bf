(** * Vocabulary for the classes with irregular fields (specification only). *)
From Verif Require Import Base EnumModel Enums Header PduMacro DataTypes Bitflags Pdus PduFields Spec Wire SpecDatum.

(** [p] and [q] have the same header and the same fields, except possibly those named. *)
Definition same_except {c} (names : list string) (p q : pdu c) : Prop :=
  header p = header q /\ reset_fields names (cls_fields c) (body p) = reset_fields names (cls_fields c) (body q).

(** Equal except for the reference number. *)
Definition same_address (a b : SimulationIdentifier) : Prop :=
  SimulationIdentifier_simulation_address a = SimulationIdentifier_simulation_address b /\
  uval (SimulationIdentifier_reference_number a) = 0.

(** Equal except for the other parameters, which are zero. *)
Definition same_reckoning (a b : DeadReckoningParameters) : Prop :=
  DeadReckoningParameters_dead_reckoning_algorithm a = DeadReckoningParameters_dead_reckoning_algorithm b /\
  DeadReckoningParameters_entity_linear_acceleration a = DeadReckoningParameters_entity_linear_acceleration b /\
  DeadReckoningParameters_entity_angular_velocity a = DeadReckoningParameters_entity_angular_velocity b /\
  elems (DeadReckoningParameters_dead_reckoning_other_parameters a) = repeat (B 0) 15.

(** What a flag field decodes to: itself, or the empty set if it has an undeclared bit. *)
Definition declared_bits {k d} (a : flags k d) : Prop := N.ldiff (uval (bits a)) d = 0.
Definition same_if_declared {k d} (a b : flags k d) : Prop :=
  (declared_bits b -> a = b) /\ (~ declared_bits b -> uval (bits a) = 0).

(** Length errors. Each padded datum emits its padding on top of the declared length. *)
Definition sumZ (l : list Z) : Z := fold_right Z.add 0%Z l.
Definition datum_excess (l : list VariableDatumRecord) : Z :=
  sumZ (map (fun d => Z.of_N (datum_padding (uval (VariableDatumRecord_length_bits d)))) l).
(** Values of an element beyond the 16-bit product are not emitted but counted. *)
Definition element_dropped (e : RecordSpecificationElement) : Z :=
  (Z.of_nat (length (RecordSpecificationElement_record_values e)) - Z.of_N (element_product e mod 65536))%Z.
Definition specification_excess (r : RecordSpecification) : Z :=
  (- sumZ (map element_dropped (RecordSpecification_record_sets r)))%Z.
(** Bytes emitted minus bytes declared, for each class where they can differ. *)
Definition length_error := { c : pdu_class & pdu c -> Z }.
Definition err (c : pdu_class) (f : pdu c -> Z) : length_error := existT _ c f.
Definition length_errors (m : profile) : list length_error := [
  err EntityStatePdu (fun p => (Z.of_nat (length (EntityMarking_entity_marking_string (EntityStatePdu_entity_marking p))) - 11)%Z);
  err GriddedDataPdu (fun p => (2 * Z.of_nat (length (GriddedDataPdu_grid_data_list p)))%Z);
  err (TransferOwnershipPdu m) (fun p : pdu (TransferOwnershipPdu m) => specification_excess (TransferOwnershipPdu_record_information p));
  err (SetRecordReliablePdu m) (fun p : pdu (SetRecordReliablePdu m) => specification_excess (SetRecordReliablePdu_record_sets p));
  err AggregateStatePdu (fun p => datum_excess (AggregateStatePdu_variable_datum_list p));
  err ActionRequestPdu (fun p => datum_excess (ActionRequestPdu_variable_datum_records p));
  err ActionResponsePdu (fun p => datum_excess (ActionResponsePdu_variable_datum_records p));
  err DataQueryPdu (fun p => datum_excess (DataQueryPdu_variable_datum_records p));
  err SetDataPdu (fun p => datum_excess (SetDataPdu_variable_datum_records p));
  err DataPdu (fun p => datum_excess (DataPdu_variable_datum_records p));
  err EventReportPdu (fun p => datum_excess (EventReportPdu_variable_datum_records p));
  err CommentPdu (fun p => datum_excess (CommentPdu_variable_datum_records p));
  err ActionRequestReliablePdu (fun p => datum_excess (ActionRequestReliablePdu_variable_datum_records p));
  err ActionResponseReliablePdu (fun p => datum_excess (ActionResponseReliablePdu_variable_datum_records p));
  err SetDataReliablePdu (fun p => datum_excess (SetDataReliablePdu_variable_datum_records p));
  err DataReliablePdu (fun p => datum_excess (DataReliablePdu_variable_datum_records p));
  err EventReportReliablePdu (fun p => datum_excess (EventReportReliablePdu_variable_datum_records p));
  err CommentReliablePdu (fun p => datum_excess (CommentReliablePdu_variable_datum_records p))].

(** An element whose serialization panics. *)
Definition element_panics (m : profile) (e : RecordSpecificationElement) : Prop :=
  (m = Checked /\ 65536 <= element_product e) \/
  N.of_nat (length (RecordSpecificationElement_record_values e)) < element_product e mod 65536.

(** ** How many bytes decoding needs

    Record-specification elements have a 12-byte head ending with record length and record
    count (16 bits each) and as many value bytes as the 16-bit product says; standard
    variable records have a 6-byte head ending with a 16-bit number of value bytes. [k] of
    them, starting at [pos], end at: *)
Definition product_at (bs : bytes) (pos : nat) : N := be2_at bs (pos + 8) * be2_at bs (pos + 10).
Fixpoint elements_end (k : nat) (bs : bytes) (pos : nat) : nat :=
  match k with
  | O => pos
  | S k' => elements_end k' bs (pos + 12 + N.to_nat (product_at bs pos mod 65536))
  end.
Fixpoint records_end (k : nat) (bs : bytes) (pos : nat) : nat :=
  match k with
  | O => pos
  | S k' => records_end k' bs (pos + 6 + N.to_nat (be2_at bs (pos + 4)))
  end.
(** One of the [k] elements announces a product that does not fit 16 bits. *)
Fixpoint product_overflows (k : nat) (bs : bytes) (pos : nat) : Prop :=
  match k with
  | O => False
  | S k' => 65536 <= product_at bs pos \/
            product_overflows k' bs (pos + 12 + N.to_nat (product_at bs pos mod 65536))
  end.

(** Number of bytes [deserialize] reads from a datagram of the class's own type. *)
Definition bytes_needed (c : pdu_class) (bs : bytes) : nat :=
  let is (s : string) := String.eqb (cls_name c) s in
  if is "EntityStatePdu"%string then 133
  else if is "TransmitterPdu"%string then 104 + N.to_nat (byte_at bs 100)
  else if is "TransferOwnershipPdu"%string || is "SetRecordReliablePdu"%string then
    elements_end (N.to_nat (be4_at bs 36)) bs 40
  else if is "InformationOperationsActionPdu"%string then records_end (N.to_nat (be2_at bs 54)) bs 56
  else if is "InformationOperationsReportPdu"%string then records_end (N.to_nat (be2_at bs 38)) bs 40
  else N.to_nat (default_size c).
(** Overflow while decoding (only the two classes holding record-specification elements, and
    only when arithmetic is checked). *)
Definition decode_overflows (m : profile) (c : pdu_class) (bs : bytes) : Prop :=
  m = Checked /\ (cls_name c = "TransferOwnershipPdu" \/ cls_name c = "SetRecordReliablePdu")%string /\
  product_overflows (N.to_nat (be4_at bs 36)) bs 40.
