(** * Serialization interrupted by a panic.

    [PduMacro.serialize] reports a panic without the buffer. A caller that catches the panic
    ([std::panic::catch_unwind]) still owns the buffer and the PDU; this file models what they
    hold then. Only the two classes with a record specification can panic (C46). *)
From Verif Require Import Base EnumModel Enums Header PduMacro DataTypes Pdus.

(** A write: the bytes appended to the buffer, and the panic that cut it short, if any. *)
Definition trace : Type := (bytes * option panic)%type.
Definition then_write (a b : trace) : trace :=
  match snd a with None => (fst a ++ fst b, snd b) | Some _ => a end.

(** record_specification_element.rs:43-45: [for i in 0..n { buf.put_u8(values[i]) }] writes
    the values that exist before the first index out of bounds. *)
Fixpoint indexed_trace (n : nat) (l : list u8) : trace :=
  match n, l with
  | O, _ => ([], None)
  | S _, [] => ([], Some IndexOutOfBounds)
  | S n', x :: l' => then_write (put_u8 x, None) (indexed_trace n' l')
  end.

(** record_specification_element.rs:37-46: the four heads are written, then the product is
    computed. *)
Definition element_trace (m : profile) (v : RecordSpecificationElement) : trace :=
  then_write
    (put_u32 (RecordSpecificationElement_record_id v) ++
     put_u32 (RecordSpecificationElement_record_set_serial_number v) ++
     put_u16 (RecordSpecificationElement_record_length v) ++
     put_u16 (RecordSpecificationElement_record_count v), None)
    (match mul_u16 m (RecordSpecificationElement_record_length v) (RecordSpecificationElement_record_count v) with
     | Ok n => indexed_trace (N.to_nat (uval n)) (RecordSpecificationElement_record_values v)
     | Panic p => ([], Some p)
     end).

(** record_specification.rs:30-35. *)
Fixpoint elements_trace (m : profile) (l : list RecordSpecificationElement) : trace :=
  match l with
  | [] => ([], None)
  | e :: l' => then_write (element_trace m e) (elements_trace m l')
  end.
Definition specification_trace (m : profile) (v : RecordSpecification) : trace :=
  then_write (put_u32 (RecordSpecification_number_of_record_sets v), None)
    (elements_trace m (RecordSpecification_record_sets v)).

(** A field whose serialization cannot panic is written at once. *)
Definition at_once {T} (c : codec T) (v : T) : trace :=
  match c_ser c v with Ok b => (b, None) | Panic e => ([], Some e) end.

(** How each field of a class is written, and the fields one after the other (pdu_macro.rs:319-321). *)
Fixpoint field_traces (fs : list field) : Type :=
  match fs with [] => unit | f :: fs' => ((f_type f -> trace) * field_traces fs')%type end.
Fixpoint body_trace (fs : list field) : field_traces fs -> values fs -> trace :=
  match fs return field_traces fs -> values fs -> trace with
  | [] => fun _ _ => ([], None)
  | f :: fs' => fun t v => then_write (fst t (fst v)) (body_trace fs' (snd t) (snd v))
  end.

(** pdu_macro.rs:301-324 [serialize], with what the caller holds afterwards: how the call
    ended, the PDU and the buffer. *)
Inductive ending := Returned (r : result unit DISError) | Panicked (e : panic).
Definition serialize_trace (c : pdu_class) (t : field_traces (cls_fields c)) (p : pdu c) (buf : bytes) : ending * pdu c * bytes :=
  let h1 := set_protocol_family (cls_family c) (set_pdu_type (cls_type c) (header p)) in
  let b1 := prep_body (cls_fields c) (body p) in
  let p1 := mk_pdu h1 b1 in
  match calculate_length c p1 with
  | RErr e => (Returned (RErr e), p1, buf)
  | ROk len =>
      let h2 := set_length len h1 in
      let w := body_trace (cls_fields c) t b1 in
      (match snd w with None => Returned (ROk tt) | Some e => Panicked e end,
       mk_pdu h2 b1, buf ++ PduHeader_serialize h2 ++ fst w)
  end.

(** src/entity_management.rs:82-99 and src/simulation_management_with_reliability.rs:292-310:
    the field types in declaration order. *)
Definition TransferOwnershipPdu_traces (m : profile) : field_traces (cls_fields (TransferOwnershipPdu m)) :=
  (at_once SimulationIdentifier_codec, (at_once SimulationIdentifier_codec, (at_once u32_codec,
  (at_once RequiredReliabilityService_codec, (at_once TransferControlTransferType_codec, (at_once EntityId_codec,
  (specification_trace m, tt))))))).
Definition SetRecordReliablePdu_traces (m : profile) : field_traces (cls_fields (SetRecordReliablePdu m)) :=
  (at_once EntityId_codec, (at_once EntityId_codec, (at_once u32_codec, (at_once RequiredReliabilityService_codec,
  (at_once u8_codec, (at_once u16_codec, (at_once u32_codec, (specification_trace m, tt)))))))).
