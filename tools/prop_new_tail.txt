Proof.
  repeat match goal with |- _ /\ _ => split end; wires.
Qed.
Print Assumptions C50_arguments_on_wire.

(** The two constructors whose [serialize] can panic (C25): the fields hold the arguments. *)
Theorem C50_record_specification :
  (forall (id serial : u32) (len count : u16) (values : list u8),
    let v := RecordSpecificationElement_new id serial len count values in
    RecordSpecificationElement_record_id v = id /\ RecordSpecificationElement_record_set_serial_number v = serial /\
    RecordSpecificationElement_record_length v = len /\ RecordSpecificationElement_record_count v = count /\
    RecordSpecificationElement_record_values v = values /\
    (uval len * uval count = lenN values -> lenN values <= 65535 -> forall m,
      RecordSpecificationElement_serialize m v =
        Ok (big_endian 4 (uval id) ++ big_endian 4 (uval serial) ++ big_endian 2 (uval len) ++ big_endian 2 (uval count) ++ values))) /\
  (forall (n : u32) (sets : list RecordSpecificationElement) m,
    let v := RecordSpecification_new n sets in
    RecordSpecification_number_of_record_sets v = n /\ RecordSpecification_record_sets v = sets /\
    (forall out, map (RecordSpecificationElement_serialize m) sets = map Ok out ->
      RecordSpecification_serialize m v = Ok (big_endian 4 (uval n) ++ List.concat out))).
Proof.
  split.
  - intros id serial len count values v. repeat (split; [reflexivity|]). intros L S m.
    assert (M : mul_u16 m len count = Ok (as_u16 (uval len * uval count))).
    { unfold mul_u16. destruct (N.ltb_spec (uval len * uval count) 65536) as [H|H]; [reflexivity|lia]. }
    unfold RecordSpecificationElement_serialize. cbn [v RecordSpecificationElement_new RecordSpecificationElement_record_length RecordSpecificationElement_record_count
      RecordSpecificationElement_record_id RecordSpecificationElement_record_set_serial_number RecordSpecificationElement_record_values]. rewrite M.
    assert (K : N.to_nat (uval (as_u16 (uval len * uval count))) = length values).
    { unfold as_u16. rewrite as_uint_val by (change (256 ^ N.of_nat 2) with 65536; lia). rewrite L. unfold lenN. lia. }
    rewrite K. unfold put_indexed. rewrite Nat.leb_refl, firstn_all, raw_bytes. cbn [wapp].
    unfold put_u32, put_u16. rewrite !put_bytes, <- !app_assoc. reflexivity.
  - intros n sets m v. split; [reflexivity|]. split; [reflexivity|]. intros out E.
    unfold RecordSpecification_serialize. cbn [v RecordSpecification_new RecordSpecification_number_of_record_sets RecordSpecification_record_sets].
    rewrite E. assert (W : wconcat (map Ok out) = Ok (List.concat out)).
    { clear. induction out as [|b out IH]; [reflexivity|]. cbn [map wconcat List.concat]. rewrite IH. reflexivity. }
    rewrite W. cbn [wapp]. unfold put_u32. rewrite put_bytes. reflexivity.
Qed.
Print Assumptions C50_record_specification.

(** The constructors without parameters give the default value: all zero, except that a
    simulation address starts as site 1, application 1. *)
Theorem C50_empty_constructors :
  AngularVelocity_serialize AngularVelocity_new = repeat (B 0) 12 /\ AngularVelocity_new = AngularVelocity_default /\
  AntennaPattern_serialize AntennaPattern_new = [] /\ AntennaPattern_new = AntennaPattern_default /\
  AttributeRecord_serialize AttributeRecord_new = repeat (B 0) 6 /\ AttributeRecord_new = AttributeRecord_default /\
  AttributeRecordSet_serialize AttributeRecordSet_new = map B [0; 1; 0; 1; 0; 0; 0; 0] /\ AttributeRecordSet_new = AttributeRecordSet_default /\
  ModulationParameters_serialize ModulationParameters_new = [] /\ ModulationParameters_new = ModulationParameters_default /\
  ObjectIdentifier_serialize ObjectIdentifier_new = map B [0; 1; 0; 1; 0; 0] /\ ObjectIdentifier_new = ObjectIdentifier_default /\
  SimulationIdentifier_serialize SimulationIdentifier_new = map B [0; 1; 0; 1; 0; 0] /\ SimulationIdentifier_new = SimulationIdentifier_default /\
  VariableTransmitterParameters_serialize VariableTransmitterParameters_new = repeat (B 0) 6 /\
  VariableTransmitterParameters_new = VariableTransmitterParameters_default.
Proof. repeat split; try reflexivity; vm_compute; reflexivity. Qed.
Print Assumptions C50_empty_constructors.

(** A munition: the entity type first, then four numbers. *)
Example C50_example :
  map uval (MunitionDescriptor_serialize (MunitionDescriptor_new EntityType_default (as_u16 1) (as_u16 2) (as_u16 3) (as_u16 0x0405)))
  = [0; 0; 0; 0; 0; 0; 0; 0; 0; 1; 0; 2; 0; 3; 4; 5].
Proof. vm_compute. reflexivity. Qed.
Example C50_element_example : forall m, RecordSpecificationElement_serialize m (RecordSpecificationElement_new (as_u32 1) (as_u32 2) (as_u16 2) (as_u16 1) [B 8; B 9])
  = Ok (map B [0; 0; 0; 1; 0; 0; 0; 2; 0; 2; 0; 1; 8; 9]).
Proof. intros m. apply (proj1 C50_record_specification); vm_compute; [reflexivity | discriminate]. Qed.
