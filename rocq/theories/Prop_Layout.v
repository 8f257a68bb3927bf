(** * Complete layouts: C63 (variable-size records), C64 (whole datagrams).

    [laid_out], [each], [maybe], [variable_types], [layouts] are defined in [SpecLayout]; the
    header's numbers ([header_entries]) in [SpecFaults]. *)
From Verif Require Import Base BaseFacts EnumModel Enums Header PduMacro DataTypes Bitflags Pdus PduFields Spec
  ClassFacts PduProofs Wire WireMaps WireProofs WireFacts WireClass SpecFaults Prop_Faults SpecLayout TailFacts LayoutFacts RecLayoutFacts.

(** ** C63: records that end with a list *)

(** Encoding: the numbers of the map one after the other, from byte 0 to the end of the head,
    and then the elements of the list. No hypothesis on the value: a count that does not match
    the list is sent as it is. *)
Theorem C63_encoding : forall t v, In t variable_types ->
  tiles 0 (vt_head t) (vt_map t) /\ vt_serialize t v = laid_out (vt_map t) v ++ vt_tail t v.
Proof. intros t v I. destruct (in_enc t I) as [Ti En]. split; [exact Ti | exact (enc_laid t Ti En v)]. Qed.
(** Decoding arbitrary bytes: every number of the head comes from its place, the list is what
    follows the head, byte for byte, as long as the count says, and the rest is left over. *)
Theorem C63_decoding : forall t bs v rest, In t variable_types -> vt_deserialize t bs = Ok (v, rest) ->
  (vt_head t <= length bs)%nat /\ Forall (received bs v) (vt_map t) /\
  skipn (vt_head t) bs = vt_tail t v ++ rest /\ vt_counted t v.
Proof. intros t bs v rest I. assert (A := all_dec). rewrite Forall_forall in A. exact (A t I bs v rest). Qed.
(** A decoded record re-encodes to the bytes that were read iff every enumeration code among
    them is a known one; the types without enumerations always do. *)
Lemma vt_shape : Forall (fun t => Forall bounded (vt_map t) /\ Forall faithful (vt_map t)) variable_types.
Proof.
  unfold variable_types, AttributeRecord_vt, AttributeRecordSet_vt, StandardVariableRecords_vt, StandardVariableSpecification_vt,
    ElectromagneticEmissionBeamData_vt, ElectromagneticEmissionSystemData_vt, AcousticEmitterSystemData_vt.
  repeat (apply Forall_cons; [cbn [vt_map]; match goal with |- Forall _ ?h /\ _ => split; [bounded_tac h | unfold h; faithful_tac] end|]); apply Forall_nil.
Qed.
Theorem C63_reencode : forall t bs v rest, In t variable_types -> vt_deserialize t bs = Ok (v, rest) ->
  (bs = vt_serialize t v ++ rest <->
   Forall (fun e => let n := number (slice (en_off e) (en_width e) bs) in en_norm e n = n) (vt_map t)).
Proof.
  intros t bs v rest I D. destruct (C63_encoding t v I) as [Ti En]. destruct (C63_decoding t bs v rest I D) as [L [R [T _]]].
  assert (A := vt_shape). rewrite Forall_forall in A. destruct (A t I) as [Bo Fa].
  assert (K := received_laid (vt_map t) v bs 0 (vt_head t) Ti L Bo Fa R). rewrite Nat.sub_0_r in K. unfold slice in K at 1. change (skipn 0 bs) with bs in K.
  rewrite En, <- app_assoc, <- T. transitivity (laid_out (vt_map t) v = firstn (vt_head t) bs); [|exact K]. split; intros E.
  - apply (f_equal (firstn (vt_head t))) in E. rewrite E, firstn_app, (laid_length _ v _ _ Ti), Nat.sub_0_r, Nat.sub_diag, firstn_O, app_nil_r.
    symmetry. apply firstn_all2. rewrite (laid_length _ v _ _ Ti). lia.
  - rewrite E. symmetry. apply firstn_skipn.
Qed.
(** Which bytes decode to which value: exactly the encodings of correctly counted values, for
    the types without enumerations ([uncoded]: every number is taken as it is). *)
Definition uncoded (t : variable_type) : Prop := Forall (fun e => forall n, en_norm e n = n) (vt_map t).
Theorem C63_exact : forall t bs v rest, In t variable_types -> uncoded t ->
  (vt_deserialize t bs = Ok (v, rest) <-> bs = vt_serialize t v ++ rest /\ vt_counted t v).
Proof.
  intros t bs v rest I P. split.
  - intros D. split; [|apply (C63_decoding t bs v rest I D)]. apply (C63_reencode t bs v rest I D).
    unfold uncoded in P. rewrite !Forall_forall in *. intros e Ie. apply P, Ie.
  - intros [-> C]. assert (A := all_counted_rt). rewrite Forall_forall in A. exact (A t I v rest C).
Qed.
(** For all seven types a correctly counted value comes back. *)
Theorem C63_roundtrip : forall t v rest, In t variable_types ->
  (vt_deserialize t (vt_serialize t v ++ rest) = Ok (v, rest) <-> vt_counted t v).
Proof.
  intros t v rest I. split; [intros D; apply (C63_decoding t _ v rest I D)|].
  assert (A := all_counted_rt). rewrite Forall_forall in A. exact (A t I v rest).
Qed.
Theorem C63_plain_types :
  uncoded AttributeRecord_vt /\ uncoded AttributeRecordSet_vt /\ uncoded StandardVariableRecords_vt /\
  uncoded StandardVariableSpecification_vt /\ uncoded ElectromagneticEmissionBeamData_vt /\
  ~ uncoded ElectromagneticEmissionSystemData_vt /\ ~ uncoded AcousticEmitterSystemData_vt.
Proof.
  unfold uncoded. repeat split; try (repeat (apply Forall_cons; [intros ?; reflexivity|]); apply Forall_nil).
  - intros F. do 3 apply Forall_inv_tail in F. apply Forall_inv in F. specialize (F 65535). vm_compute in F. discriminate F.
  - intros F. do 3 apply Forall_inv_tail in F. apply Forall_inv in F. specialize (F 65535). vm_compute in F. discriminate F.
Qed.
(** The only failure is running out of bytes (and it is a panic). *)
Theorem C63_outcomes : forall t bs, In t variable_types ->
  (exists v rest, vt_deserialize t bs = Ok (v, rest)) \/ vt_deserialize t bs = Panic Underflow.
Proof.
  intros t bs I. assert (A := all_uf). rewrite Forall_forall in A. destruct (vt_deserialize t bs) as [[v r]|p] eqn:E; [left; eauto|].
  right. f_equal. exact (A t I bs p E).
Qed.
(** An attribute record set of site 1, application 2, entity 3 with one record of type 9 and
    two data bytes, followed by one more byte. *)
Example C63_example :
  match vt_deserialize AttributeRecordSet_vt (map B [0; 1; 0; 2; 0; 3; 0; 1; 0; 0; 0; 9; 0; 2; 170; 187; 77]) with
  | Ok (v, rest) => Some (uval (EntityId_entity_id (AttributeRecordSet_entity_id v)),
      map (fun a => map (@uval 1) (AttributeRecord_record_specific_fields a)) (AttributeRecordSet_attribute_records v), map (@uval 1) rest)
  | _ => None
  end = Some (3, [[170; 187]], [77]).
Proof. vm_compute. reflexivity. Qed.
(** An unknown emitter name is replaced by the default (code 2). *)
Example C63_example_unknown :
  match vt_deserialize ElectromagneticEmissionSystemData_vt (map B ([5; 0; 0; 0; 255; 255; 0; 1] ++ repeat 0 12)) with
  | Ok (v, _) => Some (map (@uval 1) (firstn 8 (vt_serialize ElectromagneticEmissionSystemData_vt v)))
  | _ => None
  end = Some [5; 0; 0; 0; 0; 2; 0; 1].
Proof. vm_compute. reflexivity. Qed.

(** Grid axes: 20 bytes and the data of the kind announced by the axis type; an irregular
    axis takes the whole remaining input as padding. *)
Theorem C63_grid_axis :
  (forall v, GridAxisDescriptor_serialize v = laid_out GridAxisDescriptor_head v ++ axis_data (GridAxisDescriptor_data v)) /\
  (forall bs v rest, GridAxisDescriptor_deserialize bs = Ok (v, rest) ->
     (20 <= length bs)%nat /\ Forall (received bs v) GridAxisDescriptor_head /\
     skipn 20 bs = axis_data (GridAxisDescriptor_data v) ++ rest /\
     axis_kind (GridAxisDescriptor_data v) = code (GridAxisDescriptor_axis_type v) /\
     axis_data_read (GridAxisDescriptor_data v) rest) /\
  (forall bs, (exists v rest, GridAxisDescriptor_deserialize bs = Ok (v, rest)) \/ GridAxisDescriptor_deserialize bs = Panic Underflow).
Proof.
  split; [exact axis_encoding|]. split; [exact axis_decoding|]. intros bs.
  destruct (GridAxisDescriptor_deserialize bs) as [[v r]|p] eqn:E; [left; eauto | right; f_equal; exact (GridAxisDescriptor_uf _ _ E)].
Qed.
(** Grid data records: written with two-byte codes, read with one-byte codes. *)
Theorem C63_grid_data :
  (forall v, GridDataRecord_serialize v =
     big_endian 2 (code (GridDataRecord_sample_type v)) ++ big_endian 2 (code (GridDataRecord_data_representation v)) ++
     grid_data (GridDataRecord_data v)) /\
  (forall bs v rest, GridDataRecord_deserialize bs = Ok (v, rest) ->
     (2 <= length bs)%nat /\ code (GridDataRecord_sample_type v) = known GriddedDataSampleType_spec (byte_at bs 0) /\
     code (GridDataRecord_data_representation v) = known GriddedDataDataRepresentation_spec (byte_at bs 1) /\
     skipn 2 bs = grid_data (GridDataRecord_data v) ++ rest /\
     grid_kind (GridDataRecord_data v) = code (GridDataRecord_data_representation v) /\ grid_data_read (GridDataRecord_data v) rest) /\
  (forall bs, (exists v rest, GridDataRecord_deserialize bs = Ok (v, rest)) \/ GridDataRecord_deserialize bs = Panic Underflow).
Proof.
  split; [exact grid_encoding|]. split; [exact grid_decoding|]. intros bs.
  destruct (GridDataRecord_deserialize bs) as [[v r]|p] eqn:E; [left; eauto | right; f_equal; exact (GridDataRecord_uf _ _ E)].
Qed.
(** Variable transmitter parameters: written with a four-byte type, read with a one-byte type. *)
Theorem C63_transmitter_parameters :
  (forall v, VariableTransmitterParameters_serialize v =
     big_endian 4 (code (VariableTransmitterParameters_record_type v)) ++ be (VariableTransmitterParameters_record_length v) ++
     VariableTransmitterParameters_record_specific_fields v) /\
  (forall bs v rest, VariableTransmitterParameters_deserialize bs = Ok (v, rest) ->
     (3 <= length bs)%nat /\
     code (VariableTransmitterParameters_record_type v) = known VariableParameterRecordType_spec (byte_at bs 0) /\
     skipn 1 bs = be (VariableTransmitterParameters_record_length v) ++ VariableTransmitterParameters_record_specific_fields v ++ rest /\
     counts (VariableTransmitterParameters_record_length v) (VariableTransmitterParameters_record_specific_fields v)) /\
  (forall bs, (exists v rest, VariableTransmitterParameters_deserialize bs = Ok (v, rest)) \/
              VariableTransmitterParameters_deserialize bs = Panic Underflow).
Proof.
  split; [exact vtp_encoding|]. split; [exact vtp_decoding|]. intros bs.
  destruct (VariableTransmitterParameters_deserialize bs) as [[v r]|p] eqn:E; [left; eauto | right; f_equal; exact (VariableTransmitterParameters_uf _ _ E)].
Qed.
Example C63_example_grid :
  match GridDataRecord_deserialize (map B [0; 2; 0; 1; 0; 7; 1; 2; 3; 4; 99]) with
  | Ok (v, rest) => Some (map (@uval 1) (GridDataRecord_serialize v), map (@uval 1) rest)
  | _ => None
  end = Some ([0; 0; 0; 2; 0; 1; 0; 7; 1; 2; 3; 4], [99]).
Proof. vm_compute. reflexivity. Qed.

(** ** C64: the whole datagram *)

(** One layout per class, with the class's wire map. *)
Theorem C64_layouts : forall m,
  map (fun l => pl_class l) (layouts m) = all_pdus m /\
  map (fun l => mk_pdu_map (pl_class l) (pl_map l) (pl_end l)) (layouts m) = wire_maps m /\
  (forall l, In l (layouts m) -> tiles 12 (pl_end l) (pl_map l)).
Proof.
  intros m. split; [reflexivity|]. split; [apply layouts_maps|]. intros l I.
  assert (T := all_tiles m). rewrite Forall_forall in T. exact (T _ (layout_map m l I)).
Qed.
(** Every byte that a successful [serialize] emits: the twelve header bytes, then the numbers
    of the class's map one after the other, then the elements of its lists. Nothing else is
    emitted, and the buffer keeps what it held. *)
Theorem C64_datagram : forall m l p buf p' buf',
  In l (layouts m) -> serialize (pl_class l) p buf = Ok (ROk tt, p', buf') ->
  buf' = buf ++ laid_out header_entries p' ++ laid_out (pl_map l) p' ++ pl_tail l p /\
  stamped (cls_type (pl_class l)) (cls_family (pl_class l)) (as_u16 (declared_size p)) (header p) (header p') /\
  length (laid_out (header_entries ++ pl_map l) p') = pl_end l.
Proof.
  intros m l p buf p' buf' I S. assert (C := layout_class m l I).
  destruct (serialize_spec m _ C _ _ _ _ S) as [fl [Eo [St _]]]. subst buf'.
  destruct (datagram m l I _ _ _ _ S) as [E _].
  assert (H := header_sent m _ C _ _ _ _ S). 
  assert (L := laid_slice header_entries p' _ 0 12 ltac:(repeat split) H).
  assert (T := proj2 (proj2 (C64_layouts m)) l I).
  split; [|split; [exact St|]].
  - rewrite E in *. f_equal. f_equal. rewrite <- L. unfold slice. change (skipn 0 ?x) with x.
    assert (H12 := HeaderFacts.header_ser_length (header p')). set (hd := PduHeader_serialize (header p')) in *.
    change (12 - 0)%nat with 12%nat. rewrite firstn_app, H12, Nat.sub_diag, firstn_O, app_nil_r. symmetry. apply firstn_all2. rewrite H12. reflexivity.
  - rewrite (laid_length _ p' 0 (pl_end l)); [lia|]. unfold header_entries. cbn [app]. repeat (split; [reflexivity|]). exact T.
Qed.
(** A Signal PDU with sample rate 258, data length 24 and three data bytes: 12 bytes of header,
    20 bytes of numbers, the data. *)
Definition signal_example : pdu SignalPdu :=
  mk_pdu (c := SignalPdu) (header (pdu_default SignalPdu (as_u32 0))) (EntityId_default, (as_uint 2 5, (as_uint 2 0, (enum_default SignalTDLType_spec, (as_uint 4 258, (as_uint 2 24, (as_uint 2 0, ([as_uint 1 1; as_uint 1 2; as_uint 1 3], tt)))))))).
Example C64_example :
  match serialize SignalPdu signal_example [] with
  | Ok (ROk tt, p', out) => Some (map (@uval 1) out)
  | _ => None
  end = Some ([7; 1; 26; 4; 0; 0; 0; 0; 0; 35; 0; 0] ++
              [0; 1; 0; 1; 0; 0; 0; 5; 0; 0; 0; 0; 0; 0; 1; 2; 0; 24; 0; 0] ++ [1; 2; 3]) /\
  map (@uval 1) (SignalPdu_tail signal_example) = [1; 2; 3].
Proof. vm_compute. split; reflexivity. Qed.

(** What the theorems above rest on (one traversal for all of them; not part of the model). *)
Definition Prop_Layout_theorems : True :=
  let _ := @C63_encoding in
  let _ := @C63_decoding in
  let _ := @C63_reencode in
  let _ := @C63_exact in
  let _ := @C63_roundtrip in
  let _ := @C63_plain_types in
  let _ := @C63_outcomes in
  let _ := @C63_grid_axis in
  let _ := @C63_grid_data in
  let _ := @C63_transmitter_parameters in
  let _ := @C64_layouts in
  let _ := @C64_datagram in
  I.
Print Assumptions Prop_Layout_theorems.
