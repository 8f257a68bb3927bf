(** * Counted and irregular record types: C23-C28, C30, C31. *)
From Verif Require Import Base BaseFacts EnumModel Enums EnumFacts Fixed Header HeaderFacts PduMacro PduMacroFacts
  DataTypes DataTypesFacts Spec RecordFacts Wire WireProofs SpecDatum DatumFacts.

(** ** C23: counted records round-trip iff every count equals the length of its list *)
Theorem C23_counted_roundtrip_iff :
  (forall v rest, AttributeRecord_deserialize (AttributeRecord_serialize v ++ rest) = Ok (v, rest) <-> counted_AttributeRecord v) /\
  (forall v rest, AttributeRecordSet_deserialize (AttributeRecordSet_serialize v ++ rest) = Ok (v, rest) <-> counted_AttributeRecordSet v) /\
  (forall v rest, StandardVariableRecords_deserialize (StandardVariableRecords_serialize v ++ rest) = Ok (v, rest) <-> counted_StandardVariableRecords v) /\
  (forall v rest, StandardVariableSpecification_deserialize (StandardVariableSpecification_serialize v ++ rest) = Ok (v, rest) <-> counted_StandardVariableSpecification v) /\
  (forall v rest, ElectromagneticEmissionBeamData_deserialize (ElectromagneticEmissionBeamData_serialize v ++ rest) = Ok (v, rest) <-> counted_EmissionBeamData v) /\
  (forall v rest, ElectromagneticEmissionSystemData_deserialize (ElectromagneticEmissionSystemData_serialize v ++ rest) = Ok (v, rest) <-> counted_EmissionSystemData v) /\
  (forall v rest, AcousticEmitterSystemData_deserialize (AcousticEmitterSystemData_serialize v ++ rest) = Ok (v, rest) <-> counted_AcousticEmitterSystemData v) /\
  (forall m v b rest, RecordSpecification_serialize m v = Ok b ->
     (RecordSpecification_deserialize m (b ++ rest) = Ok (v, rest) <-> specification_exact m v)).
Proof.
  split; [|split; [|split; [|split; [|split; [|split; [|split]]]]]].
  - intros v rest. split; [apply AttributeRecord_des_counted | apply AttributeRecord_rt].
  - intros v rest. split; [apply AttributeRecordSet_des_counted | apply AttributeRecordSet_rt].
  - intros v rest. split; [apply StandardVariableRecords_des_counted | apply StandardVariableRecords_rt].
  - intros v rest. split; [apply StandardVariableSpecification_des_counted | apply StandardVariableSpecification_rt].
  - intros v rest. split; [apply EmissionBeamData_des_counted | apply EmissionBeamData_rt].
  - intros v rest. split; [apply EmissionSystemData_des_counted | apply EmissionSystemData_rt].
  - intros v rest. split; [apply AcousticEmitterSystemData_des_counted | apply AcousticEmitterSystemData_rt].
  - intros m v b rest S. split; [apply specification_des_exact|]. intros X.
    rewrite (specification_ser_exact m v (proj2 X)) in S. injection S as <-. apply specification_rt_exact, X.
Qed.
(** Whatever is decoded, from any bytes, has counts that match. *)
Theorem C23_decoded_is_counted :
  (forall bs v rest, AttributeRecord_deserialize bs = Ok (v, rest) -> counted_AttributeRecord v) /\
  (forall bs v rest, AttributeRecordSet_deserialize bs = Ok (v, rest) -> counted_AttributeRecordSet v) /\
  (forall bs v rest, StandardVariableRecords_deserialize bs = Ok (v, rest) -> counted_StandardVariableRecords v) /\
  (forall bs v rest, StandardVariableSpecification_deserialize bs = Ok (v, rest) -> counted_StandardVariableSpecification v) /\
  (forall bs v rest, ElectromagneticEmissionBeamData_deserialize bs = Ok (v, rest) -> counted_EmissionBeamData v) /\
  (forall bs v rest, ElectromagneticEmissionSystemData_deserialize bs = Ok (v, rest) -> counted_EmissionSystemData v) /\
  (forall bs v rest, AcousticEmitterSystemData_deserialize bs = Ok (v, rest) -> counted_AcousticEmitterSystemData v) /\
  (forall m bs v rest, RecordSpecification_deserialize m bs = Ok (v, rest) -> specification_exact m v).
Proof.
  split; [|split; [|split; [|split; [|split; [|split; [|split]]]]]].
  - exact AttributeRecord_des_counted.
  - exact AttributeRecordSet_des_counted.
  - exact StandardVariableRecords_des_counted.
  - exact StandardVariableSpecification_des_counted.
  - exact EmissionBeamData_des_counted.
  - exact EmissionSystemData_des_counted.
  - exact AcousticEmitterSystemData_des_counted.
  - exact specification_des_exact.
Qed.
(** The declared length is the number of bytes emitted, counted or not. *)
Theorem C23_declared_length :
  (forall v, N.of_nat (length (AttributeRecord_serialize v)) = AttributeRecord_field_len v) /\
  (forall v, N.of_nat (length (AttributeRecordSet_serialize v)) = AttributeRecordSet_field_len v) /\
  (forall v, N.of_nat (length (StandardVariableRecords_serialize v)) = StandardVariableRecords_field_len v) /\
  (forall v, N.of_nat (length (StandardVariableSpecification_serialize v)) = StandardVariableSpecification_field_len v) /\
  (forall v, N.of_nat (length (ElectromagneticEmissionBeamData_serialize v)) = ElectromagneticEmissionBeamData_field_len v) /\
  (forall v, N.of_nat (length (ElectromagneticEmissionSystemData_serialize v)) = ElectromagneticEmissionSystemData_field_len v).
Proof.
  split; [|split; [|split; [|split; [|split]]]]; intros v.
  - apply AttributeRecord_len.
  - apply AttributeRecordSet_len.
  - apply StandardVariableRecords_len.
  - apply StandardVariableSpecification_len.
  - apply EmissionBeamData_len.
  - apply EmissionSystemData_len.
Qed.
(** A record with two elements and a matching count; with count 1 the second is left unread. *)
Definition attribute_record (n : N) : AttributeRecord :=
  mk_AttributeRecord (as_u32 7) (as_u16 n) (map B [10; 20]).
Example C23_example :
  counted_AttributeRecord (attribute_record 2) /\ ~ counted_AttributeRecord (attribute_record 1) /\
  match AttributeRecord_deserialize (AttributeRecord_serialize (attribute_record 1)) with
  | Ok (v, rest) => Some (map uval (AttributeRecord_record_specific_fields v), map uval rest) | _ => None end
  = Some ([10], [20]).
Proof. split; [reflexivity|]. split; [intros H; discriminate H | vm_compute; reflexivity]. Qed.

(** ** C24: variable datum records *)

(** Emitted: id, bit length, value and [datum_padding] zero bytes, which [field_len] ignores. *)
Theorem C24_encoding : forall v,
  VariableDatumRecord_serialize v =
    big_endian 4 (uval (VariableDatumRecord_datum_id v)) ++ big_endian 4 (uval (VariableDatumRecord_length_bits v)) ++
    VariableDatumRecord_value v ++ repeat (B 0) (N.to_nat (datum_padding (uval (VariableDatumRecord_length_bits v)))) /\
  VariableDatumRecord_field_len v = 8 + N.of_nat (length (VariableDatumRecord_value v)) /\
  N.of_nat (length (VariableDatumRecord_serialize v)) =
    VariableDatumRecord_field_len v + datum_padding (uval (VariableDatumRecord_length_bits v)).
Proof.
  intros v. split; [apply datum_ser|]. split; [|apply datum_len].
  unfold VariableDatumRecord_field_len. rewrite vec_u8_len. reflexivity.
Qed.
(** The padding completes a value of the declared number of bits to a 64-bit boundary, and is
    smaller than 8 bytes; [field_len] is right iff the value ends within the last 8 bits of a
    64-bit word. *)
Theorem C24_padding : forall v, let bits := uval (VariableDatumRecord_length_bits v) in
  N.of_nat (length (VariableDatumRecord_value v)) = datum_bytes bits ->
  (N.of_nat (length (VariableDatumRecord_serialize v)) mod 8 = 0) /\ datum_padding bits < 8 /\
  (N.of_nat (length (VariableDatumRecord_serialize v)) = VariableDatumRecord_field_len v <-> bits mod 64 = 0 \/ 57 <= bits mod 64).
Proof.
  intros v bits H. destruct (C24_encoding v) as [_ [F L]]. fold bits in L. rewrite L, F, H. unfold datum_padding, datum_bytes.
  clear. split; [|split]; lia.
Qed.
Lemma if_prefix {A X} (val r : list A) (f : list A -> list A -> X) (e : X) :
  (if Nat.leb (length val) (length (val ++ r)) then f (firstn (length val) (val ++ r)) (skipn (length val) (val ++ r)) else e) = f val r.
Proof.
  assert (L : Nat.leb (length val) (length (val ++ r)) = true) by (apply Nat.leb_le; rewrite app_length; lia).
  rewrite L, firstn_app, Nat.sub_diag, firstn_all, firstn_O, app_nil_r.
  rewrite skipn_app, Nat.sub_diag, skipn_all. reflexivity.
Qed.
(** Decoding what was encoded: value prefixed by as many zero bytes, padding left unread. *)
Theorem C24_decoding : forall v rest, let bits := uval (VariableDatumRecord_length_bits v) in
  N.of_nat (length (VariableDatumRecord_value v)) = datum_bytes bits ->
  VariableDatumRecord_deserialize (VariableDatumRecord_serialize v ++ rest) =
  Ok (mk_VariableDatumRecord (VariableDatumRecord_datum_id v) (VariableDatumRecord_length_bits v)
        (repeat (B 0) (length (VariableDatumRecord_value v)) ++ VariableDatumRecord_value v),
      repeat (B 0) (N.to_nat (datum_padding bits)) ++ rest).
Proof.
  intros v rest bits H. assert (D := datum_des v rest). cbv zeta in D. fold bits in D. rewrite D. clear D.
  rewrite <- H, Nat2N.id.
  exact (if_prefix (VariableDatumRecord_value v) (repeat (B 0) (N.to_nat (datum_padding bits)) ++ rest)
    (fun a r => Ok (mk_VariableDatumRecord (VariableDatumRecord_datum_id v) (VariableDatumRecord_length_bits v)
        (repeat (B 0) (length (VariableDatumRecord_value v)) ++ a), r)) (Panic Underflow)).
Qed.
Lemma if_take {X} n (tail : bytes) (f : bytes -> X) x r :
  (if Nat.leb n (length tail) then Ok (f (firstn n tail), skipn n tail) else Panic Underflow) = Ok (x, r) ->
  (n <= length tail)%nat /\ x = f (firstn n tail) /\ r = skipn n tail.
Proof.
  destruct (Nat.leb_spec n (length tail)) as [L|L]; [|discriminate]. intros E. injection E as <- <-. split; [exact L | split; reflexivity].
Qed.
(** Hence only an empty datum of 0 bits survives. *)
Theorem C24_roundtrip_iff_empty : forall v rest,
  VariableDatumRecord_deserialize (VariableDatumRecord_serialize v ++ rest) = Ok (v, rest) <->
  uval (VariableDatumRecord_length_bits v) = 0 /\ VariableDatumRecord_value v = [].
Proof.
  intros v rest. assert (D := datum_des v rest). cbv zeta in D. rewrite D. clear D.
  set (bits := uval (VariableDatumRecord_length_bits v)).
  set (n := N.to_nat (datum_bytes bits)). set (val := VariableDatumRecord_value v : bytes).
  set (pad := repeat (B 0) (N.to_nat (datum_padding bits))). split.
  - intros E.
    destruct (if_take n (val ++ pad ++ rest) (fun a => mk_VariableDatumRecord (VariableDatumRecord_datum_id v)
      (VariableDatumRecord_length_bits v) (repeat (B 0) n ++ a)) v rest E) as [L [EV ER]].
    apply (f_equal VariableDatumRecord_value) in EV. cbn [VariableDatumRecord_value] in EV.
    assert (EV' : length val = length (repeat (B 0) n ++ firstn n (val ++ pad ++ rest))) by (unfold val at 1; rewrite EV at 1; reflexivity).
    assert (ER' : length rest = length (skipn n (val ++ pad ++ rest))) by (rewrite ER at 1; reflexivity). clear EV ER E.
    rewrite app_length, repeat_length, firstn_length_le in EV' by exact L.
    rewrite skipn_length, !app_length in ER'. rewrite !app_length in L.
    assert (K : n = O) by lia. assert (LV : length val = O) by lia.
    split; [|change (val = []); destruct val; [reflexivity | discriminate LV]].
    unfold n, datum_bytes in K. lia.
  - intros [Z V]. assert (Hv : val = []) by exact V. rewrite Hv.
    assert (Hn : n = O) by (unfold n; rewrite Z; reflexivity).
    assert (Hp : pad = []) by (unfold pad; rewrite Z; reflexivity).
    rewrite Hn, Hp. cbn [app repeat firstn skipn Nat.leb]. destruct v as [a b c]. cbn in V. subst c. reflexivity.
Qed.
Definition three_bytes : VariableDatumRecord := mk_VariableDatumRecord (as_u32 1) (as_u32 24) (map B [1; 2; 3]).
Theorem C24_roundtrip_refuted : exists v, N.of_nat (length (VariableDatumRecord_value v)) = datum_bytes (uval (VariableDatumRecord_length_bits v)) /\
  N.of_nat (length (VariableDatumRecord_serialize v)) <> VariableDatumRecord_field_len v /\
  forall rest, VariableDatumRecord_deserialize (VariableDatumRecord_serialize v ++ rest) <> Ok (v, rest).
Proof.
  exists three_bytes. split; [reflexivity|]. split; [intros H; discriminate H|].
  intros rest H. apply C24_roundtrip_iff_empty in H. destruct H as [_ H]. discriminate H.
Qed.
Example C24_example :
  match VariableDatumRecord_deserialize (VariableDatumRecord_serialize three_bytes) with
  | Ok (v, rest) => Some (map uval (VariableDatumRecord_value v), map uval rest) | _ => None end
  = Some ([0; 0; 0; 1; 2; 3], [0; 0; 0; 0; 0]).
Proof. vm_compute. reflexivity. Qed.

(** ** C25: record-specification elements *)

(** The exact behaviour of serialization: panics on overflow (checked builds) or when there
    are fewer values than the 16-bit product; otherwise writes the 12-byte head and the first
    [product mod 65536] values, dropping the others. *)
Theorem C25_element_serialize : forall m v,
  let n := element_product v mod 65536 in
  let have := N.of_nat (length (RecordSpecificationElement_record_values v)) in
  let head := big_endian 4 (uval (RecordSpecificationElement_record_id v)) ++
              big_endian 4 (uval (RecordSpecificationElement_record_set_serial_number v)) ++
              big_endian 2 (uval (RecordSpecificationElement_record_length v)) ++
              big_endian 2 (uval (RecordSpecificationElement_record_count v)) in
  (m = Checked -> 65536 <= element_product v -> RecordSpecificationElement_serialize m v = Panic ArithOverflow) /\
  ((m = Checked -> element_product v < 65536) -> have < n -> RecordSpecificationElement_serialize m v = Panic IndexOutOfBounds) /\
  ((m = Checked -> element_product v < 65536) -> n <= have ->
     RecordSpecificationElement_serialize m v = Ok (head ++ firstn (N.to_nat n) (RecordSpecificationElement_record_values v))).
Proof.
  intros m v n have head. rewrite element_serialize_spec. fold n. unfold lenN. fold have.
  assert (K : (m = Checked -> element_product v < 65536) ->
              (match m with Checked => element_product v <? 65536 | Wrapping => true end) = true).
  { intros H. destruct m; [apply N.ltb_lt, H; reflexivity | reflexivity]. }
  split; [|split].
  - intros -> H. apply N.ltb_ge in H. rewrite H. reflexivity.
  - intros O H. rewrite (K O). apply N.leb_gt in H. rewrite H. reflexivity.
  - intros O H. rewrite (K O). apply N.leb_le in H. rewrite H. unfold head. rewrite !big_endian_eq. reflexivity.
Qed.
(** It is well-behaved (no panic, [field_len] bytes, decodes to itself) iff the values fill
    the product exactly. *)
Theorem C25_well_behaved_iff : forall m v,
  (exists b, RecordSpecificationElement_serialize m v = Ok b /\ N.of_nat (length b) = RecordSpecificationElement_field_len v /\
     forall rest, RecordSpecificationElement_deserialize m (b ++ rest) = Ok (v, rest)) <-> element_exact m v.
Proof.
  intros m v. split.
  - intros [b [_ [_ D]]]. specialize (D []). apply element_des_exact in D. exact D.
  - intros X. exists (element_bytes v). split; [apply element_ser_exact, X|]. split.
    + unfold element_bytes, RecordSpecificationElement_field_len. rewrite app_length, element_header_len, vec_u8_len.
      cbn [c_len u32_codec u16_codec]. unfold lenN. change u8 with byte. lia.
    + intros rest. apply element_rt_exact, X.
Qed.
Definition element (len count : N) (vals : list N) : RecordSpecificationElement :=
  mk_RecordSpecificationElement (as_u32 1) (as_u32 2) (as_u16 len) (as_u16 count) (map B vals).
Theorem C25_never_panics_refuted :
  (exists v, RecordSpecificationElement_serialize Checked v = Panic ArithOverflow /\
     exists b, RecordSpecificationElement_serialize Wrapping v = Ok b) /\
  (exists v, forall m, RecordSpecificationElement_serialize m v = Panic IndexOutOfBounds) /\
  (exists v, forall m, exists b, RecordSpecificationElement_serialize m v = Ok b /\
     N.of_nat (length b) < RecordSpecificationElement_field_len v).
Proof.
  split; [|split].
  - exists (element 256 256 []). split; [vm_compute; reflexivity|]. eexists. vm_compute. reflexivity.
  - exists (element 2 2 [1; 2; 3]). intros m. destruct m; vm_compute; reflexivity.
  - exists (element 1 1 [1; 2; 3]). intros m. destruct m; (eexists; split; [vm_compute; reflexivity | vm_compute; reflexivity]).
Qed.
Example C25_example : element_exact Checked (element 2 2 [1; 2; 3; 4]).
Proof. split; [intros _; vm_compute; reflexivity | vm_compute; reflexivity]. Qed.

(** ** C26: the reference number of a SimulationIdentifier is lost *)
Theorem C26_simulation_identifier : forall v,
  SimulationIdentifier_serialize v =
    big_endian 2 (uval (SimulationAddress_site_id (SimulationIdentifier_simulation_address v))) ++
    big_endian 2 (uval (SimulationAddress_application_id (SimulationIdentifier_simulation_address v))) ++ map B [0; 0] /\
  (forall rest, exists w, SimulationIdentifier_deserialize (SimulationIdentifier_serialize v ++ rest) = Ok (w, rest) /\
    SimulationIdentifier_simulation_address w = SimulationIdentifier_simulation_address v /\
    uval (SimulationIdentifier_reference_number w) = 0 /\
    (w = v <-> uval (SimulationIdentifier_reference_number v) = 0)).
Proof.
  intros v. split.
  - unfold SimulationIdentifier_serialize, SimulationAddress_serialize. rewrite !big_endian_eq, <- app_assoc. reflexivity.
  - intros rest. exists (drop_reference v). destruct (fc_ser _ _ _ SimulationIdentifier_fc v) as [b [S [_ R]]].
    cbn [c_ser SimulationIdentifier_codec] in S. injection S as <-. split; [apply R|]. split; [reflexivity|]. split; [reflexivity|].
    destruct v as [a r]. unfold drop_reference. cbn. split.
    + intros E. injection E as <-. reflexivity.
    + intros E. f_equal. apply uint_eq. rewrite E. reflexivity.
Qed.
Theorem C26_roundtrip_refuted : exists v, forall rest,
  SimulationIdentifier_deserialize (SimulationIdentifier_serialize v ++ rest) <> Ok (v, rest).
Proof.
  exists (mk_SimulationIdentifier (mk_SimulationAddress (as_u16 1) (as_u16 2)) (as_u16 3)). intros rest E.
  destruct (proj2 (C26_simulation_identifier (mk_SimulationIdentifier (mk_SimulationAddress (as_u16 1) (as_u16 2)) (as_u16 3))) rest)
    as [w [D [_ [_ [H _]]]]]. rewrite D in E. injection E as ->. specialize (H eq_refl). discriminate H.
Qed.

(** ** C27: the other parameters of dead reckoning are lost *)
Theorem C27_dead_reckoning : forall v rest, exists w,
  DeadReckoningParameters_deserialize (DeadReckoningParameters_serialize v ++ rest) = Ok (w, rest) /\
  length (DeadReckoningParameters_serialize v) = 40%nat /\
  slice 1 15 (DeadReckoningParameters_serialize v) = repeat (B 0) 15 /\
  DeadReckoningParameters_dead_reckoning_algorithm w = DeadReckoningParameters_dead_reckoning_algorithm v /\
  DeadReckoningParameters_entity_linear_acceleration w = DeadReckoningParameters_entity_linear_acceleration v /\
  DeadReckoningParameters_entity_angular_velocity w = DeadReckoningParameters_entity_angular_velocity v /\
  elems (DeadReckoningParameters_dead_reckoning_other_parameters w) = repeat (B 0) 15 /\
  (w = v <-> elems (DeadReckoningParameters_dead_reckoning_other_parameters v) = repeat (B 0) 15).
Proof.
  intros v rest. exists (zero_other_parameters v). destruct (fc_ser _ _ _ DeadReckoningParameters_fc v) as [b [S [L R]]].
  cbn [c_ser DeadReckoningParameters_codec] in S. injection S as <-. split; [apply R|]. split; [exact L|]. split.
  { unfold DeadReckoningParameters_serialize, slice. rewrite put_u8_single.
    change (zero_bytes 15) with (repeat (B 0) 15). reflexivity. }
  split; [reflexivity|]. split; [reflexivity|]. split; [reflexivity|]. split; [reflexivity|].
  destruct v as [a o l w]. unfold zero_other_parameters. cbn. split.
  - intros E. injection E as <-. reflexivity.
  - intros E. f_equal. apply array_eq. rewrite E. reflexivity.
Qed.

(** ** C28: entity marking *)
Theorem C28_encoding : forall v,
  map uval (EntityMarking_serialize v) = code (EntityMarking_entity_marking_character_set v) :: map uval (EntityMarking_entity_marking_string v) /\
  EntityMarking_field_len v = 12 /\
  (N.of_nat (length (EntityMarking_serialize v)) = EntityMarking_field_len v <-> length (EntityMarking_entity_marking_string v) = 11%nat).
Proof.
  intros v. unfold EntityMarking_serialize. rewrite put_u8_single. cbn [app map length]. split; [|split].
  - f_equal. apply as_uint_val. apply (enum_fits EntityMarkingCharacterSet_spec).
  - reflexivity.
  - unfold EntityMarking_field_len, EntityMarking_LENGTH. lia.
Qed.
(** Decoding any non-empty bytes reads one byte, the character set, and reports the number of
    remaining bytes in decimal as the marking. *)
Theorem C28_decoding : forall (b : byte) rest, exists v,
  EntityMarking_deserialize (b :: rest) = Ok (v, rest) /\
  code (EntityMarking_entity_marking_character_set v) = known EntityMarkingCharacterSet_spec (uval b) /\
  decimal_of (N.of_nat (length rest)) (EntityMarking_entity_marking_string v).
Proof.
  intros b rest. destruct (enum_deserialize_spec EntityMarkingCharacterSet_spec (b :: rest)) as [x [D C]]; [cbn; lia|].
  exists (mk_EntityMarking x (usize_to_string (lenN rest))). split; [|split].
  - unfold EntityMarking_deserialize. exact (bind_ok _ _ _ (fun c => bind remaining (fun n => ret (mk_EntityMarking c (usize_to_string n)))) _ _ _ D).
  - cbn [EntityMarking_entity_marking_character_set]. rewrite C. cbn [firstn e_bytes EntityMarkingCharacterSet_spec].
    unfold be_decode. cbn [be_decode_acc]. rewrite N.mul_0_r, N.add_0_l. reflexivity.
  - cbn [EntityMarking_entity_marking_string]. apply usize_to_string_decimal.
Qed.
(** So no marking at all survives encoding and decoding. *)
Theorem C28_never_roundtrips : forall v rest,
  EntityMarking_deserialize (EntityMarking_serialize v ++ rest) <> Ok (v, rest).
Proof.
  intros v rest E. unfold EntityMarking_serialize in E. rewrite put_u8_single in E. cbn [app] in E.
  destruct (C28_decoding (as_u8 (code (EntityMarking_entity_marking_character_set v))) (EntityMarking_entity_marking_string v ++ rest))
    as [w [D [_ [_ [_ [NE _]]]]]]. rewrite D in E. injection E as -> E.
  apply (f_equal (@length _)) in E. rewrite app_length in E.
  destruct (EntityMarking_entity_marking_string v) as [|c s]; [contradiction | cbn in E; lia].
Qed.
Example C28_example :
  match EntityMarking_deserialize (map B [1; 65; 66; 67; 0; 0; 0; 0; 0; 0; 0; 0; 9; 9]) with
  | Ok (v, rest) => Some (map uval (EntityMarking_entity_marking_string v), length rest) | _ => None end
  = Some ([49; 51], 13%nat).
Proof. vm_compute. reflexivity. Qed.

(** ** C30: gridded data *)

(** A grid axis survives iff its data variant is the one its axis type announces, the count of
    an irregular axis matches its list, and nothing follows an irregular axis. *)
Definition axis_matches (v : GridAxisDescriptor) (rest : bytes) : Prop :=
  match GridAxisDescriptor_data v with
  | FixedSpacing _ _ => code (GridAxisDescriptor_axis_type v) = 0
  | VariableSpacing n _ _ _ xs _ =>
      code (GridAxisDescriptor_axis_type v) = 1 /\ uval n = N.of_nat (length xs) /\ rest = []
  end.
Lemma axis_code (x : enum GridAxisDescriptorAxisType_spec) : code x = 0 \/ code x = 1.
Proof. assert (H := proj1 (memb_In _ _) (code_ok x)). cbn [e_codes GridAxisDescriptorAxisType_spec In] in H. intuition congruence. Qed.
Lemma axis_decoded bs v rest : GridAxisDescriptor_deserialize bs = Ok (v, rest) -> axis_matches v rest.
Proof.
  unfold GridAxisDescriptor_deserialize. intros H. read_inv H. injection H as <- <-. unfold axis_matches.
  cbn [GridAxisDescriptor_data GridAxisDescriptor_axis_type].
  destruct (axis_code x3) as [K|K]; rewrite K in E4; cbn [N.eqb] in E4; read_inv E4.
  - injection E4 as <- <-. exact K.
  - match goal with R : read_remaining _ = _ |- _ => injection R as <- <- end.
    injection E4 as <- <-. split; [exact K|]. split; [|reflexivity].
    match goal with R : repeat_read _ _ _ = _ |- _ => apply repeat_read_length in R; rewrite R end. lia.
Qed.
Lemma axis_rt v rest : axis_matches v rest -> GridAxisDescriptor_deserialize (GridAxisDescriptor_serialize v ++ rest) = Ok (v, rest).
Proof.
  destruct v as [di df dp il ty da]. unfold axis_matches, GridAxisDescriptor_deserialize, GridAxisDescriptor_serialize.
  cbn [GridAxisDescriptor_domain_initial GridAxisDescriptor_domain_final GridAxisDescriptor_domain_points GridAxisDescriptor_interleaf_factor
    GridAxisDescriptor_data GridAxisDescriptor_axis_type]. fx_expose.
  destruct da as [n i | n i s o xs pad]; [intros K | intros [K [C ->]]]; rewrite <- ?app_assoc; do 5 fx_read1; rewrite K; cbn [N.eqb].
  - match goal with |- bind ?r _ _ = _ => assert (R : r (put_uint n ++ put_uint i ++ rest) = Ok (FixedSpacing n i, rest)) by (do 2 fx_read1; reflexivity) end.
    exact (bind_ok _ _ _ _ _ _ _ R).
  - match goal with |- bind ?r _ ?b = _ => assert (R : r b = Ok (VariableSpacing n i s o xs pad, [])) end.
    { do 4 fx_read1. replace (N.to_nat (uval n)) with (length xs) by lia.
      refine (eq_trans (bind_ok _ _ _ _ _ _ _ (repeat_read_concat _ _ _ (get_put_uint 2) _ _)) _). cbv beta.
      refine (eq_trans (bind_ok _ _ _ _ _ _ _ (eq_refl : read_remaining _ = _)) _). unfold ret. rewrite app_nil_r.
      change (@put_uint 1) with put_u8. rewrite concat_put_u8. reflexivity. }
    exact (bind_ok _ _ _ _ _ _ _ R).
Qed.
Theorem C30_axis_roundtrip_iff : forall v rest,
  GridAxisDescriptor_deserialize (GridAxisDescriptor_serialize v ++ rest) = Ok (v, rest) <-> axis_matches v rest.
Proof. intros v rest. split; [apply axis_decoded | apply axis_rt]. Qed.
(** A grid axis declares the bytes it emits; a grid data record emits two more than it declares. *)
Theorem C30_declared_length :
  (forall v, N.of_nat (length (GridAxisDescriptor_serialize v)) = GridAxisDescriptor_field_len v) /\
  (forall v, N.of_nat (length (GridDataRecord_serialize v)) = GridDataRecord_field_len v + 2).
Proof. split; [exact GridAxisDescriptor_len | exact GridDataRecord_len]. Qed.
(** Decoding an encoded grid data record: always Type0, with the code of the data
    representation taken as the number of octets and everything else swallowed as padding. *)
Theorem C30_grid_data_decoding : forall v rest,
  let n := code (GridDataRecord_data_representation v) in
  let tail := skipn 4 (GridDataRecord_serialize v) ++ rest in
  exists w k, GridDataRecord_deserialize (GridDataRecord_serialize v ++ rest) = Ok (w, []) /\
    code (GridDataRecord_sample_type w) = 0 /\ code (GridDataRecord_data_representation w) = 0 /\
    GridDataRecord_data w = Type0 k (firstn (N.to_nat n) tail) (skipn (N.to_nat n) tail) /\ uval k = n.
Proof.
  intros v rest n tail. unfold n in *. clear n.
  assert (S0 : code (GridDataRecord_sample_type v) = 0).
  { assert (H := proj1 (memb_In _ _) (code_ok (GridDataRecord_sample_type v))). cbn in H. intuition congruence. }
  assert (NL : code (GridDataRecord_data_representation v) <= 2).
  { assert (H := proj1 (memb_In _ _) (code_ok (GridDataRecord_data_representation v))). cbn in H. intuition lia. }
  set (body := match GridDataRecord_data v with
    | Type0 n d p => put_u16 n ++ List.concat (map put_u8 d) ++ List.concat (map put_u8 p)
    | Type1 s o n d p => put_f32 s ++ put_f32 o ++ put_u16 n ++ List.concat (map put_u16 d) ++ List.concat (map put_u8 p)
    | Type2 n p d => put_u16 n ++ put_u16 p ++ List.concat (map put_f32 d) end).
  assert (SE : GridDataRecord_serialize v = B 0 :: B 0 :: put_u16 (as_u16 (code (GridDataRecord_data_representation v))) ++ body).
  { unfold GridDataRecord_serialize. fold body. rewrite S0. reflexivity. }
  assert (TE : tail = body ++ rest).
  { unfold tail. rewrite SE. reflexivity. }
  assert (TL : (2 <= length (body ++ rest))%nat).
  { rewrite app_length. assert (2 <= length body)%nat; [|lia]. unfold body. destruct (GridDataRecord_data v); rewrite !app_length;
      unfold put_u16, put_f32; rewrite ?put_uint_length; lia. }
  rewrite TE. clear tail TE. rewrite SE. cbn [app]. rewrite <- app_assoc.
  eexists. exists (as_u16 (code (GridDataRecord_data_representation v))). split; [|split; [|split; [|split]]].
  - unfold GridDataRecord_deserialize.
    destruct (enum_deserialize_byte GriddedDataSampleType_spec (B 0) (B 0 :: put_u16 (as_u16 (code (GridDataRecord_data_representation v))) ++ body ++ rest) eq_refl) as [a [A1 A2]].
    refine (eq_trans (bind_ok _ _ _ _ _ _ _ A1) _). cbv beta.
    destruct (enum_deserialize_byte GriddedDataDataRepresentation_spec (B 0) (put_u16 (as_u16 (code (GridDataRecord_data_representation v))) ++ body ++ rest) eq_refl) as [c [C1 C2]].
    refine (eq_trans (bind_ok _ _ _ _ _ _ _ C1) _). cbv beta.
    change (known_or_default GriddedDataDataRepresentation_spec (uval (B 0))) with 0 in C2. rewrite C2. cbn [N.eqb].
    change (known_or_default GriddedDataSampleType_spec (uval (B 0))) with 0 in A2.
    replace a with (enum_default GriddedDataSampleType_spec) by (apply enum_eq; rewrite A2; reflexivity).
    replace c with (enum_default GriddedDataDataRepresentation_spec) by (apply enum_eq; rewrite C2; reflexivity).
    refine (bind_ok _ _ _ _ _ _ _ _).
    refine (eq_trans (bind_ok _ _ _ _ _ _ _ (get_put_uint 2 _ _)) _). cbv beta.
    unfold as_u16 at 1. rewrite as_uint_val by (change (256 ^ N.of_nat 2) with 65536; lia).
    refine (eq_trans (bind_ok _ _ _ _ _ _ _ (repeat_get_u8_n _ _ _)) _); [lia|]. cbv beta.
    refine (eq_trans (bind_ok _ _ _ _ _ _ _ (eq_refl : read_remaining _ = _)) _). reflexivity.
  - reflexivity.
  - reflexivity.
  - reflexivity.
  - unfold as_u16. apply as_uint_val. change (256 ^ N.of_nat 2) with 65536. lia.
Qed.
(** So no grid data record survives. *)
Theorem C30_grid_data_never_roundtrips : forall v rest,
  GridDataRecord_deserialize (GridDataRecord_serialize v ++ rest) <> Ok (v, rest).
Proof.
  intros v rest H. destruct (C30_grid_data_decoding v rest) as [w [k [D [_ [C [E K]]]]]].
  rewrite D in H. injection H as -> H.
  assert (LV := GridDataRecord_len v). unfold GridDataRecord_field_len in LV.
  rewrite C in E. cbn [N.to_nat firstn skipn] in E.
  assert (P : lenN (skipn 4 (GridDataRecord_serialize v) ++ rest) = lenN (GridDataRecord_serialize v) - 4 + lenN rest).
  { unfold lenN. rewrite app_length, skipn_length. lia. }
  assert (X : exists p : list u8, GridDataRecord_data v = Type0 k [] p /\ lenN p = lenN (GridDataRecord_serialize v) - 4 + lenN rest)
    by (eexists; split; [exact E | exact P]).
  destruct X as [p [E' P']]. clear E P. rewrite E' in LV.
  cbn [DataRepresentationType_field_len] in LV. rewrite !vec_u8_len in LV. cbn [c_len u16_codec] in LV.
  unfold GriddedDataSampleType_field_len, GriddedDataDataRepresentation_field_len in LV.
  rewrite P', <- H in LV. cbn [lenN length] in LV. unfold lenN in LV. cbn [length] in LV. lia.
Qed.
Definition regular_axis : GridAxisDescriptor :=
  mk_GridAxisDescriptor (as_uint 8 1) (as_uint 8 2) (as_u16 3) (as_u8 4) (enum_default GridAxisDescriptorAxisType_spec) (FixedSpacing (as_u16 5) (as_u16 6)).
Definition irregular_axis : GridAxisDescriptor :=
  mk_GridAxisDescriptor (as_uint 8 1) (as_uint 8 2) (as_u16 3) (as_u8 4) (variant GridAxisDescriptorAxisType_spec 1 eq_refl)
    (VariableSpacing (as_u16 2) (as_u16 6) (as_uint 8 7) (as_uint 8 8) [as_u16 9; as_u16 10] [B 1]).
Definition grid_data : GridDataRecord :=
  mk_GridDataRecord (enum_default _) (variant GriddedDataDataRepresentation_spec 2 eq_refl) (Type2 (as_u16 1) (as_u16 0) [as_uint 4 77]).
(** An axis of each kind; the irregular one swallows what follows it. *)
Example C30_example :
  (forall rest, axis_matches regular_axis rest) /\ axis_matches irregular_axis [] /\ ~ axis_matches irregular_axis [B 1] /\
  match GridDataRecord_deserialize (GridDataRecord_serialize grid_data ++ [B 5]) with
  | Ok (w, r) => Some (match GridDataRecord_data w with Type0 k d p => (uval k, map uval d, map uval p) | _ => (0, [], []) end, length r) | _ => None end
  = Some ((2, [0; 1], [0; 0; 0; 0; 0; 77; 5]), 0%nat).
Proof.
  split; [intros rest; reflexivity|]. split; [cbv; auto|]. split; [intros [_ [_ H]]; discriminate H|]. vm_compute. reflexivity.
Qed.

(** ** C31: variable transmitter parameters *)
Theorem C31_encoding : forall v,
  VariableTransmitterParameters_serialize v =
    big_endian 4 (code (VariableTransmitterParameters_record_type v)) ++
    big_endian 2 (uval (VariableTransmitterParameters_record_length v)) ++ VariableTransmitterParameters_record_specific_fields v /\
  N.of_nat (length (VariableTransmitterParameters_serialize v)) = VariableTransmitterParameters_field_len v.
Proof.
  intros v. split; [|apply VariableTransmitterParameters_len].
  unfold VariableTransmitterParameters_serialize. rewrite concat_put_u8, !big_endian_eq.
  change (put_u32 (as_u32 (code (VariableTransmitterParameters_record_type v))))
    with (be_encode 4 (code (VariableTransmitterParameters_record_type v) mod 256 ^ N.of_nat 4)).
  rewrite be_encode_mod. reflexivity.
Qed.
(** Decoding it again: the first of the four bytes of the type is taken for the whole type, the
    next two for the length; type and length are thus always 0, and the rest is left unread. *)
Theorem C31_decoding : forall v rest, exists w,
  VariableTransmitterParameters_deserialize (VariableTransmitterParameters_serialize v ++ rest) =
    Ok (w, skipn 3 (VariableTransmitterParameters_serialize v) ++ rest) /\
  code (VariableTransmitterParameters_record_type w) = 0 /\
  uval (VariableTransmitterParameters_record_length w) = 0 /\
  VariableTransmitterParameters_record_specific_fields w = [].
Proof.
  intros v rest. set (c := code (VariableTransmitterParameters_record_type v)).
  assert (CL : c < 256) by exact (enum_fits _ (VariableTransmitterParameters_record_type v)).
  assert (SE : VariableTransmitterParameters_serialize v = B 0 :: put_u16 (as_u16 0) ++ B c ::
    put_u16 (VariableTransmitterParameters_record_length v) ++ VariableTransmitterParameters_record_specific_fields v).
  { unfold VariableTransmitterParameters_serialize. rewrite concat_put_u8. fold c.
    assert (F : put_u32 (as_u32 c) = B 0 :: put_u16 (as_u16 0) ++ [B c]).
    { assert (A := proj1 (memb_In _ _) (code_ok (VariableTransmitterParameters_record_type v))). fold c in A.
      cbn [e_codes VariableParameterRecordType_spec In] in A.
      assert (E : forall x, uval x = 0 -> x = B 0) by (intros x Hx; apply uint_eq; rewrite Hx; reflexivity).
      clear - A. decompose [or] A; try contradiction; match goal with H : _ = c |- _ => rewrite <- H end; (apply (f_equal (fun l => l)));
        repeat (apply f_equal2; [apply uint_eq; reflexivity|]); reflexivity. }
    rewrite F. reflexivity. }
  rewrite SE. cbn [app].
  change (skipn 3 (B 0 :: put_u16 (as_u16 0) ++ B c :: put_u16 (VariableTransmitterParameters_record_length v) ++ VariableTransmitterParameters_record_specific_fields v))
    with (B c :: put_u16 (VariableTransmitterParameters_record_length v) ++ VariableTransmitterParameters_record_specific_fields v).
  rewrite <- app_assoc. set (tail := (B c :: _) ++ rest).
  destruct (enum_deserialize_byte VariableParameterRecordType_spec (B 0) (put_u16 (as_u16 0) ++ tail) eq_refl) as [a [A1 A2]].
  exists (mk_VariableTransmitterParameters a (as_u16 0) []). split; [|split; [exact A2 | split; reflexivity]].
  unfold VariableTransmitterParameters_deserialize.
  refine (eq_trans (bind_ok _ _ _ _ _ _ _ A1) _). cbv beta.
  refine (eq_trans (bind_ok _ _ _ _ _ _ _ (get_put_uint 2 _ _)) _). reflexivity.
Qed.
Theorem C31_never_roundtrips : forall v rest,
  VariableTransmitterParameters_deserialize (VariableTransmitterParameters_serialize v ++ rest) <> Ok (v, rest).
Proof.
  intros v rest H. destruct (C31_decoding v rest) as [w [D _]]. rewrite D in H. injection H as _ H.
  assert (K : length (skipn 3 (VariableTransmitterParameters_serialize v) ++ rest) = length rest) by exact (f_equal (@length byte) H).
  rewrite app_length, skipn_length in K.
  destruct (C31_encoding v) as [_ L]. unfold VariableTransmitterParameters_field_len in L. lia.
Qed.
Example C31_example :
  match VariableTransmitterParameters_deserialize (VariableTransmitterParameters_serialize
    (mk_VariableTransmitterParameters (variant VariableParameterRecordType_spec 3 eq_refl) (as_u16 2) [B 10; B 20])) with
  | Ok (w, r) => Some (code (VariableTransmitterParameters_record_type w), map uval r) | _ => None end
  = Some (0, [3; 0; 2; 10; 20]).
Proof. vm_compute. reflexivity. Qed.

(** What the theorems above rest on (one traversal for all of them; not part of the model). *)
Definition Prop_Records_theorems : True :=
  let _ := @C23_counted_roundtrip_iff in
  let _ := @C23_decoded_is_counted in
  let _ := @C23_declared_length in
  let _ := @C24_encoding in
  let _ := @C24_padding in
  let _ := @C24_decoding in
  let _ := @C24_roundtrip_iff_empty in
  let _ := @C24_roundtrip_refuted in
  let _ := @C25_element_serialize in
  let _ := @C25_well_behaved_iff in
  let _ := @C25_never_panics_refuted in
  let _ := @C26_simulation_identifier in
  let _ := @C26_roundtrip_refuted in
  let _ := @C27_dead_reckoning in
  let _ := @C28_encoding in
  let _ := @C28_decoding in
  let _ := @C28_never_roundtrips in
  let _ := @C30_axis_roundtrip_iff in
  let _ := @C30_declared_length in
  let _ := @C30_grid_data_decoding in
  let _ := @C30_grid_data_never_roundtrips in
  let _ := @C31_encoding in
  let _ := @C31_decoding in
  let _ := @C31_never_roundtrips in
  I.
Print Assumptions Prop_Records_theorems.
