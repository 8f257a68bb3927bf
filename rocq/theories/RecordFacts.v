(** * Facts about the variable-size record types (proofs only). *)
From Verif Require Import Base BaseFacts EnumModel Enums EnumFacts Fixed Header PduMacro PduMacroFacts
  DataTypes DataTypesFacts Spec.

Arguments N.of_nat : simpl never.

(** Reading a counted tail. *)
Lemma counts_nat k A (n : uint k) (l : list A) : counts n l <-> N.to_nat (uval n) = length l.
Proof. unfold counts. lia. Qed.

Lemma read_counted {A k} (P : A -> Prop) r w (n : uint k) (l : list A) rest :
  (forall a rest, P a -> r (w a ++ rest) = Ok (a, rest)) -> counts n l -> Forall P l ->
  repeat_read (N.to_nat (uval n)) r (List.concat (map w l) ++ rest) = Ok (l, rest).
Proof. intros H C F. apply counts_nat in C. rewrite C. eapply repeat_read_concat_P; eauto. Qed.

Lemma read_counted_fixed {A k} m r w (n : uint k) (l : list A) rest :
  fixed_rw m w r -> counts n l -> repeat_read (N.to_nat (uval n)) r (List.concat (map w l) ++ rest) = Ok (l, rest).
Proof. intros H C. apply counts_nat in C. rewrite C. apply repeat_read_concat, H. Qed.

Lemma put_list_len {k} (l : list (uint k)) : lenN (List.concat (map put_uint l)) = N.of_nat k * lenN l.
Proof. unfold lenN. rewrite (concat_put_length _ _ k) by apply put_uint_length. lia. Qed.

Lemma sumN_const A (l : list A) k : sumN (map (fun _ => k) l) = k * lenN l.
Proof. unfold lenN. induction l as [|x l IH]; cbn [map sumN length]; [lia|]. rewrite IH. lia. Qed.

Lemma vec_u8_len (l : list u8) : c_len (vec_codec u8_codec) l = lenN l.
Proof. cbn. rewrite sumN_const. lia. Qed.

Lemma lenN_concat_sum A (w : A -> bytes) (f : A -> N) : (forall a, lenN (w a) = f a) ->
  forall l, lenN (List.concat (map w l)) = sumN (map f l).
Proof.
  intros H l; induction l as [|x l IH]; cbn [map List.concat sumN]; [reflexivity|].
  rewrite lenN_app, H, IH. reflexivity.
Qed.

Lemma fixed_lenN {T} n (w : T -> bytes) r v : fixed_rw n w r -> lenN (w v) = N.of_nat n.
Proof. intros H. unfold lenN. now rewrite (fx_len _ _ _ _ H). Qed.

(** Field-by-field inversion of a successful read; the last (counted) field is [L]. *)
Ltac lenlist := repeat match goal with
  |- context [lenN (List.concat (map ?w ?l))] =>
    first [ rewrite (lenN_concat_sum _ w (fun _ => 1) (lenN_put 1) l)
          | rewrite (lenN_concat_sum _ w (fun _ => 2) (lenN_put 2) l)
          | rewrite (lenN_concat_sum _ w (fun _ => 4) (lenN_put 4) l) ] end; rewrite ?vec_u8_len, ?sumN_const.
Ltac read_inv H :=
  repeat (apply bind_inv in H; let a := fresh "x" in let bs := fresh "bs" in let E := fresh "E" in
          destruct H as [a [bs [E H]]]).

(** ** AttributeRecord *)
Lemma AttributeRecord_rt v rest : counted_AttributeRecord v ->
  AttributeRecord_deserialize (AttributeRecord_serialize v ++ rest) = Ok (v, rest).
Proof.
  intros C. unfold AttributeRecord_serialize, AttributeRecord_deserialize. fx_expose. rewrite <- ?app_assoc.
  fx_read1. fx_read1.
  refine (eq_trans (bind_ok _ _ _ _ _ _ _ (read_counted_fixed 1 _ _ _ _ _ (fixed_uint 1) C)) _).
  unfold ret. destruct v; reflexivity.
Qed.
Lemma AttributeRecord_des_counted bs v rest :
  AttributeRecord_deserialize bs = Ok (v, rest) -> counted_AttributeRecord v.
Proof.
  unfold AttributeRecord_deserialize. intros H. read_inv H. injection H as <- _.
  apply counts_nat. cbn. symmetry. eapply repeat_read_length; eassumption.
Qed.
Lemma AttributeRecord_len v : lenN (AttributeRecord_serialize v) = AttributeRecord_field_len v.
Proof.
  unfold AttributeRecord_serialize, AttributeRecord_field_len. fx_expose. rewrite !lenN_app, !lenN_put. lenlist.
  lia.
Qed.

(** ** AttributeRecordSet *)
Lemma AttributeRecordSet_rt v rest : counted_AttributeRecordSet v ->
  AttributeRecordSet_deserialize (AttributeRecordSet_serialize v ++ rest) = Ok (v, rest).
Proof.
  intros [C F]. unfold AttributeRecordSet_serialize, AttributeRecordSet_deserialize. fx_expose. rewrite <- ?app_assoc.
  fx_read1. fx_read1.
  refine (eq_trans (bind_ok _ _ _ _ _ _ _ (read_counted counted_AttributeRecord _ _ _ _ _ AttributeRecord_rt C F)) _).
  unfold ret. destruct v; reflexivity.
Qed.
Lemma AttributeRecordSet_des_counted bs v rest :
  AttributeRecordSet_deserialize bs = Ok (v, rest) -> counted_AttributeRecordSet v.
Proof.
  unfold AttributeRecordSet_deserialize. intros H. read_inv H. injection H as <- _. split; cbn.
  - apply counts_nat. symmetry. eapply repeat_read_length; eassumption.
  - eapply repeat_read_Forall; [exact AttributeRecord_des_counted | eassumption].
Qed.
Lemma AttributeRecordSet_len v : lenN (AttributeRecordSet_serialize v) = AttributeRecordSet_field_len v.
Proof.
  unfold AttributeRecordSet_serialize, AttributeRecordSet_field_len. fx_expose.
  rewrite !lenN_app, !lenN_put, (fixed_lenN _ _ _ _ EntityId_fixed), (lenN_concat_sum _ _ _ AttributeRecord_len).
  cbn [vec_codec c_len AttributeRecord_codec]. unfold EntityId_LENGTH. lia.
Qed.

(** ** StandardVariableRecords *)
Lemma StandardVariableRecords_rt v rest : counted_StandardVariableRecords v ->
  StandardVariableRecords_deserialize (StandardVariableRecords_serialize v ++ rest) = Ok (v, rest).
Proof.
  intros C. unfold StandardVariableRecords_serialize, StandardVariableRecords_deserialize. fx_expose. rewrite <- ?app_assoc.
  fx_read1. fx_read1.
  refine (eq_trans (bind_ok _ _ _ _ _ _ _ (read_counted_fixed 1 _ _ _ _ _ (fixed_uint 1) C)) _).
  unfold ret. destruct v; reflexivity.
Qed.
Lemma StandardVariableRecords_des_counted bs v rest :
  StandardVariableRecords_deserialize bs = Ok (v, rest) -> counted_StandardVariableRecords v.
Proof.
  unfold StandardVariableRecords_deserialize. intros H. read_inv H. injection H as <- _.
  apply counts_nat. cbn. symmetry. eapply repeat_read_length; eassumption.
Qed.
Lemma StandardVariableRecords_len v : lenN (StandardVariableRecords_serialize v) = StandardVariableRecords_field_len v.
Proof.
  unfold StandardVariableRecords_serialize, StandardVariableRecords_field_len. fx_expose. rewrite !lenN_app, !lenN_put. lenlist.
  lia.
Qed.

(** ** StandardVariableSpecification (inherent methods and field traits agree) *)
Lemma wconcat_Ok A (w : A -> bytes) l : wconcat (map (fun v => Ok (w v)) l) = Ok (List.concat (map w l)).
Proof. induction l as [|x l IH]; cbn [map wconcat List.concat]; [reflexivity|]. rewrite IH. reflexivity. Qed.
Lemma StandardVariableSpecification_ser_field v :
  StandardVariableSpecification_serialize_field v = Ok (StandardVariableSpecification_serialize v).
Proof.
  unfold StandardVariableSpecification_serialize_field, StandardVariableSpecification_serialize.
  cbn [c_ser vec_codec StandardVariableRecords_codec]. rewrite wconcat_Ok. reflexivity.
Qed.
Lemma StandardVariableSpecification_rt v rest : counted_StandardVariableSpecification v ->
  StandardVariableSpecification_deserialize (StandardVariableSpecification_serialize v ++ rest) = Ok (v, rest).
Proof.
  intros [C F]. unfold StandardVariableSpecification_serialize, StandardVariableSpecification_deserialize. fx_expose. rewrite <- ?app_assoc.
  fx_read1.
  refine (eq_trans (bind_ok _ _ _ _ _ _ _ (read_counted counted_StandardVariableRecords _ _ _ _ _ StandardVariableRecords_rt C F)) _).
  unfold ret. destruct v; reflexivity.
Qed.
Lemma StandardVariableSpecification_des_counted bs v rest :
  StandardVariableSpecification_deserialize bs = Ok (v, rest) -> counted_StandardVariableSpecification v.
Proof.
  unfold StandardVariableSpecification_deserialize. intros H. read_inv H. injection H as <- _. split; cbn.
  - apply counts_nat. symmetry. eapply repeat_read_length; eassumption.
  - eapply repeat_read_Forall; [exact StandardVariableRecords_des_counted | eassumption].
Qed.
Lemma StandardVariableSpecification_len v :
  lenN (StandardVariableSpecification_serialize v) = StandardVariableSpecification_field_len v.
Proof.
  unfold StandardVariableSpecification_serialize, StandardVariableSpecification_field_len. fx_expose.
  rewrite !lenN_app, !lenN_put, (lenN_concat_sum _ _ _ StandardVariableRecords_len).
  cbn [vec_codec c_len StandardVariableRecords_codec]. lia.
Qed.

(** ** ElectromagneticEmissionBeamData *)
Lemma EmissionBeamData_rt v rest : counted_EmissionBeamData v ->
  ElectromagneticEmissionBeamData_deserialize (ElectromagneticEmissionBeamData_serialize v ++ rest) = Ok (v, rest).
Proof.
  intros C. unfold ElectromagneticEmissionBeamData_serialize, ElectromagneticEmissionBeamData_deserialize. fx_expose. rewrite <- ?app_assoc.
  do 9 fx_read1.
  refine (eq_trans (bind_ok _ _ _ _ _ _ _ (read_counted_fixed _ _ _ _ _ _ TrackJamTarget_fixed C)) _).
  unfold ret. destruct v; reflexivity.
Qed.
Lemma EmissionBeamData_des_counted bs v rest :
  ElectromagneticEmissionBeamData_deserialize bs = Ok (v, rest) -> counted_EmissionBeamData v.
Proof.
  unfold ElectromagneticEmissionBeamData_deserialize. intros H. read_inv H. injection H as <- _.
  apply counts_nat. cbn. symmetry. eapply repeat_read_length; eassumption.
Qed.
Lemma EmissionBeamData_len v : lenN (ElectromagneticEmissionBeamData_serialize v) = ElectromagneticEmissionBeamData_field_len v.
Proof.
  unfold ElectromagneticEmissionBeamData_serialize, ElectromagneticEmissionBeamData_field_len. fx_expose.
  rewrite !lenN_app, !lenN_put, (fixed_lenN _ _ _ _ FundamentalParameterData_fixed).
  rewrite (lenN_concat_sum _ _ TrackJamTarget_field_len) by (intros; apply (fixed_lenN _ _ _ _ TrackJamTarget_fixed)).
  cbn [vec_codec c_len TrackJamTarget_codec]. unfold FundamentalParameterData_field_len. lia.
Qed.

(** ** ElectromagneticEmissionSystemData *)
Lemma EmissionSystemData_rt v rest : counted_EmissionSystemData v ->
  ElectromagneticEmissionSystemData_deserialize (ElectromagneticEmissionSystemData_serialize v ++ rest) = Ok (v, rest).
Proof.
  intros [C F]. unfold ElectromagneticEmissionSystemData_serialize, ElectromagneticEmissionSystemData_deserialize. fx_expose. rewrite <- ?app_assoc.
  do 5 fx_read1.
  refine (eq_trans (bind_ok _ _ _ _ _ _ _ (read_counted counted_EmissionBeamData _ _ _ _ _ EmissionBeamData_rt C F)) _).
  unfold ret. destruct v; reflexivity.
Qed.
Lemma EmissionSystemData_des_counted bs v rest :
  ElectromagneticEmissionSystemData_deserialize bs = Ok (v, rest) -> counted_EmissionSystemData v.
Proof.
  unfold ElectromagneticEmissionSystemData_deserialize. intros H. read_inv H. injection H as <- _. split; cbn.
  - apply counts_nat. symmetry. eapply repeat_read_length; eassumption.
  - eapply repeat_read_Forall; [exact EmissionBeamData_des_counted | eassumption].
Qed.
Lemma EmissionSystemData_len v : lenN (ElectromagneticEmissionSystemData_serialize v) = ElectromagneticEmissionSystemData_field_len v.
Proof.
  unfold ElectromagneticEmissionSystemData_serialize, ElectromagneticEmissionSystemData_field_len. fx_expose.
  rewrite !lenN_app, !lenN_put, (fixed_lenN _ _ _ _ EmitterSystem_fixed), (fixed_lenN _ _ _ _ Vector3Float_fixed).
  rewrite (lenN_concat_sum _ _ _ EmissionBeamData_len).
  cbn [vec_codec c_len ElectromagneticEmissionBeamData_codec]. unfold EmitterSystem_LENGTH, Vector3Float_field_len. lia.
Qed.

(** ** AcousticEmitterSystemData (no [FieldLen]) *)
Lemma AcousticEmitterSystemData_rt v rest : counted_AcousticEmitterSystemData v ->
  AcousticEmitterSystemData_deserialize (AcousticEmitterSystemData_serialize v ++ rest) = Ok (v, rest).
Proof.
  intros C. unfold AcousticEmitterSystemData_serialize, AcousticEmitterSystemData_deserialize. fx_expose. rewrite <- ?app_assoc.
  do 5 fx_read1.
  refine (eq_trans (bind_ok _ _ _ _ _ _ _ (read_counted_fixed _ _ _ _ _ _ AcousticBeamData_fixed C)) _).
  unfold ret. destruct v; reflexivity.
Qed.
Lemma AcousticEmitterSystemData_des_counted bs v rest :
  AcousticEmitterSystemData_deserialize bs = Ok (v, rest) -> counted_AcousticEmitterSystemData v.
Proof.
  unfold AcousticEmitterSystemData_deserialize. intros H. read_inv H. injection H as <- _.
  apply counts_nat. cbn. symmetry. eapply repeat_read_length; eassumption.
Qed.

(** ** RecordSpecificationElement *)
Lemma mul_u16_small m a b : uval a * uval b < 65536 -> mul_u16 m a b = Ok (as_u16 (uval a * uval b)).
Proof. intros H. unfold mul_u16. apply N.ltb_lt in H. rewrite H. reflexivity. Qed.
Lemma mul_u16_big m a b : 65536 <= uval a * uval b ->
  mul_u16 m a b = match m with Checked => Panic ArithOverflow | Wrapping => Ok (as_u16 (uval a * uval b)) end.
Proof. intros H. unfold mul_u16. apply N.ltb_ge in H. rewrite H. reflexivity. Qed.

Definition element_header (v : RecordSpecificationElement) : bytes :=
  put_u32 (RecordSpecificationElement_record_id v) ++
  put_u32 (RecordSpecificationElement_record_set_serial_number v) ++
  put_u16 (RecordSpecificationElement_record_length v) ++
  put_u16 (RecordSpecificationElement_record_count v).
Lemma element_header_len v : length (element_header v) = 12%nat.
Proof. unfold element_header. fx_expose. rewrite !app_length, !put_uint_length. reflexivity. Qed.

(** The number of value bytes written/read when the multiplication does not panic. *)
Definition element_size (m : profile) (v : RecordSpecificationElement) : N :=
  match m with Checked => element_product v | Wrapping => element_product v mod 65536 end.

Lemma element_mul m v :
  mul_u16 m (RecordSpecificationElement_record_length v) (RecordSpecificationElement_record_count v) =
  if (match m with Checked => element_product v <? 65536 | Wrapping => true end)
  then Ok (as_u16 (element_product v)) else Panic ArithOverflow.
Proof.
  unfold mul_u16, element_product. destruct m; destruct (_ <? 65536); reflexivity.
Qed.

Lemma element_serialize_spec m v :
  RecordSpecificationElement_serialize m v =
  if (match m with Checked => element_product v <? 65536 | Wrapping => true end) then
    if element_product v mod 65536 <=? lenN (RecordSpecificationElement_record_values v) then
      Ok (element_header v ++ firstn (N.to_nat (element_product v mod 65536)) (RecordSpecificationElement_record_values v))
    else Panic IndexOutOfBounds
  else Panic ArithOverflow.
Proof.
  unfold RecordSpecificationElement_serialize. rewrite element_mul.
  destruct (match m with Checked => _ | Wrapping => _ end); [|reflexivity].
  unfold put_indexed. change (uval (as_u16 (element_product v))) with (element_product v mod 65536).
  set (n := element_product v mod 65536). unfold lenN.
  replace (Nat.leb (N.to_nat n) (length (RecordSpecificationElement_record_values v)))
    with (n <=? N.of_nat (length (RecordSpecificationElement_record_values v))).
  2:{ apply eq_true_iff_eq. rewrite N.leb_le, Nat.leb_le. lia. }
  destruct (_ <=? _); [|reflexivity]. cbn [wapp]. rewrite concat_put_u8. reflexivity.
Qed.

Lemma RecordSpecificationElement_ser_ok m v : counted_RecordSpecificationElement v ->
  RecordSpecificationElement_serialize m v = Ok (element_header v ++ RecordSpecificationElement_record_values v).
Proof.
  intros [S E]. rewrite element_serialize_spec.
  assert (K : (match m with Checked => element_product v <? 65536 | Wrapping => true end) = true).
  { destruct m; [apply N.ltb_lt, S | reflexivity]. }
  rewrite K, (N.mod_small _ _ S). unfold lenN. rewrite <- E, N.leb_refl.
  rewrite firstn_all2 by lia. reflexivity.
Qed.

Lemma RecordSpecificationElement_des_spec m bs :
  RecordSpecificationElement_deserialize m bs =
  bind get_u32 (fun a => bind get_u32 (fun b => bind get_u16 (fun c => bind get_u16 (fun d =>
    bind (rlift (mul_u16 m c d)) (fun n => bind (repeat_read (N.to_nat (uval n)) get_u8) (fun l =>
    ret (mk_RecordSpecificationElement a b c d l))))))) bs.
Proof. reflexivity. Qed.

Lemma RecordSpecificationElement_rt m v rest : counted_RecordSpecificationElement v ->
  RecordSpecificationElement_deserialize m (element_header v ++ RecordSpecificationElement_record_values v ++ rest) = Ok (v, rest).
Proof.
  intros [S E]. unfold RecordSpecificationElement_deserialize, element_header. fx_expose. rewrite <- ?app_assoc.
  do 4 fx_read1. unfold bind at 1. unfold rlift.
  rewrite mul_u16_small by exact S. 
  assert (L : N.to_nat (uval (as_u16 (element_product v))) = length (RecordSpecificationElement_record_values v)).
  { unfold as_u16. rewrite as_uint_val by exact S. lia. }
  unfold element_product in L. rewrite L.
  refine (eq_trans (bind_ok _ _ _ _ _ _ _ (repeat_get_u8 _ _)) _).
  unfold ret. destruct v; reflexivity.
Qed.

Lemma RecordSpecificationElement_des_counted bs v rest :
  RecordSpecificationElement_deserialize Checked bs = Ok (v, rest) -> counted_RecordSpecificationElement v.
Proof.
  unfold RecordSpecificationElement_deserialize. intros H. read_inv H. injection H as <- _.
  unfold counted_RecordSpecificationElement, element_product. cbn.
  unfold rlift in E3. unfold mul_u16 in E3. destruct (uval x1 * uval x2 <? 65536) eqn:L; [|discriminate].
  injection E3 as <- <-. apply N.ltb_lt in L. split; [exact L|].
  apply repeat_read_length in E4. rewrite E4. unfold as_u16. rewrite as_uint_val by exact L. lia.
Qed.

(** ** RecordSpecification *)
Definition element_bytes (v : RecordSpecificationElement) : bytes :=
  element_header v ++ RecordSpecificationElement_record_values v.

Lemma RecordSpecification_ser_ok m v : Forall counted_RecordSpecificationElement (RecordSpecification_record_sets v) ->
  RecordSpecification_serialize m v =
  Ok (put_u32 (RecordSpecification_number_of_record_sets v) ++ List.concat (map element_bytes (RecordSpecification_record_sets v))).
Proof.
  intros F. unfold RecordSpecification_serialize.
  assert (K : wconcat (map (RecordSpecificationElement_serialize m) (RecordSpecification_record_sets v)) =
              Ok (List.concat (map element_bytes (RecordSpecification_record_sets v)))).
  { induction F as [|x l C _ IH]; cbn [map wconcat List.concat]; [reflexivity|].
    rewrite RecordSpecificationElement_ser_ok by exact C. rewrite IH. reflexivity. }
  rewrite K. reflexivity.
Qed.

Lemma RecordSpecification_rt m v rest : counted_RecordSpecification v ->
  RecordSpecification_deserialize m ((put_u32 (RecordSpecification_number_of_record_sets v) ++
     List.concat (map element_bytes (RecordSpecification_record_sets v))) ++ rest) = Ok (v, rest).
Proof.
  intros [C F]. unfold RecordSpecification_deserialize. fx_expose. rewrite <- app_assoc. fx_read1.
  assert (R : forall a rest, counted_RecordSpecificationElement a ->
     RecordSpecificationElement_deserialize m (element_bytes a ++ rest) = Ok (a, rest)).
  { intros a r Ca. unfold element_bytes. rewrite <- app_assoc. apply RecordSpecificationElement_rt, Ca. }
  refine (eq_trans (bind_ok _ _ _ _ _ _ _ (read_counted counted_RecordSpecificationElement _ _ _ _ _ R C F)) _).
  unfold ret. destruct v; reflexivity.
Qed.

Lemma RecordSpecification_des_counted bs v rest :
  RecordSpecification_deserialize Checked bs = Ok (v, rest) -> counted_RecordSpecification v.
Proof.
  unfold RecordSpecification_deserialize. intros H. read_inv H. injection H as <- _. split; cbn.
  - apply counts_nat. symmetry. eapply repeat_read_length; eassumption.
  - eapply repeat_read_Forall; [exact RecordSpecificationElement_des_counted | eassumption].
Qed.

(** ** Lossy fixed-size types *)
Definition drop_reference (v : SimulationIdentifier) : SimulationIdentifier :=
  mk_SimulationIdentifier (SimulationIdentifier_simulation_address v) (as_u16 0).
Lemma SimulationIdentifier_fc : fixed_codec 6 drop_reference SimulationIdentifier_codec.
Proof.
  split; cbn [c_ser c_des c_len SimulationIdentifier_codec].
  - intros v. eexists. split; [reflexivity|]. unfold SimulationIdentifier_serialize. fx_expose. split.
    + rewrite !app_length. repeat fx_len1. reflexivity.
    + intros rest. unfold SimulationIdentifier_deserialize. fx_expose. rewrite <- app_assoc. do 2 fx_read1. reflexivity.
  - reflexivity.
  - eapply exact_eq; [unfold SimulationIdentifier_deserialize; fx_expose; fx_exact1 | reflexivity].
Qed.

Definition zero_other_parameters (v : DeadReckoningParameters) : DeadReckoningParameters :=
  mk_DeadReckoningParameters (DeadReckoningParameters_dead_reckoning_algorithm v) (array_repeat (as_u8 0) 15)
    (DeadReckoningParameters_entity_linear_acceleration v) (DeadReckoningParameters_entity_angular_velocity v).
Lemma zero_bytes_array n : zero_bytes n = List.concat (map (@put_uint 1) (elems (array_repeat (as_u8 0) n))).
Proof. change (@put_uint 1) with put_u8. rewrite concat_put_u8. reflexivity. Qed.
Lemma DeadReckoningParameters_fc : fixed_codec 40 zero_other_parameters DeadReckoningParameters_codec.
Proof.
  split; cbn [c_ser c_des c_len DeadReckoningParameters_codec].
  - intros v. eexists. split; [reflexivity|]. unfold DeadReckoningParameters_serialize. rewrite zero_bytes_array. fx_expose. split.
    + rewrite !app_length. repeat fx_len1. reflexivity.
    + intros rest. unfold DeadReckoningParameters_deserialize. fx_expose. rewrite <- !app_assoc. do 4 fx_read1. reflexivity.
  - reflexivity.
  - eapply exact_eq; [unfold DeadReckoningParameters_deserialize; fx_expose; fx_exact1 | reflexivity].
Qed.

(** ** Lengths of the remaining types *)
Lemma VariableTransmitterParameters_len v :
  lenN (VariableTransmitterParameters_serialize v) = VariableTransmitterParameters_field_len v.
Proof.
  unfold VariableTransmitterParameters_serialize, VariableTransmitterParameters_field_len. fx_expose.
  rewrite !lenN_app, !lenN_put. lenlist. lia.
Qed.
Lemma AntennaPattern_len v : lenN (AntennaPattern_serialize v) = AntennaPattern_field_len v.
Proof. unfold AntennaPattern_serialize, AntennaPattern_field_len. fx_expose. lenlist. lia. Qed.
Lemma ModulationParameters_len v : lenN (ModulationParameters_serialize v) = ModulationParameters_field_len v.
Proof. unfold ModulationParameters_serialize, ModulationParameters_field_len. fx_expose. lenlist. lia. Qed.
Lemma vec_uint_len k (l : list (uint k)) w d : sumN (map (c_len (mk_codec w d (fun _ : uint k => N.of_nat k))) l) = N.of_nat k * lenN l.
Proof. cbn [c_len]. apply sumN_const. Qed.
Lemma GridAxisDescriptor_len v : lenN (GridAxisDescriptor_serialize v) = GridAxisDescriptor_field_len v.
Proof.
  unfold GridAxisDescriptor_serialize, GridAxisDescriptor_field_len. fx_expose.
  rewrite !lenN_app, !lenN_put.
  destruct (GridAxisDescriptor_data v); cbn [GridAxisType_field_len c_len u16_codec f64_codec u8_codec vec_codec];
    rewrite ?lenN_app, ?lenN_put; lenlist; unfold GridAxisDescriptorAxisType_field_len; lia.
Qed.
(** Two bytes more than [field_len]. *)
Lemma GridDataRecord_len v : lenN (GridDataRecord_serialize v) = GridDataRecord_field_len v + 2.
Proof.
  unfold GridDataRecord_serialize, GridDataRecord_field_len. fx_expose.
  rewrite !lenN_app, !lenN_put.
  destruct (GridDataRecord_data v); cbn [DataRepresentationType_field_len c_len u16_codec f32_codec u8_codec vec_codec];
    rewrite ?lenN_app, ?lenN_put; lenlist;
    unfold GriddedDataSampleType_field_len, GriddedDataDataRepresentation_field_len; lia.
Qed.
