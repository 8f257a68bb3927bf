(** * Decoding of the irregular classes is determined by the wire maps (proofs only). *)
From Verif Require Import Base BaseFacts EnumModel Enums EnumFacts Fixed Header HeaderFacts HeaderProofs PduMacro PduMacroFacts
  DataTypes Bitflags Pdus PdusFacts PduFields Spec SpecDatum SpecSpecial RecordFacts ClassFacts PduProofs
  Wire WireMaps WireProofs WireFacts WireClass SpecFaults Prop_Wire Prop_Faults SpecLayout TailFacts LayoutFacts DecodeFacts
  SpecialFacts SpecialOthers Prop_Special Prop_Transmitter Prop_Aggregate Prop_Specs Prop_Needed.

(** The usual decimal notation is unique. *)
Lemma ascii_snoc l x : ascii_value (l ++ [x]) = 10 * ascii_value l + (uval x - 48).
Proof. unfold ascii_value. rewrite fold_left_app. reflexivity. Qed.
Lemma decimal_init l x : l <> [] -> decimal_of (ascii_value (l ++ [x])) (l ++ [x]) -> decimal_of (ascii_value l) l /\ ascii_value l <> 0.
Proof.
  intros NE [_ [Di [_ Hd]]]. destruct l as [|y l]; [contradiction|].
  assert (Y : uval y <> 48).
  { intros E. specialize (Hd y eq_refl E). rewrite app_length in Hd. cbn in Hd. lia. }
  split.
  - split; [reflexivity|]. split; [intros b Ib; apply Di, in_or_app; left; exact Ib|]. split; [discriminate|].
    intros b [= <-] E. contradiction.
  - assert (Y' : 48 <= uval y <= 57) by (apply Di; left; reflexivity).
    assert (G : forall l a, a <> 0 -> fold_left (fun acc (b : byte) => 10 * acc + (uval b - 48)) l a <> 0).
    { clear. induction l as [|z l IH]; intros a Ha; [exact Ha|]. cbn [fold_left]. apply IH. lia. }
    unfold ascii_value. cbn [fold_left]. apply G. lia.
Qed.
Lemma decimal_unique a : forall b n, decimal_of n a -> decimal_of n b -> a = b.
Proof.
  induction a as [|x a IH] using rev_ind; intros b n Ha Hb; [destruct Ha as [_ [_ [E _]]]; contradiction|].
  destruct b as [|y b _] using rev_ind; [destruct Hb as [_ [_ [E _]]]; contradiction|].
  assert (Ea := proj1 Ha). assert (Eb := proj1 Hb). rewrite ascii_snoc in Ea, Eb.
  assert (Dx : 48 <= uval x <= 57) by (apply Ha, in_or_app; right; left; reflexivity).
  assert (Dy : 48 <= uval y <= 57) by (apply Hb, in_or_app; right; left; reflexivity).
  assert (Q : ascii_value a = ascii_value b) by lia. assert (R : x = y) by (apply uint_eq; lia). subst y.
  f_equal. destruct a as [|u a].
  - destruct b as [|v b]; [reflexivity|]. exfalso.
    destruct (decimal_init (v :: b) x ltac:(discriminate)) as [_ K]; [rewrite (proj1 Hb); exact Hb|]. apply K. rewrite <- Q. reflexivity.
  - destruct (decimal_init (u :: a) x ltac:(discriminate)) as [K Z]; [rewrite (proj1 Ha); exact Ha|].
    destruct b as [|v b]; [exfalso; apply Z; rewrite Q; reflexivity|].
    destruct (decimal_init (v :: b) x ltac:(discriminate)) as [K' _]; [rewrite (proj1 Hb); exact Hb|].
    apply (IH _ _ K). rewrite Q. exact K'.
Qed.

(** From a total, functional relation to the iff. *)
Lemma determined c bs (G : Prop) (Q : pdu c -> bytes -> Prop) :
  (forall p r, Q p r -> G) ->
  (G -> exists p r, deserialize c bs = Ok (ROk p, r)) ->
  (forall p r, deserialize c bs = Ok (ROk p, r) -> Q p r) ->
  (forall p r q s, Q p r -> Q q s -> p = q /\ r = s) ->
  forall p r, deserialize c bs = Ok (ROk p, r) <-> Q p r.
Proof.
  intros HG HE HQ HU p r. split; [apply HQ|]. intros H. destruct (HE (HG _ _ H)) as [q [s D]].
  destruct (HU _ _ _ _ H (HQ _ _ D)) as [-> ->]. exact D.
Qed.
Lemma received_agree {T} bs (p q : T) es : Forall (received bs p) es -> Forall (received bs q) es -> Forall (fun e => en_get e p = en_get e q) es.
Proof. rewrite !Forall_forall. intros A B e I. rewrite (A e I), (B e I). reflexivity. Qed.
Lemma body_eq c (p q : pdu c) : header p = header q -> body p = body q -> p = q.
Proof. destruct p, q. cbn. congruence. Qed.
Lemma flags_eq k d (a b : flags k d) : uval (bits a) = uval (bits b) -> a = b.
Proof. destruct a, b. cbn. intros H. apply uint_eq in H. congruence. Qed.
Lemma accept_type c bs p r : deserialize c bs = Ok (ROk p, r) -> (12 <= length bs)%nat /\ wire_type bs = code (cls_type c).
Proof.
  intros D. destruct (Nat.ltb_spec (length bs) 12) as [H|H]; [rewrite deserialize_short in D by exact H; discriminate|].
  split; [exact H|]. destruct (deserialize_cases c bs H) as [h [_ [_ T]]]. rewrite T in D.
  destruct (N.eqb_spec (wire_type bs) (code (cls_type c))) as [E|E]; [exact E | discriminate].
Qed.
(** Splitting an agreement hypothesis into one equation per number. *)
Ltac agree F := repeat lazymatch type of F with
  | Forall _ (_ :: _) => let A := fresh "A" in let F' := fresh "F" in
      apply Forall_cons_iff in F; destruct F as [A F']; cbv beta delta [num cod flg lost] in A; cbn [en_get] in A; clear F; rename F' into F
  | Forall _ [] => clear F end.
Ltac leaf := repeat match goal with
  | H : uval (bits ?a) = uval (bits ?b) |- _ => apply flags_eq in H
  | H : uval ?a = uval ?b |- _ => apply uint_eq in H
  | H : code ?a = code ?b |- _ => apply enum_eq in H
  end.
Lemma pair_ext A B (a b : A * B) : fst a = fst b -> snd a = snd b -> a = b.
Proof. destruct a, b. cbn. congruence. Qed.
Lemma SimulationAddress_ext (a b : SimulationAddress) : SimulationAddress_site_id a = SimulationAddress_site_id b -> SimulationAddress_application_id a = SimulationAddress_application_id b -> a = b.
Proof. destruct a, b. cbn. congruence. Qed.
Lemma EntityId_ext (a b : EntityId) : EntityId_simulation_address a = EntityId_simulation_address b -> EntityId_entity_id a = EntityId_entity_id b -> a = b.
Proof. destruct a, b. cbn. congruence. Qed.
Lemma SimulationIdentifier_ext (a b : SimulationIdentifier) : SimulationIdentifier_simulation_address a = SimulationIdentifier_simulation_address b -> SimulationIdentifier_reference_number a = SimulationIdentifier_reference_number b -> a = b.
Proof. destruct a, b. cbn. congruence. Qed.
Lemma ObjectIdentifier_ext (a b : ObjectIdentifier) : ObjectIdentifier_simulation_address a = ObjectIdentifier_simulation_address b -> ObjectIdentifier_object_number a = ObjectIdentifier_object_number b -> a = b.
Proof. destruct a, b. cbn. congruence. Qed.
Lemma ObjectType_ext (a b : ObjectType) : ObjectType_domain a = ObjectType_domain b -> ObjectType_object_kind a = ObjectType_object_kind b -> ObjectType_category a = ObjectType_category b -> ObjectType_subcategory a = ObjectType_subcategory b -> a = b.
Proof. destruct a, b. cbn. congruence. Qed.
Lemma ClockTime_ext (a b : ClockTime) : ClockTime_hour a = ClockTime_hour b -> ClockTime_time_past_hour a = ClockTime_time_past_hour b -> a = b.
Proof. destruct a, b. cbn. congruence. Qed.
Lemma AggregateId_ext (a b : AggregateId) : AggregateId_site a = AggregateId_site b -> AggregateId_application a = AggregateId_application b -> AggregateId_aggregate_id a = AggregateId_aggregate_id b -> a = b.
Proof. destruct a, b. cbn. congruence. Qed.
Lemma AggregateMarking_ext (a b : AggregateMarking) : AggregateMarking_character_set a = AggregateMarking_character_set b -> AggregateMarking_characters a = AggregateMarking_characters b -> a = b.
Proof. destruct a, b. cbn. congruence. Qed.
Lemma EntityType_ext (a b : EntityType) : EntityType_kind a = EntityType_kind b -> EntityType_domain a = EntityType_domain b -> EntityType_country a = EntityType_country b -> EntityType_category a = EntityType_category b -> EntityType_subcategory a = EntityType_subcategory b -> EntityType_specific a = EntityType_specific b -> EntityType_extra a = EntityType_extra b -> a = b.
Proof. destruct a, b. cbn. congruence. Qed.
Lemma RadioEntityType_ext (a b : RadioEntityType) : RadioEntityType_entity_kind a = RadioEntityType_entity_kind b -> RadioEntityType_domain a = RadioEntityType_domain b -> RadioEntityType_country a = RadioEntityType_country b -> RadioEntityType_category a = RadioEntityType_category b -> RadioEntityType_nomenclature_version a = RadioEntityType_nomenclature_version b -> RadioEntityType_nomenclature a = RadioEntityType_nomenclature b -> a = b.
Proof. destruct a, b. cbn. congruence. Qed.
Lemma ModulationType_ext (a b : ModulationType) : ModulationType_spread_spectrum a = ModulationType_spread_spectrum b -> ModulationType_major a = ModulationType_major b -> ModulationType_detail a = ModulationType_detail b -> ModulationType_system a = ModulationType_system b -> a = b.
Proof. destruct a, b. cbn. congruence. Qed.
Lemma Vector3Float_ext (a b : Vector3Float) : Vector3Float_x a = Vector3Float_x b -> Vector3Float_y a = Vector3Float_y b -> Vector3Float_z a = Vector3Float_z b -> a = b.
Proof. destruct a, b. cbn. congruence. Qed.
Lemma EulerAngles_ext (a b : EulerAngles) : EulerAngles_psi a = EulerAngles_psi b -> EulerAngles_theta a = EulerAngles_theta b -> EulerAngles_phi a = EulerAngles_phi b -> a = b.
Proof. destruct a, b. cbn. congruence. Qed.
Lemma WorldCoordinate_ext (a b : WorldCoordinate) : WorldCoordinate_x a = WorldCoordinate_x b -> WorldCoordinate_y a = WorldCoordinate_y b -> WorldCoordinate_z a = WorldCoordinate_z b -> a = b.
Proof. destruct a, b. cbn. congruence. Qed.
Lemma EntityCoordinateVector_ext (a b : EntityCoordinateVector) : EntityCoordinateVector_x_coordinate a = EntityCoordinateVector_x_coordinate b -> EntityCoordinateVector_y_coordinate a = EntityCoordinateVector_y_coordinate b -> EntityCoordinateVector_z_coordinate a = EntityCoordinateVector_z_coordinate b -> a = b.
Proof. destruct a, b. cbn. congruence. Qed.
Lemma LinearVelocity_ext (a b : LinearVelocity) : LinearVelocity_first_vector_component a = LinearVelocity_first_vector_component b -> LinearVelocity_second_vector_component a = LinearVelocity_second_vector_component b -> LinearVelocity_third_vector_component a = LinearVelocity_third_vector_component b -> a = b.
Proof. destruct a, b. cbn. congruence. Qed.
Lemma LinearAcceleration_ext (a b : LinearAcceleration) : LinearAcceleration_first_vector_component a = LinearAcceleration_first_vector_component b -> LinearAcceleration_second_vector_component a = LinearAcceleration_second_vector_component b -> LinearAcceleration_third_vector_component a = LinearAcceleration_third_vector_component b -> a = b.
Proof. destruct a, b. cbn. congruence. Qed.
Lemma AngularVelocity_ext (a b : AngularVelocity) : AngularVelocity_rate_about_x_axis a = AngularVelocity_rate_about_x_axis b -> AngularVelocity_rate_about_y_axis a = AngularVelocity_rate_about_y_axis b -> AngularVelocity_rate_about_z_axis a = AngularVelocity_rate_about_z_axis b -> a = b.
Proof. destruct a, b. cbn. congruence. Qed.
Lemma DeadReckoningParameters_ext (a b : DeadReckoningParameters) : DeadReckoningParameters_dead_reckoning_algorithm a = DeadReckoningParameters_dead_reckoning_algorithm b -> DeadReckoningParameters_dead_reckoning_other_parameters a = DeadReckoningParameters_dead_reckoning_other_parameters b -> DeadReckoningParameters_entity_linear_acceleration a = DeadReckoningParameters_entity_linear_acceleration b -> DeadReckoningParameters_entity_angular_velocity a = DeadReckoningParameters_entity_angular_velocity b -> a = b.
Proof. destruct a, b. cbn. congruence. Qed.
Lemma EntityMarking_ext (a b : EntityMarking) : EntityMarking_entity_marking_character_set a = EntityMarking_entity_marking_character_set b -> EntityMarking_entity_marking_string a = EntityMarking_entity_marking_string b -> a = b.
Proof. destruct a, b. cbn. congruence. Qed.
Ltac eqf := lazymatch goal with
  | |- @eq SimulationAddress _ _ => apply SimulationAddress_ext; eqf
  | |- @eq EntityId _ _ => apply EntityId_ext; eqf
  | |- @eq SimulationIdentifier _ _ => apply SimulationIdentifier_ext; eqf
  | |- @eq ObjectIdentifier _ _ => apply ObjectIdentifier_ext; eqf
  | |- @eq ObjectType _ _ => apply ObjectType_ext; eqf
  | |- @eq ClockTime _ _ => apply ClockTime_ext; eqf
  | |- @eq AggregateId _ _ => apply AggregateId_ext; eqf
  | |- @eq AggregateMarking _ _ => apply AggregateMarking_ext; eqf
  | |- @eq EntityType _ _ => apply EntityType_ext; eqf
  | |- @eq RadioEntityType _ _ => apply RadioEntityType_ext; eqf
  | |- @eq ModulationType _ _ => apply ModulationType_ext; eqf
  | |- @eq Vector3Float _ _ => apply Vector3Float_ext; eqf
  | |- @eq EulerAngles _ _ => apply EulerAngles_ext; eqf
  | |- @eq WorldCoordinate _ _ => apply WorldCoordinate_ext; eqf
  | |- @eq EntityCoordinateVector _ _ => apply EntityCoordinateVector_ext; eqf
  | |- @eq LinearVelocity _ _ => apply LinearVelocity_ext; eqf
  | |- @eq LinearAcceleration _ _ => apply LinearAcceleration_ext; eqf
  | |- @eq AngularVelocity _ _ => apply AngularVelocity_ext; eqf
  | |- @eq DeadReckoningParameters _ _ => apply DeadReckoningParameters_ext; eqf
  | |- @eq EntityMarking _ _ => apply EntityMarking_ext; eqf
  | |- @eq (array _ _) _ _ => assumption
  | |- @eq (list _) _ _ => assumption
  | |- @eq (option _) _ _ => assumption
  | |- @eq (enum _) _ _ => first [apply enum_eq; assumption | assumption]
  | |- @eq (uint _) _ _ => apply uint_eq; assumption
  | |- @eq (flags _ _) _ _ => apply flags_eq; assumption
  | |- @eq (prod _ _) _ _ => apply pair_ext; eqf
  | |- @eq unit ?a ?b => destruct a, b; reflexivity
  | |- @eq RecordSpecification _ _ => assumption
  | |- @eq StandardVariableSpecification _ _ => assumption
  | |- @eq ?T ?a ?b => let T' := eval hnf in T in tryif constr_eq T T' then fail else (change (@eq T' a b); eqf)
  end.
Lemma sf_agree (p q : pdu StopFreezePdu) : Forall (fun e => en_get e p = en_get e q) StopFreezePdu_map -> body p = body q.
Proof.
  intros F. unfold StopFreezePdu_map in F. agree F. eqf.
Qed.
Lemma sfr_agree (p q : pdu StopFreezeReliablePdu) : Forall (fun e => en_get e p = en_get e q) StopFreezeReliablePdu_map -> body p = body q.
Proof.
  intros F. unfold StopFreezeReliablePdu_map in F. agree F. eqf.
Qed.
Lemma ao_agree (p q : pdu ArealObjectStatePdu) : Forall (fun e => en_get e p = en_get e q) ArealObjectStatePdu_map ->
  ArealObjectStatePdu_object_location p = [] -> ArealObjectStatePdu_object_location q = [] -> body p = body q.
Proof.
  intros F X Y. rewrite <- Y in X. unfold ArealObjectStatePdu_map in F. agree F. eqf.
Qed.

Lemma array_bytes {n} (a b : array u8 n) : (forall i, (i < n)%nat -> uval (nth i (elems a) (B 0)) = uval (nth i (elems b) (B 0))) -> a = b.
Proof.
  intros H. apply array_eq. apply (nth_ext _ _ (B 0) (B 0)); [now rewrite !array_length|].
  intros i Hi. rewrite array_length in Hi. apply uint_eq, H, Hi.
Qed.
(** EntityState: up to the marking's character set. *)
Lemma es_agree (p q : pdu EntityStatePdu) : Forall (fun e => en_get e p = en_get e q) EntityStatePdu_map ->
  EntityMarking_entity_marking_string (EntityStatePdu_entity_marking p) = EntityMarking_entity_marking_string (EntityStatePdu_entity_marking q) ->
  EntityStatePdu_entity_capabilities p = EntityStatePdu_entity_capabilities q ->
  EntityStatePdu_articulation_parameter p = EntityStatePdu_articulation_parameter q -> body p = body q.
Proof.
  intros F X Y Z. unfold EntityStatePdu_map in F. agree F.
  assert (O : DeadReckoningParameters_dead_reckoning_other_parameters (EntityStatePdu_dead_reckoning_parameters p) =
              DeadReckoningParameters_dead_reckoning_other_parameters (EntityStatePdu_dead_reckoning_parameters q)).
  { apply array_bytes. intros i Hi. do 15 (destruct i as [|i]; [assumption|]). lia. }
  repeat match goal with H : uval (nth _ _ _) = _ |- _ => clear H end.
  eqf.
Qed.
Lemma tx_agree (p q : pdu TransmitterPdu) : Forall (fun e => en_get e p = en_get e q) TransmitterPdu_map ->
  TransmitterPdu_modulation_parameters p = TransmitterPdu_modulation_parameters q ->
  TransmitterPdu_antenna_pattern p = TransmitterPdu_antenna_pattern q ->
  TransmitterPdu_variable_transmitter_parameters p = TransmitterPdu_variable_transmitter_parameters q -> body p = body q.
Proof.
  intros F X Y Z. unfold TransmitterPdu_map in F. agree F.
  eqf.
Qed.
Lemma ag_agree (p q : pdu AggregateStatePdu) : Forall (fun e => en_get e p = en_get e q) AggregateStatePdu_map ->
  AggregateStatePdu_aggregate_id_list p = AggregateStatePdu_aggregate_id_list q ->
  AggregateStatePdu_entity_id_list p = AggregateStatePdu_entity_id_list q ->
  AggregateStatePdu_padding p = AggregateStatePdu_padding q ->
  AggregateStatePdu_silent_aggregate_system_list p = AggregateStatePdu_silent_aggregate_system_list q ->
  AggregateStatePdu_silent_entity_system_list p = AggregateStatePdu_silent_entity_system_list q ->
  uval (AggregateStatePdu_number_of_variable_datum_records p) = uval (AggregateStatePdu_number_of_variable_datum_records q) ->
  AggregateStatePdu_variable_datum_list p = AggregateStatePdu_variable_datum_list q -> body p = body q.
Proof.
  intros F X1 X2 X3 X4 X5 X6 X7. unfold AggregateStatePdu_map in F. agree F.
  assert (O : AggregateMarking_characters (AggregateStatePdu_aggregate_marking p) = AggregateMarking_characters (AggregateStatePdu_aggregate_marking q)).
  { apply array_bytes. intros i Hi. do 31 (destruct i as [|i]; [assumption|]). lia. }
  repeat match goal with H : uval (nth _ _ _) = _ |- _ => clear H end.
  eqf.
Qed.
Lemma to_agree m (p q : pdu (TransferOwnershipPdu m)) : Forall (fun e => en_get e p = en_get e q) (TransferOwnershipPdu_map m) ->
  TransferOwnershipPdu_record_information p = TransferOwnershipPdu_record_information q -> body p = body q.
Proof.
  intros F X. unfold TransferOwnershipPdu_map in F. agree F.
  eqf.
Qed.
Lemma sr_agree m (p q : pdu (SetRecordReliablePdu m)) : Forall (fun e => en_get e p = en_get e q) (SetRecordReliablePdu_map m) ->
  SetRecordReliablePdu_record_sets p = SetRecordReliablePdu_record_sets q -> body p = body q.
Proof.
  intros F X. unfold SetRecordReliablePdu_map in F. agree F.
  eqf.
Qed.
Lemma ia_agree (p q : pdu InformationOperationsActionPdu) : Forall (fun e => en_get e p = en_get e q) InformationOperationsActionPdu_map ->
  InformationOperationsActionPdu_io_records p = InformationOperationsActionPdu_io_records q -> body p = body q.
Proof.
  intros F X. unfold InformationOperationsActionPdu_map in F. agree F.
  eqf.
Qed.
Lemma ir_agree (p q : pdu InformationOperationsReportPdu) : Forall (fun e => en_get e p = en_get e q) InformationOperationsReportPdu_map ->
  InformationOperationsReportPdu_io_records p = InformationOperationsReportPdu_io_records q -> body p = body q.
Proof.
  intros F X. unfold InformationOperationsReportPdu_map in F. agree F.
  eqf.
Qed.
