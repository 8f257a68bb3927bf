(** * Layouts of the PDU classes (proofs only; generated by tools/gen_pfacts.py). *)
From Verif Require Import Base BaseFacts EnumModel Enums EnumFacts Fixed Header HeaderFacts PduMacro PduMacroFacts
  DataTypes DataTypesFacts Bitflags BitflagsFacts Pdus Spec.

Create HintDb cd.
Lemma u8_fc : fixed_codec 1 idn u8_codec.
Proof. apply fixed_codec_of_rw; [apply fixed_uint | reflexivity]. Qed.
#[export] Hint Resolve u8_fc : cd.
Lemma u16_fc : fixed_codec 2 idn u16_codec.
Proof. apply fixed_codec_of_rw; [apply fixed_uint | reflexivity]. Qed.
#[export] Hint Resolve u16_fc : cd.
Lemma u32_fc : fixed_codec 4 idn u32_codec.
Proof. apply fixed_codec_of_rw; [apply fixed_uint | reflexivity]. Qed.
#[export] Hint Resolve u32_fc : cd.
Lemma u64_fc : fixed_codec 8 idn u64_codec.
Proof. apply fixed_codec_of_rw; [apply fixed_uint | reflexivity]. Qed.
#[export] Hint Resolve u64_fc : cd.
Lemma i8_fc : fixed_codec 1 idn i8_codec.
Proof. apply fixed_codec_of_rw; [apply fixed_uint | reflexivity]. Qed.
#[export] Hint Resolve i8_fc : cd.
Lemma i16_fc : fixed_codec 2 idn i16_codec.
Proof. apply fixed_codec_of_rw; [apply fixed_uint | reflexivity]. Qed.
#[export] Hint Resolve i16_fc : cd.
Lemma i32_fc : fixed_codec 4 idn i32_codec.
Proof. apply fixed_codec_of_rw; [apply fixed_uint | reflexivity]. Qed.
#[export] Hint Resolve i32_fc : cd.
Lemma i64_fc : fixed_codec 8 idn i64_codec.
Proof. apply fixed_codec_of_rw; [apply fixed_uint | reflexivity]. Qed.
#[export] Hint Resolve i64_fc : cd.
Lemma f32_fc : fixed_codec 4 idn f32_codec.
Proof. apply fixed_codec_of_rw; [apply fixed_uint | reflexivity]. Qed.
#[export] Hint Resolve f32_fc : cd.
Lemma f64_fc : fixed_codec 8 idn f64_codec.
Proof. apply fixed_codec_of_rw; [apply fixed_uint | reflexivity]. Qed.
#[export] Hint Resolve f64_fc : cd.
Lemma EEAttributeStateIndicator_fc : fixed_codec 1 idn EEAttributeStateIndicator_codec.
Proof. apply fixed_codec_of_rw; [apply (fixed_enum EEAttributeStateIndicator_spec 1 eq_refl) | reflexivity]. Qed.
#[export] Hint Resolve EEAttributeStateIndicator_fc : cd.
Lemma DesignatorSystemName_fc : fixed_codec 2 idn DesignatorSystemName_codec.
Proof. apply fixed_codec_of_rw; [apply (fixed_enum DesignatorSystemName_spec 2 eq_refl) | reflexivity]. Qed.
#[export] Hint Resolve DesignatorSystemName_fc : cd.
Lemma DesignatorCode_fc : fixed_codec 2 idn DesignatorCode_codec.
Proof. apply fixed_codec_of_rw; [apply (fixed_enum DesignatorCode_spec 2 eq_refl) | reflexivity]. Qed.
#[export] Hint Resolve DesignatorCode_fc : cd.
Lemma DeadReckoningAlgorithm_fc : fixed_codec 1 idn DeadReckoningAlgorithm_codec.
Proof. apply fixed_codec_of_rw; [apply (fixed_enum DeadReckoningAlgorithm_spec 1 eq_refl) | reflexivity]. Qed.
#[export] Hint Resolve DeadReckoningAlgorithm_fc : cd.
Lemma UAStateChangeUpdateIndicator_fc : fixed_codec 1 idn UAStateChangeUpdateIndicator_codec.
Proof. apply fixed_codec_of_rw; [apply (fixed_enum UAStateChangeUpdateIndicator_spec 1 eq_refl) | reflexivity]. Qed.
#[export] Hint Resolve UAStateChangeUpdateIndicator_fc : cd.
Lemma UAPassiveParameterIndex_fc : fixed_codec 2 idn UAPassiveParameterIndex_codec.
Proof. apply fixed_codec_of_rw; [apply (fixed_enum UAPassiveParameterIndex_spec 2 eq_refl) | reflexivity]. Qed.
#[export] Hint Resolve UAPassiveParameterIndex_fc : cd.
Lemma ForceId_fc : fixed_codec 1 idn ForceId_codec.
Proof. apply fixed_codec_of_rw; [apply (fixed_enum ForceId_spec 1 eq_refl) | reflexivity]. Qed.
#[export] Hint Resolve ForceId_fc : cd.
Lemma EntityCapabilities_fc : fixed_codec 4 idn EntityCapabilities_codec.
Proof. apply fixed_codec_of_rw; [apply (fixed_enum EntityCapabilities_spec 4 eq_refl) | reflexivity]. Qed.
#[export] Hint Resolve EntityCapabilities_fc : cd.
Lemma DISAttributeActionCode_fc : fixed_codec 1 idn DISAttributeActionCode_codec.
Proof. apply fixed_codec_of_rw; [apply (fixed_enum DISAttributeActionCode_spec 1 eq_refl) | reflexivity]. Qed.
#[export] Hint Resolve DISAttributeActionCode_fc : cd.
Lemma AggregateStateAggregateState_fc : fixed_codec 1 idn AggregateStateAggregateState_codec.
Proof. apply fixed_codec_of_rw; [apply (fixed_enum AggregateStateAggregateState_spec 1 eq_refl) | reflexivity]. Qed.
#[export] Hint Resolve AggregateStateAggregateState_fc : cd.
Lemma AggregateStateFormation_fc : fixed_codec 4 idn AggregateStateFormation_codec.
Proof. apply fixed_codec_of_rw; [apply (fixed_enum AggregateStateFormation_spec 4 eq_refl) | reflexivity]. Qed.
#[export] Hint Resolve AggregateStateFormation_fc : cd.
Lemma IsGroupOfGroupedEntityCategory_fc : fixed_codec 1 idn IsGroupOfGroupedEntityCategory_codec.
Proof. apply fixed_codec_of_rw; [apply (fixed_enum IsGroupOfGroupedEntityCategory_spec 1 eq_refl) | reflexivity]. Qed.
#[export] Hint Resolve IsGroupOfGroupedEntityCategory_fc : cd.
Lemma RequiredReliabilityService_fc : fixed_codec 1 idn RequiredReliabilityService_codec.
Proof. apply fixed_codec_of_rw; [apply (fixed_enum RequiredReliabilityService_spec 1 eq_refl) | reflexivity]. Qed.
#[export] Hint Resolve RequiredReliabilityService_fc : cd.
Lemma TransferControlTransferType_fc : fixed_codec 1 idn TransferControlTransferType_codec.
Proof. apply fixed_codec_of_rw; [apply (fixed_enum TransferControlTransferType_spec 1 eq_refl) | reflexivity]. Qed.
#[export] Hint Resolve TransferControlTransferType_fc : cd.
Lemma IOActionIOSimulationSource_fc : fixed_codec 2 idn IOActionIOSimulationSource_codec.
Proof. apply fixed_codec_of_rw; [apply (fixed_enum IOActionIOSimulationSource_spec 2 eq_refl) | reflexivity]. Qed.
#[export] Hint Resolve IOActionIOSimulationSource_fc : cd.
Lemma IOReportIOReportType_fc : fixed_codec 1 idn IOReportIOReportType_codec.
Proof. apply fixed_codec_of_rw; [apply (fixed_enum IOReportIOReportType_spec 1 eq_refl) | reflexivity]. Qed.
#[export] Hint Resolve IOReportIOReportType_fc : cd.
Lemma IOActionIOWarfareType_fc : fixed_codec 2 idn IOActionIOWarfareType_codec.
Proof. apply fixed_codec_of_rw; [apply (fixed_enum IOActionIOWarfareType_spec 2 eq_refl) | reflexivity]. Qed.
#[export] Hint Resolve IOActionIOWarfareType_fc : cd.
Lemma IOActionIOActionType_fc : fixed_codec 2 idn IOActionIOActionType_codec.
Proof. apply fixed_codec_of_rw; [apply (fixed_enum IOActionIOActionType_spec 2 eq_refl) | reflexivity]. Qed.
#[export] Hint Resolve IOActionIOActionType_fc : cd.
Lemma IOActionIOActionPhase_fc : fixed_codec 2 idn IOActionIOActionPhase_codec.
Proof. apply fixed_codec_of_rw; [apply (fixed_enum IOActionIOActionPhase_spec 2 eq_refl) | reflexivity]. Qed.
#[export] Hint Resolve IOActionIOActionPhase_fc : cd.
Lemma ServiceRequestServiceTypeRequested_fc : fixed_codec 1 idn ServiceRequestServiceTypeRequested_codec.
Proof. apply fixed_codec_of_rw; [apply (fixed_enum ServiceRequestServiceTypeRequested_spec 1 eq_refl) | reflexivity]. Qed.
#[export] Hint Resolve ServiceRequestServiceTypeRequested_fc : cd.
Lemma RepairCompleteRepair_fc : fixed_codec 2 idn RepairCompleteRepair_codec.
Proof. apply fixed_codec_of_rw; [apply (fixed_enum RepairCompleteRepair_spec 2 eq_refl) | reflexivity]. Qed.
#[export] Hint Resolve RepairCompleteRepair_fc : cd.
Lemma RepairResponseRepairResult_fc : fixed_codec 1 idn RepairResponseRepairResult_codec.
Proof. apply fixed_codec_of_rw; [apply (fixed_enum RepairResponseRepairResult_spec 1 eq_refl) | reflexivity]. Qed.
#[export] Hint Resolve RepairResponseRepairResult_fc : cd.
Lemma MinefieldStateProtocolMode_fc : fixed_codec 2 idn MinefieldStateProtocolMode_codec.
Proof. apply fixed_codec_of_rw; [apply (fixed_enum MinefieldStateProtocolMode_spec 2 eq_refl) | reflexivity]. Qed.
#[export] Hint Resolve MinefieldStateProtocolMode_fc : cd.
Lemma MinefieldSensorTypes_fc : fixed_codec 1 idn MinefieldSensorTypes_codec.
Proof. apply fixed_codec_of_rw; [apply (fixed_enum MinefieldSensorTypes_spec 1 eq_refl) | reflexivity]. Qed.
#[export] Hint Resolve MinefieldSensorTypes_fc : cd.
Lemma TransmitterTransmitState_fc : fixed_codec 1 idn TransmitterTransmitState_codec.
Proof. apply fixed_codec_of_rw; [apply (fixed_enum TransmitterTransmitState_spec 1 eq_refl) | reflexivity]. Qed.
#[export] Hint Resolve TransmitterTransmitState_fc : cd.
Lemma TransmitterInputSource_fc : fixed_codec 1 idn TransmitterInputSource_codec.
Proof. apply fixed_codec_of_rw; [apply (fixed_enum TransmitterInputSource_spec 1 eq_refl) | reflexivity]. Qed.
#[export] Hint Resolve TransmitterInputSource_fc : cd.
Lemma TransmitterAntennaPatternType_fc : fixed_codec 2 idn TransmitterAntennaPatternType_codec.
Proof. apply fixed_codec_of_rw; [apply (fixed_enum TransmitterAntennaPatternType_spec 2 eq_refl) | reflexivity]. Qed.
#[export] Hint Resolve TransmitterAntennaPatternType_fc : cd.
Lemma TransmitterCryptoSystem_fc : fixed_codec 2 idn TransmitterCryptoSystem_codec.
Proof. apply fixed_codec_of_rw; [apply (fixed_enum TransmitterCryptoSystem_spec 2 eq_refl) | reflexivity]. Qed.
#[export] Hint Resolve TransmitterCryptoSystem_fc : cd.
Lemma SignalTDLType_fc : fixed_codec 2 idn SignalTDLType_codec.
Proof. apply fixed_codec_of_rw; [apply (fixed_enum SignalTDLType_spec 2 eq_refl) | reflexivity]. Qed.
#[export] Hint Resolve SignalTDLType_fc : cd.
Lemma ReceiverReceiverState_fc : fixed_codec 2 idn ReceiverReceiverState_codec.
Proof. apply fixed_codec_of_rw; [apply (fixed_enum ReceiverReceiverState_spec 2 eq_refl) | reflexivity]. Qed.
#[export] Hint Resolve ReceiverReceiverState_fc : cd.
Lemma IntercomControlControlType_fc : fixed_codec 1 idn IntercomControlControlType_codec.
Proof. apply fixed_codec_of_rw; [apply (fixed_enum IntercomControlControlType_spec 1 eq_refl) | reflexivity]. Qed.
#[export] Hint Resolve IntercomControlControlType_fc : cd.
Lemma IntercomControlTransmitLineState_fc : fixed_codec 1 idn IntercomControlTransmitLineState_codec.
Proof. apply fixed_codec_of_rw; [apply (fixed_enum IntercomControlTransmitLineState_spec 1 eq_refl) | reflexivity]. Qed.
#[export] Hint Resolve IntercomControlTransmitLineState_fc : cd.
Lemma IntercomControlCommand_fc : fixed_codec 1 idn IntercomControlCommand_codec.
Proof. apply fixed_codec_of_rw; [apply (fixed_enum IntercomControlCommand_spec 1 eq_refl) | reflexivity]. Qed.
#[export] Hint Resolve IntercomControlCommand_fc : cd.
Lemma Reason_fc : fixed_codec 1 idn Reason_codec.
Proof. apply fixed_codec_of_rw; [apply (fixed_enum Reason_spec 1 eq_refl) | reflexivity]. Qed.
#[export] Hint Resolve Reason_fc : cd.
Lemma AcknowledgeFlag_fc : fixed_codec 2 idn AcknowledgeFlag_codec.
Proof. apply fixed_codec_of_rw; [apply (fixed_enum AcknowledgeFlag_spec 2 eq_refl) | reflexivity]. Qed.
#[export] Hint Resolve AcknowledgeFlag_fc : cd.
Lemma AcknowledgeResponseFlag_fc : fixed_codec 2 idn AcknowledgeResponseFlag_codec.
Proof. apply fixed_codec_of_rw; [apply (fixed_enum AcknowledgeResponseFlag_spec 2 eq_refl) | reflexivity]. Qed.
#[export] Hint Resolve AcknowledgeResponseFlag_fc : cd.
Lemma ActionResponseRequestStatus_fc : fixed_codec 4 idn ActionResponseRequestStatus_codec.
Proof. apply fixed_codec_of_rw; [apply (fixed_enum ActionResponseRequestStatus_spec 4 eq_refl) | reflexivity]. Qed.
#[export] Hint Resolve ActionResponseRequestStatus_fc : cd.
Lemma EventType_fc : fixed_codec 4 idn EventType_codec.
Proof. apply fixed_codec_of_rw; [apply (fixed_enum EventType_spec 4 eq_refl) | reflexivity]. Qed.
#[export] Hint Resolve EventType_fc : cd.
Lemma VariableRecordTypes_fc : fixed_codec 4 idn VariableRecordTypes_codec.
Proof. apply fixed_codec_of_rw; [apply (fixed_enum VariableRecordTypes_spec 4 eq_refl) | reflexivity]. Qed.
#[export] Hint Resolve VariableRecordTypes_fc : cd.
Lemma RecordQueryREventType_fc : fixed_codec 2 idn RecordQueryREventType_codec.
Proof. apply fixed_codec_of_rw; [apply (fixed_enum RecordQueryREventType_spec 2 eq_refl) | reflexivity]. Qed.
#[export] Hint Resolve RecordQueryREventType_fc : cd.
Lemma GriddedDataCoordinateSystem_fc : fixed_codec 2 idn GriddedDataCoordinateSystem_codec.
Proof. apply fixed_codec_of_rw; [apply (fixed_enum GriddedDataCoordinateSystem_spec 2 eq_refl) | reflexivity]. Qed.
#[export] Hint Resolve GriddedDataCoordinateSystem_fc : cd.
Lemma GriddedDataConstantGrid_fc : fixed_codec 1 idn GriddedDataConstantGrid_codec.
Proof. apply fixed_codec_of_rw; [apply (fixed_enum GriddedDataConstantGrid_spec 1 eq_refl) | reflexivity]. Qed.
#[export] Hint Resolve GriddedDataConstantGrid_fc : cd.
Lemma DetonationResult_fc : fixed_codec 1 idn DetonationResult_codec.
Proof. apply fixed_codec_of_rw; [apply (fixed_enum DetonationResult_spec 1 eq_refl) | reflexivity]. Qed.
#[export] Hint Resolve DetonationResult_fc : cd.
Lemma DEFirePulseShape_fc : fixed_codec 1 idn DEFirePulseShape_codec.
Proof. apply fixed_codec_of_rw; [apply (fixed_enum DEFirePulseShape_spec 1 eq_refl) | reflexivity]. Qed.
#[export] Hint Resolve DEFirePulseShape_fc : cd.
Lemma EntityId_fc : fixed_codec 6 idn EntityId_codec.
Proof. apply fixed_codec_of_rw; [apply EntityId_fixed | reflexivity]. Qed.
#[export] Hint Resolve EntityId_fc : cd.
Lemma EventId_fc : fixed_codec 6 idn EventId_codec.
Proof. apply fixed_codec_of_rw; [apply EventId_fixed | reflexivity]. Qed.
#[export] Hint Resolve EventId_fc : cd.
Lemma ElectromagneticEmissionSystemData_st : ser_total ElectromagneticEmissionSystemData_codec.
Proof. intros v. eexists. reflexivity. Qed.
#[export] Hint Resolve ElectromagneticEmissionSystemData_st : cd.
Lemma EntityCoordinateVector_fc : fixed_codec 12 idn EntityCoordinateVector_codec.
Proof. apply fixed_codec_of_rw; [apply EntityCoordinateVector_fixed | reflexivity]. Qed.
#[export] Hint Resolve EntityCoordinateVector_fc : cd.
Lemma WorldCoordinate_fc : fixed_codec 24 idn WorldCoordinate_codec.
Proof. apply fixed_codec_of_rw; [apply WorldCoordinate_fixed | reflexivity]. Qed.
#[export] Hint Resolve WorldCoordinate_fc : cd.
Lemma LinearAcceleration_fc : fixed_codec 12 idn LinearAcceleration_codec.
Proof. apply fixed_codec_of_rw; [apply LinearAcceleration_fixed | reflexivity]. Qed.
#[export] Hint Resolve LinearAcceleration_fc : cd.
Lemma ShaftRPMs_fc : fixed_codec 8 idn ShaftRPMs_codec.
Proof. apply fixed_codec_of_rw; [apply ShaftRPMs_fixed | reflexivity]. Qed.
#[export] Hint Resolve ShaftRPMs_fc : cd.
Lemma ApaData_fc : fixed_codec 4 idn ApaData_codec.
Proof. apply fixed_codec_of_rw; [apply ApaData_fixed | reflexivity]. Qed.
#[export] Hint Resolve ApaData_fc : cd.
Lemma AcousticEmitterSystem_fc : fixed_codec 4 idn AcousticEmitterSystem_codec.
Proof. apply fixed_codec_of_rw; [apply AcousticEmitterSystem_fixed | reflexivity]. Qed.
#[export] Hint Resolve AcousticEmitterSystem_fc : cd.
Lemma SystemId_fc : fixed_codec 6 idn SystemId_codec.
Proof. apply fixed_codec_of_rw; [apply SystemId_fixed | reflexivity]. Qed.
#[export] Hint Resolve SystemId_fc : cd.
Lemma FundamentalOperationalData_fc : fixed_codec 16 idn FundamentalOperationalData_codec.
Proof. apply fixed_codec_of_rw; [apply FundamentalOperationalData_fixed | reflexivity]. Qed.
#[export] Hint Resolve FundamentalOperationalData_fc : cd.
Lemma LayerHeader_fc : fixed_codec 4 idn LayerHeader_codec.
Proof. apply fixed_codec_of_rw; [apply LayerHeader_fixed | reflexivity]. Qed.
#[export] Hint Resolve LayerHeader_fc : cd.
Lemma BeamData_fc : fixed_codec 20 idn BeamData_codec.
Proof. apply fixed_codec_of_rw; [apply BeamData_fixed | reflexivity]. Qed.
#[export] Hint Resolve BeamData_fc : cd.
Lemma SecondaryOperationalData_fc : fixed_codec 4 idn SecondaryOperationalData_codec.
Proof. apply fixed_codec_of_rw; [apply SecondaryOperationalData_fixed | reflexivity]. Qed.
#[export] Hint Resolve SecondaryOperationalData_fc : cd.
Lemma IFFFundamentalParameterData_fc : fixed_codec 24 idn IFFFundamentalParameterData_codec.
Proof. apply fixed_codec_of_rw; [apply IFFFundamentalParameterData_fixed | reflexivity]. Qed.
#[export] Hint Resolve IFFFundamentalParameterData_fc : cd.
Lemma PropulsionSystemData_fc : fixed_codec 8 idn PropulsionSystemData_codec.
Proof. apply fixed_codec_of_rw; [apply PropulsionSystemData_fixed | reflexivity]. Qed.
#[export] Hint Resolve PropulsionSystemData_fc : cd.
Lemma VectoringNozzleSystemData_fc : fixed_codec 8 idn VectoringNozzleSystemData_codec.
Proof. apply fixed_codec_of_rw; [apply VectoringNozzleSystemData_fixed | reflexivity]. Qed.
#[export] Hint Resolve VectoringNozzleSystemData_fc : cd.
Lemma EntityType_fc : fixed_codec 8 idn EntityType_codec.
Proof. apply fixed_codec_of_rw; [apply EntityType_fixed | reflexivity]. Qed.
#[export] Hint Resolve EntityType_fc : cd.
Lemma LinearVelocity_fc : fixed_codec 12 idn LinearVelocity_codec.
Proof. apply fixed_codec_of_rw; [apply LinearVelocity_fixed | reflexivity]. Qed.
#[export] Hint Resolve LinearVelocity_fc : cd.
Lemma EulerAngles_fc : fixed_codec 12 idn EulerAngles_codec.
Proof. apply fixed_codec_of_rw; [apply EulerAngles_fixed | reflexivity]. Qed.
#[export] Hint Resolve EulerAngles_fc : cd.
Lemma DeadReckoningParameters_st : ser_total DeadReckoningParameters_codec.
Proof. intros v. eexists. reflexivity. Qed.
#[export] Hint Resolve DeadReckoningParameters_st : cd.
Lemma EntityMarking_st : ser_total EntityMarking_codec.
Proof. intros v. eexists. reflexivity. Qed.
#[export] Hint Resolve EntityMarking_st : cd.
Lemma VariableParameter_fc : fixed_codec 16 idn VariableParameter_codec.
Proof. apply fixed_codec_of_rw; [apply VariableParameter_fixed | reflexivity]. Qed.
#[export] Hint Resolve VariableParameter_fc : cd.
Lemma SimulationAddress_fc : fixed_codec 4 idn SimulationAddress_codec.
Proof. apply fixed_codec_of_rw; [apply SimulationAddress_fixed | reflexivity]. Qed.
#[export] Hint Resolve SimulationAddress_fc : cd.
Lemma AttributeRecordSet_st : ser_total AttributeRecordSet_codec.
Proof. intros v. eexists. reflexivity. Qed.
#[export] Hint Resolve AttributeRecordSet_st : cd.
Lemma AggregateId_fc : fixed_codec 6 idn AggregateId_codec.
Proof. apply fixed_codec_of_rw; [apply AggregateId_fixed | reflexivity]. Qed.
#[export] Hint Resolve AggregateId_fc : cd.
Lemma AggregateMarking_fc : fixed_codec 32 idn AggregateMarking_codec.
Proof. apply fixed_codec_of_rw; [apply AggregateMarking_fixed | reflexivity]. Qed.
#[export] Hint Resolve AggregateMarking_fc : cd.
Lemma Vector3Float_fc : fixed_codec 12 idn Vector3Float_codec.
Proof. apply fixed_codec_of_rw; [apply Vector3Float_fixed | reflexivity]. Qed.
#[export] Hint Resolve Vector3Float_fc : cd.
Lemma VariableDatumRecord_st : ser_total VariableDatumRecord_codec.
Proof. intros v. eexists. reflexivity. Qed.
#[export] Hint Resolve VariableDatumRecord_st : cd.
Lemma SimulationIdentifier_st : ser_total SimulationIdentifier_codec.
Proof. intros v. eexists. reflexivity. Qed.
#[export] Hint Resolve SimulationIdentifier_st : cd.
Lemma Relationship_fc : fixed_codec 4 idn Relationship_codec.
Proof. apply fixed_codec_of_rw; [apply Relationship_fixed | reflexivity]. Qed.
#[export] Hint Resolve Relationship_fc : cd.
Lemma NamedLocation_fc : fixed_codec 4 idn NamedLocation_codec.
Proof. apply fixed_codec_of_rw; [apply NamedLocation_fixed | reflexivity]. Qed.
#[export] Hint Resolve NamedLocation_fc : cd.
Lemma SupplyQuantity_fc : fixed_codec 12 idn SupplyQuantity_codec.
Proof. apply fixed_codec_of_rw; [apply SupplyQuantity_fixed | reflexivity]. Qed.
#[export] Hint Resolve SupplyQuantity_fc : cd.
Lemma MinefieldIdentifier_fc : fixed_codec 6 idn MinefieldIdentifier_codec.
Proof. apply fixed_codec_of_rw; [apply MinefieldIdentifier_fixed | reflexivity]. Qed.
#[export] Hint Resolve MinefieldIdentifier_fc : cd.
Lemma Point_fc : fixed_codec 8 idn Point_codec.
Proof. apply fixed_codec_of_rw; [apply Point_fixed | reflexivity]. Qed.
#[export] Hint Resolve Point_fc : cd.
Lemma ClockTime_fc : fixed_codec 8 idn ClockTime_codec.
Proof. apply fixed_codec_of_rw; [apply ClockTime_fixed | reflexivity]. Qed.
#[export] Hint Resolve ClockTime_fc : cd.
Lemma RadioEntityType_fc : fixed_codec 8 idn RadioEntityType_codec.
Proof. apply fixed_codec_of_rw; [apply RadioEntityType_fixed | reflexivity]. Qed.
#[export] Hint Resolve RadioEntityType_fc : cd.
Lemma ModulationType_fc : fixed_codec 8 idn ModulationType_codec.
Proof. apply fixed_codec_of_rw; [apply ModulationType_fixed | reflexivity]. Qed.
#[export] Hint Resolve ModulationType_fc : cd.
Lemma ModulationParameters_st : ser_total ModulationParameters_codec.
Proof. intros v. eexists. reflexivity. Qed.
#[export] Hint Resolve ModulationParameters_st : cd.
Lemma AntennaPattern_st : ser_total AntennaPattern_codec.
Proof. intros v. eexists. reflexivity. Qed.
#[export] Hint Resolve AntennaPattern_st : cd.
Lemma VariableTransmitterParameters_st : ser_total VariableTransmitterParameters_codec.
Proof. intros v. eexists. reflexivity. Qed.
#[export] Hint Resolve VariableTransmitterParameters_st : cd.
Lemma IntercomCommunicationsParameters_fc : fixed_codec 8 idn IntercomCommunicationsParameters_codec.
Proof. apply fixed_codec_of_rw; [apply IntercomCommunicationsParameters_fixed | reflexivity]. Qed.
#[export] Hint Resolve IntercomCommunicationsParameters_fc : cd.
Lemma FixedDatumRecord_fc : fixed_codec 8 idn FixedDatumRecord_codec.
Proof. apply fixed_codec_of_rw; [apply FixedDatumRecord_fixed | reflexivity]. Qed.
#[export] Hint Resolve FixedDatumRecord_fc : cd.
Lemma Environment_fc : fixed_codec 8 idn Environment_codec.
Proof. apply fixed_codec_of_rw; [apply Environment_fixed | reflexivity]. Qed.
#[export] Hint Resolve Environment_fc : cd.
Lemma GridAxisDescriptor_st : ser_total GridAxisDescriptor_codec.
Proof. intros v. eexists. reflexivity. Qed.
#[export] Hint Resolve GridAxisDescriptor_st : cd.
Lemma GridDataRecord_st : ser_total GridDataRecord_codec.
Proof. intros v. eexists. reflexivity. Qed.
#[export] Hint Resolve GridDataRecord_st : cd.
Lemma ObjectType_fc : fixed_codec 4 idn ObjectType_codec.
Proof. apply fixed_codec_of_rw; [apply ObjectType_fixed | reflexivity]. Qed.
#[export] Hint Resolve ObjectType_fc : cd.
Lemma ObjectIdentifier_fc : fixed_codec 6 idn ObjectIdentifier_codec.
Proof. apply fixed_codec_of_rw; [apply ObjectIdentifier_fixed | reflexivity]. Qed.
#[export] Hint Resolve ObjectIdentifier_fc : cd.
Lemma LinearSegmentParameter_fc : fixed_codec 66 idn LinearSegmentParameter_codec.
Proof. apply fixed_codec_of_rw; [apply LinearSegmentParameter_fixed | reflexivity]. Qed.
#[export] Hint Resolve LinearSegmentParameter_fc : cd.
Lemma MunitionDescriptor_fc : fixed_codec 16 idn MunitionDescriptor_codec.
Proof. apply fixed_codec_of_rw; [apply MunitionDescriptor_fixed | reflexivity]. Qed.
#[export] Hint Resolve MunitionDescriptor_fc : cd.
Lemma DirectedEnergyDamage_fc : fixed_codec 40 idn DirectedEnergyDamage_codec.
Proof. apply fixed_codec_of_rw; [apply DirectedEnergyDamage_fixed | reflexivity]. Qed.
#[export] Hint Resolve DirectedEnergyDamage_fc : cd.

#[export] Hint Resolve FrozenBehavior_fc ObjectStateAppearanceGeneral_fc : cd.
#[export] Hint Resolve vec_skip option_skip vec_ser_total option_ser_total : cd.
#[export] Hint Extern 9 (ser_total _) => eapply fixed_ser_total; solve [eauto with cd nocore] : cd.

(** Class shape: a fixed part of [n] bytes followed by list fields only; every field that
    is not a list decodes to itself. *)
Definition regl (names : list string) (fs : list field) (n : nat) : Prop :=
  exists nrm, layout fs n nrm /\ forall v, nrm v = reset_fields names fs v.
Definition skl (names : list string) (fs : list field) : Prop :=
  exists nrm, skips fs nrm /\ forall v, nrm v = reset_fields names fs v.
Definition regular (c : pdu_class) : Prop :=
  regl (list_fields c) (cls_fields c) (N.to_nat (default_size c) - 12)%nat.

Lemma skl_nil names : skl names [].
Proof. exists (fun v => v). split; [constructor | reflexivity]. Qed.
Lemma skl_cons names f fs : f_len_attr f = None -> mem_string (f_name f) names = true ->
  skip_codec (f_default f) (f_codec f) -> skl names fs -> skl names (f :: fs).
Proof.
  intros A M S [nrm [L E]]. exists (fun v => (f_default f, nrm (snd v))). split; [constructor; assumption|].
  intros v. cbn [reset_fields]. rewrite M, E. reflexivity.
Qed.
Lemma regl_skips names fs : skl names fs -> regl names fs 0.
Proof. intros [nrm [L E]]. exists nrm. split; [constructor; exact L | exact E]. Qed.
Lemma regl_fixed names f fs n m : f_len_attr f = None -> mem_string (f_name f) names = false ->
  fixed_codec n idn (f_codec f) -> regl names fs m -> regl names (f :: fs) (n + m).
Proof.
  intros A M S [nrm [L E]]. exists (fun v => (idn (fst v), nrm (snd v))). split; [apply ly_fixed; assumption|].
  intros v. cbn [reset_fields]. rewrite M, E. reflexivity.
Qed.
Lemma regl_size names fs n m : regl names fs n -> n = m -> regl names fs m.
Proof. intros H <-; exact H. Qed.

Ltac cdx := cbn [f_codec f_type f_default plain u8_field]; solve [eauto with cd nocore].
Ltac skp := first [ apply skl_nil | eapply skl_cons; [reflexivity | reflexivity | cdx | skp] ].
Ltac lay := first [ eapply regl_fixed; [reflexivity | reflexivity | cdx | lay] | eapply regl_skips; skp ].
Ltac regular_tac c :=
  let l := eval vm_compute in (list_fields c) in change (regl l (cls_fields c) (N.to_nat (default_size c) - 12)%nat);
  eapply regl_size; [cbn [cls_fields c]; lay | reflexivity].

Lemma ElectromagneticEmissionsPdu_regular : regular ElectromagneticEmissionsPdu.
Proof. regular_tac ElectromagneticEmissionsPdu. Qed.

Lemma DesignatorPdu_regular : regular DesignatorPdu.
Proof. regular_tac DesignatorPdu. Qed.

Lemma UnderwaterAcousticPdu_regular : regular UnderwaterAcousticPdu.
Proof. regular_tac UnderwaterAcousticPdu. Qed.

Lemma IFFPdu_regular : regular IFFPdu.
Proof. regular_tac IFFPdu. Qed.

Lemma SupplementalEmissionPdu_regular : regular SupplementalEmissionPdu.
Proof. regular_tac SupplementalEmissionPdu. Qed.

Lemma CollisionPdu_regular : regular CollisionPdu.
Proof. regular_tac CollisionPdu. Qed.

Lemma CollisionElasticPdu_regular : regular CollisionElasticPdu.
Proof. regular_tac CollisionElasticPdu. Qed.

Lemma EntityStateUpdatePdu_regular : regular EntityStateUpdatePdu.
Proof. regular_tac EntityStateUpdatePdu. Qed.

Lemma AttributePdu_regular : regular AttributePdu.
Proof. regular_tac AttributePdu. Qed.

Lemma IsGroupOfPdu_regular : regular IsGroupOfPdu.
Proof. regular_tac IsGroupOfPdu. Qed.

Lemma IsPartOfPdu_regular : regular IsPartOfPdu.
Proof. regular_tac IsPartOfPdu. Qed.

Lemma ServiceRequestPdu_regular : regular ServiceRequestPdu.
Proof. regular_tac ServiceRequestPdu. Qed.

Lemma ResupplyOfferPdu_regular : regular ResupplyOfferPdu.
Proof. regular_tac ResupplyOfferPdu. Qed.

Lemma ResupplyReceivedPdu_regular : regular ResupplyReceivedPdu.
Proof. regular_tac ResupplyReceivedPdu. Qed.

Lemma ResupplyCancelPdu_regular : regular ResupplyCancelPdu.
Proof. regular_tac ResupplyCancelPdu. Qed.

Lemma RepairCompletePdu_regular : regular RepairCompletePdu.
Proof. regular_tac RepairCompletePdu. Qed.

Lemma RepairResponsePdu_regular : regular RepairResponsePdu.
Proof. regular_tac RepairResponsePdu. Qed.

Lemma MinefieldStatePdu_regular : regular MinefieldStatePdu.
Proof. regular_tac MinefieldStatePdu. Qed.

Lemma MinefieldQueryPdu_regular : regular MinefieldQueryPdu.
Proof. regular_tac MinefieldQueryPdu. Qed.

Lemma MinefieldDataPdu_regular : regular MinefieldDataPdu.
Proof. regular_tac MinefieldDataPdu. Qed.

Lemma MinefieldResponseNackPdu_regular : regular MinefieldResponseNackPdu.
Proof. regular_tac MinefieldResponseNackPdu. Qed.

Lemma SignalPdu_regular : regular SignalPdu.
Proof. regular_tac SignalPdu. Qed.

Lemma ReceiverPdu_regular : regular ReceiverPdu.
Proof. regular_tac ReceiverPdu. Qed.

Lemma IntercomSignalPdu_regular : regular IntercomSignalPdu.
Proof. regular_tac IntercomSignalPdu. Qed.

Lemma IntercomControlPdu_regular : regular IntercomControlPdu.
Proof. regular_tac IntercomControlPdu. Qed.

Lemma CreateEntityPdu_regular : regular CreateEntityPdu.
Proof. regular_tac CreateEntityPdu. Qed.

Lemma RemoveEntityPdu_regular : regular RemoveEntityPdu.
Proof. regular_tac RemoveEntityPdu. Qed.

Lemma StartResumePdu_regular : regular StartResumePdu.
Proof. regular_tac StartResumePdu. Qed.

Lemma AcknowledgePdu_regular : regular AcknowledgePdu.
Proof. regular_tac AcknowledgePdu. Qed.

Lemma ActionRequestPdu_regular : regular ActionRequestPdu.
Proof. regular_tac ActionRequestPdu. Qed.

Lemma ActionResponsePdu_regular : regular ActionResponsePdu.
Proof. regular_tac ActionResponsePdu. Qed.

Lemma DataQueryPdu_regular : regular DataQueryPdu.
Proof. regular_tac DataQueryPdu. Qed.

Lemma SetDataPdu_regular : regular SetDataPdu.
Proof. regular_tac SetDataPdu. Qed.

Lemma DataPdu_regular : regular DataPdu.
Proof. regular_tac DataPdu. Qed.

Lemma EventReportPdu_regular : regular EventReportPdu.
Proof. regular_tac EventReportPdu. Qed.

Lemma CommentPdu_regular : regular CommentPdu.
Proof. regular_tac CommentPdu. Qed.

Lemma CreateEntityReliablePdu_regular : regular CreateEntityReliablePdu.
Proof. regular_tac CreateEntityReliablePdu. Qed.

Lemma RemoveEntityReliablePdu_regular : regular RemoveEntityReliablePdu.
Proof. regular_tac RemoveEntityReliablePdu. Qed.

Lemma StartResumeReliablePdu_regular : regular StartResumeReliablePdu.
Proof. regular_tac StartResumeReliablePdu. Qed.

Lemma AcknowledgeReliablePdu_regular : regular AcknowledgeReliablePdu.
Proof. regular_tac AcknowledgeReliablePdu. Qed.

Lemma ActionRequestReliablePdu_regular : regular ActionRequestReliablePdu.
Proof. regular_tac ActionRequestReliablePdu. Qed.

Lemma ActionResponseReliablePdu_regular : regular ActionResponseReliablePdu.
Proof. regular_tac ActionResponseReliablePdu. Qed.

Lemma DataQueryReliablePdu_regular : regular DataQueryReliablePdu.
Proof. regular_tac DataQueryReliablePdu. Qed.

Lemma SetDataReliablePdu_regular : regular SetDataReliablePdu.
Proof. regular_tac SetDataReliablePdu. Qed.

Lemma DataReliablePdu_regular : regular DataReliablePdu.
Proof. regular_tac DataReliablePdu. Qed.

Lemma EventReportReliablePdu_regular : regular EventReportReliablePdu.
Proof. regular_tac EventReportReliablePdu. Qed.

Lemma CommentReliablePdu_regular : regular CommentReliablePdu.
Proof. regular_tac CommentReliablePdu. Qed.

Lemma RecordQueryReliablePdu_regular : regular RecordQueryReliablePdu.
Proof. regular_tac RecordQueryReliablePdu. Qed.

Lemma EnvironmentalProcessPdu_regular : regular EnvironmentalProcessPdu.
Proof. regular_tac EnvironmentalProcessPdu. Qed.

Lemma GriddedDataPdu_regular : regular GriddedDataPdu.
Proof. regular_tac GriddedDataPdu. Qed.

Lemma PointObjectStatePdu_regular : regular PointObjectStatePdu.
Proof. regular_tac PointObjectStatePdu. Qed.

Lemma LinearObjectStatePdu_regular : regular LinearObjectStatePdu.
Proof. regular_tac LinearObjectStatePdu. Qed.

Lemma FirePdu_regular : regular FirePdu.
Proof. regular_tac FirePdu. Qed.

Lemma DetonationPdu_regular : regular DetonationPdu.
Proof. regular_tac DetonationPdu. Qed.

Lemma DirectedEnergyFirePdu_regular : regular DirectedEnergyFirePdu.
Proof. regular_tac DirectedEnergyFirePdu. Qed.

Lemma EntityDamageStatusPdu_regular : regular EntityDamageStatusPdu.
Proof. regular_tac EntityDamageStatusPdu. Qed.

