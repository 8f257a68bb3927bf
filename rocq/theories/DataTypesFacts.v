(** * Fixed-layout record types (proofs only; generated by tools/gen_facts.py). *)
From Verif Require Import Base BaseFacts EnumModel Enums EnumFacts Header PduMacro DataTypes Fixed.

Lemma AcousticBeamFundamentalParameter_fixed : fixed_rw 20 AcousticBeamFundamentalParameter_serialize AcousticBeamFundamentalParameter_deserialize.
Proof. fixed_tac AcousticBeamFundamentalParameter_serialize AcousticBeamFundamentalParameter_deserialize. Qed.
#[export] Hint Resolve AcousticBeamFundamentalParameter_fixed : fx.

Lemma AcousticBeamData_fixed : fixed_rw 25 AcousticBeamData_serialize AcousticBeamData_deserialize.
Proof. fixed_tac AcousticBeamData_serialize AcousticBeamData_deserialize. Qed.
#[export] Hint Resolve AcousticBeamData_fixed : fx.

Lemma AcousticEmitterSystem_fixed : fixed_rw 4 AcousticEmitterSystem_serialize AcousticEmitterSystem_deserialize.
Proof. fixed_tac AcousticEmitterSystem_serialize AcousticEmitterSystem_deserialize. Qed.
#[export] Hint Resolve AcousticEmitterSystem_fixed : fx.

Lemma Vector3Float_fixed : fixed_rw 12 Vector3Float_serialize Vector3Float_deserialize.
Proof. fixed_tac Vector3Float_serialize Vector3Float_deserialize. Qed.
#[export] Hint Resolve Vector3Float_fixed : fx.

Lemma AggregateId_fixed : fixed_rw 6 AggregateId_serialize AggregateId_deserialize.
Proof. fixed_tac AggregateId_serialize AggregateId_deserialize. Qed.
#[export] Hint Resolve AggregateId_fixed : fx.

Lemma AggregateMarking_fixed : fixed_rw 32 AggregateMarking_serialize AggregateMarking_deserialize.
Proof. fixed_tac AggregateMarking_serialize AggregateMarking_deserialize. Qed.
#[export] Hint Resolve AggregateMarking_fixed : fx.

Lemma AngularVelocity_fixed : fixed_rw 12 AngularVelocity_serialize AngularVelocity_deserialize.
Proof. fixed_tac AngularVelocity_serialize AngularVelocity_deserialize. Qed.
#[export] Hint Resolve AngularVelocity_fixed : fx.

Lemma ApaData_fixed : fixed_rw 4 ApaData_serialize ApaData_deserialize.
Proof. fixed_tac ApaData_serialize ApaData_deserialize. Qed.
#[export] Hint Resolve ApaData_fixed : fx.

Lemma SimulationAddress_fixed : fixed_rw 4 SimulationAddress_serialize SimulationAddress_deserialize.
Proof. fixed_tac SimulationAddress_serialize SimulationAddress_deserialize. Qed.
#[export] Hint Resolve SimulationAddress_fixed : fx.

Lemma EntityId_fixed : fixed_rw 6 EntityId_serialize EntityId_deserialize.
Proof. fixed_tac EntityId_serialize EntityId_deserialize. Qed.
#[export] Hint Resolve EntityId_fixed : fx.

Lemma BeamData_fixed : fixed_rw 20 BeamData_serialize BeamData_deserialize.
Proof. fixed_tac BeamData_serialize BeamData_deserialize. Qed.
#[export] Hint Resolve BeamData_fixed : fx.

Lemma ClockTime_fixed : fixed_rw 8 ClockTime_serialize ClockTime_deserialize.
Proof. fixed_tac ClockTime_serialize ClockTime_deserialize. Qed.
#[export] Hint Resolve ClockTime_fixed : fx.

Lemma FixedDatumRecord_fixed : fixed_rw 8 FixedDatumRecord_serialize FixedDatumRecord_deserialize.
Proof. fixed_tac FixedDatumRecord_serialize FixedDatumRecord_deserialize. Qed.
#[export] Hint Resolve FixedDatumRecord_fixed : fx.

Lemma LinearAcceleration_fixed : fixed_rw 12 LinearAcceleration_serialize LinearAcceleration_deserialize.
Proof. fixed_tac LinearAcceleration_serialize LinearAcceleration_deserialize. Qed.
#[export] Hint Resolve LinearAcceleration_fixed : fx.

Lemma EntityCoordinateVector_fixed : fixed_rw 12 EntityCoordinateVector_serialize EntityCoordinateVector_deserialize.
Proof. fixed_tac EntityCoordinateVector_serialize EntityCoordinateVector_deserialize. Qed.
#[export] Hint Resolve EntityCoordinateVector_fixed : fx.

Lemma EventId_fixed : fixed_rw 6 EventId_serialize EventId_deserialize.
Proof. fixed_tac EventId_serialize EventId_deserialize. Qed.
#[export] Hint Resolve EventId_fixed : fx.

Lemma DirectedEnergyDamage_fixed : fixed_rw 40 DirectedEnergyDamage_serialize DirectedEnergyDamage_deserialize.
Proof. fixed_tac DirectedEnergyDamage_serialize DirectedEnergyDamage_deserialize. Qed.
#[export] Hint Resolve DirectedEnergyDamage_fixed : fx.

Lemma FundamentalParameterData_fixed : fixed_rw 40 FundamentalParameterData_serialize FundamentalParameterData_deserialize.
Proof. fixed_tac FundamentalParameterData_serialize FundamentalParameterData_deserialize. Qed.
#[export] Hint Resolve FundamentalParameterData_fixed : fx.

Lemma TrackJamTarget_fixed : fixed_rw 8 TrackJamTarget_serialize TrackJamTarget_deserialize.
Proof. fixed_tac TrackJamTarget_serialize TrackJamTarget_deserialize. Qed.
#[export] Hint Resolve TrackJamTarget_fixed : fx.

Lemma EmitterSystem_fixed : fixed_rw 4 EmitterSystem_serialize EmitterSystem_deserialize.
Proof. fixed_tac EmitterSystem_serialize EmitterSystem_deserialize. Qed.
#[export] Hint Resolve EmitterSystem_fixed : fx.

Lemma EntityType_fixed : fixed_rw 8 EntityType_serialize EntityType_deserialize.
Proof. fixed_tac EntityType_serialize EntityType_deserialize. Qed.
#[export] Hint Resolve EntityType_fixed : fx.

Lemma Environment_fixed : fixed_rw 8 Environment_serialize Environment_deserialize.
Proof. fixed_tac Environment_serialize Environment_deserialize. Qed.
#[export] Hint Resolve Environment_fixed : fx.

Lemma EulerAngles_fixed : fixed_rw 12 EulerAngles_serialize EulerAngles_deserialize.
Proof. fixed_tac EulerAngles_serialize EulerAngles_deserialize. Qed.
#[export] Hint Resolve EulerAngles_fixed : fx.

Lemma FundamentalOperationalData_fixed : fixed_rw 16 FundamentalOperationalData_serialize FundamentalOperationalData_deserialize.
Proof. fixed_tac FundamentalOperationalData_serialize FundamentalOperationalData_deserialize. Qed.
#[export] Hint Resolve FundamentalOperationalData_fixed : fx.

Lemma IFFFundamentalParameterData_fixed : fixed_rw 24 IFFFundamentalParameterData_serialize IFFFundamentalParameterData_deserialize.
Proof. fixed_tac IFFFundamentalParameterData_serialize IFFFundamentalParameterData_deserialize. Qed.
#[export] Hint Resolve IFFFundamentalParameterData_fixed : fx.

Lemma IntercomCommunicationsParameters_fixed : fixed_rw 8 IntercomCommunicationsParameters_serialize IntercomCommunicationsParameters_deserialize.
Proof. fixed_tac IntercomCommunicationsParameters_serialize IntercomCommunicationsParameters_deserialize. Qed.
#[export] Hint Resolve IntercomCommunicationsParameters_fixed : fx.

Lemma LayerHeader_fixed : fixed_rw 4 LayerHeader_serialize LayerHeader_deserialize.
Proof. fixed_tac LayerHeader_serialize LayerHeader_deserialize. Qed.
#[export] Hint Resolve LayerHeader_fixed : fx.

Lemma WorldCoordinate_fixed : fixed_rw 24 WorldCoordinate_serialize WorldCoordinate_deserialize.
Proof. fixed_tac WorldCoordinate_serialize WorldCoordinate_deserialize. Qed.
#[export] Hint Resolve WorldCoordinate_fixed : fx.

Lemma LinearSegmentParameter_fixed : fixed_rw 66 LinearSegmentParameter_serialize LinearSegmentParameter_deserialize.
Proof. fixed_tac LinearSegmentParameter_serialize LinearSegmentParameter_deserialize. Qed.
#[export] Hint Resolve LinearSegmentParameter_fixed : fx.

Lemma LinearVelocity_fixed : fixed_rw 12 LinearVelocity_serialize LinearVelocity_deserialize.
Proof. fixed_tac LinearVelocity_serialize LinearVelocity_deserialize. Qed.
#[export] Hint Resolve LinearVelocity_fixed : fx.

Lemma MinefieldIdentifier_fixed : fixed_rw 6 MinefieldIdentifier_serialize MinefieldIdentifier_deserialize.
Proof. fixed_tac MinefieldIdentifier_serialize MinefieldIdentifier_deserialize. Qed.
#[export] Hint Resolve MinefieldIdentifier_fixed : fx.

Lemma ModulationType_fixed : fixed_rw 8 ModulationType_serialize ModulationType_deserialize.
Proof. fixed_tac ModulationType_serialize ModulationType_deserialize. Qed.
#[export] Hint Resolve ModulationType_fixed : fx.

Lemma MunitionDescriptor_fixed : fixed_rw 16 MunitionDescriptor_serialize MunitionDescriptor_deserialize.
Proof. fixed_tac MunitionDescriptor_serialize MunitionDescriptor_deserialize. Qed.
#[export] Hint Resolve MunitionDescriptor_fixed : fx.

Lemma NamedLocation_fixed : fixed_rw 4 NamedLocation_serialize NamedLocation_deserialize.
Proof. fixed_tac NamedLocation_serialize NamedLocation_deserialize. Qed.
#[export] Hint Resolve NamedLocation_fixed : fx.

Lemma ObjectIdentifier_fixed : fixed_rw 6 ObjectIdentifier_serialize ObjectIdentifier_deserialize.
Proof. fixed_tac ObjectIdentifier_serialize ObjectIdentifier_deserialize. Qed.
#[export] Hint Resolve ObjectIdentifier_fixed : fx.

Lemma ObjectType_fixed : fixed_rw 4 ObjectType_serialize ObjectType_deserialize.
Proof. fixed_tac ObjectType_serialize ObjectType_deserialize. Qed.
#[export] Hint Resolve ObjectType_fixed : fx.

Lemma Point_fixed : fixed_rw 8 Point_serialize Point_deserialize.
Proof. fixed_tac Point_serialize Point_deserialize. Qed.
#[export] Hint Resolve Point_fixed : fx.

Lemma PropulsionSystemData_fixed : fixed_rw 8 PropulsionSystemData_serialize PropulsionSystemData_deserialize.
Proof. fixed_tac PropulsionSystemData_serialize PropulsionSystemData_deserialize. Qed.
#[export] Hint Resolve PropulsionSystemData_fixed : fx.

Lemma RadioEntityType_fixed : fixed_rw 8 RadioEntityType_serialize RadioEntityType_deserialize.
Proof. fixed_tac RadioEntityType_serialize RadioEntityType_deserialize. Qed.
#[export] Hint Resolve RadioEntityType_fixed : fx.

Lemma Relationship_fixed : fixed_rw 4 Relationship_serialize Relationship_deserialize.
Proof. fixed_tac Relationship_serialize Relationship_deserialize. Qed.
#[export] Hint Resolve Relationship_fixed : fx.

Lemma SecondaryOperationalData_fixed : fixed_rw 4 SecondaryOperationalData_serialize SecondaryOperationalData_deserialize.
Proof. fixed_tac SecondaryOperationalData_serialize SecondaryOperationalData_deserialize. Qed.
#[export] Hint Resolve SecondaryOperationalData_fixed : fx.

Lemma ShaftRPMs_fixed : fixed_rw 8 ShaftRPMs_serialize ShaftRPMs_deserialize.
Proof. fixed_tac ShaftRPMs_serialize ShaftRPMs_deserialize. Qed.
#[export] Hint Resolve ShaftRPMs_fixed : fx.

Lemma SupplyQuantity_fixed : fixed_rw 12 SupplyQuantity_serialize SupplyQuantity_deserialize.
Proof. fixed_tac SupplyQuantity_serialize SupplyQuantity_deserialize. Qed.
#[export] Hint Resolve SupplyQuantity_fixed : fx.

Lemma SystemId_fixed : fixed_rw 6 SystemId_serialize SystemId_deserialize.
Proof. fixed_tac SystemId_serialize SystemId_deserialize. Qed.
#[export] Hint Resolve SystemId_fixed : fx.

Lemma VariableParameter_fixed : fixed_rw 16 VariableParameter_serialize VariableParameter_deserialize.
Proof. fixed_tac VariableParameter_serialize VariableParameter_deserialize. Qed.
#[export] Hint Resolve VariableParameter_fixed : fx.

Lemma Vector3Double_fixed : fixed_rw 24 Vector3Double_serialize Vector3Double_deserialize.
Proof. fixed_tac Vector3Double_serialize Vector3Double_deserialize. Qed.
#[export] Hint Resolve Vector3Double_fixed : fx.

Lemma VectoringNozzleSystemData_fixed : fixed_rw 8 VectoringNozzleSystemData_serialize VectoringNozzleSystemData_deserialize.
Proof. fixed_tac VectoringNozzleSystemData_serialize VectoringNozzleSystemData_deserialize. Qed.
#[export] Hint Resolve VectoringNozzleSystemData_fixed : fx.

Lemma VelocityVector_fixed : fixed_rw 12 VelocityVector_serialize VelocityVector_deserialize.
Proof. fixed_tac VelocityVector_serialize VelocityVector_deserialize. Qed.
#[export] Hint Resolve VelocityVector_fixed : fx.

